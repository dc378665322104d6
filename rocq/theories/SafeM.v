(** Requests that neither fill nor move an extension stay contained (C89). *)
From Verif Require Import Base State Layout Constr Ext World Proc BaseL Spec SpecF SpecE SpecSafe WorldL LayoutL ConstrL HeadL AcceptL AllocL AuthL UpdateL TopL SafeL.
From Coq Require Import Strings.Byte.

Ltac s1 := match goal with
  | |- contained (bind (acct _ _) _) => apply s_bind; [apply s_acct|]; let k := fresh "k" in let K := fresh "K" in intros k K
  | |- contained (bind (opt_acct _ _ _) _) => apply s_bind; [apply s_opt|]; let k := fresh "k" in let K := fresh "K" in intros k K
  | |- contained (require _ _ _) => apply s_req; let R := fresh "R" in intro R
  | |- contained (guard _ _) => apply s_guard; let R := fresh "R" in intro R
  | |- contained (set_data _ _ _ _ _) => apply s_set
  | |- contained (close_account _ _ _ _ _) => apply s_close
  | |- contained (resize _ _ _ _ _ _ _ _) => apply s_resize
  | |- contained (Ok _) => exact I
  | |- contained (Err _) => exact I
  | |- contained Panic => exact I
  | |- contained (let _ := _ in _) => cbv zeta
  | |- contained (check_authority _ _ _) => unfold check_authority
  | |- contained (bind (manager_delegate _) _) => apply s_bind; [apply s_manager|]; [|intros]
  | |- contained (bind (set_data _ _ _ _ _) _) => apply s_bind; [apply s_set|]; intros
  | |- contained (bind (grouping_from_bytes _ _) _) => apply s_bind; [apply s_grouping|]; intros
  | |- contained (bind (creators_from_bytes _) _) => apply s_bind; [apply s_creators|]; intros
  | |- contained (bind (ok_or _ _) _) => apply s_bind; [apply s_oo|]; intros
  end.
Ltac sf := repeat s1.

Section One.
Variables (e : env) (infos : list ainfo) (w : world).
Hypothesis (HS : all_settled infos w).

Lemma at_acct i k : acct (passed infos) i = Ok k -> settled (data (w k)).
Proof. unfold acct. intro H. destruct (nth_error (passed infos) i) as [a|] eqn:E; [|discriminate H]. inversion H; subst. apply HS. eapply nth_error_In; eauto. Qed.
Lemma at_opt i k : opt_acct e (passed infos) i = Ok (Some k) -> settled (data (w k)).
Proof. unfold opt_acct. intro H. rinv H. destruct (pk_eqb x (e_prog e)); inversion H; subst. eapply at_acct; eauto. Qed.
Lemma at_ahead i k : acct (passed infos) i = Ok k -> ahead (data (w k)) 168.
Proof. intro H. exact (proj1 (at_acct _ _ H)). Qed.

Lemma close_c : contained (process_close e (passed infos) w).
Proof. unfold process_close. sf. Qed.
Lemma burn_c : contained (process_burn e (passed infos) w).
Proof.
  unfold process_burn. sf. apply s_bind.
  { destruct (key_is _ _); [exact I|]. sf. eapply at_ahead; eauto. }
  intros al _. sf. apply s_bind.
  { destruct (nullable (f_group (data (w k)))) as [g|]; [|exact I]. destruct k2 as [ga|]; [|exact I]. cbn [ok_or bind]. sf.
    apply s_bind; [apply s_get; exact (proj1 (at_opt _ _ K2))|]. intros [[off b]|] _; sf. }
  intros w1 _. apply s_bind; [apply s_get; eapply at_ahead; eauto|]. intros own _. apply s_bind; [destruct own as [[off b]|]; sf|]. intros. sf.
Qed.
Lemma approve_c a : contained (process_approve e (passed infos) w a).
Proof. unfold process_approve. sf. Qed.
Lemma revoke_c a : contained (process_revoke e (passed infos) w a).
Proof. unfold process_revoke. sf. Qed.
Lemma state_c st : contained (process_set_state st e (passed infos) w).
Proof.
  unfold process_set_state. sf; [eapply at_ahead; eauto|]. apply s_bind; [|intros; sf].
  destruct (asset_delegate _); [apply s_assert|]. destruct (key_is _ _); [exact I|apply s_assert].
Qed.
Lemma transfer_c : contained (process_transfer e (passed infos) w).
Proof.
  unfold process_transfer. sf. apply s_bind; [apply s_royalties; eapply at_acct; eauto|]. intros chk _. sf. apply s_bind.
  { destruct (key_is _ _); [exact I|]. sf. eapply at_ahead; eauto. }
  intros al _. sf. destruct (key_is _ _); [exact I|]. apply s_bind; [|intros; sf].
  destruct (nullable (f_group (data (w k)))) as [g|]; [|exact I]. destruct chk; [exact I|].
  destruct k2 as [ga|]; [|exact I]. cbn [ok_or bind]. sf. apply s_bind; [apply s_royalties; exact (at_opt _ _ K2)|]. intros. exact I.
Qed.
Lemma verify_c v : contained (process_set_verified v e (passed infos) w).
Proof. unfold process_set_verified. sf. apply s_bind; [apply s_get; eapply at_ahead; eauto|]. intros [[off b]|] _; sf. Qed.
Lemma handover_c : contained (process_handover e (passed infos) w).
Proof. unfold process_handover. sf. Qed.
Lemma do_group_c v a g k : ahead (data (v g)) 168 -> contained (do_group e (passed infos) v a g k).
Proof. intro H. unfold do_group. sf. apply s_bind; [now apply s_sect|]. intros [[off b]|] _; sf. Qed.
Lemma group_c : contained (process_group e (passed infos) w).
Proof. unfold process_group. sf. apply do_group_c. eapply at_ahead; eauto. Qed.
Lemma ungroup_c : contained (process_ungroup e (passed infos) w).
Proof. unfold process_ungroup. sf. apply s_bind; [apply s_sect; eapply at_ahead; eauto|]. intros [[off b]|] _; sf. Qed.
Lemma resize_c s : contained (process_resize e (passed infos) w s).
Proof.
  unfold process_resize. sf. apply s_bind; [|intros; sf]. destruct s; [|exact I]. apply s_bind; [apply s_lastext; eapply at_ahead; eauto|]. intros. exact I.
Qed.
Lemma pad8_up n : n <= pad8 n.
Proof. unfold pad8. lia. Qed.
Lemma do_alloc_c w0 v asset payer sysp x : ahead (data (v asset)) 168 -> 0 <= x_length x -> zlen (given x) < 4294967296 ->
  contained (do_allocate e (passed infos) w0 v asset payer sysp x).
Proof.
  intros HA Hx Hg. unfold do_allocate. sf. apply s_bind.
  { destruct (zlen (data (v asset)) =? 0); [exact I|]. sf. apply s_bind; [now apply s_contains|]. intros c _. sf.
    apply s_bind; [now apply s_lastext|]. intros [[h off]|] _; sf. }
  intros [ex off] ST. cbn [fst snd]. assert (H0 : 0 <= off /\ (ex = true -> zlen (data (v asset)) <> 0)).
  { destruct (zlen (data (v asset)) =? 0) eqn:E0; [inversion ST; subst; split; [unfold ASSET_LEN; lia|discriminate]|]. rinv ST.
    destruct x1 as [[h o]|]; [|inversion ST; subst; split; [unfold ASSET_LEN; lia|lia]]. rinv ST. split; [|lia].
    apply last_ext_range in Hx1. lia. }
  apply s_bind. { destruct (x_data x); [|exact I]. sf. }
  intros bs BS. assert (EB : bs = given x) by (unfold given; destruct (x_data x); rinv BS; reflexivity). subst bs.
  unfold save_extension_data. cbv zeta. pose proof (zlen_nonneg (given x)) as Hn.
  set (bnd := pad8 (off + EXT_LEN + x_length x)). set (par := negb (x_length x =? zlen (given x) mod two32)).
  pose proof (pad8_up (off + EXT_LEN + x_length x)) as PU. fold bnd in PU.
  set (ext := if par then off + EXT_LEN + zlen (given x) else bnd).
  assert (HX : off + EXT_LEN + zlen (given x) <= ext).
  { unfold ext. destruct par eqn:P; [lia|]. unfold par in P. rewrite Z.mod_small in P by (unfold two32; lia). lia. }
  assert (HE : 0 <= ext) by (unfold EXT_LEN in *; lia).
  apply s_bind. { destruct (negb ex); [apply s_newacc|]. destruct (_ || _); [apply s_resize|exact I]. }
  intros w1 W1. assert (HZ : ext <= zlen (data (w1 asset))).
  { destruct (negb ex) eqn:X.
    - unfold alloc_create_account in W1. rinv W1. apply sys_create_world in W1. destruct W1 as (A & _). rewrite A. rewrite zlen_zeros; lia.
    - destruct ((zlen (data (v asset)) <? ext) || (par && (ext <? zlen (data (v asset))))) eqn:Q.
      + apply resize_data in W1 as (D & _). rewrite D, zlen_realloc by lia. lia.
      + inversion W1; subst. lia. }
  apply s_bind; [apply s_sethdr|]. intros d1 D1. apply s_bind.
  { destruct (given x) as [|b0 r0] eqn:G; [exact I|]. rewrite <- G in *. unfold memcpy_at. sf.
    unfold set_hdr in D1. rinv D1.
    replace (off + EXT_LEN + zlen (given x) <=? zlen _) with true; [exact I|]. symmetry.
    pose proof (zlen_put_ge (data (w1 asset)) off (enc_hdr (ext_code (x_type x)) (x_length x) bnd)). unfold EXT_LEN in *. lia. }
  intros. sf.
Qed.
Lemma allocate_c x : 0 <= x_length x -> zlen (given x) < 4294967296 -> contained (process_allocate e (passed infos) w x).
Proof. intros. unfold process_allocate. sf. apply do_alloc_c; auto. eapply at_ahead; eauto. Qed.

Theorem steady_contained i : steady i -> contained (process e infos w i).
Proof.
  intro H. apply s_process. destruct i; cbn [dispatch steady] in *; try contradiction.
  - apply close_c. - apply burn_c. - apply approve_c. - apply allocate_c; tauto. - apply state_c. - apply revoke_c. - apply transfer_c. - apply state_c.
  - apply verify_c. - apply verify_c. - apply group_c. - apply ungroup_c. - apply handover_c. - apply resize_c.
Qed.
End One.

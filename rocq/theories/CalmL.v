(** Proofs about requests that get an answer (C90). *)
From Verif Require Import Base State Layout Constr Ext World Proc BaseL Spec SpecF SpecE SpecJ SpecCalm WorldL LayoutL ConstrL HeadL AcceptL AllocL AuthL UpdateL TopL.
From Coq Require Import Strings.Byte.

Lemma p_bind {A B} (m : res A) (k : A -> res B) : answered m -> (forall a, m = Ok a -> answered (k a)) -> answered (bind m k).
Proof. destruct m; cbn; auto. Qed.
Lemma p_req {B} c er (k : res B) : (c = true -> answered k) -> answered (require c er k).
Proof. destruct c; cbn; auto. Qed.
Lemma p_guard {B} c (k : res B) : c = true -> answered k -> answered (guard c k).
Proof. intros ->. auto. Qed.
Lemma p_oo {A} (o : option A) er : answered (ok_or o er).
Proof. destruct o; exact I. Qed.
Lemma p_acct infos i : answered (acct infos i).
Proof. unfold acct. destruct (nth_error infos i); exact I. Qed.
Lemma p_opt e infos i : answered (opt_acct e infos i).
Proof. apply p_bind; [apply p_acct|]. intros. exact I. Qed.
Lemma p_set e infos w k d : answered (set_data e infos w k d).
Proof. unfold set_data. destruct (bytes_eqb d (data (w k))); [exact I|]. apply p_req. intros _. exact I. Qed.
Lemma p_move e infos w a b n : answered (move_lamports e infos w a b n).
Proof. unfold move_lamports. destruct ((n =? 0) || pk_eqb a b); [exact I|]. do 2 (apply p_req; intros _). cbv zeta. apply p_req. intros _. exact I. Qed.
Lemma p_sys infos w a b n : answered (sys_transfer infos w a b n).
Proof. unfold sys_transfer. do 3 (apply p_req; intros _). cbv zeta. apply p_req. intros _. exact I. Qed.
Lemma p_realloc e infos w0 w k n : answered (realloc e infos w0 w k n).
Proof. unfold realloc. destruct (n =? zlen (data (w k))); [exact I|]. apply p_req. intros _. apply p_set. Qed.
Lemma p_resize e infos w0 w n k p s : answered (resize e infos w0 w n k p s).
Proof.
  unfold resize. cbv zeta. apply p_bind; [|intros; apply p_realloc]. destruct (n <? zlen (data (w k))).
  - apply p_bind; [apply p_oo|]. intros. apply p_move.
  - apply p_req. intros _. destruct (0 <? Z.max 0 _); [|exact I]. apply p_bind; [apply p_oo|]. intros. apply p_bind; [apply p_oo|]. intros.
    do 2 (apply p_req; intros _). apply p_sys.
Qed.
Lemma p_close e infos w k r : (k <> r -> lamports (w r) + lamports (w k) < 18446744073709551616) -> answered (close_account e infos w k r).
Proof.
  intro H. unfold close_account. apply p_req. intro N. apply p_guard; [|apply p_bind; [apply p_move|]; intros; apply p_req; intros _; exact I].
  unfold two64. assert (k <> r) by (intros ->; rewrite (proj2 (pk_eqb_eq r r) eq_refl) in N; discriminate N). specialize (H H0). lia.
Qed.

(** ** Readers *)
Lemma p_get d l t : well_formed d l -> readable l -> t <> XNone ->
  asset_get t d = Ok None \/ exists off b, asset_get t d = Ok (Some (off, b)) /\ off mod 8 = 0 /\ parses t b.
Proof.
  intros (hd & tl & HL) R Ht. rewrite (layout_get _ _ _ _ HL t Ht). destruct (loc t 168 l) as [[c b]|] eqn:E; [|now left]. right.
  cbn [option_map fst snd]. eexists _, _. split; [reflexivity|]. apply loc_some in E as (l1 & l2 & -> & -> & Hb & _).
  destruct HL as (_ & _ & HF & _). apply Forall_app in HF as [HF _]. pose proof (sect_size_mod _ HF). split; [lia|].
  apply Forall_app in R as [_ R]. inversion R; subst. assumption.
Qed.
Lemma p_sect d l t : well_formed d l -> readable l -> t <> XNone ->
  sect_get t (drop ASSET_LEN d) = Ok None \/ exists off b, sect_get t (drop ASSET_LEN d) = Ok (Some (off, b)) /\ off mod 8 = 0 /\ parses t b.
Proof.
  intros (hd & tl & HL) R Ht. rewrite (layout_sect _ _ _ _ HL t Ht). destruct (loc t 168 l) as [[c b]|] eqn:E; [|now left]. right.
  cbn [option_map fst snd]. eexists _, _. split; [reflexivity|]. apply loc_some in E as (l1 & l2 & -> & -> & Hb & _).
  destruct HL as (_ & _ & HF & _). apply Forall_app in HF as [HF _]. pose proof (sect_size_mod _ HF). split; [lia|].
  apply Forall_app in R as [_ R]. inversion R; subst. assumption.
Qed.
Lemma goes_a {A} (m : res A) : (exists a, m = Ok a) -> answered m.
Proof. intros [a ->]. exact I. Qed.
Lemma p_manager d l : well_formed d l -> readable l -> answered (manager_delegate d).
Proof.
  intros W R. unfold manager_delegate. destruct (p_sect d l XManager W R) as [->|(o & b & -> & _ & P)]; [discriminate|exact I|].
  cbn [bind]. apply p_bind; [|intros; exact I]. apply goes_a. exact (proj2 (manager_goes b) P).
Qed.
Lemma p_eval c ctx : c_recipient ctx <> None -> answered (eval_constr c ctx).
Proof.
  intro N. assert (G : forall a, answered (get_account a ctx)) by (intros []; cbn [get_account]; try exact I; apply p_oo).
  induction c as [s l IH|s l IH|s x IH|s a ks|s a ks|s] using constr_ind2; cbn [eval_constr].
  - induction IH as [|x l Hx _ IH]; [exact I|]. apply p_bind; [exact Hx|]. intros [] _; [exact IH|exact I].
  - induction IH as [|x l Hx _ IH]; [exact I|]. apply p_bind; [exact Hx|]. intros [] _; [exact I|exact IH].
  - apply p_bind; [exact IH|]. intros. exact I.
  - apply p_bind; [apply G|]. intros. exact I.
  - apply p_bind; [apply G|]. intros. exact I.
  - exact I.
Qed.
Lemma p_assert ds t r : answered (assert_delegate ds t r).
Proof.
  unfold assert_delegate. generalize (I : answered (Err EDelegateNotFound : res unit)). generalize (Err EDelegateNotFound : res unit).
  induction ds as [|o ds IH]; intros z Z; [exact Z|]. cbn [fold_left]. apply IH. destruct o as [dl|]; [|exact Z].
  destruct (negb _); [exact I|]. destruct (negb _); exact I.
Qed.
Lemma p_royalties e w a s r d l : well_formed d l -> readable l -> answered (process_royalties e w a s r d).
Proof.
  intros W R. unfold process_royalties. destruct (p_get d l XRoyalties W R) as [->|(o & b & -> & M & P)]; [discriminate|exact I|].
  cbn [bind]. apply p_bind; [apply goes_a; exact (proj2 (royalties_goes o b M) P)|]. intros x _. cbv zeta. destruct (_ && _); [exact I|].
  apply p_bind; [apply p_eval; discriminate|]. intros. apply p_req. intros _. exact I.
Qed.
Lemma p_grouping off b : off mod 8 = 0 -> parses XGrouping b -> answered (grouping_from_bytes off b).
Proof. intros M P. apply goes_a. exact (proj2 (grouping_goes off b M) P). Qed.
Lemma asset_disc d : is_asset d = true -> s_disc d = x01.
Proof. unfold is_asset. intro H. apply andb_prop in H as [_ H]. apply beqb_eq in H. exact H. Qed.

Ltac p1 := match goal with
  | |- answered (bind (acct _ _) _) => apply p_bind; [apply p_acct|]; let k := fresh "k" in let K := fresh "K" in intros k K
  | |- answered (bind (opt_acct _ _ _) _) => apply p_bind; [apply p_opt|]; let k := fresh "k" in let K := fresh "K" in intros k K
  | |- answered (require _ _ _) => apply p_req; let R := fresh "R" in intro R
  | |- answered (set_data _ _ _ _ _) => apply p_set
  | |- answered (resize _ _ _ _ _ _ _ _) => apply p_resize
  | |- answered (Ok _) => exact I
  | |- answered (Err _) => exact I
  | |- answered (let _ := _ in _) => cbv zeta
  | |- answered (check_authority _ _ _) => unfold check_authority
  | |- answered (bind (set_data _ _ _ _ _) _) => apply p_bind; [apply p_set|]; intros
  | |- answered (bind (ok_or _ _) _) => apply p_bind; [apply p_oo|]; let k := fresh "k" in let K := fresh "K" in intros k K
  end.
Ltac pf := repeat p1.

Section One.
Variables (e : env) (infos : list ainfo) (w : world).
Hypothesis (HS : sound_accounts e infos w) (HB : bounded w).

Lemma in_acct i k : acct (passed infos) i = Ok k -> exists a, In a (passed infos) /\ ai_key a = k.
Proof. unfold acct. intro H. destruct (nth_error (passed infos) i) as [a|] eqn:E; [|discriminate H]. inversion H; subst. exists a. split; [eapply nth_error_In; eauto|reflexivity]. Qed.
Lemma in_opt i k : opt_acct e (passed infos) i = Ok (Some k) -> exists a, In a (passed infos) /\ ai_key a = k.
Proof. unfold opt_acct. intro H. rinv H. destruct (pk_eqb x (e_prog e)); inversion H; subst. eapply in_acct; eauto. Qed.
Lemma own k : owned_by_prog e w k = true -> acct_owner (w k) = e_prog e.
Proof. unfold owned_by_prog. apply pk_eqb_eq. Qed.
Lemma at_asset k : (exists a, In a (passed infos) /\ ai_key a = k) -> acct_owner (w k) = e_prog e -> s_disc (data (w k)) = x01 ->
  exists l, well_formed (data (w k)) l /\ readable l.
Proof. intros (a & I1 & <-) O D. exact (proj2 (proj1 HS a I1 O) D). Qed.
Lemma close_p : answered (process_close e (passed infos) w).
Proof. unfold process_close. pf. apply p_close. intros N. rewrite Z.add_comm. apply HB. exact N. Qed.
Lemma approve_p a : answered (process_approve e (passed infos) w a).
Proof. unfold process_approve. pf. Qed.
Lemma revoke_p a : answered (process_revoke e (passed infos) w a).
Proof. unfold process_revoke. pf. Qed.
Lemma handover_p : answered (process_handover e (passed infos) w).
Proof. unfold process_handover. pf. Qed.
Lemma state_p st : answered (process_set_state st e (passed infos) w).
Proof.
  unfold process_set_state. pf. destruct (at_asset k) as (l & W & Rd); [eapply in_acct; eauto|now apply own|now apply asset_disc|].
  apply p_bind; [eapply p_manager; eauto|]. intros m _. apply p_bind; [|intros; pf].
  destruct (asset_delegate _); [apply p_assert|]. destruct (key_is _ _); [exact I|apply p_assert].
Qed.
Lemma verified_p v : answered (process_set_verified v e (passed infos) w).
Proof.
  unfold process_set_verified. pf. destruct (at_asset k) as (l & W & Rd); [eapply in_acct; eauto|now apply own|now apply asset_disc|].
  destruct (p_get _ _ XCreators W Rd) as [->|(o & b & -> & M & P)]; [discriminate|exact I|]. cbn [bind].
  apply p_bind; [apply goes_a; exact (proj2 (creators_goes b) P)|]. intros. pf.
Qed.
Lemma group_p : answered (process_group e (passed infos) w).
Proof.
  unfold process_group, do_group. pf. destruct (at_asset k0) as (l & W & Rd); [eapply in_acct; eauto|now apply own|now apply asset_disc|].
  destruct (p_sect _ _ XGrouping W Rd) as [->|(o & b & -> & M & P)]; [discriminate|exact I|]. cbn [bind].
  apply p_bind; [now apply p_grouping|]. intros. pf.
Qed.
Lemma ungroup_p : answered (process_ungroup e (passed infos) w).
Proof.
  unfold process_ungroup. pf. destruct (at_asset k0) as (l & W & Rd); [eapply in_acct; eauto|now apply own|now apply asset_disc|].
  destruct (p_sect _ _ XGrouping W Rd) as [->|(o & b & -> & M & P)]; [discriminate|exact I|]. cbn [bind].
  apply p_bind; [now apply p_grouping|]. intros. pf.
Qed.
Lemma resize_p s : answered (process_resize e (passed infos) w s).
Proof.
  unfold process_resize. pf. destruct (at_asset k) as (l & (hd & tl & HL) & Rd); [eapply in_acct; eauto|now apply own|now apply asset_disc|].
  apply p_bind; [|intros; pf]. destruct s; [|exact I]. rewrite (layout_last _ _ _ _ HL). exact I.
Qed.
Lemma key_of g k : key_is g k = true -> g = pk_bytes k.
Proof. unfold key_is. apply bytes_eqb_eq. Qed.
Lemma transfer_p : answered (process_transfer e (passed infos) w).
Proof.
  unfold process_transfer. pf. pose proof (own _ R) as O. pose proof (asset_disc _ R1) as D. pose proof (in_acct _ _ K) as IA.
  destruct (at_asset k IA O D) as (l & W & Rd).
  apply p_bind; [eapply p_royalties; eauto|]. intros chk _. pf. apply p_bind.
  { destruct (key_is _ _); [exact I|]. apply p_bind; [eapply p_manager; eauto|]. intros. exact I. }
  intros al _. pf. destruct (key_is _ _); [exact I|]. apply p_bind; [|intros; pf].
  destruct (nullable (f_group (data (w k)))) as [g|] eqn:N; [|exact I]. destruct chk; [exact I|].
  destruct k2 as [ga|]; [|exact I]. cbn [ok_or bind]. pf.
  destruct IA as (a & I1 & <-). destruct (in_opt _ _ K2) as (ag & I2 & <-).
  assert (G : s_group (data (w (ai_key a))) = pk_bytes (ai_key ag)).
  { rewrite <- (key_of _ _ R5). apply nullable_some in N as [N _]. exact N. }
    assert (NZ : ai_key ag <> pk_zero) by (apply nullable_some in N as [N1 N2]; intro Q; apply N2; rewrite N1, (key_of _ _ R5), Q; reflexivity).
  destruct (proj2 HS a ag I1 I2 O D G NZ) as [O2 [L2 D2]].
  apply p_guard; [unfold zlen; lia|]. pf. destruct (at_asset (ai_key ag)) as (l2 & W2 & Rd2); [eauto|assumption|assumption|].
  apply p_bind; [eapply p_royalties; eauto|]. intros. exact I.
Qed.
Lemma burn_p : answered (process_burn e (passed infos) w).
Proof.
  unfold process_burn. pf. pose proof (own _ R) as O. pose proof (asset_disc _ R1) as D. pose proof (in_acct _ _ K) as IA.
  destruct (at_asset k IA O D) as (l & W & Rd). apply p_bind.
  { destruct (key_is _ _); [exact I|]. apply p_bind; [eapply p_manager; eauto|]. intros. exact I. }
  intros al _. pf. apply p_bind.
  { destruct (nullable (f_group (data (w k)))) as [g|] eqn:N; [|exact I]. destruct k2 as [ga|]; [|exact I]. cbn [ok_or bind]. pf.
    destruct IA as (a & I1 & <-). destruct (in_opt _ _ K2) as (ag & I2 & <-).
    assert (G : s_group (data (w (ai_key a))) = pk_bytes (ai_key ag)).
    { rewrite <- (key_of _ _ R3). apply nullable_some in N as [N _]. exact N. }
    assert (NZ : ai_key ag <> pk_zero) by (apply nullable_some in N as [N1 N2]; intro Q; apply N2; rewrite N1, (key_of _ _ R3), Q; reflexivity).
    destruct (proj2 HS a ag I1 I2 O D G NZ) as [O2 [L2 D2]].
    destruct (at_asset (ai_key ag)) as (l2 & W2 & Rd2); [eauto|assumption|assumption|].
    destruct (p_get _ _ XGrouping W2 Rd2) as [->|(o & b & -> & M & P)]; [discriminate|exact I|]. cbn [bind].
    apply p_bind; [now apply p_grouping|]. intros. pf. }
  intros w1 H1.
  assert (LM : forall j, lamports (w1 j) = lamports (w j)).
  { destruct (nullable (f_group (data (w k)))) as [g|]; [|apply Ok_inj in H1; subst; reflexivity]. destruct k2 as [ga|]; [|discriminate H1].
    cbn [ok_or bind] in H1. apply require_ok in H1 as [_ H1]. apply require_ok in H1 as [_ H1]. cbv zeta in H1. destruct (asset_get XGrouping (data (w ga))) as [[[o b]|]| | | |]; try discriminate H1. cbn [bind] in H1.
    destruct (grouping_from_bytes o b); try discriminate H1. cbn [bind] in H1. apply require_ok in H1 as [_ H1].
    intro j. exact (set_data_lam _ _ _ _ _ _ j H1). }
  assert (C : forall r, answered (close_account e (passed infos) w1 k r)) by (intro r; apply p_close; intros NE; rewrite !LM, Z.add_comm; apply HB; exact NE).
  destruct (p_get _ _ XGrouping W Rd) as [->|(o & b & -> & M & P)]; [discriminate| |]; cbn [bind].
  - apply C.
  - apply p_bind; [|intros; apply C]. apply p_bind; [now apply p_grouping|]. intros. pf.
Qed.
Lemma access_p : answered (validate_access e w (passed infos)).
Proof.
  assert (L : forall a, In a (passed infos) -> pk_eqb (acct_owner (w (ai_key a))) (e_prog e) && negb (zlen (data (w (ai_key a))) =? 0) = true -> 168 <= zlen (data (w (ai_key a)))).
  { intros a IA H. apply andb_prop in H as [H1 H2]. apply pk_eqb_eq in H1. destruct (proj1 HS a IA H1) as [S1 _].
    assert (N : data (w (ai_key a)) <> []) by (intro E; rewrite E in H2; discriminate H2). specialize (S1 N). unfold zlen. lia. }
  unfold validate_access. apply p_bind.
  - destruct (passed infos) as [|a r]; [exact I|]. cbv zeta. destruct (_ && _) eqn:E; [|exact I]. specialize (L a (or_introl eq_refl) E).
    apply p_guard; [lia|]. destruct (beqb _ _); [|exact I]. pf.
  - intros _ _. clear HS. induction (passed infos) as [|a r IH]; [exact I|]. cbn [find_locked]. cbv zeta.
    assert (IH' : answered (find_locked e w r)) by (apply IH; intros; apply L; [now right|assumption]).
    destruct (_ && _) eqn:E; [|exact IH']. specialize (L a (or_introl eq_refl) E). destruct (beqb _ _); [|exact IH'].
    apply p_guard; [lia|]. destruct (beqb _ _); [exact I|exact IH'].
Qed.
Theorem bare_answered i : bare i -> answered (process e infos w i).
Proof.
  intro B. unfold process. cbv zeta. apply p_bind; [apply access_p|]. intros lk _.
  assert (D : answered (dispatch e (passed infos) w i)).
  { destruct i; cbn [dispatch bare] in *; try contradiction.
    - apply close_p.
    - apply burn_p.
    - apply approve_p.
    - apply state_p.
    - apply revoke_p.
    - apply transfer_p.
    - apply state_p.
    - apply verified_p.
    - apply verified_p.
    - apply group_p.
    - apply ungroup_p.
    - apply handover_p.
    - apply resize_p. }
  destruct lk as [k|]; [|exact D]. destruct (blocked_when_locked i); [exact I|exact D].
Qed.
End One.

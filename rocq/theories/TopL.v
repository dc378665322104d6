(** Lemmas: whatever is done to an account, the first bytes of its header stay values
    of their types. *)
From Verif Require Import Base State Layout Constr Ext World Proc BaseL Spec SpecH SpecG SpecR WorldL ProcSteps HeadL AuthL UpdateL CreateL CountH Rs RsL.
From Coq Require Import Strings.Byte.

Definition low_ok (d : bytes) : Prop :=
  (s_state d = x00 \/ s_state d = x01) /\
  (s_standard d = x00 \/ s_standard d = x01 \/ s_standard d = x02 \/ s_standard d = x03) /\ (s_mutable d = x00 \/ s_mutable d = x01).
Definition low_same (d d' : bytes) : Prop := s_state d' = s_state d /\ s_standard d' = s_standard d /\ s_mutable d' = s_mutable d.
Lemma low_ok_same d d' : low_same d d' -> low_ok d -> low_ok d'.
Proof. unfold low_ok. intros (-> & -> & ->). auto. Qed.

(** ** Bytes *)
Lemma nth_put_low d o bs i : 4 <= o <= zlen d -> (i < 4)%nat -> nth i (put d o bs) x00 = nth i d x00.
Proof.
  intros Ho Hi. unfold put. unfold zlen in Ho. rewrite app_nth1 by (rewrite firstn_length; lia).
  rewrite <- (firstn_skipn (Z.to_nat o) d) at 2. rewrite app_nth1 by (rewrite firstn_length; lia). reflexivity.
Qed.
Lemma low_put d o bs : 4 <= o <= zlen d -> low_ok d -> low_ok (put d o bs).
Proof. intros Ho. apply low_ok_same. unfold low_same, s_state, s_standard, s_mutable. repeat split; apply nth_put_low; lia. Qed.
Lemma low_zeros n : low_ok (repeat x00 n).
Proof.
  assert (N : forall i, nth i (repeat x00 n) x00 = x00).
  { intro i. destruct (Nat.lt_ge_cases i n); [apply nth_repeat|]. apply nth_overflow. rewrite repeat_length. lia. }
  unfold low_ok, s_state, s_standard, s_mutable. rewrite !N. auto.
Qed.
Lemma low_nil : low_ok []. Proof. exact (low_zeros 0). Qed.
Lemma nth_firstn_any (d : bytes) n i : nth i (firstn n d) x00 = nth i d x00 \/ nth i (firstn n d) x00 = x00.
Proof.
  destruct (Nat.lt_ge_cases i n) as [H|H].
  - left. revert n i H. induction d as [|x d IH]; intros n i H; [now rewrite firstn_nil|]. destruct n; [lia|]. destruct i; [reflexivity|]. cbn [firstn nth]. apply IH. lia.
  - right. apply nth_overflow. rewrite firstn_length. lia.
Qed.
Lemma low_cut d n : low_ok d -> low_ok (firstn n d).
Proof.
  unfold low_ok, s_state, s_standard, s_mutable. intros (A & B & C).
  destruct (nth_firstn_any d n 1) as [->| ->], (nth_firstn_any d n 2) as [->| ->], (nth_firstn_any d n 3) as [->| ->]; auto 10.
Qed.
Lemma low_grow d n : low_ok d -> low_ok (d ++ repeat x00 n).
Proof.
  apply low_ok_same. assert (N : forall i, nth i (d ++ repeat x00 n) x00 = nth i d x00).
  { intro i. destruct (Nat.lt_ge_cases i (length d)) as [H|H]; [now apply app_nth1|]. rewrite app_nth2 by assumption. rewrite (nth_overflow d) by assumption.
    destruct (Nat.lt_ge_cases (i - length d) n); [apply nth_repeat|]. apply nth_overflow. rewrite repeat_length. lia. }
  unfold low_same, s_state, s_standard, s_mutable. now rewrite !N.
Qed.
Lemma low_realloc d n : low_ok d -> low_ok (realloc_bytes d n).
Proof. intro H. unfold realloc_bytes. destruct (n <=? zlen d); [now apply low_cut|now apply low_grow]. Qed.
Lemma low_hdr d cur t n b d' : low_ok d -> set_hdr d cur (ext_code t) n b = Ok d' -> low_ok d'.
Proof.
  intros L H. unfold set_hdr in H. apply guard_ok in H as [G H]. apply Ok_inj in H. subst d'. bnorm.
  destruct (Z.eq_dec cur 0) as [->|N].
  - unfold low_ok, s_state, s_standard, s_mutable, put, enc_hdr. destruct t; cbn; auto.
  - apply low_put; [|assumption]. unfold EXT_LEN in *. split; [|lia]. pose proof (Z.div_mod cur 4). lia.
Qed.
Lemma low_memcpy d o bs d' : 4 <= o -> low_ok d -> memcpy_at d o bs = Ok d' -> low_ok d'.
Proof.
  intros Ho L H. unfold memcpy_at in H. apply guard_ok in H as [G H]. bnorm. destruct (o + zlen bs <=? zlen d); [|discriminate].
  apply Ok_inj in H. subst d'. apply low_put; [lia|assumption].
Qed.
Lemma low_memmove d o s n d' : 4 <= o -> 0 <= n -> low_ok d -> memmove d o s n = Ok d' -> low_ok d'.
Proof.
  intros Ho Hn L H. unfold memmove in H. destruct (Z.eqb_spec n 0) as [E|E]; [now apply Ok_inj in H; subst|].
  match type of H with (if ?c then _ else _) = _ => destruct c eqn:G; [|discriminate] end. apply Ok_inj in H. subst d'. bnorm.
  apply low_put; [lia|assumption].
Qed.
Lemma low_fix delta : forall f d cur d', low_ok d -> fix_boundaries f delta d cur = Ok d' -> low_ok d'.
Proof.
  induction f as [|f IH]; intros d cur d' L H; [discriminate|]. cbn [fix_boundaries] in H. destruct (cur <? zlen d); [|apply Ok_inj in H; now subst].
  apply bind_ok in H as (h & Hh & H). unfold load_hdr in Hh. apply guard_ok in Hh as [G _]. bnorm. unfold EXT_LEN in *.
  eapply IH; [|exact H]. apply low_put; [lia|assumption].
Qed.
Lemma load_range d cur h : load_hdr d cur = Ok h -> 0 <= cur /\ cur + 16 <= zlen d /\ cur mod 4 = 0 /\ 0 <= h_bnd h /\ 0 <= h_len h.
Proof.
  intro H. unfold load_hdr in H. apply guard_ok in H as [G H]. bnorm. apply Ok_inj in H. subst h. unfold EXT_LEN in *. cbn [h_bnd h_len].
  pose proof (le_dec_range (fld d (cur + 8) 4)). pose proof (le_dec_range (fld d (cur + 4) 4)). repeat split; lia.
Qed.
Lemma find_range t d : forall f cur c h, find_loop f t d cur = Ok (Some (c, h)) -> 0 <= c /\ c + 16 <= zlen d.
Proof.
  induction f as [|f IH]; intros cur c h H; [discriminate|]. cbn [find_loop] in H. destruct (cur + EXT_LEN <=? zlen d); [|discriminate].
  apply bind_ok in H as (x & Hx & H). apply load_range in Hx. destruct (h_type x =? ext_code t); [injection H as <- _; lia|].
  destruct (h_type x =? 0); [discriminate|]. eapply IH; eauto.
Qed.
Lemma get_range t d o b : asset_get t d = Ok (Some (o, b)) -> 16 <= o <= zlen d.
Proof.
  intro H. unfold asset_get, find_ext in H. apply bind_ok in H as (r & Hr & H). destruct r as [[c h]|]; [|discriminate]. apply find_range in Hr.
  apply bind_ok in H as (x & Hx & H). injection H as <- _. unfold EXT_LEN. lia.
Qed.
Lemma sect_range t x : forall f cur o b, 0 <= cur -> sect_loop f t x cur = Ok (Some (o, b)) -> 16 <= o <= zlen x.
Proof.
  induction f as [|f IH]; intros cur o b Hc H; [discriminate|]. cbn [sect_loop] in H. destruct (_ <=? zlen x); [|discriminate].
  apply bind_ok in H as (h & Hh & H). apply load_range in Hh. destruct (h_type h =? ext_code t).
  - apply bind_ok in H as (y & Hy & H). injection H as <- _. unfold EXT_LEN. lia.
  - destruct (h_type h =? 0); [discriminate|]. eapply IH; [|exact H]. apply Z.mod_pos_bound. reflexivity.
Qed.
Lemma last_range d : forall f cur last h o, (forall h o, last = Some (h, o) -> 16 <= o <= zlen d /\ 0 <= h_bnd h) -> last_loop f d cur last = Ok (Some (h, o)) -> 16 <= o <= zlen d /\ 0 <= h_bnd h.
Proof.
  induction f as [|f IH]; intros cur last h o HL H; [discriminate|]. cbn [last_loop] in H.
  destruct (cur + EXT_LEN <=? zlen d); [|apply Ok_inj in H; eauto].
  apply bind_ok in H as (x & Hx & H). apply load_range in Hx.
  destruct (ext_of_code (h_type x)) as [t|]; [|apply Ok_inj in H; eauto].
  assert (D : last_loop f d (h_bnd x) (Some (x, cur + EXT_LEN)) = Ok (Some (h, o)) -> 16 <= o <= zlen d /\ 0 <= h_bnd h).
  { apply IH. intros h0 o0 E. injection E as <- <-. unfold EXT_LEN. lia. }
  destruct t; try (exact (D H)). apply Ok_inj in H. eauto.
Qed.
Lemma last_ext_range d h o : last_extension d = Ok (Some (h, o)) -> 16 <= o <= zlen d /\ 0 <= h_bnd h.
Proof. apply last_range. discriminate. Qed.
Lemma update_find_range t d : forall f cur o r, 0 <= cur -> update_find f t d cur = Ok (o, r) -> 0 <= o /\ forall h, r = Some h -> 0 <= h_bnd h.
Proof.
  induction f as [|f IH]; intros cur o r Hc H; [discriminate|]. cbn [update_find] in H. destruct (cur <? zlen d).
  - apply bind_ok in H as (x & Hx & H). apply load_range in Hx. destruct (h_type x =? ext_code t); [injection H as <- <-; split; [lia|]; intros h E; injection E as <-; lia|].
    destruct (h_type x =? 0); [injection H as <- <-; split; [lia|discriminate]|]. eapply IH; [|exact H]. lia.
  - injection H as <- <-. split; [lia|discriminate].
Qed.
Lemma remove_find_range t d : mutable d -> forall f cur o b, remove_find f t d cur = Ok (Some (o, b)) -> 4 <= o <= zlen d /\ 0 <= b.
Proof.
  intro M. induction f as [|f IH]; intros cur o b H; [discriminate|]. cbn [remove_find] in H. destruct (cur + EXT_LEN <? zlen d); [|discriminate].
  apply bind_ok in H as (x & Hx & H). pose proof (load_range _ _ _ Hx) as R.
  destruct (Z.eqb_spec (h_type x) (ext_code t)) as [E|E].
  - injection H as <- <-. split; [|lia]. destruct (Z.eq_dec cur 0) as [->|N]; [|pose proof (Z.div_mod cur 4); lia].
    exfalso. unfold load_hdr in Hx. apply guard_ok in Hx as [_ Hx]. apply Ok_inj in Hx. subst x. cbn [h_type] in E.
    do 4 (destruct d as [|? d]; [change (zlen []) with 0 in R; rewrite ?zlen_cons in R; unfold zlen in R; cbn [length] in R; lia|]).
    unfold mutable, s_mutable in M. cbn [nth] in M. unfold fld in E. change (Z.to_nat 0) with 0%nat in E. change (Z.to_nat 4) with 4%nat in E. cbn [skipn firstn le_dec] in E.
    assert (Q : 0 < b2z b2). { destruct b2; [contradiction|..]; reflexivity. }
    pose proof (b2z_range b). pose proof (b2z_range b0). pose proof (b2z_range b1). destruct t; cbn [ext_code] in E; lia.
  - destruct (h_type x =? 0); [discriminate|]. eapply IH; eauto.
Qed.

(** ** Worlds *)
Section Steps.
Variable e : env.
Hypothesis Hprog : e_prog e <> pk_zero.
Definition top (w : world) : Prop := forall k, acct_owner (w k) = e_prog e -> low_ok (data (w k)).

Lemma top_upd w k a : top w -> (acct_owner a = e_prog e -> low_ok (data a)) -> top (upd w k a).
Proof. intros T H x. destruct (pk_dec x k) as [->|N]; [now rewrite upd_same|]. rewrite upd_other by assumption. apply T. Qed.
Lemma top_set infos w k d w' : top w -> low_ok d -> set_data e infos w k d = Ok w' -> top w'.
Proof.
  intros T L H. unfold set_data in H. destruct (bytes_eqb d (data (w k))); [now apply Ok_inj in H; subst|].
  apply require_ok in H as [_ H]. apply Ok_inj in H. subst w'. apply top_upd; [assumption|]. intros _. exact L.
Qed.
Lemma top_move infos w s t n w' : top w -> move_lamports e infos w s t n = Ok w' -> top w'.
Proof.
  intros T H. unfold move_lamports in H. destruct (_ || _); [now apply Ok_inj in H; subst|].
  apply require_ok in H as [_ H]. apply require_ok in H as [_ H]. cbv zeta in H. apply require_ok in H as [_ H]. apply Ok_inj in H. subst w'.
  assert (T1 : top (upd w s (mkAcct (lamports (w s) - n) (acct_owner (w s)) (data (w s))))) by (apply top_upd; [assumption|apply T]).
  apply top_upd; [exact T1|]. apply T1.
Qed.
Lemma top_sys infos w s t n w' : top w -> sys_transfer infos w s t n = Ok w' -> top w'.
Proof.
  intros T H. unfold sys_transfer in H.
  apply require_ok in H as [_ H]. apply require_ok in H as [_ H]. apply require_ok in H as [_ H]. cbv zeta in H. apply require_ok in H as [_ H]. apply Ok_inj in H. subst w'.
  assert (T1 : top (upd w s (mkAcct (lamports (w s) - n) (acct_owner (w s)) (data (w s))))) by (apply top_upd; [assumption|apply T]).
  apply top_upd; [exact T1|]. apply T1.
Qed.
Lemma top_create infos w p k l n w' : top w -> sys_create e infos w p k l n = Ok w' -> top w'.
Proof.
  intros T H. unfold sys_create in H. apply require_ok in H as [_ H]. apply require_ok in H as [_ H]. apply require_ok in H as [_ H]. cbv zeta in H.
  eapply top_sys; [|exact H]. apply top_upd; [assumption|]. intros _. apply low_zeros.
Qed.
Lemma top_resize infos w0 w n k p s w' : top w -> low_ok (data (w k)) -> resize e infos w0 w n k p s = Ok w' -> top w' /\ low_ok (data (w' k)).
Proof.
  intros T L H. destruct (resize_data _ _ _ _ _ _ _ _ _ H) as (D & Do & O).
  assert (Lk : low_ok (data (w' k))) by (rewrite D; now apply low_realloc). split; [|assumption].
  intros x Hx. destruct (pk_dec x k) as [->|N]; [assumption|]. rewrite Do by assumption. apply T. now rewrite <- O.
Qed.
Lemma top_close infos w k r w' : top w -> close_account e infos w k r = Ok w' -> top w'.
Proof.
  intros T H. unfold close_account in H. apply require_ok in H as [_ H]. apply guard_ok in H as [_ H]. apply bind_ok in H as (w1 & H1 & H).
  apply require_ok in H as [_ H]. apply Ok_inj in H. subst w'. apply top_upd; [eapply top_move; eauto|]. intros _. apply low_nil.
Qed.
Lemma asset_low d o bs : is_asset d = true -> low_ok d -> 4 <= o <= 168 -> low_ok (put d o bs).
Proof. intros A L Ho. apply is_asset_spec, initialized_len in A. apply low_put; [lia|assumption]. Qed.

Ltac lowcase := repeat match goal with |- low_ok (if ?c then _ else _) => destruct c | |- low_ok (match ?c with _ => _ end) => destruct c | |- low_ok (let _ := _ in _) => cbv zeta end.
Ltac own := unfold owned_by_prog in *; bnorm.

Lemma close_top infos w w' : top w -> process_close e infos w = Ok w' -> top w'.
Proof. intros T H. unfold process_close in H. rinv H. eapply top_close; eauto. Qed.
Lemma burn_top infos w w' : top w -> process_burn e infos w = Ok w' -> top w'.
Proof.
  intros T H. unfold process_burn in H. rinv H. eapply top_close; [|exact H]. clear H.
  destruct (nullable _); [|apply Ok_inj in Hx4; now subst].
  apply bind_ok in Hx4 as (ga & _ & G). apply require_ok in G as [_ G]. apply require_ok in G as [_ G]. cbv zeta in G. apply bind_ok in G as (r & G1 & G).
  destruct r as [[off b0]|]; [|discriminate]. apply bind_ok in G as (gr & _ & G). apply require_ok in G as [_ G].
  pose proof G as G0. unfold set_data in G0. destruct (bytes_eqb _ _); [apply Ok_inj in G0; now subst|]. apply require_ok in G0 as [G0 _]. bnorm.
  apply get_range in G1. eapply top_set; [exact T| |exact G]. apply low_put; [lia|]. now apply T.
Qed.
Lemma approve_top infos w a w' : top w -> process_approve e infos w a = Ok w' -> top w'.
Proof.
  intros T H. unfold process_approve in H. rinv H. own. eapply top_set; [exact T| |exact H].
  assert (L : low_ok (data (w x))) by now apply T.
  lowcase; apply asset_low; auto; lia.
Qed.
Lemma revoke_top infos w a w' : top w -> process_revoke e infos w a = Ok w' -> top w'.
Proof.
  intros T H. unfold process_revoke in H. rinv H. own. eapply top_set; [exact T| |exact H].
  assert (L : low_ok (data (w x))) by now apply T. unfold clear_delegate.
  lowcase; try assumption; apply asset_low; auto; lia.
Qed.
Lemma set_state_top st infos w w' : (st = x00 \/ st = x01) -> top w -> process_set_state st e infos w = Ok w' -> top w'.
Proof.
  intros Hst T H. unfold process_set_state in H. rinv H. own. eapply top_set; [exact T| |exact H].
  assert (L : low_ok (data (w x))) by now apply T.
  match goal with A : is_asset _ = true |- _ => apply is_asset_spec, initialized_len in A end.
  destruct L as (A & B & C). unfold low_ok, s_state, s_standard, s_mutable. change (zlen [st]) with 1 in *.
  rewrite !nth_put by (change (zlen [st]) with 1; lia). cbn [Nat.leb Nat.ltb andb Z.to_nat Pos.to_nat Pos.iter_op Init.Nat.add Nat.sub nth length].
  split; [exact Hst|]. split; [exact B|exact C].
Qed.
Lemma transfer_top infos w w' : top w -> process_transfer e infos w = Ok w' -> top w'.
Proof.
  intros T H. unfold process_transfer in H. rinv H. own.
  match type of H with (if ?c then _ else _) = _ => destruct c end; [apply Ok_inj in H; now subst|]. rinv H.
  eapply top_set; [exact T| |exact H]. assert (L : low_ok (data (w x))) by now apply T.
  match goal with A : is_asset _ = true |- _ => pose proof (initialized_len _ (proj1 (is_asset_spec _) A)) end.
  unfold clear_delegate. apply low_put; [|now apply asset_low; auto; lia]. rewrite zlen_put; rewrite ?pk_zlen; lia.
Qed.
Lemma set_verified_top v infos w w' : top w -> process_set_verified v e infos w = Ok w' -> top w'.
Proof.
  intros T H. unfold process_set_verified in H. rinv H. destruct x1 as [[off b]|]; rinv H. own.
  eapply top_set; [exact T| |exact H]. apply get_range in Hx1. apply low_put; [lia|]. now apply T.
Qed.
Lemma handover_top infos w w' : top w -> process_handover e infos w = Ok w' -> top w'.
Proof. intros T H. unfold process_handover, check_authority in H. rinv H. own. eapply top_set; [exact T| |exact H]. apply asset_low; auto; lia. Qed.
Lemma do_group_top infos w a g k w' : top w -> do_group e infos w a g k = Ok w' -> top w'.
Proof.
  intros T H. unfold do_group in H. rinv H. destruct x as [[off b]|]; rinv H. own.
  assert (T1 : top x0) by (eapply top_set; [exact T| |eassumption]; apply asset_low; auto; lia).
  eapply top_set; [exact T1| |exact H]. unfold sect_get in Hx. apply sect_range in Hx; [|lia]. unfold ASSET_LEN, drop in *.
  match goal with A : is_asset (data (w g)) = true |- _ => pose proof (initialized_len _ (proj1 (is_asset_spec _) A)) end.
  apply low_put; [|now apply T]. unfold zlen in *. rewrite skipn_length in Hx. lia.
Qed.
Lemma group_top infos w w' : top w -> process_group e infos w = Ok w' -> top w'.
Proof. intros T H. unfold process_group in H. rinv H. eapply do_group_top; eauto. Qed.
Lemma ungroup_top infos w w' : top w -> process_ungroup e infos w = Ok w' -> top w'.
Proof.
  intros T H. unfold process_ungroup in H. rinv H. destruct x2 as [[off b]|]; rinv H. own.
  assert (T1 : top x3) by (eapply top_set; [exact T| |eassumption]; apply asset_low; auto; lia).
  eapply top_set; [exact T1| |exact H]. unfold sect_get in Hx2. apply sect_range in Hx2; [|lia]. unfold ASSET_LEN, drop in *.
  match goal with A : is_asset (data (w x0)) = true |- _ => pose proof (initialized_len _ (proj1 (is_asset_spec _) A)) end.
  apply low_put; [|now apply T]. unfold zlen in *. rewrite skipn_length in Hx2. lia.
Qed.

Lemma alloc_create_top infos w k p s n w' : top w -> alloc_create_account e infos w k p s n = Ok w' -> top w'.
Proof. intros T H. unfold alloc_create_account in H. rinv H. eapply top_create; eauto. Qed.
Lemma save_top infos w0 w k p s x ex off bs w' : 0 <= off -> top w -> (ex = true -> acct_owner (w k) = e_prog e) ->
  save_extension_data e infos w0 w k p s x ex off bs = Ok w' -> top w'.
Proof.
  intros Hoff T Ho H. unfold save_extension_data in H. cbv zeta in H. rinv H.
  assert (Hs : top x0 /\ low_ok (data (x0 k))).
  { destruct ex; cbn [negb] in Hx.
    - specialize (Ho eq_refl). match type of Hx with (if ?c then _ else _) = _ => destruct c end; rinv Hx.
      + eapply top_resize; [exact T|now apply T|exact Hx].
      + split; [assumption|now apply T].
    - pose proof (alloc_create_top _ _ _ _ _ _ _ T Hx) as T1. split; [assumption|]. apply T1. unfold alloc_create_account in Hx. rinv Hx. eapply sys_create_data; eauto. }
  destruct Hs as [Hs1 Hs2]. apply (low_hdr _ _ _ _ _ _ Hs2) in Hx0.
  eapply top_set; [exact Hs1| |exact H]. destruct bs; [apply Ok_inj in Hx1; now subst|]. eapply low_memcpy; [|exact Hx0|exact Hx1]. unfold EXT_LEN. lia.
Qed.
Lemma do_allocate_top infos w0 w k p s x w' : top w -> do_allocate e infos w0 w k p s x = Ok w' -> top w'.
Proof.
  intros T H. unfold do_allocate in H. rinv H. assert (Q : 0 <= snd x0 /\ (fst x0 = true -> acct_owner (w k) = e_prog e)).
  { destruct (zlen (data (w k)) =? 0); [apply Ok_inj in Hx; subst; cbn; split; [unfold ASSET_LEN; lia|discriminate]|]. rinv Hx. own.
    destruct x3 as [[h off]|]; rinv Hx; (split; [|intros _; assumption]); cbn; [|unfold ASSET_LEN; lia]. apply last_ext_range in Hx2. lia. }
  eapply save_top; [apply Q|exact T|apply Q|exact H].
Qed.
Lemma allocate_top infos w x w' : top w -> process_allocate e infos w x = Ok w' -> top w'.
Proof. intros T H. unfold process_allocate in H. rinv H. eapply do_allocate_top; eauto. Qed.
Lemma allocate_all_top infos w0 k p s l : forall w w', top w -> allocate_all e infos w0 w k p s l = Ok w' -> top w'.
Proof.
  induction l as [|x l IH]; intros w w' T H; cbn [allocate_all] in H; [apply Ok_inj in H; now subst|].
  apply bind_ok in H as (w1 & H1 & H). eapply IH; [|exact H]. eapply do_allocate_top; eauto.
Qed.
Lemma write_top infos w a w' : top w -> process_write e infos w a = Ok w' -> top w'.
Proof.
  intros T H. unfold process_write in H. rinv H. destruct x2 as [[h off]|]; rinv H. own. apply last_ext_range in Hx2.
  assert (L : low_ok (data (w x))) by now apply T.
  destruct (top_resize _ _ _ _ _ _ _ _ T L Hx3) as [T1 L1].
  assert (L2 : low_ok x3).
  { eapply low_memcpy; [|exact L1|eassumption]. unfold ASSET_LEN in *. destruct (w_overwrite a); lia. }
  assert (T2 : top x4) by (eapply top_set; [exact T1|exact L2|eassumption]).
  match type of H with (if ?c then _ else _) = _ => destruct c end; [apply Ok_inj in H; now subst|]. rinv H.
  destruct x5 as [[h2 off2]|]; rinv H.
  eapply top_set; [exact T2| |exact H]. apply low_put; [|exact L2].
  match goal with Q : last_extension x3 = _ |- _ => apply last_ext_range in Q; lia end.
Qed.
Lemma zlen_put_ge d o bs : 0 <= o <= zlen d -> zlen d <= zlen (put d o bs).
Proof. unfold put, zlen. intro H. rewrite !app_length, firstn_length, skipn_length. lia. Qed.
Lemma create_loop_low auth : forall f d off seen r, 0 <= off -> low_ok d -> 168 <= zlen d -> create_loop f auth d off seen = Ok r -> low_ok (fst r) /\ 168 <= zlen (fst r).
Proof.
  induction f as [|f IH]; intros d off seen r Ho L Z' H; [discriminate|]. cbn [create_loop] in H. destruct (_ <=? _); [|apply Ok_inj in H; subst; auto].
  apply bind_ok in H as (h & Hh & H). apply load_range in Hh.
  destruct (ext_of_code (h_type h)) as [t|]; [|discriminate].
  destruct t; try (apply Ok_inj in H; subst; now auto).
  all: cbv zeta in H; apply require_ok in H as [_ H]; apply guard_ok in H as [_ H]; apply bind_ok in H as (b' & _ & H);
    (eapply IH; [| | |exact H]; [lia| |]); [apply low_put; auto; unfold EXT_LEN; lia|].
  all: pose proof (zlen_put_ge d (off + EXT_LEN) b'); unfold EXT_LEN in *; lia.
Qed.
Lemma header_low d m ow au : 168 <= zlen d -> low_ok d -> low_ok (init_header d m ow au).
Proof.
  intros Z' L. assert (P : forall o bs, 0 <= o -> o + zlen bs <= 168 -> forall d, 168 <= zlen d -> 168 <= zlen (put d o bs)) by (intros o bs H1 H2 d0 H3; rewrite zlen_put; lia).
  assert (P0 : forall d o b, 168 <= zlen d -> (0 <= o < 4) -> (o = 0 \/ (o = 2 /\ (b = x00 \/ b = x01 \/ b = x02 \/ b = x03)) \/ (o = 3 /\ (b = x00 \/ b = x01))) -> low_ok d -> low_ok (put d o [b])).
  { intros d0 o b Z0 Ho Hb (A & B & C). unfold low_ok, s_state, s_standard, s_mutable. rewrite !nth_put by (change (zlen [b]) with 1; lia).
    destruct Hb as [->|[[-> Hb]|[-> Hb]]]; cbn [Nat.leb Nat.ltb andb Z.to_nat Pos.to_nat Pos.iter_op Init.Nat.add Nat.sub nth length]; auto. }
  unfold init_header. cbv zeta.
  assert (N : zlen (pod_str35 (m_name m)) = 35) by apply zlen_pod.
  pose proof (pk_zlen ow). pose proof (pk_zlen au).
  apply low_put; [split; [lia|]|apply low_put; [split; [lia|]|apply low_put; [split; [lia|]|]]].
  4: { apply P0; [| | |apply P0; [| | |apply P0; [| | |assumption]]]; try lia; auto.
       - repeat apply P; try lia; try (match goal with |- context [zlen [?b]] => change (zlen [b]) with 1 end; lia).
       - right. right. split; [reflexivity|]. destruct (m_mutable m); auto.
       - apply P; try lia. match goal with |- context [zlen [?b]] => change (zlen [b]) with 1 end. lia.
       - right. left. split; [reflexivity|]. destruct (m_standard m); auto. }
  all: match goal with |- _ <= zlen ?y => enough (168 <= zlen y) by lia end; repeat apply P; try lia; match goal with |- context [zlen [?b]] => change (zlen [b]) with 1 end; lia.
Qed.
Lemma create_top infos w m w' : env_ok e -> top w -> process_create e infos w m = Ok w' -> top w'.
Proof.
  intros He T H. unfold process_create in H. rinv H.
  assert (T1 : top x6 /\ acct_owner (x6 x) = e_prog e).
  { destruct (zlen (data (w x)) =? 0).
    - split; [eapply alloc_create_top; eauto|]. unfold alloc_create_account in Hx6. rinv Hx6. eapply sys_create_data; eauto.
    - rinv Hx6. own. split; assumption. }
  destruct T1 as [T1 O1].
  assert (T2 : top x7) by (destruct (m_exts m); [eapply allocate_all_top; eauto|apply Ok_inj in Hx7; now subst]).
  assert (T3 : top x12).
  { assert (O2 : acct_owner (x7 x) = e_prog e) by (destruct (m_exts m); [exact (proj2 (allocate_all_psteps e He Hprog _ _ _ _ _ _ _ _ O1 Hx7))|apply Ok_inj in Hx7; now subst]).
    apply guard_ok in Hx8 as [G Hx8]. unfold ASSET_LEN in G. eapply top_set; [exact T2| |eassumption].
    assert (N168 : 0 <= ASSET_LEN) by (unfold ASSET_LEN; lia). assert (G' : 168 <= zlen (data (x7 x))) by lia.
    destruct (create_loop_low _ _ _ _ _ _ N168 (T2 x O2) G' Hx8) as [L3 Z3]. now apply header_low. }
  destruct x2; [eapply do_group_top; eauto|]. apply Ok_inj in H. now subst.
Qed.
Lemma top_put infos w k o bs w' : top w -> 4 <= o <= zlen (data (w k)) -> set_data e infos w k (put (data (w k)) o bs) = Ok w' -> top w'.
Proof.
  intros T Ho H. pose proof H as H0. unfold set_data in H0. destruct (bytes_eqb _ _); [apply Ok_inj in H0; now subst|]. apply require_ok in H0 as [H0 _]. bnorm.
  eapply top_set; [exact T| |exact H]. apply low_put; [assumption|]. now apply T.
Qed.
Lemma update_source_top infos w k a b x t off f n src w' : top w -> update_source e infos w k a b x t off f = Ok (n, src, w') -> top w' /\ 0 <= n.
Proof.
  intros T H. unfold update_source in H. destruct b as [bk|].
  - cbv zeta in H. apply bind_ok in H as (fe & Hf & H). destruct fe as [[h o]|]; [|discriminate]. rinv H.
    unfold first_extension in Hf. destruct (_ <=? _) eqn:E; [|discriminate]. apply bind_ok in Hf as (h' & Hh & Hf). apply load_range in Hh.
    assert (h' = h) as -> by (destruct (ext_of_code (h_type h')) as [[]|]; try discriminate; injection Hf; auto).
    split; [|lia]. eapply top_put; [exact T| |eassumption]. unfold ASSET_LEN in *. lia.
  - destruct x as [x|]; [|discriminate]. apply bind_ok in H as (r & Hr & H). destruct r as [n0 o].
    assert (0 <= n0). { destruct (x_data x); rinv Hr; [apply zlen_nonneg|lia]. }
    do 2 (match type of H with (if ?c then _ else _) = _ => destruct c end; [discriminate|]). injection H as <- _ <-. auto.
Qed.
Lemma update_room_top infos w0 w k p s off f n w' : 0 <= off -> 0 <= n -> top w -> acct_owner (w k) = e_prog e -> update_room e infos w0 w k p s off f n = Ok w' -> top w'.
Proof.
  intros Ho Hn T Ow H. pose proof (update_room_psteps e) as _. unfold update_room in H.
  assert (Q : 16 <= pad8 (off + EXT_LEN + n)) by (unfold EXT_LEN; pose proof (pad8_ge (off + 16 + n)); lia).
  destruct f as [c|]; cbv zeta in H; [|exact (proj1 (top_resize _ _ _ _ _ _ _ _ T (T k Ow) H))].
  destruct (h_len c =? n); [apply Ok_inj in H; now subst|]. rinv H. destruct x as [[lh lo]|]; rinv H.
  assert (T1 : top x /\ low_ok (data (x k))).
  { destruct (0 <? _); rinv Hx0; [exact (top_resize _ _ _ _ _ _ _ _ T (T k Ow) Hx0)|]. split; [assumption|exact (T k Ow)]. }
  assert (L1 : low_ok x0) by (eapply low_memmove; [| |apply T1|eassumption]; lia).
  assert (T2 : top x1) by (eapply top_set; [apply T1|exact L1|eassumption]).
  assert (L2 : low_ok (data (x1 k))) by (rewrite (set_data_data _ _ _ _ _ _ Hx2); exact L1).
  destruct (_ <? 0); rinv H; [|assumption]. eapply top_resize; [exact T2|exact L2|exact H].
Qed.
Lemma update_finish_top infos w k b t off f n src w' : 0 <= off -> top w -> acct_owner (w k) = e_prog e -> update_finish e infos w k b t off f n src = Ok w' -> top w'.
Proof.
  intros Ho T Ow H. unfold update_finish in H. cbv zeta in H. rinv H.
  eapply top_set; [exact T| |exact H]. apply (low_hdr _ _ _ _ _ _ (T k Ow)) in Hx. apply (low_fix _ _ _ _ _ Hx) in Hx0.
  destruct (0 <? n); [|apply Ok_inj in Hx1; now subst].
  assert (M : forall bs d', memcpy_at x0 (off + EXT_LEN) bs = Ok d' -> low_ok d') by (intros bs d'; apply low_memcpy; [unfold EXT_LEN; lia|assumption]).
  destruct b; [rinv Hx1; eapply M; eauto|]. destruct src; [eapply M; eauto|]. apply Ok_inj in Hx1. now subst.
Qed.
Lemma update_top infos w a w' : env_ok e -> top w -> process_update e infos w a = Ok w' -> top w'.
Proof.
  intros He T H. unfold process_update, check_authority in H. rinv H. own.
  match goal with A : is_asset _ = true |- _ => pose proof (initialized_len _ (proj1 (is_asset_spec _) A)) as Z0 end.
  assert (L : low_ok (data (w x))) by now apply T.
  assert (T1 : top x5).
  { eapply top_set; [exact T| |eassumption].
    assert (L1 : forall d, d = match u_name a with Some n => put (data (w x)) 133 (pod_str35 n) | None => data (w x) end -> low_ok d /\ 168 <= zlen d).
    { intros d ->. destruct (u_name a) as [nm|]; [|auto]. split; [apply low_put; [lia|assumption]|]. rewrite zlen_put; rewrite ?zlen_pod; lia. }
    destruct (L1 _ eq_refl) as [L2 Z2]. destruct (u_mutable a) as [mu|]; [|assumption].
    destruct L2 as (A1 & A2 & A3). unfold low_ok, s_state, s_standard, s_mutable.
    rewrite !nth_put by (change (zlen [bool_byte mu]) with 1; lia). cbn [Nat.leb Nat.ltb andb Z.to_nat Pos.to_nat Pos.iter_op Init.Nat.add Nat.sub nth length].
    split; [exact A1|]. split; [exact A2|]. destruct mu; auto. }
  assert (O1 : acct_owner (x5 x) = e_prog e) by (rewrite (set_data_owner _ _ _ _ _ _ x Hx5); assumption).
  assert (U : forall xx, update_ext e infos w x5 x x0 x1 x3 x4 xx = Ok w' -> top w').
  { intros xx U. unfold update_ext in U. rinv U. destruct x7 as [off found]. rinv U. destruct x7 as [[n src] w2]. rinv U.
    match goal with Q : update_find _ _ _ _ = _ |- _ => apply update_find_range in Q; [|unfold ASSET_LEN; lia]; destruct Q as [Q1 _] end.
    match goal with Q : update_source _ _ _ _ _ _ _ _ _ _ = _ |- _ => pose proof (update_source_psteps e infos _ _ _ _ _ _ _ _ _ _ _ Q) as [_ O2]; apply update_source_top in Q as [T2 N2]; [|assumption] end.
    match goal with Q : update_room _ _ _ _ _ _ _ _ _ _ = _ |- _ => pose proof (update_room_psteps e Hprog infos _ _ _ _ _ _ _ _ _ (eq_trans O2 O1) Q) as [_ O3]; apply update_room_top in Q; auto; [|congruence] end.
    eapply update_finish_top; [| | |exact U]; auto. }
  destruct (u_ext a), x1; try discriminate; try (eapply U; exact H). apply Ok_inj in H. now subst.
Qed.
Lemma remove_top infos w t w' : top w -> process_remove e infos w t = Ok w' -> top w'.
Proof.
  intros T H. unfold process_remove, check_authority in H. rinv H. own. destruct x3 as [[off bnd]|]; rinv H.
  match goal with Q : pod_true _ = true |- _ => rename Q into M end. match goal with Q : is_asset _ = true |- _ => rename Q into A end.
  assert (M' : mutable (data (w x))). { unfold mutable, s_mutable. intro Q. unfold byte_at in M. change (Z.to_nat 3) with 3%nat in M. rewrite Q in M. discriminate M. }
  match goal with Q : remove_find _ _ _ _ = _ |- _ => apply (remove_find_range _ _ M') in Q as [R1 R2] end.
  assert (L : low_ok x4) by (eapply low_memmove; [| | |eassumption]; [lia|lia|now apply T]).
  assert (T1 : top x5) by (eapply top_set; [exact T|exact L|eassumption]).
  eapply top_resize; [exact T1| |exact H]. rewrite (set_data_data _ _ _ _ _ _ Hx6). exact L.
Qed.
Lemma resize_top infos w s w' : top w -> process_resize e infos w s = Ok w' -> top w'.
Proof. intros T H. unfold process_resize, check_authority in H. rinv H. own. eapply top_resize; [exact T| |exact H]. now apply T. Qed.
Lemma process_top infos w i w' : env_ok e -> top w -> process e infos w i = Ok w' -> top w'.
Proof.
  intros He T H. apply process_dispatch in H.
  destruct i; cbn [dispatch] in H.
  - exact (close_top _ _ _ T H).
  - exact (burn_top _ _ _ T H).
  - exact (create_top _ _ _ _ He T H).
  - exact (approve_top _ _ _ _ T H).
  - exact (allocate_top _ _ _ _ T H).
  - exact (set_state_top _ _ _ _ (or_intror eq_refl) T H).
  - exact (revoke_top _ _ _ _ T H).
  - exact (transfer_top _ _ _ T H).
  - exact (set_state_top _ _ _ _ (or_introl eq_refl) T H).
  - exact (set_verified_top _ _ _ _ T H).
  - exact (update_top _ _ _ _ He T H).
  - exact (set_verified_top _ _ _ _ T H).
  - exact (write_top _ _ _ _ T H).
  - exact (group_top _ _ _ T H).
  - exact (ungroup_top _ _ _ T H).
  - exact (handover_top _ _ _ T H).
  - exact (remove_top _ _ _ _ T H).
  - exact (resize_top _ _ _ _ T H).
Qed.
End Steps.

Definition tops (p : pubkey) (w : world) : Prop := forall k, acct_owner (w k) = p -> low_ok (data (w k)).
Lemma tops_history p w w' : p <> pk_zero -> history p w w' -> tops p w -> tops p w'.
Proof.
  intro Hp. induction 1 as [w|w w1 e infos i w2 H1 IH E He HI|w w1 w2 H1 IH HO]; intro T; [assumption| |].
  - subst p. exact (process_top e Hp infos w1 i w2 He (IH T) HI).
  - destruct HO as (O1 & O2 & _). intros k Hk. destruct (pk_dec (acct_owner (w1 k)) p) as [Q|Q].
    + destruct (O1 k Q) as [_ ->]. exact (IH T k Q).
    + destruct (O2 k Q Hk) as [n ->]. apply low_zeros.
Qed.
Lemma always_good p w w' k : p <> pk_zero -> (forall x, acct_owner (w x) <> p) -> history p w w' -> asset_of p w' k -> good_head (data (w' k)).
Proof.
  intros Hp N H [O [L D]]. destruct (tops_history p w w' Hp H (fun x Q => False_ind _ (N x Q)) k O) as (A & B & C).
  split; [auto|]. split; [exact A|]. split; [exact B|exact C].
Qed.
Lemma always_readable p w w' k : p <> pk_zero -> (forall x, acct_owner (w x) <> p) -> history p w w' -> asset_of p w' k -> exists a, rs_read (data (w' k)) = Some a /\ shows (data (w' k)) a.
Proof.
  intros Hp N H A. destruct (readable (data (w' k))) as [a Ha]; [apply A|eapply always_good; eauto|]. exists a. split; [exact Ha|]. now apply rs_read_exact in Ha.
Qed.

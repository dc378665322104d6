(** Every instruction's effect is a sequence of primitive steps. *)
From Verif Require Import Base State Layout Constr Ext World Proc BaseL Spec WorldL.
From Coq Require Import Strings.Byte.

(** inversion through matches as well *)
Ltac rmatch H :=
  match type of H with
  | (if ?c then _ else _) = Ok _ => let E := fresh "E" in destruct c eqn:E
  | (match ?x with _ => _ end) = Ok _ => let E := fresh "E" in destruct x eqn:E
  end.
Ltac pinv H := repeat (rinv1 H || rmatch H).

Section Steps.
Variable e : env.
Hypothesis Henv : env_ok e.
Hypothesis Hprog : e_prog e <> pk_zero.

Ltac sd := match goal with H : set_data _ _ ?w _ _ = Ok ?w' |- psteps _ _ ?w ?w' =>
  exact (set_data_psteps _ _ _ _ _ _ H) end.

Lemma close_psteps infos w w' : lam_ok w -> process_close e infos w = Ok w' -> psteps e infos w w'.
Proof. intros Hl H. unfold process_close in H. rinv H. eapply close_account_psteps; eauto. Qed.

Lemma burn_psteps infos w w' : lam_ok w -> process_burn e infos w = Ok w' -> psteps e infos w w'.
Proof.
  intros Hl H. unfold process_burn in H. rinv H.
  assert (Hs : psteps e infos w x4).
  { clear H. pinv Hx4; try (now constructor); try sd. }
  eapply psteps_trans; [exact Hs|].
  eapply close_account_psteps; [|exact H]. now apply (psteps_lam_ok _ _ _ _ Hs).
Qed.
Lemma approve_psteps infos w a w' : process_approve e infos w a = Ok w' -> psteps e infos w w'.
Proof. intros H. unfold process_approve in H. rinv H. sd. Qed.
Lemma revoke_psteps infos w a w' : process_revoke e infos w a = Ok w' -> psteps e infos w w'.
Proof. intros H. unfold process_revoke in H. rinv H. sd. Qed.
Lemma set_state_psteps st infos w w' : process_set_state st e infos w = Ok w' -> psteps e infos w w'.
Proof. intros H. unfold process_set_state in H. rinv H. sd. Qed.
Lemma transfer_psteps infos w w' : process_transfer e infos w = Ok w' -> psteps e infos w w'.
Proof.
  intros H. unfold process_transfer in H. rinv H.
  match type of H with (if ?c then _ else _) = _ => destruct c end; rinv H; [constructor|]. sd.
Qed.
Lemma set_verified_psteps v infos w w' : process_set_verified v e infos w = Ok w' -> psteps e infos w w'.
Proof.
  intros H. unfold process_set_verified in H. rinv H. destruct x1 as [[off b]|]; rinv H. sd.
Qed.
Lemma handover_psteps infos w w' : process_handover e infos w = Ok w' -> psteps e infos w w'.
Proof. intros H. unfold process_handover, check_authority in H. rinv H. sd. Qed.
Lemma do_group_psteps infos w a g k w' : do_group e infos w a g k = Ok w' -> psteps e infos w w'.
Proof.
  intros H. unfold do_group in H. rinv H. destruct x as [[off b]|]; rinv H.
  eapply psteps_trans; (eapply set_data_psteps; eassumption).
Qed.
Lemma group_psteps infos w w' : process_group e infos w = Ok w' -> psteps e infos w w'.
Proof. intros H. unfold process_group in H. rinv H. eapply do_group_psteps; eauto. Qed.
Lemma ungroup_psteps infos w w' : process_ungroup e infos w = Ok w' -> psteps e infos w w'.
Proof.
  intros H. unfold process_ungroup in H. rinv H. destruct x2 as [[off b]|]; rinv H.
  eapply psteps_trans; (eapply set_data_psteps; eassumption).
Qed.

Lemma alloc_create_psteps infos w k p s n w' :
  alloc_create_account e infos w k p s n = Ok w' -> psteps e infos w w' /\ acct_owner (w' k) = e_prog e.
Proof.
  intro H. unfold alloc_create_account in H. rinv H. split.
  - eapply sys_create_psteps; eauto.
  - eapply sys_create_data; eauto.
Qed.

Lemma save_psteps infos w0 w k p s x ex off bs w' : (ex = true -> acct_owner (w k) = e_prog e) ->
  save_extension_data e infos w0 w k p s x ex off bs = Ok w' ->
  psteps e infos w w' /\ acct_owner (w' k) = e_prog e.
Proof.
  intros Ho H. unfold save_extension_data in H. cbv zeta in H. rinv H.
  assert (Hs : psteps e infos w x0 /\ acct_owner (x0 k) = e_prog e).
  { destruct ex; cbn [negb] in Hx.
    - specialize (Ho eq_refl).
      match type of Hx with (if ?c then _ else _) = _ => destruct c end; rinv Hx.
      + split; [eapply resize_psteps; eauto|].
        now rewrite (proj2 (proj2 (resize_data _ _ _ _ _ _ _ _ _ Hx))).
      + split; [constructor|assumption].
    - eapply alloc_create_psteps; eauto. }
  destruct Hs as [Hs1 Hs2]. split.
  - eapply psteps_trans; [exact Hs1|sd].
  - now rewrite (set_data_owner _ _ _ _ _ _ _ H).
Qed.
Lemma do_allocate_psteps infos w0 w k p s x w' :
  do_allocate e infos w0 w k p s x = Ok w' -> psteps e infos w w' /\ acct_owner (w' k) = e_prog e.
Proof.
  intro H. unfold do_allocate in H. rinv H. eapply save_psteps; [|exact H].
  intro Hex. destruct (zlen (data (w k)) =? 0); rinv Hx; [discriminate|].
  unfold owned_by_prog in *. bnorm. assumption.
Qed.
Lemma allocate_psteps infos w x w' : process_allocate e infos w x = Ok w' -> psteps e infos w w'.
Proof. intro H. unfold process_allocate in H. rinv H. eapply do_allocate_psteps; eauto. Qed.
Lemma allocate_all_psteps infos w0 k p s l : forall w w',
  acct_owner (w k) = e_prog e ->
  allocate_all e infos w0 w k p s l = Ok w' -> psteps e infos w w' /\ acct_owner (w' k) = e_prog e.
Proof.
  induction l as [|x l IH]; intros w w' Ho H; cbn in H.
  - inv H. split; [constructor|assumption].
  - rinv H. apply do_allocate_psteps in Hx as [H1 H2]. apply IH in H as [H3 H4]; [|assumption].
    split; [eapply psteps_trans; eauto|assumption].
Qed.
Lemma write_psteps infos w a w' : process_write e infos w a = Ok w' -> psteps e infos w w'.
Proof.
  intro H. unfold process_write in H. rinv H. destruct x2 as [[h off]|]; rinv H.
  unfold owned_by_prog in *. bnorm.
  assert (Hs : psteps e infos w x4).
  { eapply psteps_trans; [eapply resize_psteps; [| |exact Hx3]; assumption|]. sd. }
  match type of H with (if ?c then _ else _) = _ => destruct c end; rinv H; [exact Hs|].
  destruct x5 as [[h2 off2]|]; rinv H.
  eapply psteps_trans; [exact Hs|sd].
Qed.
Lemma create_psteps infos w m w' : process_create e infos w m = Ok w' -> psteps e infos w w'.
Proof.
  intro H. unfold process_create in H. rinv H.
  assert (Hs : psteps e infos w x6 /\ acct_owner (x6 x) = e_prog e).
  { destruct (zlen (data (w x)) =? 0).
    - eapply alloc_create_psteps; eauto.
    - rinv Hx6. unfold owned_by_prog in *. bnorm. split; [constructor|assumption]. }
  destruct Hs as [Hs1 Ho1].
  assert (Hs : psteps e infos x6 x7).
  { destruct (m_exts m); [eapply allocate_all_psteps; eauto|]. inv Hx7. constructor. }
  assert (Hs3 : psteps e infos x7 x12) by sd.
  assert (psteps e infos x12 w').
  { destruct x2; [eapply do_group_psteps; eauto|]. inv H. constructor. }
  eauto using psteps_trans.
Qed.

Lemma update_source_psteps infos w k a b x t off f n src w' :
  update_source e infos w k a b x t off f = Ok (n, src, w') -> psteps e infos w w' /\
    acct_owner (w' k) = acct_owner (w k).
Proof.
  intro H. unfold update_source in H. destruct b as [bk|].
  - rinv H. destruct x0 as [[h o]|]; rinv H. split; [sd|].
    now rewrite (set_data_owner _ _ _ _ _ _ _ Hx3).
  - destruct x as [x|]; rinv H. destruct x0 as [n' o].
    do 2 match type of H with (if ?c then _ else _) = _ => destruct c; rinv H end.
    split; [constructor|reflexivity].
Qed.
Lemma update_room_psteps infos w0 w k p s off f n w' : acct_owner (w k) = e_prog e ->
  update_room e infos w0 w k p s off f n = Ok w' -> psteps e infos w w' /\
    acct_owner (w' k) = e_prog e.
Proof.
  intros Ho H. unfold update_room in H. destruct f as [c|]; cbv zeta in H.
  - destruct (h_len c =? n); rinv H; [split; [constructor|assumption]|].
    destruct x as [[lh lo]|]; rinv H.
    assert (Hs1 : psteps e infos w x /\ acct_owner (x k) = e_prog e).
    { destruct (0 <? _); rinv Hx0; [|split; [constructor|assumption]].
      split; [eapply resize_psteps; eauto|].
      now rewrite (proj2 (proj2 (resize_data _ _ _ _ _ _ _ _ _ Hx0))). }
    assert (Hs2 : psteps e infos x x1 /\ acct_owner (x1 k) = e_prog e).
    { split; [sd|]. rewrite (set_data_owner _ _ _ _ _ _ _ Hx2). apply Hs1. }
    assert (Hs3 : psteps e infos x1 w' /\ acct_owner (w' k) = e_prog e).
    { destruct (_ <? 0); rinv H; [|split; [constructor|apply Hs2]].
      split; [eapply resize_psteps; eauto; apply Hs2|].
      rewrite (proj2 (proj2 (resize_data _ _ _ _ _ _ _ _ _ H))). apply Hs2. }
    split; [|apply Hs3]. destruct Hs1, Hs2, Hs3. eauto using psteps_trans.
  - split; [eapply resize_psteps; eauto|].
    now rewrite (proj2 (proj2 (resize_data _ _ _ _ _ _ _ _ _ H))).
Qed.

Lemma update_ext_psteps infos w0 w k a b p s x w' : acct_owner (w k) = e_prog e ->
  update_ext e infos w0 w k a b p s x = Ok w' -> psteps e infos w w'.
Proof.
  intros Ho H. unfold update_ext in H. rinv H. destruct x1 as [off found]. rinv H.
  destruct x1 as [[n src] w2]. rinv H.
  apply update_source_psteps in Hx1 as [S1 O1].
  apply update_room_psteps in Hx2 as [S2 O2]; [|congruence].
  unfold update_finish in H. rinv H.
  eapply psteps_trans; [exact S1|]. eapply psteps_trans; [exact S2|]. sd.
Qed.
Lemma update_psteps infos w a w' : process_update e infos w a = Ok w' -> psteps e infos w w'.
Proof.
  intro H. unfold process_update, check_authority in H. rinv H.
  unfold owned_by_prog in Hc0. bnorm.
  assert (Hs0 : psteps e infos w x5) by sd.
  assert (Ho : acct_owner (x5 x) = e_prog e) by now rewrite (set_data_owner _ _ _ _ _ _ _ Hx5).
  eapply psteps_trans; [exact Hs0|].
  destruct (u_ext a), x1; rinv H; try constructor; eapply update_ext_psteps; eauto.
Qed.

Lemma remove_psteps infos w t w' : process_remove e infos w t = Ok w' -> psteps e infos w w'.
Proof.
  intro H. unfold process_remove, check_authority in H. rinv H.
  unfold owned_by_prog in Hc0. bnorm.
  destruct x3 as [[off bnd]|]; rinv H.
  eapply psteps_trans; [eapply set_data_psteps; eassumption|]. eapply resize_psteps; [| |exact H]; [|assumption].
  now rewrite (set_data_owner _ _ _ _ _ _ _ Hx6).
Qed.
Lemma resize_instr_psteps infos w s w' : process_resize e infos w s = Ok w' -> psteps e infos w w'.
Proof.
  intro H. unfold process_resize, check_authority in H. rinv H.
  unfold owned_by_prog in Hc0. bnorm. eapply resize_psteps; [| |exact H]; assumption.
Qed.

Lemma dispatch_psteps infos w i w' : lam_ok w -> dispatch e infos w i = Ok w' -> psteps e infos w w'.
Proof.
  intros Hl. destruct i; cbn [dispatch]; eauto using close_psteps, burn_psteps, create_psteps,
    approve_psteps, allocate_psteps, set_state_psteps, revoke_psteps, transfer_psteps,
    set_verified_psteps, update_psteps, write_psteps, group_psteps, ungroup_psteps,
    handover_psteps, remove_psteps, resize_instr_psteps.
Qed.
End Steps.

(** from the entrypoint to the processor *)
Lemma process_dispatch e infos w i w' : process e infos w i = Ok w' ->
  dispatch e (firstn MAX_ACCOUNTS infos) w i = Ok w'.
Proof.
  unfold process. intro H. rinv H. destruct x; [|assumption].
  destruct (blocked_when_locked i); [discriminate|assumption].
Qed.
Lemma process_psteps e infos w i w' : env_ok e -> e_prog e <> pk_zero -> lam_ok w ->
  process e infos w i = Ok w' -> psteps e (passed infos) w w'.
Proof. intros. eapply dispatch_psteps; [assumption|assumption|eassumption|]. exact (process_dispatch _ _ _ _ _ H2). Qed.

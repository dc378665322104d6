(** Lemmas: an account of the program that still is marked as an asset but has lost
    part of its header can never be used, changed or emptied again (C81). *)
From Verif Require Import Base State Layout Constr Ext World Proc BaseL Spec SpecH SpecG SpecR SpecL SpecRent WorldL ProcSteps FrameL HeadL AuthL UpdateL CreateL CountH LiveL CreatorsL AllocM UpdateM TopL RentL.
From Coq Require Import Strings.Byte.

Section Steps.
Variables (e : env) (k : pubkey) (D : bytes) (L : Z).
Hypothesis Hprog : e_prog e <> pk_zero.
Hypothesis He : env_ok e.
Hypothesis Hlen : 0 < zlen D < 168.
Hypothesis Hdisc : nth 0 D x00 = x01.
Definition held (w : world) : Prop := acct_owner (w k) = e_prog e /\ data (w k) = D /\ L <= lamports (w k).

Lemma held_upd w j a : j <> k -> held w -> held (upd w j a).
Proof. intros N H. unfold held. rewrite upd_other by congruence. exact H. Qed.
Lemma held_set infos w j d w' : j <> k -> held w -> set_data e infos w j d = Ok w' -> held w'.
Proof.
  intros N T H. unfold set_data in H. destruct (bytes_eqb d (data (w j))); [now apply Ok_inj in H; subst|].
  apply require_ok in H as [_ H]. apply Ok_inj in H. subst w'. now apply held_upd.
Qed.
Lemma held_gain w j n : 0 <= n -> held w -> held (upd w j (mkAcct (lamports (w j) + n) (acct_owner (w j)) (data (w j)))).
Proof.
  intros Hn T. destruct (pk_dec j k) as [->|N]; [|now apply held_upd]. unfold held. rewrite upd_same. cbn [acct_owner data lamports]. destruct T as (A & B & C). repeat split; auto; lia.
Qed.
Lemma held_move infos w s t n w' : s <> k -> 0 <= n -> held w -> move_lamports e infos w s t n = Ok w' -> held w'.
Proof.
  intros N Hn T H. unfold move_lamports in H. destruct (_ || _); [now apply Ok_inj in H; subst|].
  apply require_ok in H as [_ H]. apply require_ok in H as [_ H]. cbv zeta in H. apply require_ok in H as [_ H]. apply Ok_inj in H. subst w'.
  apply held_gain; [assumption|]. now apply held_upd.
Qed.
Lemma held_sys infos w s t n w' : 0 <= n -> held w -> sys_transfer infos w s t n = Ok w' -> held w'.
Proof.
  intros Hn T H. unfold sys_transfer in H.
  apply require_ok in H as [_ H]. apply require_ok in H as [O H]. bnorm. apply require_ok in H as [_ H]. cbv zeta in H. apply require_ok in H as [_ H]. apply Ok_inj in H. subst w'.
  apply held_gain; [assumption|]. apply held_upd; [|assumption]. intros ->. destruct T as (A & _). congruence.
Qed.
Lemma held_create infos w p j l n w' : j <> k -> 0 <= l -> held w -> sys_create e infos w p j l n = Ok w' -> held w'.
Proof.
  intros N Hl T H. unfold sys_create in H. apply require_ok in H as [_ H]. apply require_ok in H as [G H]. apply require_ok in H as [_ H]. cbv zeta in H.
  eapply held_sys; [exact Hl| |exact H]. now apply held_upd.
Qed.
Lemma held_resize infos w0 w n j p s w' : j <> k -> held w -> resize e infos w0 w n j p s = Ok w' -> held w'.
Proof.
  intros N T H. unfold resize in H. cbv zeta in H. apply bind_ok in H as (w1 & H1 & H).
  assert (T1 : held w1).
  { destruct (n <? _).
    - apply bind_ok in H1 as (q & Hq & H1). eapply held_move; [exact N| |exact T|exact H1]. lia.
    - apply require_ok in H1 as [_ H1]. destruct (0 <? _); [|apply Ok_inj in H1; now subst].
      apply bind_ok in H1 as (q & Hq & H1). apply bind_ok in H1 as (s0 & Hs & H1). apply require_ok in H1 as [_ H1]. apply require_ok in H1 as [_ H1].
      eapply held_sys; [|exact T|exact H1]. lia. }
  unfold realloc in H. clear H1. destruct (n =? _); [apply Ok_inj in H; now subst|]. apply require_ok in H as [_ H]. eapply held_set; eauto.
Qed.
Lemma held_close infos w j r w' : j <> k -> lam_ok w -> held w -> close_account e infos w j r = Ok w' -> held w'.
Proof.
  intros N LO T H. unfold close_account in H. apply require_ok in H as [_ H]. apply guard_ok in H as [_ H]. apply bind_ok in H as (w1 & H1 & H).
  apply require_ok in H as [_ H]. apply Ok_inj in H. subst w'. apply held_upd; [assumption|]. eapply held_move; [exact N|apply LO|exact T|exact H1].
Qed.

Lemma long_other w x : held w -> 168 <= zlen (data (w x)) -> x <> k.
Proof. intros (_ & B & _) Z' ->. rewrite B in Z'. lia. Qed.
Lemma asset_other w x : held w -> is_asset (data (w x)) = true -> x <> k.
Proof. intros T A. apply asset_room in A. eapply long_other; eauto. Qed.
Lemma none_other w x : held w -> zlen (data (w x)) = 0 -> x <> k.
Proof. intros (_ & B & _) Z' ->. rewrite B in Z'. lia. Qed.
Lemma get_long t d o b : asset_get t d = Ok (Some (o, b)) -> 168 <= zlen d.
Proof.
  intro H. unfold asset_get, find_ext, walk_fuel in H. apply bind_ok in H as (r & Hr & H). destruct r as [[c h]|]; [|discriminate].
  cbn [find_loop] in Hr. destruct (ASSET_LEN + EXT_LEN <=? zlen d) eqn:E; [|discriminate]. unfold ASSET_LEN, EXT_LEN in E. lia.
Qed.
Ltac own := unfold owned_by_prog in *; bnorm.
Ltac other T := match goal with A : is_asset (data (_ ?x)) = true |- ?x <> k => exact (asset_other _ x T A) end.

Lemma close_held infos w w' : lam_ok w -> held w -> process_close e infos w = Ok w' -> held w'.
Proof.
  intros LO T H. unfold process_close in H. rinv H. eapply held_close; [|exact LO|exact T|exact H]. own.
  destruct T as (_ & B & _). intros ->. rewrite B in *. unfold byte_at in *. change (Z.to_nat 0) with 0%nat in *. rewrite Hdisc in *.
  match goal with Q : _ || _ = true |- _ => apply Bool.orb_true_iff in Q as [Q|Q]; [lia|discriminate Q] | Q : _ \/ _ |- _ => destruct Q as [Q|Q]; [lia|discriminate Q] end.
Qed.
Lemma burn_held infos w w' : lam_ok w -> held w -> process_burn e infos w = Ok w' -> held w'.
Proof.
  intros LO T H. unfold process_burn in H. rinv H. own.
  assert (N : x <> k) by other T.
  assert (Q : lam_ok x4 /\ held x4); [|destruct Q; eapply held_close; [exact N| | |exact H]; assumption]. clear H.
  destruct (nullable _); [|apply Ok_inj in Hx4; now subst].
  apply bind_ok in Hx4 as (ga & _ & G). apply require_ok in G as [_ G]. apply require_ok in G as [_ G]. cbv zeta in G. apply bind_ok in G as (r & G1 & G).
  destruct r as [[off b0]|]; [|discriminate]. apply bind_ok in G as (gr & G2 & G). apply require_ok in G as [_ G].
  split; [intro j; rewrite (set_data_lam _ _ _ _ _ _ j G); apply LO|].
  apply get_long in G1. eapply held_set; [|exact T|exact G]. eapply long_other; eauto.
Qed.
Lemma approve_held infos w a w' : held w -> process_approve e infos w a = Ok w' -> held w'.
Proof. intros T H. unfold process_approve in H. rinv H. own. eapply held_set; [|exact T|exact H]; other T. Qed.
Lemma revoke_held infos w a w' : held w -> process_revoke e infos w a = Ok w' -> held w'.
Proof. intros T H. unfold process_revoke in H. rinv H. own. eapply held_set; [|exact T|exact H]; other T. Qed.
Lemma set_state_held st infos w w' : held w -> process_set_state st e infos w = Ok w' -> held w'.
Proof. intros T H. unfold process_set_state in H. rinv H. own. eapply held_set; [|exact T|exact H]; other T. Qed.
Lemma transfer_held infos w w' : held w -> process_transfer e infos w = Ok w' -> held w'.
Proof.
  intros T H. unfold process_transfer in H. rinv H. own.
  assert (N : x <> k) by other T.
  match type of H with (if ?c then _ else _) = _ => destruct c end; [apply Ok_inj in H; now subst|]. rinv H.
  eapply held_set; [exact N|exact T|exact H].
Qed.
Lemma set_verified_held v infos w w' : held w -> process_set_verified v e infos w = Ok w' -> held w'.
Proof.
  intros T H. unfold process_set_verified in H. rinv H. destruct x1 as [[off b]|]; rinv H. own. eapply held_set; [|exact T|exact H]; other T.
Qed.
Lemma handover_held infos w w' : held w -> process_handover e infos w = Ok w' -> held w'.
Proof. intros T H. unfold process_handover, check_authority in H. rinv H. own. eapply held_set; [|exact T|exact H]; other T. Qed.
Lemma do_group_held infos w a g s w' : held w -> do_group e infos w a g s = Ok w' -> held w'.
Proof.
  intros T H. unfold do_group in H. rinv H. destruct x as [[off b]|]; rinv H. own.
  assert (Na : a <> k) by other T. assert (Ng : g <> k) by other T.
  eapply held_set; [exact Ng| |exact H]. eapply held_set; [exact Na|exact T|eassumption].
Qed.
Lemma group_held infos w w' : held w -> process_group e infos w = Ok w' -> held w'.
Proof. intros T H. unfold process_group in H. rinv H. eapply do_group_held; eauto. Qed.
Lemma ungroup_held infos w w' : held w -> process_ungroup e infos w = Ok w' -> held w'.
Proof.
  intros T H. unfold process_ungroup in H. rinv H. destruct x2 as [[off b]|]; rinv H. own.
  assert (Na : x <> k) by other T. assert (Ng : x0 <> k) by other T.
  eapply held_set; [exact Ng| |exact H]. eapply held_set; [exact Na|exact T|eassumption].
Qed.
Lemma alloc_create_held infos w j p s n w' : j <> k -> held w -> alloc_create_account e infos w j p s n = Ok w' -> held w'.
Proof. intros N T H. unfold alloc_create_account in H. rinv H. eapply held_create; [exact N| |exact T|exact H]. apply He. Qed.
Lemma save_held infos w0 w j p s x ex off bs w' : j <> k -> held w -> save_extension_data e infos w0 w j p s x ex off bs = Ok w' -> held w'.
Proof.
  intros N T H. unfold save_extension_data in H. cbv zeta in H. rinv H.
  eapply held_set; [exact N| |exact H]. destruct ex; cbn [negb] in Hx; [|eapply alloc_create_held; eauto].
  match type of Hx with (if ?c then _ else _) = _ => destruct c end; rinv Hx; [|assumption]. eapply held_resize; eauto.
Qed.
Lemma do_allocate_held infos w0 w j p s x w' : held w -> do_allocate e infos w0 w j p s x = Ok w' -> held w' /\ j <> k.
Proof.
  intros T H. unfold do_allocate in H. rinv H.
  assert (N : j <> k).
  { destruct (zlen (data (w j)) =? 0) eqn:Z0; [eapply none_other; [exact T|lia]|]. apply require_ok in Hx as [_ Hx]. apply require_ok in Hx as [Hz _]. unfold ASSET_LEN in Hz. eapply long_other; [exact T|lia]. }
  split; [|assumption]. eapply save_held; eauto.
Qed.
Lemma allocate_held infos w x w' : held w -> process_allocate e infos w x = Ok w' -> held w'.
Proof. intros T H. unfold process_allocate in H. rinv H. eapply do_allocate_held; eauto. Qed.
Lemma allocate_all_held infos w0 j p s l : forall w w', held w -> allocate_all e infos w0 w j p s l = Ok w' -> held w'.
Proof.
  induction l as [|x l IH]; intros w w' T H; cbn [allocate_all] in H; [apply Ok_inj in H; now subst|].
  apply bind_ok in H as (w1 & H1 & H). eapply IH; [|exact H]. eapply do_allocate_held; eauto.
Qed.
Lemma write_held infos w a w' : held w -> process_write e infos w a = Ok w' -> held w'.
Proof.
  intros T H. unfold process_write in H. rinv H. destruct x2 as [[h off]|]; rinv H. own. unfold ASSET_LEN in *.
  assert (N : x <> k) by (eapply long_other; [exact T|lia]).
  assert (T1 : held x2) by (eapply held_resize; eauto).
  assert (T2 : held x4) by (eapply held_set; eauto).
  match type of H with (if ?c then _ else _) = _ => destruct c end; [apply Ok_inj in H; now subst|]. rinv H.
  destruct x5 as [[h2 off2]|]; rinv H. eapply held_set; eauto.
Qed.
Lemma create_held infos w m w' : held w -> process_create e infos w m = Ok w' -> held w'.
Proof.
  intros T H. unfold process_create in H. rinv H.
  assert (N : x <> k).
  { destruct (zlen (data (w x)) =? 0) eqn:Z0; [eapply none_other; [exact T|lia]|]. rinv Hx6. own. unfold ASSET_LEN in *. eapply long_other; [exact T|lia]. }
  assert (T1 : held x6).
  { destruct (zlen (data (w x)) =? 0); [eapply alloc_create_held; eauto|]. rinv Hx6. assumption. }
  assert (T2 : held x7) by (destruct (m_exts m); [eapply allocate_all_held; eauto|apply Ok_inj in Hx7; now subst]).
  assert (T3 : held x12) by (eapply held_set; eauto).
  destruct x2; [eapply do_group_held; eauto|]. apply Ok_inj in H. now subst.
Qed.
Lemma update_source_held infos w j a b x t off f n src w' : held w -> update_source e infos w j a b x t off f = Ok (n, src, w') -> held w'.
Proof.
  intros T H. unfold update_source in H. destruct b as [bk|].
  - cbv zeta in H. apply bind_ok in H as (fe & Hf & H). destruct fe as [[h o]|]; [|discriminate]. rinv H.
    match goal with Q : slice (data (w bk)) _ _ = Ok _ |- _ => apply slice_ok in Q end. unfold ASSET_LEN in *.
    eapply held_set; [|exact T|eassumption]. eapply long_other; [exact T|lia].
  - destruct x as [x|]; [|discriminate]. apply bind_ok in H as (r & Hr & H). destruct r as [n0 o].
    do 2 (match type of H with (if ?c then _ else _) = _ => destruct c end; [discriminate|]). injection H as _ _ <-. assumption.
Qed.
Lemma update_room_held infos w0 w j p s off f n w' : j <> k -> held w -> update_room e infos w0 w j p s off f n = Ok w' -> held w'.
Proof.
  intros N T H. unfold update_room in H.
  destruct f as [c|]; cbv zeta in H; [|eapply held_resize; eauto].
  destruct (h_len c =? n); [apply Ok_inj in H; now subst|]. rinv H. destruct x as [[lh lo]|]; rinv H.
  assert (T1 : held x) by (destruct (0 <? _); rinv Hx0; [eapply held_resize; eauto|assumption]).
  assert (T2 : held x1) by (eapply held_set; eauto).
  destruct (_ <? 0); rinv H; [eapply held_resize; eauto|assumption].
Qed.
Lemma update_held infos w a w' : held w -> process_update e infos w a = Ok w' -> held w'.
Proof.
  intros T H. unfold process_update, check_authority in H. rinv H. own.
  assert (N : x <> k) by other T.
  assert (T1 : held x5) by (eapply held_set; eauto).
  assert (U : forall xx, update_ext e infos w x5 x x0 x1 x3 x4 xx = Ok w' -> held w').
  { intros xx U. unfold update_ext in U. rinv U. destruct x7 as [off found]. rinv U. destruct x7 as [[n src] w2]. rinv U.
    match goal with Q : update_source _ _ _ _ _ _ _ _ _ _ = _ |- _ => apply update_source_held in Q; [|assumption] end.
    match goal with Q : update_room _ _ _ _ _ _ _ _ _ _ = _ |- _ => apply update_room_held in Q; [|assumption|assumption] end.
    unfold update_finish in U. cbv zeta in U. rinv U. eapply held_set; eauto. }
  destruct (u_ext a), x1; try discriminate; try (eapply U; exact H). apply Ok_inj in H. now subst.
Qed.
Lemma remove_held infos w t w' : held w -> process_remove e infos w t = Ok w' -> held w'.
Proof.
  intros T H. unfold process_remove, check_authority in H. rinv H. own. destruct x3 as [[off bnd]|]; rinv H.
  assert (N : x <> k) by other T. eapply held_resize; [exact N| |exact H]. eapply held_set; eauto.
Qed.
Lemma resize_held infos w s w' : held w -> process_resize e infos w s = Ok w' -> held w'.
Proof. intros T H. unfold process_resize, check_authority in H. rinv H. own. eapply held_resize; [|exact T|exact H]; other T. Qed.
Lemma process_held infos w i w' : lam_ok w -> held w -> process e infos w i = Ok w' -> held w'.
Proof.
  intros LO T H. apply process_dispatch in H.
  destruct i; cbn [dispatch] in H.
  - exact (close_held _ _ _ LO T H).
  - exact (burn_held _ _ _ LO T H).
  - exact (create_held _ _ _ _ T H).
  - exact (approve_held _ _ _ _ T H).
  - exact (allocate_held _ _ _ _ T H).
  - exact (set_state_held _ _ _ _ T H).
  - exact (revoke_held _ _ _ _ T H).
  - exact (transfer_held _ _ _ T H).
  - exact (set_state_held _ _ _ _ T H).
  - exact (set_verified_held _ _ _ _ T H).
  - exact (update_held _ _ _ _ T H).
  - exact (set_verified_held _ _ _ _ T H).
  - exact (write_held _ _ _ _ T H).
  - exact (group_held _ _ _ T H).
  - exact (ungroup_held _ _ _ T H).
  - exact (handover_held _ _ _ T H).
  - exact (remove_held _ _ _ _ T H).
  - exact (resize_held _ _ _ _ T H).
Qed.
End Steps.

(** ** For ever *)
Lemma held_history p k w w' : p <> pk_zero -> fair_history p w w' -> lam_ok w ->
  acct_owner (w k) = p -> 0 < zlen (data (w k)) < 168 -> nth 0 (data (w k)) x00 = x01 ->
  acct_owner (w' k) = p /\ data (w' k) = data (w k) /\ lamports (w k) <= lamports (w' k).
Proof.
  intros Hp H Hl H1 HZ HD. enough (Q : lam_ok w' /\ acct_owner (w' k) = p /\ data (w' k) = data (w k) /\ lamports (w k) <= lamports (w' k)) by tauto.
  induction H as [w|w w1 e infos i w2 H IH E He HI|w w1 w2 H IH HO HL].
  - repeat split; auto; lia.
  - destruct IH as (A & B & C & F); auto. assert (Hp' : e_prog e <> pk_zero) by congruence.
    split; [eapply lam_ok_preserved; eauto|]. rewrite <- E. refine (process_held e k (data (w k)) (lamports (w k)) Hp' He HZ HD infos w1 i w2 A _ HI). unfold held. rewrite E. auto.
  - destruct IH as (A & B & C & F); auto.
    specialize (HL k B). destruct HO as (O1 & _ & _ & O4). destruct (O1 k B) as [G1 G2]. repeat split; auto; [congruence|lia].
Qed.
Lemma held_step e infos w i w' k : env_ok e -> e_prog e <> pk_zero -> lam_ok w -> process e infos w i = Ok w' ->
  acct_owner (w k) = e_prog e -> 0 < zlen (data (w k)) < 168 -> nth 0 (data (w k)) x00 = x01 ->
  acct_owner (w' k) = e_prog e /\ data (w' k) = data (w k) /\ lamports (w k) <= lamports (w' k).
Proof.
  intros He Hp Hl HI HO HZ HD. refine (process_held e k (data (w k)) (lamports (w k)) Hp He HZ HD infos w i w' Hl _ HI). unfold held. repeat split; auto; lia.
Qed.

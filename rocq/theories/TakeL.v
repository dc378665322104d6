(** Lemmas: what takes a request back (C83). *)
From Verif Require Import Base State Layout Constr Ext World Proc BaseL Spec SpecH SpecG SpecL SpecRent SpecTake WorldL ProcSteps FrameL HeadL AuthL AuthM UpdateL CreateL RentL CreatorsL StepH LayoutL LayoutE GroupL VerifyL RegO BuildL.
From Verif Require ResizeL.
From Coq Require Import Strings.Byte.

(** ** Money between two accounts *)
Section Tally.
Variables (e : env) (infos : list ainfo) (k p : pubkey).
Hypothesis N : p <> k.
Definition tally (w w' : world) : Prop :=
  (forall x, x <> k -> x <> p -> w' x = w x) /\ acct_owner (w' p) = acct_owner (w p) /\ data (w' p) = data (w p) /\
  lamports (w' k) + lamports (w' p) = lamports (w k) + lamports (w p).
Lemma tl_refl w : tally w w. Proof. repeat split; auto. Qed.
Lemma tl_trans w1 w2 w3 : tally w1 w2 -> tally w2 w3 -> tally w1 w3.
Proof.
  clear N. intros (A1 & A2 & A3 & A4) (B1 & B2 & B3 & B4). split; [intros x X1 X2; rewrite B1, A1 by assumption; reflexivity|]. split; [congruence|]. split; [congruence|lia].
Qed.
Lemma tl_upd w a : lamports a = lamports (w k) -> tally w (upd w k a).
Proof.
  intro L. repeat split; [intros x X _; now rewrite upd_other|now rewrite upd_other|now rewrite upd_other|]. rewrite upd_same, upd_other by assumption. lia.
Qed.
Lemma tl_two w n : tally w (let w1 := upd w k (mkAcct (lamports (w k) - n) (acct_owner (w k)) (data (w k))) in
  upd w1 p (mkAcct (lamports (w1 p) + n) (acct_owner (w1 p)) (data (w1 p)))).
Proof.
  cbv zeta. rewrite (upd_other w k _ p) by assumption.
  repeat split; [intros x X Y; now rewrite !upd_other|now rewrite upd_same|now rewrite upd_same|].
  rewrite upd_same. rewrite (upd_other _ p _ k) by congruence. rewrite upd_same. cbn [lamports]. lia.
Qed.
Lemma tl_two' w n : tally w (let w1 := upd w p (mkAcct (lamports (w p) - n) (acct_owner (w p)) (data (w p))) in
  upd w1 k (mkAcct (lamports (w1 k) + n) (acct_owner (w1 k)) (data (w1 k)))).
Proof.
  cbv zeta. rewrite (upd_other w p _ k) by congruence.
  repeat split; [intros x X Y; now rewrite !upd_other|rewrite upd_other by assumption; now rewrite upd_same|rewrite upd_other by assumption; now rewrite upd_same|].
  rewrite upd_same. rewrite (upd_other _ k _ p) by assumption. rewrite upd_same. cbn [lamports]. lia.
Qed.
Lemma tl_set w d w' : set_data e infos w k d = Ok w' -> tally w w'.
Proof.
  intros H. unfold set_data in H. destruct (bytes_eqb d (data (w k))); [apply Ok_inj in H; subst; apply tl_refl|].
  apply require_ok in H as [_ H]. apply Ok_inj in H. subst w'. now apply tl_upd.
Qed.
Lemma tl_move w n w' : move_lamports e infos w k p n = Ok w' -> tally w w'.
Proof.
  intros H. unfold move_lamports in H. destruct (_ || _); [apply Ok_inj in H; subst; apply tl_refl|].
  apply require_ok in H as [_ H]. apply require_ok in H as [_ H]. cbv zeta in H. apply require_ok in H as [_ H]. apply Ok_inj in H. subst w'. exact (tl_two w n).
Qed.
Lemma tl_sys w n w' : sys_transfer infos w p k n = Ok w' -> tally w w'.
Proof.
  intros H. unfold sys_transfer in H.
  apply require_ok in H as [_ H]. apply require_ok in H as [_ H]. apply require_ok in H as [_ H]. cbv zeta in H. apply require_ok in H as [_ H]. apply Ok_inj in H. subst w'. exact (tl_two' w n).
Qed.
Lemma tl_create w l n w' : sys_create e infos w p k l n = Ok w' -> tally w w'.
Proof.
  intros H. unfold sys_create in H. apply require_ok in H as [_ H]. apply require_ok in H as [G H]. apply require_ok in H as [_ H]. cbv zeta in H.
  eapply tl_trans; [|eapply tl_sys; exact H]. apply tl_upd. reflexivity.
Qed.
Lemma tl_resize w0 w n o s w' : (forall q, o = Some q -> q = p) -> resize e infos w0 w n k o s = Ok w' -> tally w w'.
Proof.
  intros O H. unfold resize in H. cbv zeta in H. apply bind_ok in H as (w1 & H1 & H). eapply tl_trans.
  - instantiate (1 := w1). destruct (n <? zlen _).
    + apply bind_ok in H1 as (q & Hq & H1). destruct o as [q'|]; [|discriminate Hq]. apply Ok_inj in Hq. subst q'. rewrite (O q eq_refl) in H1. eapply tl_move; exact H1.
    + apply require_ok in H1 as [_ H1]. destruct (0 <? _); [|apply Ok_inj in H1; subst; apply tl_refl].
      apply bind_ok in H1 as (q & Hq & H1). destruct o as [q'|]; [|discriminate Hq]. apply Ok_inj in Hq. subst q'. rewrite (O q eq_refl) in H1.
      apply bind_ok in H1 as (s0 & Hs & H1). apply require_ok in H1 as [_ H1]. apply require_ok in H1 as [_ H1]. eapply tl_sys; exact H1.
  - clear H1. unfold realloc in H. destruct (n =? _); [apply Ok_inj in H; subst; apply tl_refl|]. apply require_ok in H as [_ H]. eapply tl_set; exact H.
Qed.
Lemma tl_alloc_create w o s n w' : (forall q, o = Some q -> q = p) -> alloc_create_account e infos w k o s n = Ok w' -> tally w w'.
Proof. intros O H. unfold alloc_create_account in H. destruct o as [q|]; [|discriminate H]. rewrite (O q eq_refl) in H. cbn [ok_or bind] in H. rinv H. eapply tl_create; exact H. Qed.
Lemma tl_save w0 w o s x ex off bs w' : (forall q, o = Some q -> q = p) -> save_extension_data e infos w0 w k o s x ex off bs = Ok w' -> tally w w'.
Proof.
  intros O H. unfold save_extension_data in H. cbv zeta in H. rinv H.
  eapply tl_trans; [|eapply tl_set; exact H]. destruct ex; cbn [negb] in Hx; [|eapply tl_alloc_create; eauto].
  match type of Hx with (if ?c then _ else _) = _ => destruct c end; rinv Hx; [|apply tl_refl]. eapply tl_resize; eauto.
Qed.
Lemma tl_do_allocate w0 w o s x w' : (forall q, o = Some q -> q = p) -> do_allocate e infos w0 w k o s x = Ok w' -> tally w w'.
Proof. intros O H. unfold do_allocate in H. rinv H. eapply tl_save; eauto. Qed.
Lemma tl_allocate_all w0 o s l : (forall q, o = Some q -> q = p) -> forall w w', allocate_all e infos w0 w k o s l = Ok w' -> tally w w'.
Proof.
  intro O. induction l as [|x l IH]; intros w w' H; cbn [allocate_all] in H; [apply Ok_inj in H; subst; apply tl_refl|].
  apply bind_ok in H as (w1 & H1 & H). eapply tl_trans; [eapply tl_do_allocate; eauto|eauto].
Qed.
Lemma tl_update_source w a b x t off f n src w' : b = None -> update_source e infos w k a b x t off f = Ok (n, src, w') -> tally w w'.
Proof.
  intros -> H. unfold update_source in H. destruct x as [x|]; [|discriminate]. apply bind_ok in H as (r & Hr & H). destruct r as [n0 o].
  do 2 (match type of H with (if ?c then _ else _) = _ => destruct c end; [discriminate|]). injection H as _ _ <-. apply tl_refl.
Qed.
Lemma tl_update_room w0 w o s off f n w' : (forall q, o = Some q -> q = p) -> update_room e infos w0 w k o s off f n = Ok w' -> tally w w'.
Proof.
  intros O H. unfold update_room in H.
  destruct f as [c|]; cbv zeta in H; [|eapply tl_resize; eauto].
  destruct (h_len c =? n); [apply Ok_inj in H; subst; apply tl_refl|]. rinv H. destruct x as [[lh lo]|]; rinv H.
  assert (T1 : tally w x) by (destruct (0 <? _); rinv Hx0; [eapply tl_resize; eauto|apply tl_refl]).
  eapply tl_trans; [exact T1|]. eapply tl_trans; [eapply tl_set; eassumption|].
  destruct (_ <? 0); rinv H; [eapply tl_resize; eauto|apply tl_refl].
Qed.
End Tally.

Lemma opt_pays e infos n p o : arg infos n p -> opt_acct e (firstn MAX_ACCOUNTS infos) n = Ok o -> forall q, o = Some q -> q = p.
Proof. intros A H q ->. apply (proj1 (opt_acct_some e infos n q)) in H as [H _]. eapply arg_det; eauto. Qed.
Lemma opt_no e infos n o : arg infos n (e_prog e) -> opt_acct e (firstn MAX_ACCOUNTS infos) n = Ok o -> o = None.
Proof. intros A H. destruct o as [q|]; [|reflexivity]. apply (proj1 (opt_acct_some e infos n q)) in H as [H Q]. destruct Q. eapply arg_det; eauto. Qed.
Lemma process_tally e infos w i w' k p : p <> k -> alone e infos i k p -> process e infos w i = Ok w' -> tally k p w w'.
Proof.
  intros N [A B] H. apply process_dispatch in H.
  Ltac same A := match goal with Q : acct (firstn MAX_ACCOUNTS ?infos) 0 = Ok ?x |- _ => apply (proj1 (acct_arg infos _ _)) in Q; pose proof (arg_det _ _ _ _ Q A); subst x; clear Q end.
  destruct i; cbn [dispatch] in H; cbn beta iota in B; try (destruct B; fail).
  - destruct B as [B3 B5]. unfold process_create in H. rinv H. same A.
    assert (O5 := opt_pays _ _ _ _ _ B5 Hx4). assert (O3 := opt_no _ _ _ _ B3 Hx2). subst x2. apply Ok_inj in H. subst w'.
    assert (T1 : tally k p w x6).
    { destruct (zlen (data (w k)) =? 0); [eapply tl_alloc_create; eauto|]. rinv Hx6. apply tl_refl. }
    assert (T2 : tally k p x6 x7) by (destruct (m_exts m); [eapply tl_allocate_all; eauto|apply Ok_inj in Hx7; subst; apply tl_refl]).
    eapply tl_trans; [exact T1|]. eapply tl_trans; [exact T2|]. eapply tl_set; eauto.
  - unfold process_approve in H. rinv H. same A. eapply tl_set; eauto.
  - unfold process_allocate in H. rinv H. same A. eapply tl_do_allocate; [exact N| |exact H]. eapply opt_pays; eauto.
  - unfold process_lock, process_set_state in H. rinv H. same A. eapply tl_set; eauto.
  - unfold process_revoke in H. rinv H. same A. eapply tl_set; eauto.
  - unfold process_transfer in H. rinv H. same A. match type of H with (if ?c then _ else _) = _ => destruct c end; [apply Ok_inj in H; subst; apply tl_refl|]. rinv H. eapply tl_set; eauto.
  - unfold process_unlock, process_set_state in H. rinv H. same A. eapply tl_set; eauto.
  - unfold process_unverify, process_set_verified in H. rinv H. match type of H with context [match ?r with _ => _ end] => destruct r as [[? ?]|]; rinv H end. same A. eapply tl_set; eauto.
  - destruct B as [B2 B4]. unfold process_update, check_authority in H. rinv H. same A.
    assert (O4 := opt_pays _ _ _ _ _ B4 Hx3). assert (O2 := opt_no _ _ _ _ B2 Hx1). subst x1.
    assert (T1 : tally k p w x5) by (eapply tl_set; eauto).
    destruct (u_ext u) as [xx|]; [|apply Ok_inj in H; now subst]. unfold update_ext in H. rinv H. destruct x1 as [off found]. rinv H. destruct x1 as [[n src] w2]. rinv H.
    match goal with Q : update_source _ _ _ _ _ _ _ _ _ _ = _ |- _ => apply tl_update_source with (p := p) in Q; [|reflexivity] end.
    match goal with Q : update_room _ _ _ _ _ _ _ _ _ _ = _ |- _ => apply tl_update_room with (p := p) in Q; [|assumption|assumption] end.
    unfold update_finish in H. cbv zeta in H. rinv H. eapply tl_trans; [exact T1|]. eapply tl_trans; [eassumption|]. eapply tl_trans; [eassumption|]. eapply tl_set; eauto.
  - unfold process_verify, process_set_verified in H. rinv H. match type of H with context [match ?r with _ => _ end] => destruct r as [[? ?]|]; rinv H end. same A. eapply tl_set; eauto.
  - unfold process_write in H. rinv H. same A. apply (proj1 (acct_arg infos _ _)) in Hx0. pose proof (arg_det _ _ _ _ Hx0 B). subst x0.
    match type of H with context [match ?r with _ => _ end] => destruct r as [[? ?]|]; rinv H end.
    eapply tl_trans; [eapply tl_resize; [exact N| |eassumption]; intros q Q; injection Q as <-; reflexivity|]. eapply tl_trans; [eapply tl_set; eauto|].
    match type of H with (if ?c then _ else _) = _ => destruct c end; [apply Ok_inj in H; subst; apply tl_refl|]. rinv H.
    match type of H with context [match ?r with _ => _ end] => destruct r as [[? ?]|]; rinv H end. eapply tl_set; eauto.
  - unfold process_handover, check_authority in H. rinv H. same A. eapply tl_set; eauto.
  - unfold process_remove, check_authority in H. rinv H. same A. apply (proj1 (acct_arg infos _ _)) in Hx2. pose proof (arg_det _ _ _ _ Hx2 B). subst x2.
    match type of H with context [match ?r with _ => _ end] => destruct r as [[? ?]|]; rinv H end.
    eapply tl_trans; [eapply tl_set; eauto|]. eapply tl_resize; [exact N| |exact H]. intros q Q; injection Q as <-; reflexivity.
  - unfold process_resize, check_authority in H. rinv H. same A. apply (proj1 (acct_arg infos _ _)) in Hx1. pose proof (arg_det _ _ _ _ Hx1 B). subst x1.
    eapply tl_resize; [exact N| |exact H]. intros q Q; injection Q as <-; reflexivity.
Qed.

(** ** Give and take back an account *)
Lemma works_tally pr k p w w1 : pr <> pk_zero -> p <> k -> works pr k p w w1 -> lam_ok w -> lam_ok w1 /\ tally k p w w1.
Proof.
  intros Hp N H Hl. induction H as [w|w w1 e infos i w2 H IH E He HA HI]; [split; [assumption|apply tl_refl]|].
  destruct (IH Hl) as [A B]. split; [eapply lam_ok_preserved; eauto; congruence|]. eapply tl_trans; [exact B|]. eapply process_tally; eauto.
Qed.
Lemma acct_eq (a b : account) : lamports a = lamports b -> acct_owner a = acct_owner b -> data a = data b -> a = b.
Proof. destruct a, b. cbn. now intros -> -> ->. Qed.
Lemma vacant_eq w k : vacant w k -> w k = mkAcct 0 pk_zero [].
Proof. intros (A & B & C). now apply acct_eq. Qed.
Lemma no_cost pr k p e infos w w1 w2 : pr <> pk_zero -> p <> k -> lam_ok w -> vacant w k -> works pr k p w w1 ->
  given_back e infos w1 w2 k p -> unchanged w w2.
Proof.
  intros Hp N Hl HV H [A B]. destruct (works_tally _ _ _ _ _ Hp N H Hl) as [L1 (T1 & T2 & T3 & T4)]. pose proof (vacant_eq _ _ HV) as V.
  assert (V0 : lamports (w k) = 0) by (rewrite V; reflexivity). intro x.
  destruct B as [(HB & G & D)|[HC A1]].
  - apply burn_effect in HB as (a & s & dest & B0 & B1 & B2 & B3 & B4 & B5 & B6 & B7 & B8 & _); [|assumption].
    pose proof (arg_det _ _ _ _ B0 A); subst a.
    assert (dest = p).
    { destruct D as [[D1 D2]|[D1 D2]], B2 as [[C1 ->]|[C1 C2]].
      - exfalso. apply D2. eapply arg_det; eauto.
      - eapply arg_det; eauto.
      - eapply arg_det; eauto.
      - exfalso. apply C2. eapply arg_det; eauto. }
    subst dest. destruct (pk_dec x k) as [->|Nk]; [congruence|].
    assert (Q : data (w2 x) = data (w1 x)) by (apply B8; [assumption|right; exact G]).
    destruct (pk_dec x p) as [->|Np].
    + apply acct_eq; [lia| |congruence]. rewrite B7 by assumption. exact T2.
    + rewrite <- T1 by assumption. apply acct_eq; [now apply B6|now apply B7|exact Q].
  - apply close_effect in HC as (a & r & B0 & B1 & B2 & _ & _ & _ & B3 & B4 & B5); [|assumption].
    pose proof (arg_det _ _ _ _ B0 A); subst a. pose proof (arg_det _ _ _ _ B1 A1); subst r.
    destruct (pk_dec x k) as [->|Nk]; [congruence|]. destruct (pk_dec x p) as [->|Np].
    + rewrite B4. apply acct_eq; cbn [lamports acct_owner data]; [lia|exact T2|exact T3].
    + rewrite B5, T1 by assumption. reflexivity.
Qed.

(** ** Requests and their opposites *)
Lemma nth_sub d o n i : (i < n)%nat -> nth i (sub d o n) x00 = nth (o + i) d x00.
Proof.
  intro H. unfold sub. rewrite nth_firstn_lt by lia. now rewrite nth_skipn.
Qed.
Lemma back d d1 d2 o n : same_except d d1 o n -> same_except d1 d2 o n -> sub d2 o n = sub d o n -> d2 = d.
Proof.
  intros [L1 S1] [L2 S2] E. apply list_eq_nth; [congruence|]. intros i _.
  destruct (Nat.lt_ge_cases i o) as [A|A]; [rewrite S2, S1 by lia; reflexivity|].
  destruct (Nat.lt_ge_cases i (o + n)) as [B|B]; [|rewrite S2, S1 by lia; reflexivity].
  apply (f_equal (fun l => nth (i - o) l x00)) in E. rewrite !nth_sub in E by lia. replace (o + (i - o))%nat with i in E by lia. exact E.
Qed.
Lemma only_back w w1 w2 k : only_data w w1 k -> only_data w1 w2 k -> data (w2 k) = data (w k) -> unchanged w w2.
Proof.
  intros (A1 & A2 & A3) (B1 & B2 & B3) D x. destruct (pk_dec x k) as [->|N]; [apply acct_eq; congruence|]. rewrite B1, A1 by assumption. reflexivity.
Qed.
Lemma byte_sub d o : (o < length d)%nat -> sub d o 1 = [nth o d x00].
Proof.
  intro H. apply list_eq_nth; [unfold sub; rewrite firstn_length, skipn_length; cbn [length]; lia|].
  intros i Hi. unfold sub in Hi. rewrite firstn_length in Hi. destruct i; [|lia]. rewrite nth_sub by lia. now rewrite Nat.add_0_r.
Qed.
Lemma lock_unlock e1 e2 infos1 infos2 w w1 w2 k : arg infos1 0 k -> arg infos2 0 k -> s_state (data (w k)) = x00 -> initialized (data (w k)) ->
  process e1 infos1 w ILock = Ok w1 -> process e2 infos2 w1 IUnlock = Ok w2 -> unchanged w w2.
Proof.
  intros A1 A2 S [I _] H1 H2. apply lock_effect in H1 as (a & B1 & O1 & S1 & _). apply unlock_effect in H2 as (a2 & B2 & O2 & S2 & E2).
  pose proof (arg_det _ _ _ _ B1 A1); subst a. pose proof (arg_det _ _ _ _ B2 A2); subst a2.
  eapply only_back; eauto. eapply back; eauto. pose proof (proj1 S1). pose proof (proj1 S2).
  rewrite !byte_sub by lia. unfold s_state in *. congruence.
Qed.
Lemma handover_back e1 e2 infos1 infos2 w w1 w2 k old : arg infos1 0 k -> arg infos2 0 k -> arg infos1 1 old -> arg infos2 2 old ->
  process e1 infos1 w IHandover = Ok w1 -> process e2 infos2 w1 IHandover = Ok w2 -> unchanged w w2.
Proof.
  intros A1 A2 N1 N2 H1 H2. apply handover_effect in H1 as (a & o & n & B1 & C1 & _ & _ & _ & _ & _ & K1 & O1 & S1 & _).
  apply handover_effect in H2 as (a2 & o2 & n2 & B2 & _ & D2 & _ & _ & _ & _ & _ & O2 & S2 & E2).
  pose proof (arg_det _ _ _ _ B1 A1); subst a. pose proof (arg_det _ _ _ _ B2 A2); subst a2.
  pose proof (arg_det _ _ _ _ C1 N1); subst o. pose proof (arg_det _ _ _ _ D2 N2); subst n2.
  eapply only_back; eauto. eapply back; eauto. unfold s_authority in *. congruence.
Qed.
Lemma sub_33 d : (133 <= length d)%nat -> sub d 100 33 = s_delegate d ++ [s_roles d].
Proof.
  intro H. unfold s_delegate, s_roles. apply list_eq_nth; [unfold sub; rewrite app_length, !firstn_length, !skipn_length; cbn [length]; lia|].
  intros i Hi. unfold sub in Hi. rewrite firstn_length in Hi. rewrite nth_sub by lia.
  assert (L : length (sub d 100 32) = 32%nat) by (unfold sub; rewrite firstn_length, skipn_length; lia).
  destruct (Nat.lt_ge_cases i 32); [rewrite app_nth1 by lia; now rewrite nth_sub|]. assert (i = 32%nat) by lia. subst i. rewrite app_nth2, L by lia. reflexivity.
Qed.
Lemma approve_revoke e1 e2 infos1 infos2 w w1 w2 k x : arg infos1 0 k -> arg infos2 0 k -> s_delegate (data (w k)) = no_key -> s_roles (data (w k)) = x00 ->
  process e1 infos1 w (IApprove x) = Ok w1 -> process e2 infos2 w1 (IRevoke DAll) = Ok w2 ->
  (exists del, arg infos1 2 del /\ pk_bytes del <> no_key) -> unchanged w w2.
Proof.
  intros A1 A2 K R H1 H2 (del & D1 & D2). apply approve_effect in H1 as (a & o & d & B1 & _ & C1 & _ & I & _ & O1 & S1 & E1 & _).
  apply revoke_effect in H2 as (a2 & s & B2 & _ & _ & I2 & _ & O2 & S2 & _ & E2).
  pose proof (arg_det _ _ _ _ B1 A1); subst a. pose proof (arg_det _ _ _ _ B2 A2); subst a2. pose proof (arg_det _ _ _ _ C1 D1); subst d.
  assert (NK : s_delegate (data (w1 k)) <> no_key) by congruence. destruct (E2 NK) as (F1 & _ & _ & F4).
  specialize (F4 eq_refl). assert (F2 : s_roles (data (w2 k)) = x00) by (destruct F1 as [F1|[_ F1]]; [congruence|exact F1]).
  eapply only_back; eauto. eapply back; eauto. destruct I as [I _]. pose proof (proj1 S1). pose proof (proj1 S2).
  rewrite !sub_33 by lia. congruence.
Qed.
Lemma transfer_back e1 e2 infos1 infos2 w w1 w2 k old : arg infos1 0 k -> arg infos2 0 k -> arg infos2 2 old -> s_owner (data (w k)) = pk_bytes old ->
  initialized (data (w k)) -> s_delegate (data (w k)) = no_key -> s_roles (data (w k)) = x00 ->
  process e1 infos1 w ITransfer = Ok w1 -> process e2 infos2 w1 ITransfer = Ok w2 -> unchanged w w2.
Proof.
  intros A1 A2 N2 O I K R H1 H2. destruct I as [I _]. apply transfer_effect in H1 as (a & r & B1 & C1 & H1). apply transfer_effect in H2 as (a2 & r2 & B2 & C2 & H2).
  pose proof (arg_det _ _ _ _ B1 A1); subst a. pose proof (arg_det _ _ _ _ B2 A2); subst a2. pose proof (arg_det _ _ _ _ C2 N2); subst r2.
  destruct H1 as [[P1 H1]|(P1 & O1 & L1 & E1 & Z1 & F1)].
  - destruct H2 as [[P2 H2]|(P2 & _)]; [intro x; rewrite H2; apply H1|]. destruct P2. rewrite H1. exact O.
  - destruct H2 as [[P2 H2]|(P2 & O2 & L2 & E2 & Z2 & F2)].
    + exfalso. apply P1. rewrite O, <- P2. exact E1.
    + eapply only_back; eauto. apply list_eq_nth; [congruence|]. intros i _.
      assert (C : (i < 4 \/ 36 <= i < 100 \/ 133 <= i)%nat \/ (4 <= i < 36)%nat \/ (100 <= i < 133)%nat) by lia. destruct C as [C|[C|C]].
      * rewrite F2, F1 by assumption. reflexivity.
      * assert (Q : s_owner (data (w2 k)) = s_owner (data (w k))) by congruence. unfold s_owner in Q.
        apply (f_equal (fun l => nth (i - 4) l x00)) in Q. rewrite !nth_sub in Q by lia. replace (4 + (i - 4))%nat with i in Q by lia. exact Q.
      * assert (Q : sub (data (w2 k)) 100 33 = sub (data (w k)) 100 33) by (rewrite Z2, sub_33, K, R by lia; reflexivity).
        apply (f_equal (fun l => nth (i - 100) l x00)) in Q. rewrite !nth_sub in Q by lia. replace (100 + (i - 100))%nat with i in Q by lia. exact Q.
Qed.

(** ** Group and Ungroup, Verify and Unverify *)
Lemma has_ext_after d l t off b b' : well_formed d l -> t <> XNone -> has_ext d t off b -> length b' = length b -> has_ext (put d off b') t off b'.
Proof.
  intros (hd & tl & HL) Ht HE Hb. destruct (has_ext_block _ _ _ _ _ _ _ HL Ht HE) as (l1 & k & l2 & -> & Hk & <- & -> & Hf).
  pose proof (layout_put _ _ _ _ _ _ 0 b' HL ltac:(lia) ltac:(unfold zlen in *; lia)) as L. rewrite Z.add_0_r in L.
  assert (E : put (bk_data k) 0 b' = b') by (unfold put; cbn [Z.to_nat firstn app Nat.add]; rewrite Hb, skipn_all; apply app_nil_r). rewrite E in L.
  apply block_has_ext in L; [|rewrite <- Hk in Hf; exact Hf]. cbn [with_data bk_type bk_data] in L. rewrite Hk in L. exact L.
Qed.
Lemma same_put d d' o n : same_except d d' (Z.to_nat o) n -> 0 <= o -> o + Z.of_nat n <= zlen d -> d' = put d o (sub d' (Z.to_nat o) n).
Proof.
  intros [L S] Ho Hn. unfold zlen in *. unfold put.
  assert (L2 : length (sub d' (Z.to_nat o) n) = n) by (unfold sub; rewrite firstn_length, skipn_length; lia).
  apply list_eq_nth; [rewrite !app_length, firstn_length, skipn_length, L2; lia|]. intros i Hi.
  destruct (Nat.lt_ge_cases i (Z.to_nat o)) as [A|A].
  { rewrite app_nth1 by (rewrite firstn_length; lia). rewrite nth_firstn_lt by lia. apply S. lia. }
  rewrite app_nth2 by (rewrite firstn_length; lia). rewrite firstn_length_le by lia.
  destruct (Nat.lt_ge_cases i (Z.to_nat o + n)) as [B|B].
  - rewrite app_nth1 by lia. rewrite nth_sub by lia. f_equal. lia.
  - rewrite app_nth2 by lia. rewrite L2, nth_skipn, S by lia. f_equal. lia.
Qed.
Lemma sub_sub d o n i m : (i + m <= n)%nat -> sub (sub d o n) i m = sub d (o + i) m.
Proof.
  intro H. unfold sub. rewrite skipn_firstn_comm, skipn_skipn, firstn_firstn. rewrite Nat.min_l by lia. do 2 f_equal.
Qed.
Lemma group_long e infos w w' g off b : sized w -> process e infos w IGroup = Ok w' -> arg infos 1 g -> has_ext (data (w g)) XGrouping off b -> (16 <= length b)%nat.
Proof.
  intros Hs H A HE. apply process_dispatch in H. cbn [dispatch] in H. unfold process_group in H.
  apply bind_ok in H as (asset & A0 & H). apply bind_ok in H as (group & A1 & H). apply bind_ok in H as (auth & A2 & H). apply acct_arg in A1.
  pose proof (arg_det _ _ _ _ A1 A). subst group.
  apply do_group_inv in H as (_ & _ & _ & _ & _ & _ & _ & _ & off' & b' & HE' & Hb & _); [|assumption]. destruct (has_ext_det _ _ _ _ _ _ HE HE') as [_ ->]. lia.
Qed.
Lemma group_ungroup e1 e2 infos1 infos2 w w1 w2 k g l : sized w -> arg infos1 0 k -> arg infos2 0 k -> arg infos1 1 g -> arg infos2 1 g ->
  well_formed (data (w g)) l -> process e1 infos1 w IGroup = Ok w1 -> process e2 infos2 w1 IUngroup = Ok w2 -> unchanged w w2.
Proof.
  intros Hs A1 A2 G1 G2 HW H1 H2.
  pose proof H1 as H0. apply group_effect in H1 as (a & g' & s & off & b & B1 & C1 & _ & _ & N & _ & _ & I1 & I2 & K & _ & HE & _ & _ & F1 & M1 & S1 & _ & T1 & V1); [|assumption].
  assert (Hs1 : sized w1).
  { intro x. unfold zlen. destruct (pk_dec x a) as [->|Na]; [rewrite (proj1 S1); apply Hs|].
    destruct (pk_dec x g') as [->|Ng]; [rewrite (proj1 T1); apply Hs|rewrite F1 by assumption; apply Hs]. }
  apply ungroup_effect in H2 as (a2 & g2 & s2 & off2 & b2 & B2 & C2 & _ & _ & _ & _ & _ & _ & _ & _ & HE2 & _ & F2 & M2 & S2 & K2 & T2 & V2 & _ & _ & LB2); [|assumption].
  pose proof (arg_det _ _ _ _ B1 A1); subst a. pose proof (arg_det _ _ _ _ B2 A2); subst a2. pose proof (arg_det _ _ _ _ C1 G1); subst g'. pose proof (arg_det _ _ _ _ C2 G2); subst g2.
  destruct (has_ext_range _ _ _ _ HE) as [R1 R2]. destruct (has_ext_range _ _ _ _ HE2) as [R3 R4].
  pose proof (group_long _ _ _ _ _ _ _ Hs H0 G1 HE) as LB.
  assert (P1 : data (w1 g) = put (data (w g)) off (sub (data (w1 g)) (Z.to_nat off) 8)) by (apply same_put; [exact T1|lia|unfold zlen in *; lia]).
  assert (P2 : exists b1, length b1 = length b /\ data (w1 g) = put (data (w g)) off b1).
  { exists (sub (data (w1 g)) (Z.to_nat off) (length b)). destruct T1 as [TL TS]. split; [unfold sub; rewrite firstn_length, skipn_length; unfold zlen in *; lia|].
    apply same_put; [split; [exact TL|intros i Hi; apply TS; lia]|lia|unfold zlen in *; lia]. }
  destruct P2 as (b1 & LB1 & P2). pose proof (has_ext_after _ _ XGrouping _ _ b1 HW ltac:(discriminate) HE LB1) as HE1. rewrite <- P2 in HE1.
  destruct (has_ext_det _ _ _ _ _ _ HE2 HE1) as [-> ->]. clear P1.
  assert (X1 : b = sub (data (w g)) (Z.to_nat off) (length b)) by (destruct HE as (? & _ & _ & _ & _ & Q); exact Q).
  assert (X2 : b1 = sub (data (w1 g)) (Z.to_nat off) (length b1)) by (destruct HE1 as (? & _ & _ & _ & _ & Q); exact Q).
  assert (Y1 : gr_size b = le_dec (sub (data (w g)) (Z.to_nat off) 8)) by (unfold gr_size; rewrite X1, sub_sub, Nat.add_0_r by lia; reflexivity).
  assert (Y2 : gr_size b1 = le_dec (sub (data (w1 g)) (Z.to_nat off) 8)) by (unfold gr_size; rewrite X2, sub_sub, Nat.add_0_r by lia; reflexivity).
  assert (L8 : forall d, off + zlen b <= zlen d -> length (sub d (Z.to_nat off) 8) = 8%nat) by (intros d Q; unfold sub; rewrite firstn_length, skipn_length; unfold zlen in *; lia).
  pose proof (proj1 T1) as TL1. pose proof (proj1 T2) as TL2.
  assert (B8 : 0 <= gr_size b < two64) by (rewrite Y1; pose proof (le_dec_range (sub (data (w g)) (Z.to_nat off) 8)) as Q; unfold zlen in Q; rewrite L8 in Q by assumption; exact Q).
  assert (E8 : sub (data (w2 g)) (Z.to_nat off) 8 = sub (data (w g)) (Z.to_nat off) 8).
  { rewrite <- (le_enc_dec (sub (data (w2 g)) _ _)), <- (le_enc_dec (sub (data (w g)) _ _)). rewrite !L8 by (unfold zlen in *; lia). f_equal.
    rewrite V2, Y2, V1, <- Y1. unfold two64 in *. rewrite Zminus_mod_idemp_l. replace (gr_size b + 1 - 1) with (gr_size b) by lia. apply Z.mod_small. exact B8. }
  intro x. destruct (pk_dec x k) as [->|Nk].
  - apply acct_eq; [rewrite (proj1 (M2 k)); apply M1|rewrite (proj2 (M2 k)); apply M1|]. eapply back; eauto. unfold s_group in *. congruence.
  - destruct (pk_dec x g) as [->|Ng]; [|rewrite F2, F1 by assumption; reflexivity].
    apply acct_eq; [rewrite (proj1 (M2 g)); apply M1|rewrite (proj2 (M2 g)); apply M1|]. eapply back; eauto.
Qed.
Lemma flags_back c b b1 b2 : set_flags true c b b1 -> set_flags false c b1 b2 ->
  (forall i, (i < cr_count b)%nat -> cr_addr_at b i = c -> cr_flag_at b i = x00) -> b2 = b.
Proof.
  intros (L1 & N1 & E1 & F1) S2 Z0. pose proof S2 as (L2 & N2 & _ & F2). assert (C : cr_count b1 = cr_count b) by (unfold cr_count; now rewrite L1).
  symmetry. apply (flags_det false c b1); [|exact S2].
  split; [congruence|]. split; [assumption|]. split.
  - destruct E1 as (i & Hi & Ei). exists i. rewrite C. split; [assumption|]. rewrite <- Ei. apply (F1 i Hi).
  - intros i Hi. rewrite C in Hi. destruct (F1 i Hi) as (A & S & G & G'). rewrite A, S. split; [reflexivity|]. split; [reflexivity|]. split.
    + intro Q. apply Z0; assumption.
    + intro Q. symmetry. now apply G'.
Qed.
Lemma verify_unverify e1 e2 infos1 infos2 w w1 w2 k cr l b : arg infos1 0 k -> arg infos2 0 k -> arg infos1 1 cr -> arg infos2 1 cr ->
  well_formed (data (w k)) l -> lookup XCreators (ext_list l) = Some b ->
  (forall i, (i < cr_count b)%nat -> cr_addr_at b i = pk_bytes cr -> cr_flag_at b i = x00) ->
  process e1 infos1 w IVerify = Ok w1 -> process e2 infos2 w1 IUnverify = Ok w2 -> unchanged w w2.
Proof.
  intros A1 A2 C1 C2 HW HB HZ H1 H2. apply (verify_effect true) in H1 as (a & c & off & b0 & b1 & B1 & D1 & _ & _ & HE & S1 & P1 & F1 & M1).
  apply (verify_effect false) in H2 as (a2 & c2 & off2 & b1' & b2 & B2 & D2 & _ & _ & HE2 & S2 & P2 & F2 & M2).
  pose proof (arg_det _ _ _ _ B1 A1); subst a. pose proof (arg_det _ _ _ _ B2 A2); subst a2. pose proof (arg_det _ _ _ _ D1 C1); subst c. pose proof (arg_det _ _ _ _ D2 C2); subst c2.
  assert (b0 = b). { destruct HW as (hd & tl & HL). pose proof (has_ext_lookup _ _ _ _ XCreators _ _ HL ltac:(discriminate) HE). congruence. } subst b0.
  pose proof (has_ext_after _ _ XCreators _ _ b1 HW ltac:(discriminate) HE (proj1 S1)) as HE1. rewrite <- P1 in HE1.
  destruct (has_ext_det _ _ _ _ _ _ HE2 HE1) as [-> ->].
  assert (b2 = b) by (eapply flags_back; eauto). subst b2. destruct (has_ext_range _ _ _ _ HE) as [R1 R2].
  assert (D : data (w2 k) = data (w k)).
  { rewrite P2, P1, put_put; [|lia|unfold zlen; now rewrite (proj1 S1)|assumption].
    destruct HE as (? & _ & _ & _ & _ & Q). symmetry. etransitivity; [|exact (f_equal (put (data (w k)) off) (eq_sym Q))]. apply same_put; [apply same_except_refl|lia|unfold zlen in *; lia]. }
  intro x. destruct (pk_dec x k) as [->|Nk]; [|rewrite F2, F1 by assumption; reflexivity].
  apply acct_eq; [rewrite (proj1 (M2 k)); apply M1|rewrite (proj2 (M2 k)); apply M1|exact D].
Qed.

(** ** Who locked can unlock *)
Lemma lock_live e infos w w1 k s l : arg infos 0 k -> arg infos 1 s -> well_formed (data (w k)) l ->
  (forall b, lookup XManager (ext_list l) = Some b -> (33 <= length b)%nat) -> plain_accounts e infos w -> sized w ->
  acct_owner (w k) = e_prog e -> initialized (data (w k)) -> writable infos k ->
  process e infos w ILock = Ok w1 -> exists w2, process e infos w1 IUnlock = Ok w2.
Proof.
  intros A0 A1 (hd & tl & HL) HM HP Hs Ow I W H. pose proof H as H0. apply lock_effect in H0 as (a & B0 & O & S & E). pose proof (arg_det _ _ _ _ B0 A0). subst a.
  destruct (proj1 (lock_exact e infos w k s l A0 A1 Ow I (ex_intro _ hd (ex_intro _ tl HL)) HM W HP Hs) (ex_intro _ _ H)) as (Sg & M & NL & ST).
  pose proof (proj1 S) as L1. destruct O as (O1 & O2 & O3). destruct I as [I1 I2].
  assert (F : forall o n, (2 <= o)%nat -> sub (data (w1 k)) o n = sub (data (w k)) o n) by (intros o n Q; eapply same_except_sub; [exact S|lia]).
  assert (L : well_formed (data (w1 k)) l).
  { exists (put hd 1 (sub (data (w1 k)) 1 1)), tl. assert (Q : data (w1 k) = put (data (w k)) 1 (sub (data (w1 k)) 1 1)) by (apply (same_put _ _ 1 1 S); unfold zlen; lia).
    rewrite Q at 1. apply layout_head; [exact HL|lia|]. unfold zlen, sub. rewrite firstn_length, skipn_length. lia. }
  assert (N : forall i, i <> 1%nat -> nth i (data (w1 k)) x00 = nth i (data (w k)) x00) by (intros i Q; apply (proj2 S); lia).
  apply (unlock_exact e infos w1 k s l A0 A1); try assumption.
  - congruence.
  - split; [lia|]. unfold s_disc in *. rewrite N by lia. exact I2.
  - intros x Hx Hp. destruct (pk_dec (ai_key x) k) as [Q|Q]; [right; rewrite Q; lia|]. rewrite O1 in * by assumption. now apply HP.
  - intro x. destruct (pk_dec x k) as [->|Q]; [unfold zlen; rewrite L1; apply Hs|rewrite O1 by assumption; apply Hs].
  - split; [assumption|]. split.
    + unfold may_lock, delegate_is, s_delegate, s_owner, s_roles, has_role in *. rewrite !F, ?N by lia. exact M.
    + unfold s_standard in *. rewrite N by lia. exact ST.
Qed.

(** ** Extend and Trim *)
Lemma extend_trim_money e infos1 infos2 w w1 w2 k p l v : arg infos1 0 k -> arg infos2 0 k -> arg infos1 2 p -> arg infos2 2 p -> p <> k -> 0 < v <= 65535 ->
  env_ok e -> rent_mono e -> e_prog e <> pk_zero -> lam_ok w -> sized w -> tight (data (w k)) l ->
  paid_by (e_rent e) (e_prog e) w -> lamports (w k) = e_rent e (zlen (data (w k))) ->
  process e infos1 w (IResize (Extend v)) = Ok w1 -> process e infos2 w1 (IResize Trim) = Ok w2 -> unchanged w w2.
Proof.
  intros A1 A2 P1 P2 N Hv He Hm Hp Hl Hs HT HR HE H1 H2.
  assert (D : data (w2 k) = data (w k)).
  { eapply (ResizeL.extend_trim e infos1 e infos2 w w2 k l v); eauto; [lia|]. cbn [Spec.steps]. rewrite H1. cbn [bind]. rewrite H2. reflexivity. }
  assert (T1 : tally k p w w1) by (exact (process_tally e infos1 w (IResize (Extend v)) w1 k p N (conj A1 P1) H1)).
  assert (T2 : tally k p w1 w2) by (exact (process_tally e infos2 w1 (IResize Trim) w2 k p N (conj A2 P2) H2)).
  pose proof (ResizeL.extend_bytes _ _ _ _ _ _ A1 (Z.lt_le_incl _ _ (proj1 Hv)) H1) as D1.
  assert (R1 : paid_by (e_rent e) (e_prog e) w1) by (eapply process_paid; eauto).
  destruct (process_sweep _ _ _ _ _ k p Hm R1 A2 N (or_intror (ex_intro _ Trim (conj eq_refl P2))) H2) as [Q _].
  { rewrite D, D1. destruct HT as (hd & HL). pose proof (layout_len _ _ _ _ HL) as LL. pose proof (sect_size_nonneg l). unfold zlen in *. rewrite app_length, repeat_length. cbn [length] in *. lia. }
  pose proof (tl_trans _ _ _ _ _ T1 T2) as (U1 & U2 & U3 & U4). intro x. destruct (pk_dec x k) as [->|Nk].
  - apply acct_eq; [rewrite Q, D; congruence| |exact D].
    apply ResizeL.resize_instr_inv in H1 as (a1 & b1 & _ & _ & _ & _ & _ & _ & _ & _ & G1 & _). apply ResizeL.resize_instr_inv in H2 as (a2 & b2 & _ & _ & _ & _ & _ & _ & _ & _ & G2 & _).
    rewrite G2. apply G1.
  - destruct (pk_dec x p) as [->|Np]; [|now apply U1]. apply acct_eq; [rewrite Q, D in U4; lia|exact U2|exact U3].
Qed.

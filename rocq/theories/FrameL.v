(** Frame and conservation facts for every instruction (C16, C17). *)
From Verif Require Import Base State Layout Constr Ext World Proc BaseL Spec WorldL ProcSteps.

Lemma total_upd_out ks w k a : ~ In k ks -> total ks (upd w k a) = total ks w.
Proof.
  induction ks as [|x ks IH]; cbn [total In]; intro H; [reflexivity|].
  rewrite upd_other by tauto. rewrite IH by tauto. reflexivity.
Qed.
Lemma total_upd_in ks w k a : NoDup ks -> In k ks ->
  total ks (upd w k a) = total ks w - lamports (w k) + lamports a.
Proof.
  induction ks as [|x ks IH]; cbn [total In]; intros Hn Hi; [tauto|]. inv Hn.
  destruct Hi as [->|Hi].
  - rewrite upd_same, total_upd_out by assumption. lia.
  - rewrite upd_other by (intros ->; tauto). rewrite IH by assumption. lia.
Qed.

Lemma pstep_total e infos w w' ks : NoDup ks -> (forall a, In a infos -> In (ai_key a) ks) ->
  pstep e infos w w' -> total ks w' = total ks w.
Proof.
  intros Hn Hin H.
  assert (Hw : forall k, is_writable infos k = true -> In k ks).
  { intros k Hk. apply is_writable_spec in Hk as (a & Ha & <- & _). auto. }
  destruct H.
  - rewrite total_upd_in by auto. cbn. lia.
  - rewrite total_upd_in by auto. rewrite upd_other by congruence.
    rewrite total_upd_in by auto. cbn. lia.
  - rewrite total_upd_in by auto. cbn. lia.
  - rewrite total_upd_in by auto. cbn. lia.
Qed.
Lemma psteps_total e infos w w' ks : NoDup ks -> (forall a, In a infos -> In (ai_key a) ks) ->
  psteps e infos w w' -> total ks w' = total ks w.
Proof.
  intros Hn Hi. induction 1; [reflexivity|].
  rewrite IHpsteps. eapply pstep_total; eauto.
Qed.

(** Combined description of what steps can do to one account. *)
Definition acc_rel (e : env) (infos : list ainfo) (k : pubkey) (a b : account) : Prop :=
  (* untouched *)
  a = b \/
  (is_writable infos k = true /\
   (* program-owned accounts may change *)
   (acct_owner a = e_prog e \/
    (* an empty system account that signed may become a program account *)
    (is_signer infos k = true /\ acct_owner a = pk_zero /\ data a = []) \/
    (* anybody else only changes balance, and pays only when signing *)
    (acct_owner b = acct_owner a /\ data b = data a /\
     (lamports a <= lamports b \/ is_signer infos k = true)))).

Lemma acc_rel_trans e infos k a b c :
  acc_rel e infos k a b -> acc_rel e infos k b c -> acc_rel e infos k a c.
Proof.
  unfold acc_rel. intros [->|[Hw1 H1]]; [tauto|]. intros [<-|[Hw2 H2]]; [tauto|].
  right. split; [assumption|].
  destruct H1 as [H1|[H1|(H1a & H1b & H1c)]]; [tauto|tauto|].
  destruct H2 as [H2|[H2|(H2a & H2b & H2c)]].
  - left. congruence.
  - right; left. intuition congruence.
  - right; right. split; [congruence|]. split; [congruence|]. destruct H1c, H2c; auto. left; lia.
Qed.
Lemma pstep_acc e infos w w' k : pstep e infos w w' -> acc_rel e infos k (w k) (w' k).
Proof.
  intros H. unfold acc_rel. destruct H as [w k0 d Hw Ho|w src dst amt Hws Hwd Hne Ha Hlt Hs|w k0 sp Hw Hsg Ho Hd Hl|w k0 Hw Ho].
  - destruct (pk_dec k k0) as [->|Hk]; [rewrite upd_same; cbn; tauto|rewrite upd_other by assumption; tauto].
  - destruct (pk_dec k dst) as [->|Hk]; [rewrite upd_same; cbn|rewrite upd_other by assumption].
    + right. split; [assumption|]. right; right. repeat split. left. lia.
    + destruct (pk_dec k src) as [->|Hk2]; [rewrite upd_same; cbn|rewrite upd_other by assumption; tauto].
      right. split; [assumption|]. destruct Hs as [Hs|Hs]; [tauto|]. right; right. repeat split. now right.
  - destruct (pk_dec k k0) as [->|Hk]; [rewrite upd_same; cbn; tauto|rewrite upd_other by assumption; tauto].
  - destruct (pk_dec k k0) as [->|Hk]; [rewrite upd_same; cbn; tauto|rewrite upd_other by assumption; tauto].
Qed.
Lemma psteps_acc e infos w w' k : psteps e infos w w' -> acc_rel e infos k (w k) (w' k).
Proof.
  induction 1; [now left|]. eapply acc_rel_trans; [eapply pstep_acc; eauto|assumption].
Qed.

Lemma writable_spec infos k : is_writable (passed infos) k = true <-> writable infos k.
Proof. apply is_writable_spec. Qed.
Lemma signed_spec infos k : is_signer (passed infos) k = true <-> signed infos k.
Proof. apply is_signer_spec. Qed.

(** C17 *)
Lemma frame_untouched e infos w i w' k : env_ok e -> e_prog e <> pk_zero -> lam_ok w ->
  process e infos w i = Ok w' -> ~ writable infos k -> w' k = w k.
Proof.
  intros He Hp Hl H Hw. apply process_psteps in H; try assumption.
  apply psteps_acc with (k := k) in H as [H|[H _]]; [congruence|].
  apply writable_spec in H. contradiction.
Qed.
Lemma frame_data e infos w i w' k : env_ok e -> e_prog e <> pk_zero -> lam_ok w ->
  process e infos w i = Ok w' -> data (w' k) <> data (w k) ->
  writable infos k /\
  (acct_owner (w k) = e_prog e \/ (signed infos k /\ acct_owner (w k) = pk_zero /\ data (w k) = [])).
Proof.
  intros He Hp Hl H Hd. apply process_psteps in H; try assumption.
  apply psteps_acc with (k := k) in H as [H|[H H2]]; [congruence|].
  apply writable_spec in H. rewrite <- signed_spec. split; [assumption|].
  destruct H2 as [H2|[H2|H2]]; tauto.
Qed.

(** C16 *)
Lemma conserve e infos w i w' ks : env_ok e -> e_prog e <> pk_zero -> lam_ok w ->
  NoDup ks -> (forall k i, arg infos i k -> In k ks) ->
  process e infos w i = Ok w' -> total ks w' = total ks w.
Proof.
  intros He Hp Hl Hn Hin H. apply process_psteps in H; try assumption.
  eapply psteps_total; eauto. intros a Ha. apply In_nth_error in Ha as [n Hn'].
  apply (Hin (ai_key a) n). now exists a.
Qed.
Lemma pay_signed e infos w i w' k : env_ok e -> e_prog e <> pk_zero -> lam_ok w ->
  process e infos w i = Ok w' -> lamports (w' k) < lamports (w k) ->
  acct_owner (w k) = e_prog e \/ signed infos k.
Proof.
  intros He Hp Hl H Hlt. apply process_psteps in H; try assumption.
  apply psteps_acc with (k := k) in H as [H|[H H2]]; [rewrite H in Hlt; lia|].
  rewrite <- signed_spec. destruct H2 as [H2|[H2|(_ & _ & [H2|H2])]]; try tauto. lia.
Qed.
Lemma lam_ok_preserved e infos w i w' : env_ok e -> e_prog e <> pk_zero -> lam_ok w ->
  process e infos w i = Ok w' -> lam_ok w'.
Proof. intros. eapply psteps_lam_ok; [|eassumption]. eapply process_psteps; eauto. Qed.

Lemma exec_failure e infos w i : (forall w', process e infos w i <> Ok w') ->
  forall k, exec e infos w i k = w k.
Proof.
  intros H k. unfold exec. destruct (process e infos w i) as [v| | | |] eqn:E; try reflexivity.
  now elim (H v).
Qed.

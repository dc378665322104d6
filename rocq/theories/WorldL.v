(** Facts about the account operations.  Every processor's effect is a sequence
    of the primitive steps [pstep]; invariants are proved per step. *)
From Verif Require Import Base State Layout Constr Ext World Proc BaseL Spec.
From Coq Require Import Strings.Byte.

Lemma upd_same w k a : upd w k a k = a.
Proof. unfold upd. now rewrite pk_eqb_refl. Qed.
Lemma upd_other w k a k' : k' <> k -> upd w k a k' = w k'.
Proof. intro H. unfold upd. apply pk_eqb_neq in H. now rewrite H. Qed.

Lemma is_signer_spec infos k : is_signer infos k = true <->
  exists a, In a infos /\ ai_key a = k /\ ai_signer a = true.
Proof.
  unfold is_signer. rewrite existsb_exists. split; intros (a & Ha & H).
  - apply andb_prop in H as [H1 H2]. apply pk_eqb_eq in H1. eauto.
  - destruct H as [H1 H2]. exists a. split; [assumption|]. rewrite H2, H1, pk_eqb_refl. reflexivity.
Qed.
Lemma is_writable_spec infos k : is_writable infos k = true <->
  exists a, In a infos /\ ai_key a = k /\ ai_writable a = true.
Proof.
  unfold is_writable. rewrite existsb_exists. split; intros (a & Ha & H).
  - apply andb_prop in H as [H1 H2]. apply pk_eqb_eq in H1. eauto.
  - destruct H as [H1 H2]. exists a. split; [assumption|]. rewrite H2, H1, pk_eqb_refl. reflexivity.
Qed.

(** Primitive steps, on the account list the processor sees. *)
Inductive pstep (e : env) (infos : list ainfo) : world -> world -> Prop :=
| ps_data w k d : is_writable infos k = true -> acct_owner (w k) = e_prog e -> zlen d <= MAX_DATA ->
    pstep e infos w (upd w k (mkAcct (lamports (w k)) (acct_owner (w k)) d))
| ps_move w src dst amt : is_writable infos src = true -> is_writable infos dst = true ->
    src <> dst -> 0 <= amt <= lamports (w src) -> lamports (w dst) + amt < two64 ->
    (acct_owner (w src) = e_prog e \/ is_signer infos src = true) ->
    pstep e infos w
      (upd (upd w src (mkAcct (lamports (w src) - amt) (acct_owner (w src)) (data (w src))))
        dst (mkAcct (lamports (w dst) + amt) (acct_owner (w dst)) (data (w dst))))
| ps_alloc w k space : space <= MAX_INCREASE -> is_writable infos k = true -> is_signer infos k = true ->
    acct_owner (w k) = pk_zero -> data (w k) = [] -> lamports (w k) = 0 ->
    pstep e infos w (upd w k (mkAcct (lamports (w k)) (e_prog e) (zeros space)))
| ps_free w k : is_writable infos k = true -> acct_owner (w k) = e_prog e ->
    pstep e infos w (upd w k (mkAcct (lamports (w k)) pk_zero [])).

Inductive psteps (e : env) (infos : list ainfo) : world -> world -> Prop :=
| pss_refl w : psteps e infos w w
| pss_step w w1 w2 : pstep e infos w w1 -> psteps e infos w1 w2 -> psteps e infos w w2.

Lemma psteps_one e infos w w' : pstep e infos w w' -> psteps e infos w w'.
Proof. intro. eapply pss_step; [eassumption|constructor]. Qed.
Lemma psteps_trans e infos w1 w2 w3 :
  psteps e infos w1 w2 -> psteps e infos w2 w3 -> psteps e infos w1 w3.
Proof. induction 1; intros; [assumption|]. eapply pss_step; eauto. Qed.

(** *** set_data *)
Lemma set_data_ok e infos w k d w' : set_data e infos w k d = Ok w' ->
  (d = data (w k) /\ w' = w) \/
  (d <> data (w k) /\ is_writable infos k = true /\ acct_owner (w k) = e_prog e /\ zlen d <= MAX_DATA /\
   w' = upd w k (mkAcct (lamports (w k)) (acct_owner (w k)) d)).
Proof.
  unfold set_data. destruct (bytes_eqb d (data (w k))) eqn:E; intro H.
  - left. inv H. apply bytes_eqb_eq in E. auto.
  - right. rinv H. bnorm. repeat split; auto. lia.
Qed.
Lemma set_data_data e infos w k d w' : set_data e infos w k d = Ok w' -> data (w' k) = d.
Proof.
  intro H. apply set_data_ok in H as [[-> ->]|(_ & _ & _ & _ & ->)]; [reflexivity|now rewrite upd_same].
Qed.
Lemma set_data_other e infos w k d w' k' : set_data e infos w k d = Ok w' -> k' <> k -> w' k' = w k'.
Proof.
  intros H Hk. apply set_data_ok in H as [[_ ->]|(_ & _ & _ & _ & ->)]; [reflexivity|now rewrite upd_other].
Qed.
Lemma set_data_lam e infos w k d w' k' : set_data e infos w k d = Ok w' -> lamports (w' k') = lamports (w k').
Proof.
  intros H. destruct (pk_dec k' k) as [->|Hk]; [|now rewrite (set_data_other _ _ _ _ _ _ _ H Hk)].
  apply set_data_ok in H as [[_ ->]|(_ & _ & _ & _ & ->)]; [reflexivity|now rewrite upd_same].
Qed.
Lemma set_data_owner e infos w k d w' k' : set_data e infos w k d = Ok w' -> acct_owner (w' k') = acct_owner (w k').
Proof.
  intros H. destruct (pk_dec k' k) as [->|Hk]; [|now rewrite (set_data_other _ _ _ _ _ _ _ H Hk)].
  apply set_data_ok in H as [[_ ->]|(_ & _ & _ & _ & ->)]; [reflexivity|now rewrite upd_same].
Qed.
Lemma set_data_psteps e infos w k d w' : set_data e infos w k d = Ok w' -> psteps e infos w w'.
Proof.
  intro H. apply set_data_ok in H as [[_ ->]|(_ & H1 & H2 & H3 & ->)]; [constructor|].
  apply psteps_one. now constructor.
Qed.

(** *** lamports *)
Lemma two_upd_data w src dst x y k :
  let w1 := upd w src (mkAcct x (acct_owner (w src)) (data (w src))) in
  let w2 := upd w1 dst (mkAcct y (acct_owner (w1 dst)) (data (w1 dst))) in
  data (w2 k) = data (w k) /\ acct_owner (w2 k) = acct_owner (w k).
Proof.
  cbv zeta. destruct (pk_dec k dst) as [->|H]; [rewrite !upd_same | rewrite (upd_other _ _ _ _ H)]; cbn.
  - destruct (pk_dec dst src) as [->|H]; [rewrite !upd_same | rewrite (upd_other _ _ _ _ H)]; auto.
  - destruct (pk_dec k src) as [->|H1]; [rewrite !upd_same | rewrite (upd_other _ _ _ _ H1)]; auto.
Qed.
Lemma move_lamports_psteps e infos w src dst amt w' : 0 <= amt ->
  move_lamports e infos w src dst amt = Ok w' -> psteps e infos w w'.
Proof.
  intros Ha H. unfold move_lamports in H.
  destruct ((amt =? 0) || pk_eqb src dst) eqn:E; [inv H; constructor|].
  rinv H. bnorm.
  rewrite (upd_other w src _ dst) in * by congruence.
  apply psteps_one. constructor; auto; lia.
Qed.
Lemma move_lamports_data e infos w src dst amt w' k :
  move_lamports e infos w src dst amt = Ok w' ->
  data (w' k) = data (w k) /\ acct_owner (w' k) = acct_owner (w k).
Proof.
  intros H. unfold move_lamports in H.
  destruct ((amt =? 0) || pk_eqb src dst) eqn:E; [inv H; auto|].
  rinv H. apply two_upd_data.
Qed.
Lemma sys_transfer_psteps e infos w src dst amt w' : 0 <= amt -> src <> dst ->
  sys_transfer infos w src dst amt = Ok w' -> psteps e infos w w'.
Proof.
  intros Ha E H. unfold sys_transfer in H. rinv H.
  bnorm.
  rewrite (upd_other w src _ dst) in * by congruence.
  apply psteps_one. constructor; auto; lia.
Qed.
Lemma sys_transfer_data infos w src dst amt w' k :
  sys_transfer infos w src dst amt = Ok w' ->
  data (w' k) = data (w k) /\ acct_owner (w' k) = acct_owner (w k).
Proof.
  intros H. unfold sys_transfer in H. rinv H. apply two_upd_data.
Qed.

(** *** realloc, resize *)
Lemma realloc_psteps e infos w0 w k size w' :
  realloc e infos w0 w k size = Ok w' -> psteps e infos w w'.
Proof.
  unfold realloc. destruct (_ =? _); intro H; rinv H; [constructor|].
  eapply set_data_psteps; eauto.
Qed.
Lemma realloc_bytes_id d : realloc_bytes d (zlen d) = d.
Proof. unfold realloc_bytes. rewrite Z.leb_refl. unfold zlen. rewrite Nat2Z.id. apply firstn_all. Qed.
Lemma realloc_data e infos w0 w k size w' :
  realloc e infos w0 w k size = Ok w' ->
  data (w' k) = realloc_bytes (data (w k)) size /\
  (forall k', k' <> k -> w' k' = w k') /\
  (forall k', lamports (w' k') = lamports (w k') /\ acct_owner (w' k') = acct_owner (w k')).
Proof.
  unfold realloc. destruct (size =? zlen (data (w k))) eqn:E; intro H; rinv H.
  - replace size with (zlen (data (w' k))) by lia. rewrite realloc_bytes_id. auto.
  - repeat split.
    + eapply set_data_data; eauto.
    + intros. eapply set_data_other; eauto.
    + eapply set_data_lam; eauto.
    + eapply set_data_owner; eauto.
Qed.
Lemma zlen_realloc d n : 0 <= n -> zlen (realloc_bytes d n) = n.
Proof. intro. unfold realloc_bytes. destruct (n <=? zlen d) eqn:E; len. Qed.

Lemma resize_data e infos w0 w size k payer sysp w' :
  resize e infos w0 w size k payer sysp = Ok w' ->
  data (w' k) = realloc_bytes (data (w k)) size /\
  (forall k', k' <> k -> data (w' k') = data (w k')) /\
  (forall k', acct_owner (w' k') = acct_owner (w k')).
Proof.
  unfold resize. intro H. rinv H.
  assert (Hd : forall k', data (x k') = data (w k') /\ acct_owner (x k') = acct_owner (w k')).
  { destruct (size <? zlen (data (w k))).
    - rinv Hx. intro. eapply move_lamports_data; eauto.
    - rinv Hx. destruct (0 <? _); rinv Hx; [|auto].
      intro. eapply sys_transfer_data; eauto. }
  apply realloc_data in H as (H1 & H2 & H3).
  repeat split.
  - rewrite H1. now rewrite (proj1 (Hd k)).
  - intros k' Hk. rewrite H2 by assumption. apply Hd.
  - intro k'. rewrite (proj2 (H3 k')). apply Hd.
Qed.


(** A self-transfer by the system program is a no-op or an error, except that a
    program-owned source is rejected: [resize] never pays from the account to
    itself because program-owned accounts cannot be a system transfer's source. *)
Lemma sys_transfer_self e infos w k amt w' : acct_owner (w k) = e_prog e -> e_prog e <> pk_zero ->
  sys_transfer infos w k k amt = Ok w' -> False.
Proof.
  intros Ho Hp H. unfold sys_transfer in H. rinv H.
  bnorm. congruence.
Qed.

Lemma sys_transfer_psteps' e infos w src dst amt w' : 0 <= amt ->
  acct_owner (w dst) = e_prog e -> e_prog e <> pk_zero ->
  sys_transfer infos w src dst amt = Ok w' -> psteps e infos w w'.
Proof.
  intros Ha Ho Hp H. destruct (pk_dec src dst) as [->|Hn].
  - exfalso. eapply sys_transfer_self; eauto.
  - eapply sys_transfer_psteps; eauto.
Qed.

Lemma resize_psteps e infos w0 w size k payer sysp w' :
  acct_owner (w k) = e_prog e -> e_prog e <> pk_zero ->
  resize e infos w0 w size k payer sysp = Ok w' -> psteps e infos w w'.
Proof.
  intros Ho Hp. unfold resize. intro H. rinv H.
  eapply psteps_trans; [|eapply realloc_psteps; eauto].
  destruct (size <? zlen (data (w k))).
  - rinv Hx. eapply move_lamports_psteps; [|eauto]. lia.
  - rinv Hx. destruct (0 <? _); rinv Hx; [|constructor].
    eapply sys_transfer_psteps'; eauto. lia.
Qed.

Lemma close_account_psteps e infos w k r w' : 0 <= lamports (w k) ->
  close_account e infos w k r = Ok w' -> psteps e infos w w'.
Proof.
  unfold close_account. intros Hl H. rinv H.
  bnorm.
  eapply psteps_trans; [eapply move_lamports_psteps; eauto|].
  apply psteps_one. constructor; [assumption|].
  now rewrite (proj2 (move_lamports_data _ _ _ _ _ _ _ k Hx)).
Qed.

Lemma sys_create_psteps e infos w p k lam space w' : 0 <= lam -> e_prog e <> pk_zero ->
  sys_create e infos w p k lam space = Ok w' -> psteps e infos w w'.
Proof.
  unfold sys_create. intros Hl Hp H. rinv H.
  bnorm.
  eapply pss_step.
  - apply (ps_alloc e infos w k space); auto; [lia| |lia]. apply zlen_0. lia.
  - refine (sys_transfer_psteps' e infos _ p k lam w' Hl _ Hp H). now rewrite upd_same.
Qed.
Lemma sys_create_data e infos w p k lam space w' :
  sys_create e infos w p k lam space = Ok w' ->
  data (w' k) = zeros space /\ acct_owner (w' k) = e_prog e /\ data (w k) = [] /\
  (forall k', k' <> k -> data (w' k') = data (w k') /\ acct_owner (w' k') = acct_owner (w k')).
Proof.
  unfold sys_create. intros H. rinv H.
  pose proof (fun k' => sys_transfer_data _ _ _ _ _ _ k' H) as Hd.
  repeat split.
  - rewrite (proj1 (Hd k)). now rewrite upd_same.
  - rewrite (proj2 (Hd k)). now rewrite upd_same.
  - apply zlen_0. lia.
  - rewrite (proj1 (Hd k')). now rewrite upd_other.
  - rewrite (proj2 (Hd k')). now rewrite upd_other.
Qed.

(** *** Invariants of steps *)
Lemma pstep_lam_ok e infos w w' : pstep e infos w w' -> lam_ok w -> lam_ok w'.
Proof.
  intros H Hl k. destruct H; unfold upd;
  repeat match goal with |- context[pk_eqb ?a ?b] =>
    let E := fresh "E" in destruct (pk_eqb a b) eqn:E; [apply pk_eqb_eq in E; subst|] end;
  cbn; try apply Hl.
  - pose proof (Hl dst). lia.
  - lia.
Qed.
Lemma psteps_lam_ok e infos w w' : psteps e infos w w' -> lam_ok w -> lam_ok w'.
Proof. induction 1; auto. intro. apply IHpsteps. eapply pstep_lam_ok; eauto. Qed.

Lemma pstep_sized e infos w w' : pstep e infos w w' -> sized w -> sized w'.
Proof.
  intros H Hl k. destruct H as [w k0 d|w src dst amt|w k0 sp|w k0].
  - destruct (pk_dec k k0) as [->|Hk]; [rewrite upd_same; cbn|rewrite upd_other by assumption; apply Hl].
    unfold MAX_DATA in *. lia.
  - destruct (pk_dec k dst) as [->|Hk]; [rewrite upd_same; cbn; apply Hl|rewrite upd_other by assumption].
    destruct (pk_dec k src) as [->|Hk2]; [rewrite upd_same; cbn; apply Hl|rewrite upd_other by assumption; apply Hl].
  - destruct (pk_dec k k0) as [->|Hk]; [rewrite upd_same; cbn|rewrite upd_other by assumption; apply Hl].
    unfold MAX_INCREASE in *. len.
  - destruct (pk_dec k k0) as [->|Hk]; [rewrite upd_same; cbn; lia|rewrite upd_other by assumption; apply Hl].
Qed.
Lemma psteps_sized e infos w w' : psteps e infos w w' -> sized w -> sized w'.
Proof. induction 1; auto. intro. apply IHpsteps. eapply pstep_sized; eauto. Qed.

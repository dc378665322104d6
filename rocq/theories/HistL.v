(** C12-C14 and C51 in the form of the property theorems. *)
From Verif Require Import Base State Layout Constr Ext World Proc BaseL Spec SpecB SpecH WorldL ProcSteps FrameL LayoutL HeadL AuthL AuthM StepL StepH.
From Coq Require Import Strings.Byte.

Section One.
Variables (e : env) (infos : list ainfo) (w : world) (i : instr) (w' : world) (k : pubkey) (l : list blk).
Hypothesis (He : env_ok e) (Hp : e_prog e <> pk_zero) (Hs : sized w) (Hl : lam_ok w) (Hr : plain_request i)
  (Ho : acct_owner (w k) = e_prog e) (Hi : initialized (data (w k))) (HL : well_formed (data (w k)) l)
  (H : process e infos w i = Ok w').

Lemma authority_stable :
  burns infos i k \/ s_authority (data (w' k)) = s_authority (data (w k)) \/
  (i = IHandover /\ arg infos 0 k /\ mutable (data (w k)) /\
   exists a n, signed infos a /\ signed infos n /\ s_authority (data (w k)) = pk_bytes a /\ s_authority (data (w' k)) = pk_bytes n).
Proof.
  destruct (header_changes _ _ _ _ _ _ _ He Hp Hs Hl Hr Ho Hi HL H) as [[B _]|[_ (_ & _ & _ & _ & _ & [A|(A0 & Ei & a & n & S1 & S2 & S3 & S4 & S5)] & _)]]; auto.
  right. right. repeat (split; [assumption|]). exists a, n. auto.
Qed.
Lemma holder_stable :
  (s_owner (data (w' k)) = s_owner (data (w k)) \/ (arg infos 0 k /\ (i = ITransfer \/ i = IBurn))) /\
  ((s_delegate (data (w' k)) = s_delegate (data (w k)) /\ s_roles (data (w' k)) = s_roles (data (w k))) \/
   (arg infos 0 k /\ (i = ITransfer \/ i = IBurn \/ exists a, i = IApprove a \/ i = IRevoke a))).
Proof.
  destruct (header_changes _ _ _ _ _ _ _ He Hp Hs Hl Hr Ho Hi HL H) as [[[B1 B2] _]|[_ (_ & _ & _ & [A|[A0 A]] & D & _)]].
  - split; right; auto.
  - split; [auto|]. destruct D as [D|[D0 [D|D]]]; auto.
  - split; [auto|]. destruct D as [D|[D1 [D|D]]]; auto.
Qed.
End One.

Lemma immutable_history p w w' k l : p <> pk_zero -> history p w w' -> sized w -> lam_ok w -> acct_owner (w k) = p ->
  initialized (data (w k)) -> s_mutable (data (w k)) = x00 -> well_formed (data (w k)) l ->
  burned_in p w w' k \/
  (acct_owner (w' k) = p /\ initialized (data (w' k)) /\
   s_name (data (w' k)) = s_name (data (w k)) /\ s_standard (data (w' k)) = s_standard (data (w k)) /\
   s_authority (data (w' k)) = s_authority (data (w k)) /\ s_mutable (data (w' k)) = x00 /\
   exists l', well_formed (data (w' k)) l' /\ Forall2 kept (ext_list l) (ext_list l')).
Proof.
  intros Hp H Hs Hl Ho Hi Hm HL. destruct (frozen_history p k Hp w w' l H Hs Hl Ho Hi Hm HL) as [_ [B|(F1 & F2 & F3 & F4 & F5 & F6 & _ & F7)]]; [auto|].
  right. rewrite <- Hm. repeat (split; [assumption|]). assumption.
Qed.
Lemma soulbound_immutable p w w' k l : p <> pk_zero -> history p w w' -> sized w -> lam_ok w -> acct_owner (w k) = p ->
  initialized (data (w k)) -> s_mutable (data (w k)) = x00 -> s_standard (data (w k)) = x02 -> well_formed (data (w k)) l ->
  burned_in p w w' k \/ (acct_owner (w' k) = p /\ s_owner (data (w' k)) = s_owner (data (w k))).
Proof.
  intros Hp H Hs Hl Ho Hi Hm Hst HL. destruct (frozen_history p k Hp w w' l H Hs Hl Ho Hi Hm HL) as [_ [B|(F1 & F2 & F3 & F4 & F5 & F6 & F7 & _)]]; auto.
Qed.

Lemma soulbound_history p w w' k l : p <> pk_zero ->
  history_of (fun e infos w i => ~ burns infos i k /\ careful k e infos w i) p w w' -> sized w -> lam_ok w -> acct_owner (w k) = p ->
  initialized (data (w k)) -> s_standard (data (w k)) = x02 -> tidy (data (w k)) l ->
  acct_owner (w' k) = p /\ s_standard (data (w' k)) = x02 /\ s_owner (data (w' k)) = s_owner (data (w k)).
Proof.
  intros Hp H Hs Hl Ho Hi Hst HT.
  set (P := fun (e : env) (infos : list ainfo) (w : world) (i : instr) => (~ burns infos i k /\ careful k e infos w i)) in *.
  assert (G : forall w1, history_of P p w w1 -> (sized w1 /\ lam_ok w1) /\ acct_owner (w1 k) = p /\ initialized (data (w1 k)) /\
    s_standard (data (w1 k)) = s_standard (data (w k)) /\ s_owner (data (w1 k)) = s_owner (data (w k)) /\ exists l', tidy (data (w1 k)) l').
  { intros w1 H1. induction H1 as [w|w w1 e infos i w2 H1 IH E He HPi HI|w w1 w2 H1 IH HO].
    - split; [auto|]. repeat (split; [assumption || reflexivity|]). eauto.
    - destruct (IH H Hs Hl Ho Hi Hst HT) as ([Hs1 Hl1] & F1 & F2 & F3 & F4 & l1 & F5). clear IH. destruct HPi as [Hb Hc].
      assert (Hp' : e_prog e <> pk_zero) by congruence. rewrite <- E in F1.
      split; [split; [eapply sized_preserved; eauto|eapply lam_ok_preserved; eauto]|].
      destruct (tidy_step _ _ _ _ _ _ _ He Hp' Hs1 Hl1 Hc F1 F2 F5 HI) as [[B _]|(G1 & G2 & (S1 & S2 & _ & S3 & _) & l2 & G4 & _)]; [contradiction|].
      split; [congruence|]. split; [assumption|]. split; [congruence|]. split; [|eauto].
      destruct S3 as [S3|[A0 ->]]; [congruence|]. exfalso. eapply (soulbound_stays e infos w1 w2 k A0); [congruence|exact HI].
    - destruct (IH H Hs Hl Ho Hi Hst HT) as ([Hs1 Hl1] & F1 & F2 & F3 & F4 & l1 & F5). destruct HO as (O1 & O2 & O3 & O4). destruct (O1 k F1) as [P1 P2]. rewrite P2.
      split; [auto|]. repeat (split; [assumption|]). eauto. }
  destruct (G w' H) as (_ & G1 & _ & G2 & G3 & _). split; [assumption|]. split; [congruence|assumption].
Qed.

(** no instruction of the history transfers, burns, approves or revokes *)
Lemma holder_history p w w' k l : p <> pk_zero ->
  history_of (fun e infos w i => careful k e infos w i /\ ~ (arg infos 0 k /\ (i = ITransfer \/ i = IBurn))) p w w' ->
  sized w -> lam_ok w -> acct_owner (w k) = p -> initialized (data (w k)) -> tidy (data (w k)) l ->
  acct_owner (w' k) = p /\ s_owner (data (w' k)) = s_owner (data (w k)).
Proof.
  intros Hp H Hs Hl Ho Hi HT.
  match type of H with history_of ?P _ _ _ => set (Q := P) in * end.
  assert (Q1 : forall e infos w i w', Q e infos w i -> header_step infos w w' k i -> s_owner (data (w' k)) = s_owner (data (w k))).
  { intros e infos w1 i w2 [_ N] (_ & _ & _ & [S|[A0 S]] & _); [assumption|]. exfalso. apply N. auto. }
  assert (Q2 : forall e infos w i, Q e infos w i -> ~ burns infos i k /\ careful k e infos w i).
  { intros e infos w1 i [C N]. split; [|assumption]. intros [B1 B2]. apply N. auto. }
  destruct (careful_history p k Hp s_owner Q w w' l Q1 Q2 H Hs Hl Ho Hi HT) as (_ & A & _ & B & _). auto.
Qed.

Lemma steps_keep l : Forall (fun s => env_ok (fst (fst s)) /\ e_prog (fst (fst s)) <> pk_zero) l -> forall w w', steps l w = Ok w' ->
  sized w -> lam_ok w -> sized w' /\ lam_ok w'.
Proof.
  induction 1 as [|[[e infos] i] l [He Hp] _ IH]; intros w w' H Hs Hl; cbn [steps fst] in *.
  - inversion H. subst. auto.
  - destruct (process e infos w i) as [w1| | | |] eqn:E; cbn [bind] in H; try discriminate.
    apply (IH w1 w' H); [eapply sized_preserved; eauto|eapply lam_ok_preserved; eauto].
Qed.
Lemma steps_history p l : Forall (fun s => env_ok (fst (fst s)) /\ e_prog (fst (fst s)) = p) l -> forall w0 w w', history p w0 w -> steps l w = Ok w' -> history p w0 w'.
Proof.
  induction 1 as [|[[e infos] i] l [He Hp] _ IH]; intros w0 w w' H0 H; cbn [steps fst] in *.
  - inversion H. now subst.
  - destruct (process e infos w i) as [w1| | | |] eqn:E; cbn [bind] in H; try discriminate.
    apply (IH w0 w1 w'); [|assumption]. eapply hist_instr; eauto.
Qed.

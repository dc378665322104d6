(** Proofs about the origin of rights (C85). *)
From Verif Require Import Base State Layout Constr Ext World Proc BaseL Spec SpecB SpecG SpecH SpecSince WorldL ProcSteps FrameL LayoutL HeadL AuthL AuthM StepL StepH HistL GroupL CountL CountH RegM.
From Coq Require Import Strings.Byte.

Section Since.
Variables (p k : pubkey).
Hypothesis (Hp : p <> pk_zero).
Variables (H : bytes -> Prop) (act : list ainfo -> world -> instr -> Prop).
Hypothesis (Hdec : forall d, H d \/ ~ H d).
Hypothesis (Hstep : forall e infos v i v' l, e_prog e = p -> env_ok e -> unharmed k e infos v i -> sized v -> lam_ok v ->
  asset_of p v k -> tidy (data (v k)) l -> process e infos v i = Ok v' -> header_step infos v v' k i ->
  ~ H (data (v k)) -> H (data (v' k)) -> act infos v i).

Lemma since_history w w' l : history_of (unharmed k) p w w' -> sized w -> lam_ok w -> asset_of p w k -> tidy (data (w k)) l ->
  (sized w' /\ lam_ok w' /\ asset_of p w' k /\ exists l', tidy (data (w' k)) l') /\
  (H (data (w' k)) -> throughout H p w w' k \/ since H act p w w' k).
Proof.
  intros HH Hs Hl Ha HT. induction HH as [w|w w1 e infos i w2 HH IH E He HP HI|w w1 w2 HH IH HO].
  - split; [eauto 6|]. intro h. left. split; [exact h|]. split; [constructor|exact h].
  - destruct (IH Hs Hl Ha HT) as ((Hs1 & Hl1 & [Ho1 Hi1] & l1 & T1) & K1). clear IH. pose proof HP as [Hb Hc].
    assert (Hp' : e_prog e <> pk_zero) by congruence. assert (Ho1' : acct_owner (w1 k) = e_prog e) by congruence.
    destruct (tidy_step _ _ _ _ _ _ _ He Hp' Hs1 Hl1 Hc Ho1' Hi1 T1 HI) as [[B _]|(G1 & G2 & G3 & l2 & G4 & _)]; [contradiction|].
    split.
    { split; [eapply sized_preserved; eauto|]. split; [eapply lam_ok_preserved; eauto|]. split; [split; [congruence|assumption]|eauto]. }
    intro h. destruct (Hdec (data (w1 k))) as [h1|h1].
    + destruct (K1 h1) as [(U0 & U1 & U2)|(v1 & e1 & f1 & i1 & v2 & V1 & V2 & V3 & V4 & V5 & V6 & V7 & V0 & V8 & V9)].
      * left. split; [exact U0|]. split; [|exact h]. exact (hof_instr _ _ _ _ e infos i _ U1 E He (conj HP U2) HI).
      * right. exists v1, e1, f1, i1, v2. repeat (split; [assumption|]). split; [|exact h]. exact (hof_instr _ _ _ _ e infos i _ V8 E He (conj HP V9) HI).
    + right. exists w1, e, infos, i, w2. repeat (split; [assumption|]). split.
      { exact (Hstep _ _ _ _ _ _ E He HP Hs1 Hl1 (conj Ho1 Hi1) T1 HI G3 h1 h). }
      split; [exact h|]. split; [constructor|exact h].
  - destruct (IH Hs Hl Ha HT) as ((Hs1 & Hl1 & [Ho1 Hi1] & l1 & T1) & K1). pose proof HO as (O1 & O2 & O3 & O4). destruct (O1 k Ho1) as [P1 P2].
    split. { split; [assumption|]. split; [assumption|]. split; [split; [assumption|now rewrite P2]|]. rewrite P2. eauto. }
    rewrite P2. intro h.
    destruct (K1 h) as [(U0 & U1 & U2)|(v1 & e1 & f1 & i1 & v2 & V1 & V2 & V3 & V4 & V5 & V6 & V7 & V0 & V8 & V9)].
    + left. split; [exact U0|]. split; [exact (hof_outside _ _ _ _ _ U1 HO)|rewrite P2; exact h].
    + right. exists v1, e1, f1, i1, v2. repeat (split; [assumption|]). split; [exact (hof_outside _ _ _ _ _ V8 HO)|rewrite P2; exact h].
Qed.
End Since.

Lemma bytes_dec (a b : bytes) : a = b \/ a <> b.
Proof. destruct (list_eq_dec byte_eq_dec a b); auto. Qed.
Lemma role_dec m r : has_role m r \/ ~ has_role m r.
Proof. unfold has_role. destruct (role_bit r); [|tauto]. destruct (N.testbit _ _); [auto|right; discriminate]. Qed.
Lemma entrusted_dec o d r x : entrusted o d r x \/ ~ entrusted o d r x.
Proof. unfold entrusted. destruct (bytes_dec (s_owner x) o), (bytes_dec (s_delegate x) d), (role_dec (s_roles x) r); tauto. Qed.
Lemma tidy_wf d l : tidy d l -> well_formed d l.
Proof. intros (hd & n & L). exists hd, (repeat x00 n). exact L. Qed.

Section Rights.
Variables (p k : pubkey) (w w' : world) (l : list blk).
Hypothesis (Hp : p <> pk_zero) (HH : history_of (unharmed k) p w w') (Hs : sized w) (Hl : lam_ok w) (Ha : asset_of p w k) (HT : tidy (data (w k)) l).

Lemma delegate_since o d r : d <> no_key -> entrusted o d r (data (w' k)) ->
  throughout (entrusted o d r) p w w' k \/ since (entrusted o d r) (grants k o d r) p w w' k.
Proof.
  intro Hd. refine (proj2 (since_history p k Hp (entrusted o d r) _ (entrusted_dec o d r) _ w w' l HH Hs Hl Ha HT)).
  clear - Hp Hd. intros e infos v i v' l E He [Hb _] Hs Hl Ha T HI (_ & _ & _ & Ow & De & _) N (Q1 & Q2 & Q3).
  destruct De as [[D1 D2]|(A0 & [->|(a & [->| ->])])].
  - destruct Ow as [Ow|(A0 & ->)].
    + exfalso. apply N. unfold entrusted. now rewrite <- Ow, <- D1, <- D2.
    + destruct (transfer_effect _ _ _ _ HI) as (k' & t & B0 & B2 & [[C1 C2]|(C1 & C2 & C3 & C4 & C5 & C6)]).
      * exfalso. apply N. unfold entrusted. now rewrite <- (C2 k).
      * rewrite (arg_det _ _ _ _ B0 A0) in *. exfalso. apply Hd. rewrite <- Q2. unfold s_delegate.
        change 32%nat with (32 + 0)%nat. transitivity (firstn 32 (sub (data (v' k)) 100 33)); [|rewrite C5; reflexivity].
        unfold sub. rewrite firstn_firstn. reflexivity.
  - destruct (transfer_effect _ _ _ _ HI) as (k' & t & B0 & B2 & [[C1 C2]|(C1 & C2 & C3 & C4 & C5 & C6)]).
    + exfalso. apply N. unfold entrusted. now rewrite <- (C2 k).
    + rewrite (arg_det _ _ _ _ B0 A0) in *. exfalso. apply Hd. rewrite <- Q2. unfold s_delegate.
      transitivity (firstn 32 (sub (data (v' k)) 100 33)); [|rewrite C5; reflexivity].
      unfold sub. rewrite firstn_firstn. reflexivity.
  - destruct (approve_effect _ _ _ _ _ HI) as (k' & so & sd & B0 & B1 & B2 & B3 & B4 & B5 & B6 & B7 & B8 & B9).
    rewrite (arg_det _ _ _ _ B0 A0) in *. assert (Ow' : s_owner (data (v' k)) = s_owner (data (v k))) by (destruct Ow as [Ow|[_ Ow]]; [exact Ow|discriminate Ow]).
    exists a, so, sd. split; [reflexivity|]. split; [|repeat (split; [assumption|]); split; [congruence|split; congruence]].
    destruct (proj1 (B9 r) Q3) as [R|(R1 & R2 & R3)]; [exact R|]. exfalso. apply N. split; [congruence|]. split; [congruence|exact R3].
  - destruct (revoke_effect _ _ _ _ _ HI) as (k' & s & B0 & B1 & B2 & B3 & B4 & B5 & B6 & B7 & B8). rewrite (arg_det _ _ _ _ B0 A0) in *.
    assert (Ow' : s_owner (data (v' k)) = s_owner (data (v k))) by (destruct Ow as [Ow|[_ Ow]]; [exact Ow|discriminate Ow]).
    exfalso. destruct (bytes_dec (s_delegate (data (v k))) no_key) as [Z0|Z0]; [apply Hd; rewrite <- Q2; auto|].
    destruct (B8 Z0) as ([S|[S _]] & R & _); [|apply Hd; congruence]. apply N. split; [congruence|]. split; [congruence|]. exact (proj1 (proj1 (R r) Q3)).
Qed.

Lemma owner_since o : s_owner (data (w' k)) = o ->
  throughout (fun x => s_owner x = o) p w w' k \/ since (fun x => s_owner x = o) (hands_to k o) p w w' k.
Proof.
  refine (proj2 (since_history p k Hp (fun x => s_owner x = o) _ (fun d => bytes_dec _ _) _ w w' l HH Hs Hl Ha HT)).
  clear - Hp. intros e infos v i v' l E He [Hb _] Hs Hl Ha T HI (_ & _ & _ & [Ow|(A0 & ->)] & _) N Q; [congruence|].
  destruct (transfer_authorized e infos v v' k Hs HI) as (s & B0 & B1 & B2 & _ & B3); [congruence|].
  destruct (transfer_effect _ _ _ _ HI) as (k' & t & C0 & C2 & [[C3 C4]|(C3 & C4 & C5 & C6 & _)]).
  - exfalso. apply N. now rewrite <- (C4 k).
  - rewrite (arg_det _ _ _ _ C0 A0) in *. exists s, t. repeat (split; [assumption || reflexivity|]). split; [congruence|]. split; assumption.
Qed.

Lemma authority_since a : s_authority (data (w' k)) = a ->
  throughout (fun x => s_authority x = a) p w w' k \/ since (fun x => s_authority x = a) (appoints k a) p w w' k.
Proof.
  refine (proj2 (since_history p k Hp (fun x => s_authority x = a) _ (fun d => bytes_dec _ _) _ w w' l HH Hs Hl Ha HT)).
  clear - Hp. intros e infos v i v' l E He [Hb _] Hs Hl Ha T HI (_ & _ & _ & _ & _ & [Au|(A0 & -> & _)] & _) N Q; [congruence|].
  destruct (handover_effect _ _ _ _ HI) as (k' & s & n & B0 & B1 & B2 & B3 & B4 & B5 & B6 & B7 & B8 & B9 & B10).
  rewrite (arg_det _ _ _ _ B0 A0) in *. exists s, n. repeat (split; [assumption || reflexivity|]). congruence.
Qed.

Lemma lock_since : s_state (data (w' k)) = x01 ->
  throughout (fun x => s_state x = x01) p w w' k \/ since (fun x => s_state x = x01) (shuts k) p w w' k.
Proof.
  refine (proj2 (since_history p k Hp (fun x => s_state x = x01) _ _ _ w w' l HH Hs Hl Ha HT)).
  { intro d. destruct (byte_eq_dec (s_state d) x01); auto. }
  clear - Hp. intros e infos v i v' l E He [Hb _] Hs Hl Ha T HI (_ & _ & [St|(A0 & [->| ->])] & _) N Q; [congruence| |].
  - apply process_dispatch in HI. cbn [dispatch] in HI. unfold process_lock in HI.
    apply set_state_inv in HI as (k' & s & B0 & B1 & B2 & _ & _ & B3 & _). apply acct_arg in B0, B1. apply signed_acct in B2.
    rewrite (arg_det _ _ _ _ B0 A0) in *. exists s. repeat (split; [assumption || reflexivity|]). intros l' W. now apply lock_check_may.
  - destruct (unlock_effect _ _ _ _ HI) as (k' & B0 & _ & _ & B1). rewrite (arg_det _ _ _ _ B0 A0) in *. congruence.
Qed.

Lemma group_since g : g <> no_key -> s_group (data (w' k)) = g ->
  throughout (fun x => s_group x = g) p w w' k \/ since (fun x => s_group x = g) (admits p k g) p w w' k.
Proof.
  intro Hg. refine (proj2 (since_history p k Hp (fun x => s_group x = g) _ (fun d => bytes_dec _ _) _ w w' l HH Hs Hl Ha HT)).
  clear - Hp Hg. intros e infos v i v' l E He [Hb [Hc _]] Hs Hl Ha T HI _ N Q. subst p.
  destruct (consent_step e infos v v' i k l He Hp Hs Hl Hc Ha (tidy_wf _ _ T) HI) as [B|[B|[(-> & A0 & G0 & ga & A1 & G1 & C)|(-> & A0 & G0 & _)]]]; [contradiction|congruence| |congruence].
  exists ga. repeat (split; [assumption || reflexivity|]). split; [congruence|]. split; assumption.
Qed.

Lemma frozen_since : s_mutable (data (w' k)) = x00 ->
  throughout (fun x => s_mutable x = x00) p w w' k \/ since (fun x => s_mutable x = x00) (freezes k) p w w' k.
Proof.
  refine (proj2 (since_history p k Hp (fun x => s_mutable x = x00) _ _ _ w w' l HH Hs Hl Ha HT)).
  { intro d. destruct (byte_eq_dec (s_mutable d) x00); auto. }
  clear - Hp. intros e infos v i v' l E He [Hb _] Hs Hl Ha T HI (_ & _ & _ & _ & _ & _ & _ & [[_ M]|(A0 & B & a & -> & _ & M)]) N Q; [congruence|].
  exists a. split; [reflexivity|]. split; [|split; assumption]. destruct (u_mutable a) as [[|]|]; [|reflexivity|congruence].
  cbn [bool_byte] in M. congruence.
Qed.

(** whoever may act on the asset: the owner, the manager, or somebody the owner entrusted *)
Lemma power_since l' s r : tidy (data (w' k)) l' -> s_delegate (data (w k)) = no_key -> authorized (data (w' k)) l' s r ->
  s_owner (data (w' k)) = pk_bytes s \/ (exists b, lookup XManager (ext_list l') = Some b /\ manager_is b s r) \/
  since (entrusted (s_owner (data (w' k))) (pk_bytes s) r) (grants k (s_owner (data (w' k))) (pk_bytes s) r) p w w' k.
Proof.
  intros T' D0 [A|A]; [auto|]. right. destruct (lookup XManager (ext_list l')) as [b|]; [eauto|]. right. destruct A as [D1 [D2 D3]].
  destruct (delegate_since (s_owner (data (w' k))) (pk_bytes s) r) as [((_ & X & _) & _)|X]; [congruence|split; [reflexivity|split; congruence]| |exact X].
  congruence.
Qed.
Lemma mover_since e infos w2 : e_prog e = p -> env_ok e -> s_delegate (data (w k)) = no_key ->
  process e infos w' ITransfer = Ok w2 -> s_owner (data (w2 k)) <> s_owner (data (w' k)) ->
  exists s, signed infos s /\ arg infos 1 s /\
    (s_owner (data (w' k)) = pk_bytes s \/ (exists off b, has_ext (data (w' k)) XManager off b /\ manager_is b s RTransfer) \/
     since (entrusted (s_owner (data (w' k))) (pk_bytes s) RTransfer) (grants k (s_owner (data (w' k))) (pk_bytes s) RTransfer) p w w' k).
Proof.
  intros E He D0 HI N. destruct (since_history p k Hp (fun _ => True) (fun _ _ _ => True) ltac:(auto) ltac:(auto) w w' l HH Hs Hl Ha HT) as ((Hs1 & _ & _ & l' & T') & _).
  destruct (transfer_authorized e infos w' w2 k Hs1 HI N) as (s & _ & B1 & B2 & _ & B3). exists s. split; [exact B2|]. split; [exact B1|].
  destruct (power_since l' s RTransfer T' D0 (B3 _ (tidy_wf _ _ T'))) as [A|[(b & A1 & A2)|A]]; [auto| |auto].
  right. left. destruct T' as (hd & n & L). destruct (lookup_has_ext _ _ _ _ _ _ L A1) as (off & O). eauto.
Qed.
Lemma burner_since e infos w2 : e_prog e = p -> env_ok e -> s_delegate (data (w k)) = no_key ->
  process e infos w' IBurn = Ok w2 -> arg infos 0 k ->
  exists s, signed infos s /\ arg infos 1 s /\
    (s_owner (data (w' k)) = pk_bytes s \/ (exists off b, has_ext (data (w' k)) XManager off b /\ manager_is b s RBurn) \/
     since (entrusted (s_owner (data (w' k))) (pk_bytes s) RBurn) (grants k (s_owner (data (w' k))) (pk_bytes s) RBurn) p w w' k).
Proof.
  intros E He D0 HI A0. destruct (since_history p k Hp (fun _ => True) (fun _ _ _ => True) ltac:(auto) ltac:(auto) w w' l HH Hs Hl Ha HT) as ((Hs1 & _ & _ & l' & T') & _).
  destruct (burn_authorized e infos w' w2 Hs1 HI) as (k' & s & B0 & B1 & B2 & _ & B3). rewrite (arg_det _ _ _ _ B0 A0) in *. exists s. split; [exact B2|]. split; [exact B1|].
  destruct (power_since l' s RBurn T' D0 (B3 _ (tidy_wf _ _ T'))) as [A|[(b & A1 & A2)|A]]; [auto| |auto].
  right. left. destruct T' as (hd & n & L). destruct (lookup_has_ext _ _ _ _ _ _ L A1) as (off & O). eauto.
Qed.
Lemma locker_since e infos w2 : e_prog e = p -> env_ok e -> s_delegate (data (w k)) = no_key ->
  process e infos w' ILock = Ok w2 \/ process e infos w' IUnlock = Ok w2 -> arg infos 0 k ->
  exists s, signed infos s /\ arg infos 1 s /\
    (s_owner (data (w' k)) = pk_bytes s \/ (exists off b, has_ext (data (w' k)) XManager off b /\ manager_is b s RLock) \/
     since (entrusted (s_owner (data (w' k))) (pk_bytes s) RLock) (grants k (s_owner (data (w' k))) (pk_bytes s) RLock) p w w' k).
Proof.
  intros E He D0 HI A0. destruct (since_history p k Hp (fun _ => True) (fun _ _ _ => True) ltac:(auto) ltac:(auto) w w' l HH Hs Hl Ha HT) as ((Hs1 & _ & _ & l' & T') & _).
  assert (X : exists st, process_set_state st e (firstn MAX_ACCOUNTS infos) w' = Ok w2) by (destruct HI as [HI|HI]; apply process_dispatch in HI; eexists; exact HI).
  destruct X as (st & X). apply set_state_inv in X as (k' & s & B0 & B1 & B2 & _ & _ & B3 & _). apply acct_arg in B0, B1. apply signed_acct in B2.
  rewrite (arg_det _ _ _ _ B0 A0) in *. exists s. split; [exact B2|]. split; [exact B1|]. apply (lock_check_may _ l' s (tidy_wf _ _ T')) in B3.
  assert (P : s_owner (data (w' k)) = pk_bytes s \/ authorized (data (w' k)) l' s RLock).
  { unfold may_lock in B3. unfold authorized. destruct (lookup XManager (ext_list l')); destruct B3 as [B3|[_ B3]]; auto. }
  destruct P as [P|P]; [auto|].
  destruct (power_since l' s RLock T' D0 P) as [A|[(b & A1 & A2)|A]]; [auto| |auto].
  right. left. destruct T' as (hd & n & L). destruct (lookup_has_ext _ _ _ _ _ _ L A1) as (off & O). eauto.
Qed.
End Rights.

(** while an asset is locked its owner, delegate and roles stay *)
Lemma shut_keeps p k w w' l : p <> pk_zero -> sized w -> lam_ok w -> asset_of p w k -> tidy (data (w k)) l ->
  throughout (fun x => s_state x = x01) p w w' k ->
  s_owner (data (w' k)) = s_owner (data (w k)) /\ s_delegate (data (w' k)) = s_delegate (data (w k)) /\ s_roles (data (w' k)) = s_roles (data (w k)).
Proof.
  intros Hp Hs Hl Ha HT (_ & HH & _).
  assert (G : (sized w' /\ lam_ok w' /\ asset_of p w' k /\ exists l', tidy (data (w' k)) l') /\
    s_owner (data (w' k)) = s_owner (data (w k)) /\ s_delegate (data (w' k)) = s_delegate (data (w k)) /\ s_roles (data (w' k)) = s_roles (data (w k))).
  2:{ exact (proj2 G). }
  induction HH as [w|w w1 e infos i w2 HH IH E He [[Hb Hc] HX] HI|w w1 w2 HH IH HO].
  - split; [eauto 6|auto].
  - destruct (IH Hs Hl Ha HT) as ((Hs1 & Hl1 & [Ho1 Hi1] & l1 & T1) & K1 & K2 & K3). clear IH.
    assert (Hp' : e_prog e <> pk_zero) by congruence. assert (Ho1' : acct_owner (w1 k) = e_prog e) by congruence.
    destruct (tidy_step _ _ _ _ _ _ _ He Hp' Hs1 Hl1 Hc Ho1' Hi1 T1 HI) as [[B _]|(G1 & G2 & G3 & l2 & G4 & _)]; [contradiction|].
    split. { split; [eapply sized_preserved; eauto|]. split; [eapply lam_ok_preserved; eauto|]. split; [split; [congruence|assumption]|eauto]. }
    assert (NB : arg infos 0 k -> match i with IApprove _ | IBurn | ILock | IRevoke _ | ITransfer => True | _ => False end -> False).
    { intros (a & A1 & A2) M. apply nth_error_In in A1. subst k. exact (locked_blocks e infos w1 i a A1 Ho1' (conj (proj2 Hi1) HX) M w2 HI). }
    destruct G3 as (_ & _ & _ & Ow & De & _).
    assert (Ow' : s_owner (data (w2 k)) = s_owner (data (w1 k))) by (destruct Ow as [Ow|[A0 ->]]; [exact Ow|destruct (NB A0 I)]).
    assert (De' : s_delegate (data (w2 k)) = s_delegate (data (w1 k)) /\ s_roles (data (w2 k)) = s_roles (data (w1 k))).
    { destruct De as [De|(A0 & [->|(a & [->| ->])])]; [exact De|destruct (NB A0 I)..]. }
    destruct De' as [D1 D2]. split; [congruence|]. split; congruence.
  - destruct (IH Hs Hl Ha HT) as ((Hs1 & Hl1 & [Ho1 Hi1] & l1 & T1) & K). pose proof HO as (O1 & O2 & O3 & O4). destruct (O1 k Ho1) as [P1 P2].
    rewrite P2. split; [|exact K]. split; [assumption|]. split; [assumption|]. split; [split; [assumption|now rewrite P2]|]. eauto.
Qed.

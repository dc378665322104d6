(** C27: what holds of a holder's plain asset. *)
From Verif Require Import Base State Layout Constr Ext World Proc BaseL Spec SpecB SpecH WorldL ProcSteps FrameL LayoutL HeadL AuthL AuthM GroupL UpdateL UpdateM StepL StepH HistL.
From Coq Require Import Strings.Byte.

Lemma kept_lookup t L L' b' : Forall2 kept L L' -> lookup t L' = Some b' -> exists b, lookup t L = Some b /\ kept (t, b) (t, b').
Proof.
  induction 1 as [|[t1 b1] [t2 b2] L L' K _ IH]; cbn [lookup]; [discriminate|]. pose proof K as (E & _). cbn [fst] in E. subst t2.
  destruct (ext_type_eqb t1 t) eqn:Q; [|exact IH]. apply ext_type_eqb_eq in Q. subst t1. intro H. injection H as <-. eauto.
Qed.
Lemma lookup_put_other t t' b L : t <> t' -> lookup t (put_ext t' b L) = lookup t L.
Proof.
  intro N. unfold put_ext. destruct (lookup t' L) as [bx|].
  - induction L as [|[t0 b0] L IH]; cbn [lookup replaced]; [reflexivity|]. destruct (ext_type_eqb t0 t') eqn:E; cbn [lookup].
    + apply ext_type_eqb_eq in E. subst t0. destruct (ext_type_eqb t' t) eqn:Q; [apply ext_type_eqb_eq in Q; congruence|reflexivity].
    + now rewrite IH.
  - induction L as [|[t0 b0] L IH]; cbn [lookup app].
    + destruct (ext_type_eqb t' t) eqn:Q; [apply ext_type_eqb_eq in Q; congruence|reflexivity].
    + now rewrite IH.
Qed.
Lemma lookup_put_same t b L : lookup t (put_ext t b L) = Some b.
Proof.
  unfold put_ext. destruct (lookup t L) as [bx|] eqn:E.
  - induction L as [|[t0 b0] L IH]; cbn [lookup replaced] in *; [discriminate|]. destruct (ext_type_eqb t0 t) eqn:Q; cbn [lookup]; rewrite Q; auto.
  - induction L as [|[t0 b0] L IH]; cbn [lookup app] in *; [now rewrite ext_type_eqb_refl|]. destruct (ext_type_eqb t0 t); [discriminate|auto].
Qed.
Lemma lookup_snoc t L x b : lookup t L = Some b -> lookup t (L ++ [x]) = Some b.
Proof. induction L as [|[t0 b0] L IH]; cbn [lookup app]; [discriminate|]. destruct (ext_type_eqb t0 t); auto. Qed.

Lemma unmanaged_step e w w' i k infos l l' : unmanaged l -> ext_step e w w' i k infos (ext_list l) (ext_list l') -> unmanaged l'.
Proof.
  intros U [K|[(_ & a & auth & bf & t & b & _ & _ & _ & _ & _ & _ & EL & Src)|(_ & x & EL & _)]] b' Hb'.
  - apply kept_how_kept in K. destruct (kept_lookup _ _ _ _ K Hb') as (b0 & H0 & (_ & Hlen & _)). cbn [snd] in Hlen. rewrite Hlen. auto.
  - rewrite EL in Hb'. destruct (ext_type_eqb XManager t) eqn:Q.
    + apply ext_type_eqb_eq in Q. subst t. rewrite lookup_put_same in Hb'. injection Hb' as <-.
      assert (N : forall inp b', ~ stored XManager (pk_bytes auth) (lookup XManager (ext_list l)) inp b').
      { intros inp b1 St. destruct (lookup XManager (ext_list l)) as [c|] eqn:Ec; cbn [stored] in St.
        - destruct St as (_ & _ & St & _). specialize (St eq_refl). specialize (U c Ec). lia.
        - destruct St as (St & _). contradiction. }
      destruct bf as [bk|]; cbn [source_spec] in Src.
      * destruct Src as (_ & _ & _ & _ & _ & _ & inp' & St & _). elim (N _ _ St).
      * destruct Src as (x0 & _ & _ & _ & S1 & S2 & _). destruct (x_data x0) as [bs|]; [elim (N _ _ (S1 bs eq_refl))|]. rewrite S2 by reflexivity. cbn [length]. lia.
    + rewrite lookup_put_other in Hb'; [auto|]. intros <-. rewrite ext_type_eqb_refl in Q. discriminate.
  - apply U. rewrite EL. now apply lookup_snoc.
Qed.

Lemma plain_not_taken p w w' k l : p <> pk_zero ->
  history_of (fun e infos w i => careful k e infos w i /\ without_holder k infos w) p w w' ->
  sized w -> lam_ok w -> acct_owner (w k) = p -> initialized (data (w k)) -> tidy (data (w k)) l -> unmanaged l ->
  acct_owner (w' k) = p /\ initialized (data (w' k)) /\ s_owner (data (w' k)) = s_owner (data (w k)) /\
  exists l', tidy (data (w' k)) l' /\ unmanaged l'.
Proof.
  intros Hp H Hs Hl Ho Hi HT HU.
  set (P := fun (e : env) (infos : list ainfo) (w : world) (i : instr) => (careful k e infos w i /\ without_holder k infos w)) in *.
  assert (G : (sized w' /\ lam_ok w') /\ acct_owner (w' k) = p /\ initialized (data (w' k)) /\
    s_owner (data (w' k)) = s_owner (data (w k)) /\ exists l', tidy (data (w' k)) l' /\ unmanaged l').
  { induction H as [w|w w1 e infos i w2 H1 IH E He HPi HI|w w1 w2 H1 IH HO].
    - split; [auto|]. repeat (split; [assumption || reflexivity|]). eauto.
    - destruct (IH Hs Hl Ho Hi HT) as ([Hs1 Hl1] & F1 & F2 & F4 & l1 & F5 & F6). clear IH. destruct HPi as [Hc Hw].
      assert (Hp' : e_prog e <> pk_zero) by congruence. rewrite <- E in F1.
      split; [split; [eapply sized_preserved; eauto|eapply lam_ok_preserved; eauto]|].
      assert (NA : forall s r, signed infos s -> ~ authorized (data (w1 k)) l1 s r).
      { intros s r Ss [A|A]; [apply (Hw s); auto|]. destruct (lookup XManager (ext_list l1)) as [b|] eqn:Eb.
        - destruct A as [A _]. specialize (F6 b Eb). lia.
        - destruct A as (_ & A & _). apply (Hw s); auto. }
      destruct (tidy_step _ _ _ _ _ _ _ He Hp' Hs1 Hl1 Hc F1 F2 F5 HI) as [[[-> B] _]|(G1 & G2 & (_ & _ & _ & S3 & _) & l2 & G4 & G5)].
      + exfalso. destruct (burn_authorized _ _ _ _ Hs1 HI) as (a & s & A0 & _ & Ss & _ & Hau). rewrite (arg_det _ _ _ _ A0 B) in *.
        apply (NA s RBurn Ss). apply Hau. now apply tidy_wf.
      + split; [congruence|]. split; [assumption|]. split; [|exists l2; split; [assumption|eapply unmanaged_step; eauto]].
        destruct S3 as [S3|[A0 ->]]; [congruence|].
        destruct (list_eq_dec Byte.byte_eq_dec (s_owner (data (w2 k))) (s_owner (data (w1 k)))) as [Q|Q]; [congruence|].
        exfalso. destruct (transfer_authorized _ _ _ _ _ Hs1 HI Q) as (s & _ & _ & Ss & _ & Hau).
        apply (NA s RTransfer Ss). apply Hau. now apply tidy_wf.
    - destruct (IH Hs Hl Ho Hi HT) as ([Hs1 Hl1] & F1 & F2 & F4 & l1 & F5 & F6). destruct HO as (O1 & O2 & O3 & O4). destruct (O1 k F1) as [P1 P2]. rewrite P2.
      split; [auto|]. repeat (split; [assumption|]). eauto. }
  apply G.
Qed.

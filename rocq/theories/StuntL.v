(** Lemmas: extensions too short to be read. *)
From Verif Require Import Base State Layout Constr Ext World Proc BaseL Spec SpecB SpecH SpecX WorldL ProcSteps FrameL LayoutL LayoutM HeadL AuthL AuthM GroupL UpdateL UpdateM RemoveL StepL StepH HistL TheftL.
From Coq Require Import Strings.Byte.

Lemma short_no_delegate d l : well_formed d l -> short XManager 33 l -> forall r, manager_delegate d <> Ok r.
Proof.
  intros W (b & E & Hb) r H. rewrite (manager_layout _ _ W), E in H. unfold load_delegate, guard in H. replace (33 <=? zlen b) with false in H by (unfold zlen; lia). discriminate.
Qed.
Lemma short_act d l k r : well_formed d l -> short XManager 33 l -> act_check d k r = Ok true -> s_owner d = pk_bytes k.
Proof.
  intros W S H. unfold act_check in H. destruct (key_is (f_owner d) k) eqn:E; [now apply key_is_spec|]. apply bind_ok in H as (m & H & _). elim (short_no_delegate _ _ W S _ H).
Qed.
(** an unreadable manager extension: nobody locks or unlocks, and only the holder transfers and burns *)
Lemma short_manager e infos w i w' asset l : arg infos 0 asset -> well_formed (data (w asset)) l -> short XManager 33 l -> process e infos w i = Ok w' ->
  i <> ILock /\ i <> IUnlock /\
  (i = ITransfer \/ i = IBurn -> exists signer, arg infos 1 signer /\ signed infos signer /\ s_owner (data (w asset)) = pk_bytes signer).
Proof.
  intros A0 W S H. apply process_dispatch in H.
  assert (L : forall st, process_set_state st e (firstn MAX_ACCOUNTS infos) w <> Ok w').
  { intros st Q. unfold process_set_state in Q. apply bind_ok in Q as (a & B0 & Q). apply bind_ok in Q as (s & B1 & Q). apply acct_arg in B0. rewrite (arg_det _ _ _ _ B0 A0) in *.
    apply require_ok in Q as [_ Q]. apply require_ok in Q as [_ Q]. cbv zeta in Q. apply require_ok in Q as [_ Q]. apply bind_ok in Q as (m & Q & _). exact (short_no_delegate _ _ W S _ Q). }
  split; [intros ->; exact (L _ H)|]. split; [intros ->; exact (L _ H)|]. intros [-> | ->]; cbn [dispatch] in H.
  - apply transfer_inv in H as (a & s & rec & grp & ck & B0 & B1 & _ & _ & _ & Sg & _ & _ & _ & Ac & _). apply acct_arg in B0, B1. apply signed_acct in Sg.
    rewrite (arg_det _ _ _ _ B0 A0) in *. exists s. split; [assumption|]. split; [assumption|]. eapply short_act; eauto.
  - apply burn_inv in H as (a & s & rec & grp & w1 & B0 & B1 & _ & _ & _ & Sg & _ & Ac & _). apply acct_arg in B0, B1. apply signed_acct in Sg.
    rewrite (arg_det _ _ _ _ B0 A0) in *. exists s. split; [assumption|]. split; [assumption|]. eapply short_act; eauto.
Qed.
(** an unreadable grouping: the asset cannot be burned, the extension not removed, and members can neither join, leave nor be burned *)
Lemma short_get d l t n o b : well_formed d l -> short t n l -> t <> XNone -> asset_get t d = Ok (Some (o, b)) -> (length b < n)%nat.
Proof. intros (hd & tl & L) (b' & E & Hb) Ht H. apply asset_get_some in H. apply (has_ext_lookup _ _ _ _ _ _ _ L Ht) in H. congruence. Qed.
Lemma short_found d l t n : well_formed d l -> short t n l -> t <> XNone -> asset_get t d <> Ok None.
Proof.
  intros (hd & tl & L) (b & E & _) Ht H. pose proof (asset_get_none _ _ H) as N. rewrite (loc_lookup t l 168) in E. destruct (loc t 168 l) as [[c x]|] eqn:El; [|discriminate].
  apply loc_some in El as (l1 & l2 & -> & _ & <- & F). exact (N _ _ (block_has_ext _ _ _ _ _ _ L F)).
Qed.
Lemma short_grouping e infos w i w' k l : sized w -> well_formed (data (w k)) l -> short XGrouping 16 l -> process e infos w i = Ok w' ->
  (arg infos 0 k -> i <> IBurn /\ i <> IRemove XGrouping) /\ (arg infos 1 k -> i <> IGroup /\ i <> IUngroup) /\
  (forall a, arg infos 0 a -> s_group (data (w a)) = pk_bytes k -> pk_bytes k <> no_key -> i <> IBurn).
Proof.
  intros Hs W S H. assert (G : forall o b gr, asset_get XGrouping (data (w k)) = Ok (Some (o, b)) -> grouping_from_bytes o b <> Ok gr).
  { intros o b gr Q R. apply grouping_ok in R as (R & _). pose proof (short_get _ _ _ _ _ _ W S ltac:(discriminate) Q). lia. }
  assert (GE : forall o b, has_ext (data (w k)) XGrouping o b -> (length b < 16)%nat).
  { intros o b Q. destruct W as (hd & tl & L). destruct S as (b' & E & Hb). apply (has_ext_lookup _ _ _ _ _ _ _ L) in Q; [congruence|discriminate]. }
  split; [intro A0; split; intros ->|split].
  - apply process_dispatch in H. cbn [dispatch] in H. apply burn_inv in H as (a & s & rec & grp & w1 & B0 & _ & _ & _ & _ & _ & _ & _ & _ & [N|(o & b & gr & Q & R & _)] & _);
      apply acct_arg in B0; rewrite (arg_det _ _ _ _ B0 A0) in *; [exact (short_found _ _ _ _ W S ltac:(discriminate) N)|exact (G _ _ _ Q R)].
  - apply process_dispatch in H. cbn [dispatch] in H. unfold process_remove in H. apply bind_ok in H as (a & B0 & H). apply acct_arg in B0. rewrite (arg_det _ _ _ _ B0 A0) in *.
    apply bind_ok in H as (au & _ & H). apply bind_ok in H as (g & _ & H). apply bind_ok in H as (r & _ & H). apply require_ok in H as [_ H]. apply require_ok in H as [_ H]. cbv zeta in H.
    apply ResizeL.check_authority_ok in H as (_ & _ & _ & H). apply bind_ok in H as (o & _ & H). destruct o as [[off bnd]|]; [|discriminate]. apply bind_ok in H as (u & H & _).
    apply bind_ok in H as (g' & Q & H). destruct g' as [[o b]|]; [|discriminate]. apply bind_ok in H as (gr & R & _). exact (G _ _ _ Q R).
  - intro A1. split; intros ->.
    + apply process_dispatch in H. cbn [dispatch] in H. unfold process_group in H. apply bind_ok in H as (a & _ & H). apply bind_ok in H as (g & B1 & H). apply bind_ok in H as (au & _ & H).
      apply acct_arg in B1. rewrite (arg_det _ _ _ _ B1 A1) in *.
      apply do_group_inv in H as (_ & _ & _ & _ & _ & _ & _ & _ & o & b & Q & R & _); [|assumption]. specialize (GE _ _ Q). lia.
    + destruct (ungroup_effect _ _ _ _ Hs H) as (a & g & au & o & b & _ & B1 & _ & _ & _ & _ & _ & _ & _ & _ & Q & _ & _ & _ & _ & _ & _ & _ & _ & _ & R).
      rewrite (arg_det _ _ _ _ B1 A1) in *. specialize (GE _ _ Q). lia.
  - intros a A0 E N ->. apply process_dispatch in H. cbn [dispatch] in H. apply burn_inv in H as (a' & s & rec & grp & w1 & B0 & _ & _ & _ & _ & _ & _ & _ & [[Q _]|(ga & o & b & gr & Q & _ & _ & Q1 & Q2 & _)] & _);
      apply acct_arg in B0; rewrite (arg_det _ _ _ _ B0 A0) in *.
    + apply nullable_none in Q. change (f_group (data (w a))) with (s_group (data (w a))) in Q. congruence.
    + apply nullable_some in Q as [Q _]. change (f_group (data (w a))) with (s_group (data (w a))) in Q. assert (ga = k) by (apply pk_ext; congruence). subst ga. exact (G _ _ _ Q1 Q2).
Qed.

(** ** ... for ever *)
Lemma kept_lookup_fw t L L' b : Forall2 kept L L' -> lookup t L = Some b -> exists b', lookup t L' = Some b' /\ length b' = length b.
Proof.
  induction 1 as [|[t1 b1] [t2 b2] L L' K _ IH]; cbn [lookup]; [discriminate|]. destruct K as (E & E2 & _). cbn [fst snd] in E, E2. subst t2.
  destruct (ext_type_eqb t1 t); [|exact IH]. intro H. injection H as ->. eauto.
Qed.
Lemma lookup_unsnoc t L x b : lookup t (L ++ [x]) = Some b -> fst x <> t -> lookup t L = Some b.
Proof.
  intros H N. induction L as [|[t0 b0] L IH]; cbn [lookup app] in *.
  - destruct x as [tx bx]. cbn [fst] in N. destruct (ext_type_eqb tx t) eqn:E; [apply ext_type_eqb_eq in E; contradiction|discriminate].
  - destruct (ext_type_eqb t0 t); auto.
Qed.
Lemma short_step e w w' i k infos l l' t n : (t = XManager /\ n = 33%nat) \/ (t = XGrouping /\ n = 16%nat) ->
  short t n l -> (arg infos 0 k -> i <> IRemove t) -> ext_step e w w' i k infos (ext_list l) (ext_list l') -> short t n l'.
Proof.
  intros TN (b & E & Hb) NR [K|[(_ & a & auth & bf & t' & b' & _ & _ & _ & _ & _ & _ & EL & Src)|(A0 & x & EL & Ei & _)]].
  - apply kept_how_kept in K. destruct (kept_lookup_fw _ _ _ _ K E) as (b' & E' & L). exists b'. split; [assumption|lia].
  - unfold short. rewrite EL. destruct (ext_type_eqb t t') eqn:Q.
    + apply ext_type_eqb_eq in Q. subst t'. exists b'. split; [apply lookup_put_same|].
      assert (N : forall inp b1, ~ stored t (pk_bytes auth) (lookup t (ext_list l)) inp b1).
      { intros inp b1 St. rewrite E in St. cbn [stored] in St. destruct St as (_ & _ & S1 & S2). destruct TN as [[-> ->]|[-> ->]]; [specialize (S1 eq_refl)|specialize (S2 eq_refl)]; lia. }
      destruct bf as [bk|]; cbn [source_spec] in Src.
      * destruct Src as (_ & _ & _ & _ & _ & _ & inp' & St & _). elim (N _ _ St).
      * destruct Src as (x0 & _ & _ & _ & S1 & S2 & _). destruct (x_data x0) as [bs|]; [elim (N _ _ (S1 bs eq_refl))|]. rewrite S2 by reflexivity. cbn [length]. lia.
    + exists b. split; [|assumption]. rewrite lookup_put_other; [assumption|]. intros <-. rewrite ext_type_eqb_refl in Q. discriminate.
  - exists b. split; [|assumption]. rewrite EL in E. eapply lookup_unsnoc; [exact E|]. intros <-. elim (NR A0). exact Ei.
Qed.
Lemma arg_in infos k : arg infos 0 k -> exists a, In a (passed infos) /\ ai_key a = k.
Proof. intros (a & E & <-). exists a. split; [|reflexivity]. eapply nth_error_In; eauto. Qed.
Lemma locked_for_ever p w w' k l : p <> pk_zero -> history_of (careful k) p w w' -> sized w -> lam_ok w ->
  acct_owner (w k) = p -> initialized (data (w k)) -> tidy (data (w k)) l -> short XManager 33 l -> locked (data (w k)) ->
  acct_owner (w' k) = p /\ initialized (data (w' k)) /\ locked (data (w' k)) /\ s_owner (data (w' k)) = s_owner (data (w k)) /\
  s_delegate (data (w' k)) = s_delegate (data (w k)) /\ exists l', tidy (data (w' k)) l' /\ short XManager 33 l'.
Proof.
  intros Hp H Hs Hl Ho Hi HT HS HL.
  assert (G : (sized w' /\ lam_ok w') /\ acct_owner (w' k) = p /\ initialized (data (w' k)) /\ locked (data (w' k)) /\ s_owner (data (w' k)) = s_owner (data (w k)) /\
    s_delegate (data (w' k)) = s_delegate (data (w k)) /\ exists l', tidy (data (w' k)) l' /\ short XManager 33 l').
  { induction H as [w|w w1 e infos i w2 H1 IH E He HPi HI|w w1 w2 H1 IH HO].
    - split; [auto|]. repeat (split; [assumption || reflexivity|]). eauto.
    - destruct (IH Hs Hl Ho Hi HT HL) as ([Hs1 Hl1] & F1 & F2 & F3 & F4 & F5 & l1 & F6 & F7). clear IH.
      assert (Hp' : e_prog e <> pk_zero) by congruence. rewrite <- E in F1.
      split; [split; [eapply sized_preserved; eauto|eapply lam_ok_preserved; eauto]|].
      assert (NB : arg infos 0 k -> match i with IApprove _ | IBurn | ILock | IRevoke _ | ITransfer => False | _ => True end).
      { intro A0. destruct (arg_in _ _ A0) as (a & A1 & A2). pose proof (locked_blocks e infos w1 i a A1) as LB. rewrite A2 in LB. specialize (LB F1 F3).
        destruct i; try exact I; elim (LB I w2 HI). }
      assert (NS : arg infos 0 k -> i <> IUnlock) by (intro A0; apply (short_manager _ _ _ _ _ _ _ A0 (tidy_wf _ _ F6) F7 HI)).
      destruct (tidy_step _ _ _ _ _ _ _ He Hp' Hs1 Hl1 HPi F1 F2 F6 HI) as [[[-> B] _]|(G1 & G2 & (G3 & _ & G4 & G5 & G6 & _) & l2 & G7 & G8)].
      + elim (NB B).
      + split; [congruence|]. split; [assumption|]. destruct F3 as [F31 F32]. split; [split; [congruence|]|split; [|split]].
        * destruct G4 as [G4|[A0 [-> | ->]]]; [congruence|elim (NB A0)|elim (NS A0); reflexivity].
        * destruct G5 as [G5|[A0 ->]]; [congruence|elim (NB A0)].
        * destruct G6 as [[G6 _]|[A0 [->|(a & [-> | ->])]]]; [congruence|elim (NB A0)..].
        * exists l2. split; [assumption|]. eapply short_step; eauto. intros A0 ->. destruct F6 as (hd & n & F6).
          assert (NN : XManager <> XNone) by discriminate. destruct (remove_effect _ _ _ _ _ _ _ _ _ A0 F6 NN HI) as (_ & _ & _ & _ & _ & _ & _ & _ & N & _). now elim N.
    - destruct (IH Hs Hl Ho Hi HT HL) as ([Hs1 Hl1] & F1 & F2 & F3 & F4 & F5 & l1 & F6 & F7). destruct HO as (O1 & O2 & O3 & O4). destruct (O1 k F1) as [P1 P2]. rewrite P2.
      split; [auto|]. repeat (split; [assumption|]). eauto. }
  apply G.
Qed.
Lemma unburnable_for_ever p w w' k l : p <> pk_zero -> history_of (careful k) p w w' -> sized w -> lam_ok w ->
  acct_owner (w k) = p -> initialized (data (w k)) -> tidy (data (w k)) l -> short XGrouping 16 l ->
  acct_owner (w' k) = p /\ initialized (data (w' k)) /\ exists l', tidy (data (w' k)) l' /\ short XGrouping 16 l'.
Proof.
  intros Hp H Hs Hl Ho Hi HT HS.
  assert (G : (sized w' /\ lam_ok w') /\ acct_owner (w' k) = p /\ initialized (data (w' k)) /\ exists l', tidy (data (w' k)) l' /\ short XGrouping 16 l').
  { induction H as [w|w w1 e infos i w2 H1 IH E He HPi HI|w w1 w2 H1 IH HO].
    - split; [auto|]. repeat (split; [assumption || reflexivity|]). eauto.
    - destruct (IH Hs Hl Ho Hi HT) as ([Hs1 Hl1] & F1 & F2 & l1 & F6 & F7). clear IH.
      assert (Hp' : e_prog e <> pk_zero) by congruence. rewrite <- E in F1.
      split; [split; [eapply sized_preserved; eauto|eapply lam_ok_preserved; eauto]|].
      destruct (short_grouping _ _ _ _ _ _ _ Hs1 (tidy_wf _ _ F6) F7 HI) as (NB & _).
      destruct (tidy_step _ _ _ _ _ _ _ He Hp' Hs1 Hl1 HPi F1 F2 F6 HI) as [[[-> B] _]|(G1 & G2 & _ & l2 & G7 & G8)].
      + destruct (NB B) as [N _]. now elim N.
      + split; [congruence|]. split; [assumption|]. exists l2. split; [assumption|]. eapply short_step; eauto. intro A0. apply (NB A0).
    - destruct (IH Hs Hl Ho Hi HT) as ([Hs1 Hl1] & F1 & F2 & l1 & F6 & F7). destruct HO as (O1 & O2 & O3 & O4). destruct (O1 k F1) as [P1 P2]. rewrite P2.
      split; [auto|]. repeat (split; [assumption|]). eauto. }
  apply G.
Qed.

(** Which instructions can turn an account into an asset. *)
From Verif Require Import Base State Layout Constr Ext World Proc BaseL Spec SpecB SpecH SpecG WorldL ProcSteps FrameL LayoutL LayoutE HeadL CreatorsL AuthL AuthM GroupL ResizeL UpdateL UpdateM AllocL AllocM AllocC CreateL RemoveL StepL StepH.
From Coq Require Import Strings.Byte.

Section Born.
Variables (e : env) (infos : list ainfo) (w w' : world) (k : pubkey).
Hypothesis (He : env_ok e) (Hp : e_prog e <> pk_zero) (Hs : sized w) (Hl : lam_ok w).
Hypothesis (Hn : ~ asset_of (e_prog e) w k) (Ha : asset_of (e_prog e) w' k).

Lemma not_same : data (w' k) = data (w k) -> acct_owner (w' k) = acct_owner (w k) -> False.
Proof. intros D O. apply Hn. destruct Ha as [H1 H2]. split; congruence. Qed.
Lemma not_one asset d : asset_of (e_prog e) w asset -> set_data e (firstn MAX_ACCOUNTS infos) w asset d = Ok w' -> False.
Proof.
  intros H1 H. apply (one_data _ _ _ _ _ _ k) in H as [[H|[-> _]] O]; [now apply not_same|contradiction].
Qed.
Lemma not_edit asset : asset_of (e_prog e) w asset -> (k <> asset -> data (w' k) = data (w k)) -> acct_owner (w' k) = acct_owner (w k) -> False.
Proof. intros H1 F O. destruct (pk_dec k asset) as [->|N]; [contradiction|]. apply not_same; auto. Qed.

Lemma born i : process e infos w i = Ok w' ->
  (arg infos 0 k /\ ((exists m, i = ICreate m) \/ (exists x, i = IAllocate x) \/ (exists x, i = IWrite x))) \/
  (i = IBurn /\ arg infos 3 k /\ k <> pk_zero /\ exists a, arg infos 0 a /\ asset_of (e_prog e) w a /\ s_group (data (w a)) = pk_bytes k) \/
  (exists x, i = IUpdate x /\ arg infos 2 k /\ k <> e_prog e).
Proof.
  pose proof not_same as NS. pose proof not_one as NO. pose proof not_edit as NE.
  intro H. pose proof H as H0. apply process_dispatch in H. destruct i; cbn [dispatch] in H.
  - (* Close *) apply close_effect in H0 as (b & r & A0 & _ & N & _ & _ & _ & C & D & F); [|assumption].
    exfalso. destruct (pk_dec k b) as [->|Nb]; [destruct Ha as [Ha' _]; rewrite C in Ha'; now apply Hp|].
    destruct (pk_dec k r) as [->|Nr]; [apply NS; now rewrite D|apply NS; now rewrite F].
  - (* Burn *) apply burn_inv in H as (asset & signer & rec & grp & w1 & A0 & A1 & A2 & A3 & O1 & _ & I1 & _ & Hg & _ & Hc).
    apply acct_arg in A0, A1.
    assert (W1 : lamports (w1 asset) = lamports (w asset)).
    { destruct Hg as [[_ ->]|(ga & off & b & gr & _ & _ & _ & _ & _ & _ & Hset)]; [reflexivity|]. eapply set_data_lam; eauto. }
    apply close_account_spec in Hc as (C1 & C2 & C3 & C4); [|rewrite W1; apply Hl].
    destruct (pk_dec k asset) as [Ek|Na]; [exfalso; apply Hn; rewrite Ek; split; assumption|].
    assert (Hsame : data (w' k) = data (w1 k) /\ acct_owner (w' k) = acct_owner (w1 k)).
    { destruct (pk_dec k (match rec with Some r => r | None => signer end)) as [->|Nd]; [rewrite C3; auto|rewrite C4 by assumption; auto]. }
    destruct Hsame as [E1 E2].
    destruct Hg as [[_ ->]|(ga & off & b & gr & G1 & -> & _ & Hge & Hgr & H1 & Hset)]; [exfalso; now apply NS|].
    apply opt_acct_some in A3 as [A3 _]. apply (one_data _ _ _ _ _ _ k) in Hset as [[D|[-> D]] O]; [exfalso; apply NS; congruence|].
    right. left. split; [reflexivity|]. split; [assumption|]. apply nullable_some in G1 as [G1 G2].
    split; [intro Q; apply G2; rewrite G1, Q; reflexivity|]. exists asset. split; [assumption|]. split; [split; assumption|]. exact G1.
  - (* Create *) left. apply bind_ok in H as (asset & A0 & _). apply acct_arg in A0.
    destruct (pk_dec k asset) as [->|N]; [eauto|]. exfalso.
    pose proof H0 as H. apply process_dispatch in H. cbn [dispatch] in H. unfold process_create in H.
    apply bind_ok in H as (asset' & B0 & H). apply acct_arg in B0. rewrite (arg_det _ _ _ _ B0 A0) in *. clear B0 asset'.
    apply bind_ok in H as (auth & A1 & H). apply bind_ok in H as (owner & A2 & H).
    apply bind_ok in H as (group & A3 & H). apply bind_ok in H as (gauth & A4 & H).
    apply bind_ok in H as (payer & A5 & H). apply bind_ok in H as (sysp & A6 & H).
    apply require_ok in H as [Hsg H]. apply bind_ok in H as (w1 & H1 & H). apply bind_ok in H as (w2 & H2 & H).
    apply bind_ok in H as (r & H3 & H). cbv zeta in H. apply require_ok in H as [HM H].
    apply bind_ok in H as (p & Hpx & H). apply bind_ok in H as (px & Hq & H). apply bind_ok in H as (u & Hu & H).
    apply bind_ok in H as (w3 & H4 & H).
    assert (E1 : data (w1 k) = data (w k) /\ acct_owner (w1 k) = acct_owner (w k) /\ sized w1 /\ acct_owner (w1 asset) = e_prog e).
    { destruct (zlen (data (w asset)) =? 0).
      - assert (Hs1 : sized w1 /\ acct_owner (w1 asset) = e_prog e).
        { pose proof (alloc_create_psteps e He Hp _ _ _ _ _ _ _ H1) as [P O]. split; [eapply psteps_sized; eauto|assumption]. }
        unfold alloc_create_account in H1. apply bind_ok in H1 as (pp & _ & H1). apply require_ok in H1 as [_ H1].
        apply bind_ok in H1 as (ss & _ & H1). apply require_ok in H1 as [_ H1].
        apply sys_create_world in H1 as (_ & F1 & _). destruct (F1 k N). tauto.
      - apply require_ok in H1 as [O1 H1]. apply require_ok in H1 as [_ H1]. apply require_ok in H1 as [_ H1]. apply Ok_inj in H1. subst w1.
        unfold owned_by_prog in O1. apply pk_eqb_eq in O1. auto. }
    destruct E1 as (D1 & O1 & S1 & OA1).
    assert (E2 : data (w2 k) = data (w1 k) /\ acct_owner (w2 k) = acct_owner (w1 k) /\ sized w2).
    { destruct (m_exts m) as [xs|].
      - pose proof (allocate_all_psteps e He Hp _ _ _ _ _ _ _ _ OA1 H2) as [P _]. apply (allocate_all_frame e k) in H2 as [D O]; [|assumption].
        split; [assumption|]. split; [assumption|]. eapply psteps_sized; eauto.
      - apply Ok_inj in H2. subst w2. auto. }
    destruct E2 as (D2 & O2 & S2).
    assert (S3 : sized w3) by (eapply psteps_sized; [eapply set_data_psteps; eauto|assumption]).
    apply set_data_world in H4 as (_ & F3 & O3).
    assert (D3 : data (w3 k) = data (w k)) by (rewrite F3 by assumption; congruence).
    assert (OW3 : acct_owner (w3 k) = acct_owner (w k)) by (rewrite O3; congruence).
    destruct group as [g|]; [|apply Ok_inj in H; subst w3; now apply NS].
    apply do_group_inv in H as (_ & _ & Og & _ & Ig & Hne & Hg & _ & off & b & HE & Hb & Hoff & _ & Hm & (T1 & T2) & D4 & D5); [|assumption].
    destruct (pk_dec k g) as [<-|Ng]; [apply Hn; split; congruence|].
    apply NS; [rewrite T1 by assumption; assumption|rewrite (proj2 (T2 k)); assumption].
  - (* Approve *) exfalso. apply approve_inv in H as (asset & owner & del & A0 & A1 & A2 & O & _ & I1 & _ & H). eapply NO; [split; eassumption|exact H].
  - (* Allocate *) left. unfold process_allocate in H.
    apply bind_ok in H as (asset & A0 & H). apply bind_ok in H as (p & _ & H). apply bind_ok in H as (s & _ & H).
    apply acct_arg in A0. destruct (pk_dec k asset) as [->|N]; [eauto 6|]. exfalso.
    apply (do_allocate_frame e k) in H as [D O]; [|assumption]. now apply NS.
  - exfalso. apply set_state_inv in H as (asset & signer & A0 & _ & _ & O & I1 & _ & H). eapply NO; [split; eassumption|exact H].
  - exfalso. apply revoke_inv in H as (asset & signer & A0 & A1 & O & _ & I1 & _ & H). eapply NO; [split; eassumption|exact H].
  - exfalso. apply transfer_inv in H as (asset & signer & rec & grp & ck & A0 & A1 & A2 & _ & O & _ & I1 & _ & _ & _ & H).
    destruct H as [[_ ->]|[_ [_ H]]]; [now apply Hn|]. eapply NO; [split; eassumption|exact H].
  - exfalso. apply set_state_inv in H as (asset & signer & A0 & _ & _ & O & I1 & _ & H). eapply NO; [split; eassumption|exact H].
  - exfalso. unfold process_set_verified in H. apply bind_ok in H as (asset & A0 & H). apply bind_ok in H as (cr & A1 & H).
    apply require_ok in H as [S1 H]. apply require_ok in H as [O1 H]. cbv zeta in H. apply require_ok in H as [I1 H].
    apply bind_ok in H as (r & Hr & H). destruct r as [[off b]|]; [|discriminate]. apply bind_ok in H as (l & Hb & H).
    apply require_ok in H as [Hex H]. unfold owned_by_prog in O1. apply pk_eqb_eq in O1. apply is_asset_spec in I1. eapply NO; [split; eassumption|exact H].
  - (* Update *) unfold process_update in H.
    apply bind_ok in H as (asset & A0 & H). apply bind_ok in H as (auth & A1 & H). apply bind_ok in H as (bf & A2 & H).
    apply bind_ok in H as (g & _ & H). apply bind_ok in H as (p & _ & H). apply bind_ok in H as (s & _ & H).
    apply require_ok in H as [S1 H]. apply require_ok in H as [OW H]. cbv zeta in H. apply check_authority_ok in H as (I1 & _ & _ & H).
    apply bind_ok in H as (w1 & H1 & H). unfold owned_by_prog in OW. apply pk_eqb_eq in OW.
    apply set_data_world in H1 as (_ & F1 & O1). apply acct_arg in A0.
    assert (HB : (exists bk, bf = Some bk /\ k = bk) \/ bf <> Some k).
    { destruct bf as [bk|]; [|right; discriminate]. destruct (pk_dec k bk) as [->|N]; [left; eauto|right; congruence]. }
    destruct HB as [(bk & -> & ->)|HB].
    { apply opt_acct_some in A2 as [A2 N2]. right. right. eauto. }
    exfalso.
    assert (X : (k <> asset -> data (w' k) = data (w1 k)) /\ acct_owner (w' k) = acct_owner (w1 k)).
    { assert (Y : forall x, update_ext e (firstn MAX_ACCOUNTS infos) w w1 asset auth bf p s x = Ok w' ->
        (k <> asset -> data (w' k) = data (w1 k)) /\ acct_owner (w' k) = acct_owner (w1 k)).
      { intros x Hx. unfold update_ext in Hx. apply bind_ok in Hx as (t & Ht & Hx). apply bind_ok in Hx as ([off fo] & _ & Hx).
        apply bind_ok in Hx as ([[n src] w2] & H2 & Hx). apply bind_ok in Hx as (w3 & H3 & Hx).
        pose proof (update_source_owner _ _ _ _ _ _ _ _ _ _ _ _ _ k H2) as Q2.
        pose proof (update_room_owner _ _ _ _ _ _ _ _ _ _ _ k H3) as Q3.
        split.
        - intro N. rewrite (update_finish_frame _ _ _ _ _ _ _ _ _ _ _ _ Hx N), (update_room_frame _ _ _ _ _ _ _ _ _ _ _ _ H3 N).
          clear Hx H3 Q2 Q3. unfold update_source in H2. cbv zeta in H2. destruct bf as [bk|].
          + apply bind_ok in H2 as (fe & _ & H2). destruct fe as [[h o]|]; [|discriminate].
            apply require_ok in H2 as [_ H2]. apply require_ok in H2 as [_ H2]. apply bind_ok in H2 as (inp & _ & H2).
            apply bind_ok in H2 as (cur & _ & H2). apply bind_ok in H2 as (inp' & _ & H2). apply bind_ok in H2 as (w4 & H4 & H2).
            apply Ok_inj in H2. assert (E : w4 = w2) by congruence. subst w4.
            apply set_data_world in H4 as (_ & F & _). apply F. congruence.
          + destruct x as [x|]; [|discriminate]. apply bind_ok in H2 as ([n' o'] & _ & H2).
            match type of H2 with (if ?q then _ else _) = _ => destruct q; [discriminate|] end.
            match type of H2 with (if ?q then _ else _) = _ => destruct q; [discriminate|] end.
            apply Ok_inj in H2. assert (E : w1 = w2) by congruence. now subst.
        - unfold update_finish in Hx. cbv zeta in Hx. apply bind_ok in Hx as (d4 & _ & Hx). apply bind_ok in Hx as (d5 & _ & Hx).
          apply bind_ok in Hx as (d6 & _ & Hx). apply set_data_world in Hx as (_ & _ & Q4). now rewrite Q4, Q3, Q2. }
      destruct (u_ext u) as [x|], bf as [bk|]; try discriminate; eauto.
      apply Ok_inj in H. subst w1. auto. }
    destruct X as [X1 X2]. apply (NE asset); [split; assumption| |congruence].
    intro N. rewrite X1, F1 by assumption. reflexivity.
  - exfalso. unfold process_set_verified in H. apply bind_ok in H as (asset & A0 & H). apply bind_ok in H as (cr & A1 & H).
    apply require_ok in H as [S1 H]. apply require_ok in H as [O1 H]. cbv zeta in H. apply require_ok in H as [I1 H].
    apply bind_ok in H as (r & Hr & H). destruct r as [[off b]|]; [|discriminate]. apply bind_ok in H as (l & Hb & H).
    apply require_ok in H as [Hex H]. unfold owned_by_prog in O1. apply pk_eqb_eq in O1. apply is_asset_spec in I1. eapply NO; [split; eassumption|exact H].
  - (* Write *) left. unfold process_write in H.
    apply bind_ok in H as (asset & A0 & H). apply bind_ok in H as (p & _ & H). apply bind_ok in H as (s & _ & H).
    apply acct_arg in A0. destruct (pk_dec k asset) as [->|N]; [eauto 6|]. exfalso.
    do 4 apply require_ok in H as [_ H]. cbv zeta in H. do 2 apply require_ok in H as [_ H].
    apply bind_ok in H as (r & _ & H). destruct r as [[h off]|]; [|discriminate]. apply require_ok in H as [_ H].
    apply bind_ok in H as (w1 & H1 & H). apply bind_ok in H as (d1 & _ & H). apply bind_ok in H as (w2 & H2 & H).
    apply resize_world in H1 as (_ & F1 & O1). apply set_data_world in H2 as (_ & F2 & O2).
    assert (E2 : data (w2 k) = data (w k) /\ acct_owner (w2 k) = acct_owner (w k)) by (rewrite F2, F1, O2, O1 by assumption; auto).
    match type of H with (if ?q then _ else _) = _ => destruct q end.
    + apply Ok_inj in H. subst w2. destruct E2. now apply NS.
    + apply bind_ok in H as (l2 & _ & H). destruct l2 as [[h2 off2]|]; [|discriminate]. apply bind_ok in H as (t & _ & H).
      apply bind_ok in H as (b & _ & H). apply bind_ok in H as (b' & _ & H). apply set_data_world in H as (_ & F & O).
      destruct E2. apply NS; [rewrite F by assumption; assumption|now rewrite O].
  - exfalso. apply group_effect in H0 as (a & g & s & off & b & _ & _ & _ & _ & _ & O1 & O2 & I1 & I2 & _ & _ & _ & _ & _ & F & O & _); [|assumption].
    destruct (pk_dec k a) as [->|N1]; [apply Hn; split; assumption|]. destruct (pk_dec k g) as [->|N2]; [apply Hn; split; assumption|].
    apply NS; now rewrite F.
  - exfalso. apply ungroup_effect in H0 as (a & g & s & off & b & _ & _ & _ & _ & _ & O1 & O2 & I1 & I2 & _ & _ & _ & F & O & _); [|assumption].
    destruct (pk_dec k a) as [->|N1]; [apply Hn; split; assumption|]. destruct (pk_dec k g) as [->|N2]; [apply Hn; split; assumption|].
    apply NS; now rewrite F.
  - exfalso. unfold process_handover in H.
    apply bind_ok in H as (asset & A0 & H). apply bind_ok in H as (auth & A1 & H). apply bind_ok in H as (new & A2 & H).
    apply require_ok in H as [S1 H]. apply require_ok in H as [S2 H]. apply require_ok in H as [O1 H]. cbv zeta in H.
    apply check_authority_ok in H as (I1 & _ & _ & H). unfold owned_by_prog in O1. apply pk_eqb_eq in O1. eapply NO; [split; eassumption|exact H].
  - exfalso. unfold process_remove in H.
    apply bind_ok in H as (asset & A0 & H). apply bind_ok in H as (auth & A1 & H). apply bind_ok in H as (g & _ & H). apply bind_ok in H as (r & _ & H).
    apply require_ok in H as [S1 H]. apply require_ok in H as [OW H]. cbv zeta in H. apply check_authority_ok in H as (I1 & _ & _ & H).
    apply bind_ok in H as (o & _ & H). destruct o as [[off bnd]|]; [|discriminate]. apply bind_ok in H as (u & _ & H).
    apply bind_ok in H as (d1 & _ & H). apply bind_ok in H as (w1 & H1 & H).
    apply set_data_world in H1 as (_ & F1 & O1). apply resize_world in H as (_ & F2 & O2).
    unfold owned_by_prog in OW. apply pk_eqb_eq in OW. apply (NE asset); [split; assumption| |].
    + intro N. rewrite F2, F1 by assumption. reflexivity.
    + now rewrite O2, O1.
  - exfalso. apply resize_instr_inv in H0 as (asset & auth & A0 & A1 & S1 & OW & I1 & _ & _ & F & O & _).
    apply (NE asset); [split; assumption|apply F|apply O].
Qed.
End Born.

(** The bridge: what its instructions do, and the custody invariant (C46). *)
From Verif Require Import Base State Layout Constr Ext World Proc Borsh Proxy Bridge BaseL Spec SpecB SpecH SpecI SpecP SpecV WorldL ProcSteps FrameL LayoutL LayoutM HeadL AuthL AuthM AllocL GroupL UpdateL StepL StepH HistL TheftL BorshL ProxyL ProxyM.
From Coq Require Import Strings.Byte.

(** accounts an asset instruction cannot take over *)
Lemma pstep_keep e infos w w' k : pstep e infos w w' -> acct_owner (w k) <> e_prog e ->
  (acct_owner (w k) <> pk_zero \/ data (w k) <> [] \/ is_signer infos k = false) ->
  acct_owner (w' k) = acct_owner (w k) /\ data (w' k) = data (w k).
Proof.
  intros H Ho Hc. destruct H as [w k1 d W O L|w src dst amt W1 W2 N A B C|w k1 sp Sp W S O D L|w k1 W O].
  - unfold upd. destruct (pk_eqb k k1) eqn:E; [apply pk_eqb_eq in E; subst; contradiction|auto].
  - unfold upd. destruct (pk_eqb k dst) eqn:E; [apply pk_eqb_eq in E; subst; auto|].
    destruct (pk_eqb k src) eqn:E2; [apply pk_eqb_eq in E2; subst; auto|auto].
  - unfold upd. destruct (pk_eqb k k1) eqn:E; [apply pk_eqb_eq in E; subst|auto]. destruct Hc as [Hc|[Hc|Hc]]; congruence.
  - unfold upd. destruct (pk_eqb k k1) eqn:E; [apply pk_eqb_eq in E; subst; contradiction|auto].
Qed.
Lemma psteps_keep e infos w w' k : psteps e infos w w' -> acct_owner (w k) <> e_prog e ->
  (acct_owner (w k) <> pk_zero \/ data (w k) <> [] \/ is_signer infos k = false) ->
  acct_owner (w' k) = acct_owner (w k) /\ data (w' k) = data (w k).
Proof.
  induction 1 as [|w w1 w2 H1 H2 IH]; [auto|]. intros Ho Hc. destruct (pstep_keep _ _ _ _ _ H1 Ho Hc) as [E1 E2].
  rewrite <- E1, <- E2. apply IH; rewrite E1; [assumption|]. now rewrite E2.
Qed.
Lemma process_keep e infos w i w' k : env_ok e -> e_prog e <> pk_zero -> lam_ok w -> process e infos w i = Ok w' ->
  acct_owner (w k) <> e_prog e -> (acct_owner (w k) <> pk_zero \/ data (w k) <> [] \/ ~ signed infos k) ->
  acct_owner (w' k) = acct_owner (w k) /\ data (w' k) = data (w k).
Proof.
  intros He Hp Hl H Ho Hc. apply process_psteps in H; try assumption. apply (psteps_keep _ _ _ _ _ H Ho).
  destruct Hc as [Hc|[Hc|Hc]]; auto. right. right. destruct (is_signer (passed infos) k) eqn:E; [|reflexivity].
  elim Hc. now apply is_signer_spec in E.
Qed.

Lemma transfer_by e infos w w' : sized w -> process e infos w ITransfer = Ok w' ->
  exists asset signer recipient, arg infos 0 asset /\ arg infos 1 signer /\ arg infos 2 recipient /\ signed infos signer /\
    acct_owner (w asset) = e_prog e /\ initialized (data (w asset)) /\ s_standard (data (w asset)) <> x02 /\
    may_act (data (w asset)) signer RTransfer /\
    forall l, well_formed (data (w asset)) l -> authorized (data (w asset)) l signer RTransfer.
Proof.
  intros Hs H. apply process_dispatch in H. cbn [dispatch] in H.
  apply transfer_inv in H as (asset & signer & rec & grp & ck & A0 & A1 & A2 & A3 & Ho & Hsg & Hi & Hsb & _ & Hact & Hcase).
  apply acct_arg in A0, A1, A2. apply signed_acct in Hsg. exists asset, signer, rec. repeat (split; [assumption|]). split.
  - eapply act_check_sound; eauto. now apply sized_wf_two64.
  - intros l Hwf. now apply act_check_wf.
Qed.

(** Nobody but [v] may act on a plain asset held by [v] without delegate. *)
Lemma only_holder d l v s r : s_owner d = pk_bytes v -> s_delegate d = no_key -> unmanaged l -> authorized d l s r -> s = v.
Proof.
  intros Ho Hd HU [A|A]; [apply pk_ext; congruence|exfalso].
  destruct (lookup XManager (ext_list l)) as [b|] eqn:Eb; [destruct A as [A _]; specialize (HU b Eb); lia|destruct A; contradiction].
Qed.

(** ... nor lock it *)
Lemma lock_by st e infos w w' a v l : process_set_state st e (passed infos) w = Ok w' -> arg infos 0 a -> well_formed (data (w a)) l -> unmanaged l ->
  s_owner (data (w a)) = pk_bytes v -> s_delegate (data (w a)) = no_key -> signed infos v.
Proof.
  intros H A Hwf HU Ho Hd. apply set_state_inv in H as (x & s & B0 & B1 & Hs & _ & _ & Hl & _). apply acct_arg in B0, B1. rewrite (arg_det _ _ _ _ B0 A) in *.
  assert (Hm : forall b, lookup XManager (ext_list l) = Some b -> (33 <= length b)%nat).
  { intros b Hb. specialize (HU b Hb). exfalso. unfold lock_check in Hl. rewrite (manager_layout _ _ Hwf), Hb in Hl.
    unfold load_delegate, guard in Hl. replace (33 <=? zlen b) with false in Hl by (unfold zlen; lia). discriminate Hl. }
  apply (lock_check_spec _ _ _ Hwf Hm) in Hl. unfold may_lock in Hl. apply signed_acct in Hs.
  assert (s = v) as <-; [|exact Hs]. apply pk_ext. destruct (lookup XManager (ext_list l)) as [b|] eqn:Eb.
  - specialize (HU b Eb). specialize (Hm b eq_refl). lia.
  - destruct Hl as [[Q _]|[_ Q]]; [contradiction|congruence].
Qed.

(** One asset instruction, as far as custody of [a] by [v] goes. *)
Definition holds (p : pubkey) (w w' : world) (v a : pubkey) : Prop :=
  (in_custody p w v a -> in_custody p w' v a) /\ (acct_owner (w a) <> p -> acct_owner (w' a) <> p).
Definition harmless (i : instr) : Prop := (exists x, i = IAllocate x) \/ (exists m, i = ICreate m).
Lemma asset_step e infos w i w' v a : env_ok e -> e_prog e <> pk_zero -> sized w -> lam_ok w ->
  careful a e infos w i -> ~ signed infos v \/ harmless i -> ~ signed infos a \/ acct_owner (w a) <> pk_zero ->
  process e infos w i = Ok w' -> plain_or_gone (e_prog e) w v a ->
  plain_or_gone (e_prog e) w' v a /\ holds (e_prog e) w w' v a.
Proof.
  intros He Hp Hs Hl Hc Hv Ha H [G|(Ho & Hi & (l & HT & HU) & HN & HD)].
  - destruct (process_keep _ _ _ _ _ a He Hp Hl H G ltac:(destruct Ha; auto)) as [E1 E2]. split; [left; congruence|].
    split; [intros (C & _); contradiction|congruence].
  - assert (HW : well_formed (data (w a)) l) by now apply tidy_wf.
    destruct (tidy_step _ _ _ _ _ _ _ He Hp Hs Hl Hc Ho Hi HT H) as [[[-> B] Hg]|(G1 & G2 & HS & l2 & G4 & G5)].
    + split.
      * left. rewrite Hg. cbn [acct_owner]. congruence.
      * split; [|contradiction]. intros (_ & _ & C1 & C2). exfalso. destruct (burn_authorized _ _ _ _ Hs H) as (x & s & A0 & _ & Ss & _ & Hau).
        rewrite (arg_det _ _ _ _ A0 B) in *. pose proof (only_holder _ _ _ _ _ C1 C2 HU (Hau l HW)) as ->.
        destruct Hv as [Hv|[[? Q]|[? Q]]]; [contradiction|discriminate|discriminate].
    + assert (KD : s_owner (data (w a)) = pk_bytes v -> s_owner (data (w' a)) = pk_bytes v /\ s_delegate (data (w' a)) = no_key /\ s_state (data (w' a)) <> x01).
      { intro C1. destruct (HD C1) as [C2 CL]. unfold header_step in HS. cbv zeta in HS. destruct HS as (_ & _ & S2 & S3 & S4 & _).
        assert (NT : i <> ITransfer \/ ~ arg infos 0 a).
        { destruct (ltac:(destruct i; first [left; discriminate|right; reflexivity]) : i <> ITransfer \/ i = ITransfer) as [Q| ->]; [auto|]. right. intro A.
          destruct (transfer_by _ _ _ _ Hs H) as (x & s & rr & A0 & _ & _ & Ss & _ & _ & _ & _ & Hau). rewrite (arg_det _ _ _ _ A0 A) in *.
          pose proof (only_holder _ _ _ _ _ C1 C2 HU (Hau l HW)) as ->.
          destruct Hv as [Hv|[[? Q]|[? Q]]]; [contradiction|discriminate|discriminate]. }
        split; [destruct S3 as [S3|[A ->]]; [congruence|destruct NT; contradiction]|].
        split.
        2:{ destruct S2 as [S2|[A [-> | ->]]]; [congruence| |]; exfalso; pose proof H as HL; apply process_dispatch in HL; cbn [dispatch] in HL;
            pose proof (lock_by _ _ _ _ _ _ _ _ HL A HW HU C1 C2) as SV; destruct Hv as [Hv|[[? Q]|[? Q]]]; [contradiction|discriminate|discriminate|contradiction|discriminate|discriminate]. }
        destruct S4 as [[S4 _]|[A [->|(d & [-> | ->])]]]; [congruence|destruct NT; contradiction| |]; exfalso.
        - destruct (approve_effect _ _ _ _ _ H) as (x & o & dl & A0 & _ & _ & So & _ & Ow & _). rewrite (arg_det _ _ _ _ A0 A) in *.
          assert (o = v) as -> by (apply pk_ext; congruence). destruct Hv as [Hv|[[? Q]|[? Q]]]; [contradiction|discriminate|discriminate].
        - destruct (revoke_effect _ _ _ _ _ H) as (x & o & A0 & _ & So & _ & Ow & _). rewrite (arg_det _ _ _ _ A0 A) in *.
          destruct Ow as [Ow|[Ow _]]; [|contradiction].
          assert (o = v) as -> by (apply pk_ext; congruence). destruct Hv as [Hv|[[? Q]|[? Q]]]; [contradiction|discriminate|discriminate]. }
      split.
      * right. split; [assumption|]. split; [assumption|]. split; [exists l2; split; [assumption|eapply unmanaged_step; eauto]|].
        split; [unfold header_step in HS; cbv zeta in HS; destruct HS as (_ & HS & _); congruence|].
        intro C'. destruct (list_eq_dec Byte.byte_eq_dec (s_owner (data (w a))) (pk_bytes v)) as [Q|Q]; [now apply KD|].
        unfold header_step in HS. cbv zeta in HS. destruct HS as (_ & _ & S2 & S3 & _). destruct S3 as [S3|[A ->]]; [congruence|].
        split.
        2:{ destruct S2 as [S2|[_ [Q2|Q2]]]; [|discriminate|discriminate]. rewrite S2. intro L. destruct A as (x & X1 & X2).
            apply nth_error_In in X1. eapply (locked_blocks e infos w ITransfer x X1); rewrite ?X2; try eassumption; [split; [apply Hi|exact L]|reflexivity]. }
        destruct (transfer_effect _ _ _ _ H) as (x & rr & A0 & A2 & Hx). rewrite (arg_det _ _ _ _ A0 A) in *.
        destruct Hx as [[_ Hx]|(_ & _ & _ & _ & Hx & _)]; [rewrite Hx in C'; contradiction|].
        apply (f_equal (firstn 32)) in Hx. unfold sub in Hx. rewrite firstn_firstn in Hx.
        unfold s_delegate, sub. exact Hx.
      * split; [|contradiction]. intros (_ & _ & C1 & _). destruct (KD C1) as (K1 & K2 & _). repeat split; assumption || apply G2.
Qed.

(** ** Inversion of the bridge's instructions *)
Lemma acct_at infos i k : acct infos i = Ok k -> at_pos infos i k.
Proof. unfold acct. destruct (nth_error infos i) as [x|] eqn:E; [|discriminate]. intro H. apply Ok_inj in H. exists x. auto. Qed.
Lemma at_acct infos i k : at_pos infos i k -> acct infos i = Ok k.
Proof. intros (x & E & <-). unfold acct. now rewrite E. Qed.
Lemma at_det infos i k k' : at_pos infos i k -> at_pos infos i k' -> k = k'.
Proof. intros (x & E & <-) (y & E' & <-). congruence. Qed.
Lemma signs_iff infos k : is_signer infos k = true <-> signs infos k.
Proof. rewrite is_signer_spec. unfold signs. firstorder. Qed.
Lemma tag_only i j : write_instr j = write_instr i -> instr_ok i ->
  (j = ITransfer -> i = ITransfer) /\ (harmless j -> harmless i).
Proof.
  intros E Hi. split.
  - intros ->. destruct i; cbn [write_instr] in E; first [reflexivity|discriminate E].
  - intros [[x ->]|[m ->]]; destruct i; cbn [write_instr] in E; first [discriminate E|left; eexists; reflexivity|right; eexists; reflexivity].
Qed.
Lemma invoke0_iff e infos w0 w metas b w' : invoke0 e infos w0 w metas b = Ok w' <->
  exists i, mentions infos (e_prog e) /\ Forall (fun m => granted0 infos m = true) metas /\ instr_ok i /\ b = write_instr i /\
    process (in_cpi e) metas w i = Ok w' /\ bounded_growth infos w0 w'.
Proof.
  unfold invoke0. split.
  - intro H. apply require_ok in H as [H2 H]. apply require_ok in H as [H3 H].
    apply bind_ok in H as (w1 & H4 & H). apply require_ok in H as [H5 H]. apply Ok_inj in H. subst w1.
    apply entry_only in H4 as (i & I1 & I2 & I3). exists i.
    split; [now apply listed_iff|]. split; [apply Forall_forall; now apply forallb_forall|].
    split; [assumption|]. split; [assumption|]. split; [assumption|]. now apply grown_iff.
  - intros (i & H2 & H3 & H4 & -> & H5 & H6). apply listed_iff in H2. rewrite H2. cbn [require].
    assert (forallb (granted0 infos) metas = true) as -> by (apply forallb_forall; now apply Forall_forall).
    cbn [require]. rewrite (entry_written _ _ _ _ H4), H5. cbn [bind]. apply grown_iff in H6. now rewrite H6.
Qed.
Lemma granted0_signs infos m : granted0 infos m = true -> ai_signer m = true -> signs infos (ai_key m).
Proof.
  unfold granted0. rewrite !andb_true_iff, !orb_true_iff. intros [[_ H] _] E. rewrite E in H. cbn [negb] in H.
  destruct H as [H|H]; [discriminate|now apply signs_iff].
Qed.

Definition toggled (b : benv) (e : env) (me : pubkey) (infos : list ainfo) (w : world) (h : holders) (w' : world) (h' : holders)
    (asset vault owner mint : pubkey) (s : mode) : Prop :=
  exists token metadata edition record vtoken vrecord payer group w1 w2,
  let from := match s with Idle => owner | Active => vault end in
  let to := match s with Idle => vault | Active => owner end in
  set_data (as_prog e me) infos w vault (put (data (w vault)) 1 [mode_byte (flip s)]) = Ok w1 /\
  be_transfer b infos (match s with Idle => None | Active => Some vault end)
    (match s with
     | Idle => mkCall owner mint metadata edition payer owner token record vault vtoken vrecord
     | Active => mkCall vault mint metadata edition payer vault vtoken vrecord owner token record end) w1 h = Ok (w2, h') /\
  process (in_cpi e) (move_metas e asset to from group) w2 ITransfer = Ok w' /\
  bounded_growth infos w w' /\ mentions infos (e_prog e).
Lemma bridge_inv b e me infos w h w' h' : process_bridge b e me infos w h = Ok (w', h') ->
  exists asset vault owner mint s,
    at_pos infos 0 asset /\ at_pos infos 1 vault /\ at_pos infos 2 owner /\ at_pos infos 4 mint /\
    signs infos owner /\ acct_owner (w asset) = e_prog e /\ acct_owner (w vault) = me /\
    nth 0 (data (w vault)) x00 = x01 /\ (36 <= length (data (w vault)))%nat /\
    e_cpa e (s_vault ++ pk_bytes mint) (nth 2 (data (w vault)) x00) (pk_bytes me) = Some vault /\
    sub (data (w vault)) 3 32 = pk_bytes mint /\
    e_cpa e (s_asset ++ pk_bytes mint) (nth 35 (data (w vault)) x00) (pk_bytes me) = Some asset /\
    nth 1 (data (w vault)) x00 = mode_byte s /\
    toggled b e me infos w h w' h' asset vault owner mint s.
Proof.
  intro H. unfold process_bridge in H. apply require_ok in H as [Hlen H].
  apply bind_ok in H as (asset & A0 & H). apply bind_ok in H as (vault & A1 & H). apply bind_ok in H as (owner & A2 & H).
  apply bind_ok in H as (token & A3 & H). apply bind_ok in H as (mint & A4 & H). apply bind_ok in H as (metadata & A5 & H).
  apply bind_ok in H as (edition & A6 & H). apply bind_ok in H as (record & A7 & H). apply bind_ok in H as (vtoken & A8 & H).
  apply bind_ok in H as (vrecord & A9 & H). apply bind_ok in H as (payer & A10 & H). apply bind_ok in H as (group & A19 & H).
  apply require_ok in H as [Sg H]. apply require_ok in H as [_ H]. apply require_ok in H as [Oa H]. apply require_ok in H as [Ov H].
  cbv zeta in H. apply require_ok in H as [Hd H]. apply guard_ok in H as [Hl H].
  apply bind_ok in H as (k & Hk & H). apply require_ok in H as [Ek H]. apply require_ok in H as [Em H].
  apply bind_ok in H as (a & Ha & H). apply require_ok in H as [Ea H]. apply guard_ok in H as [_ H].
  apply bind_ok in H as (m & Hm & H). apply require_ok in H as [_ H]. apply require_ok in H as [_ H].
  apply pk_eqb_eq in Oa, Ov, Ek, Ea. subst k a. apply andb_true_iff in Hd as [_ Hd]. apply beqb_eq in Hd.
  apply bytes_eqb_eq in Em. apply signs_iff in Sg.
  destruct (e_cpa e (vault_seeds mint) (byte_at (data (w vault)) 2) (pk_bytes me)) as [k|] eqn:Ck; [|discriminate].
  apply Ok_inj in Hk. subst k.
  destruct (e_cpa e (asset_seeds mint) (byte_at (data (w vault)) 35) (pk_bytes me)) as [k|] eqn:Ca; [|discriminate].
  apply Ok_inj in Ha. subst k. unfold VAULT_LEN, zlen in Hl.
  assert (ST : exists s, byte_at (data (w vault)) 1 = mode_byte s /\ toggled b e me infos w h w' h' asset vault owner mint s).
  { destruct (beqb (byte_at (data (w vault)) 1) V_IDLE) eqn:Q; [|destruct (beqb (byte_at (data (w vault)) 1) V_ACTIVE) eqn:Q2; [|discriminate]].
    - exists Idle. apply beqb_eq in Q. split; [exact Q|]. apply bind_ok in H as (w1 & H1 & H). apply bind_ok in H as (r & H2 & H).
      apply bind_ok in H as (w3 & H3 & H). apply Ok_inj in H. destruct r as [w2 h2]. cbn [fst snd] in *.
      assert (w3 = w' /\ h2 = h') as [-> ->] by (split; congruence).
      apply invoke_iff in H3 as (pda & i & P1 & P2 & P3 & P4 & P5 & P6 & P7).
      destruct (tag_only i _ P5 P4) as [T _]. rewrite (T eq_refl) in P6.
      exists token, metadata, edition, record, vtoken, vrecord, payer, group, w1, w2. cbv zeta. auto.
    - exists Active. apply beqb_eq in Q2. split; [exact Q2|]. apply bind_ok in H as (w1 & H1 & H). apply bind_ok in H as (r & H2 & H).
      apply bind_ok in H as (w3 & H3 & H). apply Ok_inj in H. destruct r as [w2 h2]. cbn [fst snd] in *.
      assert (w3 = w' /\ h2 = h') as [-> ->] by (split; congruence).
      apply invoke0_iff in H3 as (i & P2 & P3 & P4 & P5 & P6 & P7).
      destruct (tag_only i _ P5 P4) as [T _]. rewrite (T eq_refl) in P6.
      exists token, metadata, edition, record, vtoken, vrecord, payer, group, w1, w2. cbv zeta. auto. }
  destruct ST as (s & Es & ST). exists asset, vault, owner, mint, s.
  split; [now apply acct_at|]. split; [now apply acct_at|]. split; [now apply acct_at|]. split; [now apply acct_at|].
  split; [assumption|]. split; [assumption|]. split; [assumption|]. split; [exact Hd|]. split; [lia|].
  split; [exact Ck|]. split; [exact Em|]. split; [exact Ca|]. split; [exact Es|exact ST].
Qed.

Lemma create_inv b e me infos w c w' : bridge_create b e me infos w c = Ok w' ->
  exists asset vault mint metadata auth payer sysp m bump abump w1 w2 w3,
    at_pos infos 0 asset /\ at_pos infos 1 vault /\ at_pos infos 2 mint /\ at_pos infos 3 metadata /\ at_pos infos 4 auth /\
    at_pos infos 6 payer /\ at_pos infos 7 sysp /\
    be_meta b (data (w metadata)) = Some m /\ acct_owner (w metadata) = be_tm b /\ is_nft (mt_standard m) = true /\
    mt_mint m = pk_bytes mint /\ mt_authority m = pk_bytes auth /\
    create_allowed (e_prog e) me (e_cpa e) infos w m /\
    find_address e (s_vault ++ pk_bytes mint) me 255 = Some (vault, bump) /\ data (w vault) = [] /\
    find_address e (s_asset ++ pk_bytes mint) me 255 = Some (asset, abump) /\
    sys_create (as_prog e me) [mkInfo payer true true; mkInfo vault true true] w payer vault (e_rent e 36) 36 = Ok w1 /\
    set_data (as_prog e me) infos w1 vault ([x01; x00; bump] ++ pk_bytes mint ++ [abump]) = Ok w2 /\
    allocate_each e me infos w w2 asset payer sysp (s_asset ++ pk_bytes mint) abump (bridged_exts c m) = Ok w3 /\
    invoke e me infos w w3 (birth_metas e asset auth vault payer sysp)
      (write_instr (ICreate (mkMetaInput (mt_name m) NonFungible true None))) (s_asset ++ pk_bytes mint) abump = Ok w'.
Proof.
  intro H. unfold bridge_create in H. apply require_ok in H as [Hlen H].
  apply bind_ok in H as (asset & A0 & H). apply bind_ok in H as (vault & A1 & H). apply bind_ok in H as (mint & A2 & H).
  apply bind_ok in H as (metadata & A3 & H). apply bind_ok in H as (auth & A4 & H). apply bind_ok in H as (coll & A5 & H).
  apply bind_ok in H as (payer & A6 & H). apply bind_ok in H as (sysp & A7 & H).
  apply require_ok in H as [_ H]. apply require_ok in H as [Om H]. apply bind_ok in H as (m & Hm & H).
  apply require_ok in H as [Hn H]. apply require_ok in H as [Em H]. apply require_ok in H as [Eau H].
  apply bind_ok in H as (s & Hs & H). apply require_ok in H as [Sg H].
  change (vault_seeds mint) with (s_vault ++ pk_bytes mint) in H. change (asset_seeds mint) with (s_asset ++ pk_bytes mint) in H.
  destruct (find_address e (s_vault ++ pk_bytes mint) me 255) as [[k bump]|] eqn:Fv; [|discriminate].
  apply require_ok in H as [Ek H]. apply require_ok in H as [Ed H]. cbv zeta in H. apply require_ok in H as [_ H].
  apply bind_ok in H as (w1 & H1 & H).
  destruct (find_address e (s_asset ++ pk_bytes mint) me 255) as [[a abump]|] eqn:Fa; [|discriminate].
  apply require_ok in H as [Ea H]. apply bind_ok in H as (w2 & H2 & H). apply bind_ok in H as (w3 & H3 & H4).
  apply pk_eqb_eq in Om, Ek, Ea. subst k a. apply bytes_eqb_eq in Em, Eau. apply Z.eqb_eq in Ed. apply zlen_0 in Ed.
  exists asset, vault, mint, metadata, auth, payer, sysp, m, bump, abump, w1, w2, w3.
  repeat (split; [first [now apply acct_at|assumption]|]).
  split; [destruct (be_meta b (data (w metadata))); [apply Ok_inj in Hm; congruence|discriminate]|].
  split; [assumption|]. split; [assumption|]. split; [assumption|]. split; [assumption|].
  split.
  { unfold authority_must_sign in Hs. unfold create_allowed. destruct (mt_collection m) as [[[|] key]|].
    - change (asset_seeds key) with (s_asset ++ pk_bytes key) in Hs.
      destruct (find_address e (s_asset ++ pk_bytes key) me 255) as [[k n]|] eqn:F; [|discriminate].
      apply bind_ok in Hs as (cc & Hc & Hs). apply require_ok in Hs as [Ec Hs]. apply require_ok in Hs as [Oc Hs]. apply require_ok in Hs as [Dc _].
      apply pk_eqb_eq in Ec, Oc. subst cc. apply andb_true_iff in Dc as [_ Dc]. apply beqb_eq in Dc.
      destruct coll as [k'|]; [|discriminate Hc]. apply Ok_inj in Hc. subst k'.
      unfold opt_of in A5. apply bind_ok in A5 as (k' & A5 & Q). apply Ok_inj in Q. destruct (pk_eqb k' me) eqn:Qe; [discriminate|].
      apply Some_inj in Q. subst k'. exists k, n. split; [now apply acct_at|].
      split; [intros ->; now rewrite pk_eqb_refl in Qe|]. split; [exact (find_address_ok _ _ _ _ _ _ F)|]. split; [assumption|exact Dc].
    - apply Ok_inj in Hs. subst s. exists auth. split; [now apply acct_at|now apply signs_iff].
    - apply Ok_inj in Hs. subst s. exists auth. split; [now apply acct_at|now apply signs_iff]. }
  split; [exact Fv|]. split; [assumption|]. split; [exact Fa|]. split; [exact H1|]. split; [exact H2|]. split; [exact H3|exact H4].
Qed.

(** ** The custody invariant *)
Lemma find_max e seeds me n k b : (n <= 255)%nat -> find_address e seeds me n = Some (k, b) ->
  0 < b2z b <= Z.of_nat n /\ forall i, b2z b < i <= Z.of_nat n -> e_cpa e seeds (z2b i) (pk_bytes me) = None.
Proof.
  induction n as [|n IH]; intro Hn; cbn [find_address]; [discriminate|].
  destruct (e_cpa e seeds (z2b (Z.of_nat (S n))) (pk_bytes me)) as [k0|] eqn:E.
  - intro H. apply Some_inj in H. assert (b = z2b (Z.of_nat (S n))) as -> by congruence. rewrite b2z_z2b, Z.mod_small by lia. split; [lia|]. intros i Hi. lia.
  - intro H. destruct (IH ltac:(lia) H) as [I1 I2]. split; [lia|]. intros i Hi.
    destruct (Z.eq_dec i (Z.of_nat (S n))) as [->|N]; [exact E|apply I2; lia].
Qed.
Lemma find_canonical e seeds me v bump k b : e_cpa e seeds bump (pk_bytes me) = Some v ->
  (forall n, b2z bump < n <= 255 -> e_cpa e seeds (z2b n) (pk_bytes me) = None) -> 0 < b2z bump ->
  find_address e seeds me 255 = Some (k, b) -> k = v.
Proof.
  intros E1 E2 E3 H. pose proof (find_address_ok _ _ _ _ _ _ H) as E4. destruct (find_max _ _ _ 255%nat _ _ (le_n _) H) as [B1 B2].
  change (Z.of_nat 255) with 255 in *.
  destruct (Z.lt_trichotomy (b2z bump) (b2z b)) as [Q|[Q|Q]].
  - specialize (E2 (b2z b) ltac:(lia)). rewrite z2b_b2z in E2. congruence.
  - assert (bump = b) as -> by (rewrite <- (z2b_b2z bump), <- (z2b_b2z b); congruence). congruence.
  - specialize (B2 (b2z bump)). rewrite z2b_b2z in B2. rewrite B2 in E1; [discriminate|].
    pose proof (b2z_range bump). lia.
Qed.

(** what an instruction of the asset program or a system call leaves of the bridge *)
Definition safe (p : pubkey) (w : world) (v a : pubkey) : Prop := plain_or_gone p w v a /\ sized w /\ lam_ok w.
Definition keeps (p me : pubkey) (w w' : world) (v a : pubkey) : Prop :=
  safe p w' v a /\ holds p w w' v a /\
  forall k, acct_owner (w k) = me -> acct_owner (w' k) = me /\ data (w' k) = data (w k).
Lemma holds_trans p w w1 w2 v a : holds p w w1 v a -> holds p w1 w2 v a -> holds p w w2 v a.
Proof. intros [A1 A2] [B1 B2]. split; auto. Qed.
Lemma keeps_trans p me w w1 w2 v a : keeps p me w w1 v a -> keeps p me w1 w2 v a -> keeps p me w w2 v a.
Proof.
  intros (A1 & A2 & A3) (B1 & B2 & B3). split; [assumption|]. split; [eapply holds_trans; eauto|]. intros k Hk. destruct (A3 k Hk) as [C1 C2].
  destruct (B3 k C1) as [D1 D2]. split; [assumption|congruence].
Qed.
Lemma keeps_process e p me infos w i w' v a : e_prog e = p -> env_ok e -> p <> pk_zero -> me <> p -> me <> pk_zero ->
  careful a e infos w i -> ~ signed infos v \/ harmless i -> ~ signed infos a \/ acct_owner (w a) <> pk_zero ->
  process e infos w i = Ok w' -> safe p w v a -> keeps p me w w' v a.
Proof.
  intros <- He Hp Hm Hm0 Hc Hv Ha H (S1 & S2 & S3).
  destruct (asset_step _ _ _ _ _ _ _ He Hp S2 S3 Hc Hv Ha H S1) as [T1 T2].
  split; [split; [assumption|split; [eapply sized_preserved; eauto|eapply lam_ok_preserved; eauto]]|]. split; [assumption|].
  intros k Hk. destruct (process_keep _ _ _ _ _ k He Hp S3 H) as [E1 E2]; [congruence|left; congruence|]. split; [congruence|assumption].
Qed.
(** changes that leave the asset [a] and the rest of the asset program's accounts alone *)
Lemma safe_same p w w' v a : safe p w v a -> sized w' -> lam_ok w' ->
  ((acct_owner (w' a) = acct_owner (w a) /\ data (w' a) = data (w a)) \/ (acct_owner (w a) <> p /\ acct_owner (w' a) <> p)) ->
  safe p w' v a /\ holds p w w' v a.
Proof.
  intros (S1 & _ & _) S2 S3 [[E1 E2]|[E1 E2]].
  - split; [split; [|auto]|unfold holds, in_custody; rewrite E1, E2; auto]. unfold plain_or_gone in *. now rewrite E1, E2.
  - split; [split; [now left|auto]|]. split; [intros (C & _); contradiction|auto].
Qed.

Lemma harmless_careful a e infos w i : harmless i -> careful a e infos w i.
Proof. intros [[x ->]|[m ->]]; (split; [exact I|]); intros t l Q; discriminate Q. Qed.
Lemma transfer_careful a e infos w : careful a e infos w ITransfer.
Proof. split; [exact I|]. intros t l Q; discriminate Q. Qed.
Lemma in_firstn {A} (x : A) : forall n l, In x (firstn n l) -> In x l.
Proof. induction n as [|n IH]; intros [|y l]; cbn [firstn In]; try tauto. intros [H|H]; auto. Qed.

(** a call of the bridge that lets only [asset] sign in addition *)
Lemma keeps_invoke e me infos w0 w metas i seeds bump asset w' v a : env_ok e -> e_prog e <> pk_zero -> me <> e_prog e -> me <> pk_zero ->
  harmless i -> e_cpa e seeds bump (pk_bytes me) = Some asset -> asset <> a -> ~ signs infos a ->
  invoke e me infos w0 w metas (write_instr i) seeds bump = Ok w' -> safe (e_prog e) w v a -> keeps (e_prog e) me w w' v a.
Proof.
  intros He Hp Hm Hm0 Hh Hk Na Ns H HS. apply invoke_iff in H as (pda & j & P1 & P2 & P3 & P4 & P5 & P6 & P7).
  assert (pda = asset) as -> by congruence. destruct (tag_only j _ P5 P4) as [_ T]. specialize (T Hh).
  apply (keeps_process (in_cpi e) (e_prog e) me metas w j w' v a); try assumption.
  - reflexivity.
  - now apply harmless_careful.
  - now right.
  - left. intros (x & X1 & X2 & X3). apply in_firstn in X1. rewrite Forall_forall in P3. specialize (P3 x X1).
    apply granted_iff in P3 as (_ & P3 & _). destruct (P3 X3) as [Q|Q]; [apply Ns; now rewrite <- X2|congruence].
Qed.
Lemma keeps_refl p me w v a : safe p w v a -> keeps p me w w v a.
Proof. intro S. split; [assumption|]. split; [split; auto|auto]. Qed.
Lemma keeps_allocate e me infos w0 asset payer sysp seeds bump v a l : env_ok e -> e_prog e <> pk_zero -> me <> e_prog e -> me <> pk_zero ->
  e_cpa e seeds bump (pk_bytes me) = Some asset -> asset <> a -> ~ signs infos a -> forall w w',
  allocate_each e me infos w0 w asset payer sysp seeds bump l = Ok w' -> safe (e_prog e) w v a -> keeps (e_prog e) me w w' v a.
Proof.
  intros He Hp Hm Hm0 Hk Na Ns. induction l as [|x l IH]; intros w w' H HS; cbn [allocate_each] in H.
  - apply Ok_inj in H. subst w'. now apply keeps_refl.
  - apply bind_ok in H as (w1 & H1 & H2).
    assert (K : keeps (e_prog e) me w w1 v a) by (eapply keeps_invoke; try eassumption; left; eexists; reflexivity).
    eapply keeps_trans; [exact K|]. apply IH; [assumption|apply K].
Qed.

Lemma put_state s s' bump mint abump : put (x01 :: mode_byte s :: bump :: pk_bytes mint ++ [abump]) 1 [mode_byte s'] =
  x01 :: mode_byte s' :: bump :: pk_bytes mint ++ [abump].
Proof. reflexivity. Qed.
Lemma vault_fields s bump mint abump : let d := x01 :: mode_byte s :: bump :: pk_bytes mint ++ [abump] in
  nth 1 d x00 = mode_byte s /\ nth 2 d x00 = bump /\ sub d 3 32 = pk_bytes mint /\ nth 35 d x00 = abump.
Proof.
  cbv zeta. split; [reflexivity|]. split; [reflexivity|]. split.
  - unfold sub. cbn [skipn]. rewrite firstn_app, pk_length, Nat.sub_diag, firstn_O, app_nil_r. apply firstn_all2. now rewrite pk_length.
  - cbn [nth]. rewrite app_nth2 by (rewrite pk_length; lia). rewrite pk_length. reflexivity.
Qed.
Lemma mode_inj s s' : mode_byte s = mode_byte s' -> s = s'.
Proof. destruct s, s'; cbn; congruence. Qed.
Lemma set_data_lam_ok e infos w k d w' : set_data e infos w k d = Ok w' -> lam_ok w -> lam_ok w'.
Proof.
  intros H L k'. destruct (set_data_ok _ _ _ _ _ _ H) as [[_ ->]|(_ & _ & _ & _ & ->)]; [apply L|]. unfold upd. destruct (pk_eqb k' k); [cbn [lamports]|]; apply L.
Qed.
Lemma set_data_sized e infos w k d w' : set_data e infos w k d = Ok w' -> sized w -> sized w'.
Proof.
  intros H L k'. destruct (set_data_ok _ _ _ _ _ _ H) as [[_ ->]|(_ & _ & _ & Z & ->)]; [apply L|]. unfold upd. destruct (pk_eqb k' k); [cbn [data]; exact Z|apply L].
Qed.

Section Custody.
  Variables (p me v a mint : pubkey) (bump abump : byte) (cpa : bytes -> byte -> bytes -> option pubkey).
  Hypotheses (Hp : p <> pk_zero) (Hm : me <> p) (Hm0 : me <> pk_zero) (AD : addresses cpa me mint v bump a abump).

  Lemma settled_safe c : settled p me c v bump mint a abump -> safe p (ch_world c) v a.
  Proof. intros (_ & S1 & S2 & S3). now repeat split. Qed.

  (** a change that keeps the vault, custody of the asset and the vault's token *)
  Definition calm (c c' : chain) : Prop :=
    safe p (ch_world c') v a /\ holds p (ch_world c) (ch_world c') v a /\
    (acct_owner (ch_world c v) = me -> acct_owner (ch_world c' v) = me /\ data (ch_world c' v) = data (ch_world c v)) /\
    (ch_holder c mint = v -> ch_holder c' mint = v).
  Lemma settled_calm c c' : settled p me c v bump mint a abump -> calm c c' -> settled p me c' v bump mint a abump.
  Proof.
    intros ((s & (V1 & V2) & B) & _) ((K1 & K2 & K3) & [KC _] & KV & Hh). split; [|now repeat split].
    exists s. split; [|destruct s; auto]. destruct (KV V1) as [E1 E2]. split; [assumption|congruence].
  Qed.
  Lemma calm_keeps c w' h' : keeps p me (ch_world c) w' v a -> (ch_holder c mint = v -> h' mint = v) -> calm c (mkChain w' h').
  Proof. intros (K1 & K2 & K3) Hh. split; [assumption|]. split; [assumption|]. split; [apply K3|assumption]. Qed.

  Lemma calm_asset c e infos i w' : safe p (ch_world c) v a -> e_prog e = p -> env_ok e ->
    careful a e infos (ch_world c) i -> ~ signed infos v -> ~ signed infos a -> process e infos (ch_world c) i = Ok w' ->
    calm c (mkChain w' (ch_holder c)).
  Proof. intros S E He Hc Hv Ha H. apply calm_keeps; [|auto]. eapply keeps_process; eauto. Qed.

  Lemma calm_else c c' : safe p (ch_world c) v a -> elsewhere p me v a mint c c' -> calm c c'.
  Proof.
    intros S ((O1 & O2 & O3 & O4) & OM & OA & OT). destruct c' as [w' h']. apply calm_keeps; [|assumption].
    cbn [ch_world ch_holder] in *.
    destruct (safe_same p (ch_world c) w' v a S O3 O4) as [T1 T2]; [|split; [assumption|split; [assumption|exact OM]]].
    destruct (pk_dec (acct_owner (ch_world c a)) p) as [Q|Q]; [left; destruct (O1 a Q); split; congruence|right; auto].
  Qed.

  (** the parts of a toggle, for any vault of the bridge *)
  Lemma toggle_parts b e infos w h w' h' asset vault owner m' s : tm_ok b p me -> e_prog e = p -> env_ok e -> sized w -> lam_ok w ->
    toggled b e me infos w h w' h' asset vault owner m' s ->
    exists w1 w2 group, let from := match s with Idle => owner | Active => vault end in let to := match s with Idle => vault | Active => owner end in
      w1 vault = mkAcct (lamports (w vault)) (acct_owner (w vault)) (put (data (w vault)) 1 [mode_byte (flip s)]) /\
      (forall k, k <> vault -> w1 k = w k) /\ token_moves h h' m' from to /\
      untouched p w1 w2 /\ untouched me w1 w2 /\ sized w2 /\ lam_ok w2 /\
      process (in_cpi e) (move_metas e asset to from group) w2 ITransfer = Ok w'.
  Proof.
    intros [TM _] E He Hs Hl (token & md & ed & rc & vt & vr & pay & g & w1 & w2 & H1 & H2 & H3 & _).
    exists w1, w2, g. cbv zeta in *.
    assert (S1 : sized w1) by (eapply set_data_sized; eauto). assert (L1 : lam_ok w1) by (eapply set_data_lam_ok; eauto).
    destruct (TM _ _ _ _ _ _ _ H2 S1 L1) as (T1 & _ & T3 & T4 & T5 & T6).
    split. { destruct (set_data_ok _ _ _ _ _ _ H1) as [[Q ->]|(_ & _ & _ & _ & ->)]; [rewrite Q; destruct (w vault); reflexivity|]. now rewrite upd_same. }
    split. { intros k Hk. now rewrite (set_data_other _ _ _ _ _ _ _ H1 Hk). }
    split; [destruct s; exact T1|]. auto 10.
  Qed.

  Lemma move_signed e asset sg rc g k : signed (move_metas e asset sg rc g) k -> k = sg.
  Proof.
    intros (x & X1 & X2 & X3). cbn in X1. destruct X1 as [<-|[<-|[<-|[<-|[]]]]]; cbn in X3; try discriminate; [exact (eq_sym X2)|].
    destruct g; discriminate.
  Qed.
  Lemma move_args e asset sg rc g : arg (move_metas e asset sg rc g) 0 asset /\ arg (move_metas e asset sg rc g) 1 sg /\ arg (move_metas e asset sg rc g) 2 rc.
  Proof. repeat split; eexists; split; reflexivity. Qed.

  Lemma move_effect e w w' asset sg rc g : sized w -> lam_ok w -> e_prog e = p -> env_ok e ->
    process (in_cpi e) (move_metas e asset sg rc g) w ITransfer = Ok w' ->
    acct_owner (w asset) = p /\ initialized (data (w asset)) /\ acct_owner (w' asset) = p /\ initialized (data (w' asset)) /\
    s_owner (data (w' asset)) = pk_bytes rc /\
    (forall l, tidy (data (w asset)) l -> authorized (data (w asset)) l sg RTransfer) /\
    (forall l, tidy (data (w asset)) l -> unmanaged l -> exists l', tidy (data (w' asset)) l' /\ unmanaged l') /\
    (s_owner (data (w asset)) <> pk_bytes rc -> s_delegate (data (w' asset)) = no_key) /\
    (forall k, k <> asset -> w' k = w k) /\
    s_standard (data (w' asset)) = s_standard (data (w asset)) /\ s_state (data (w' asset)) <> x01.
  Proof.
    intros Hs Hl E He H. destruct (move_args e asset sg rc g) as (A0 & A1 & A2).
    destruct (transfer_by _ _ _ _ Hs H) as (x & s & r & B0 & B1 & _ & _ & Ho & Hi & _ & _ & Au).
    assert (x = asset) as -> by exact (arg_det _ _ _ _ B0 A0). assert (s = sg) as -> by exact (arg_det _ _ _ _ B1 A1).
    destruct (transfer_effect _ _ _ _ H) as (x & r' & C0 & C2 & TE).
    assert (x = asset) as -> by exact (arg_det _ _ _ _ C0 A0). assert (r' = rc) as -> by exact (arg_det _ _ _ _ C2 A2).
    cbn [in_cpi e_prog] in Ho. rewrite E in Ho.
    assert (LK : s_state (data (w asset)) <> x01).
    { intro L. refine (locked_blocks (in_cpi e) (move_metas e asset sg rc g) w ITransfer (mkInfo asset false true) _ _ _ _ w' H); [left; reflexivity|cbn [ai_key in_cpi e_prog]; congruence|split; [apply Hi|exact L]|exact I]. }
    assert (TI : forall l, tidy (data (w asset)) l -> unmanaged l -> exists l', tidy (data (w' asset)) l' /\ unmanaged l').
    { intros l T U. destruct (tidy_step (in_cpi e) _ _ _ _ asset l He ltac:(cbn [in_cpi e_prog]; congruence) Hs Hl (transfer_careful _ _ _ _) ltac:(cbn [in_cpi e_prog]; congruence) Hi T H)
        as [[[Q _] _]|(_ & _ & _ & l2 & T2 & X)]; [discriminate Q|]. exists l2. split; [assumption|]. eapply unmanaged_step; eauto. }
    split; [assumption|]. split; [assumption|].
    destruct TE as [[O W]|(O & (F & _ & G) & Ln & O' & D & Nn)].
    - rewrite !W. split; [assumption|]. split; [assumption|]. split; [assumption|].
      split; [intros l T; apply Au; now apply tidy_wf|]. split; [exact (fun l T U => ex_intro _ l (conj T U))|]. split; [contradiction|]. split; [intros k _; apply W|]. split; [reflexivity|exact LK].
    - split; [congruence|]. split. { destruct Hi as [I1 I2]. split; [lia|]. unfold s_disc in *. rewrite Nn by lia. exact I2. }
      split; [assumption|]. split; [intros l T; apply Au; now apply tidy_wf|]. split; [exact TI|]. split.
      { intros _. apply (f_equal (firstn 32)) in D. unfold sub in D. rewrite firstn_firstn in D. unfold s_delegate, sub. exact D. }
      split; [exact F|]. unfold s_standard, s_state in *. rewrite !Nn by lia. split; [reflexivity|exact LK].
  Qed.

  (** the bridge's toggle: of another vault, or of this one *)
  Lemma toggle_cases c b e infos w' h' s0 : safe p (ch_world c) v a -> vault_at me (ch_world c) v s0 bump mint abump ->
    e_prog e = p -> env_ok e -> e_cpa e = cpa -> tm_ok b p me -> ~ signs infos v -> ~ signs infos a ->
    process_bridge b e me infos (ch_world c) (ch_holder c) = Ok (w', h') ->
    calm c (mkChain w' h') \/
    (vault_at me w' v (flip s0) bump mint abump /\ safe p w' v a /\ acct_owner (ch_world c a) = p /\
     (s_owner (data (ch_world c a)) = pk_bytes v -> s0 = Idle) /\
     match s0 with
     | Idle => h' mint = v
     | Active => ch_holder c mint = v /\ in_custody p w' v a
     end).
  Proof.
    intros S [SV1 SV2] E He Ec Ht Nv Na H. destruct AD as (D1 & D2 & D3 & D4 & D5).
    apply bridge_inv in H as (asset & vault & owner & m' & s & _ & _ & _ & _ & So & Oa & Ov & Vd & Vl & Cv & Vm & Ca & Vs & TG).
    rewrite Ec in Cv, Ca. pose proof S as (SP & SS & SL).
    destruct (toggle_parts _ _ _ _ _ _ _ _ _ _ _ _ Ht E He SS SL TG) as (w1 & w2 & g & W1 & W1o & TK & U1 & U2 & S2 & L2 & HT). clear TG. cbv zeta in *.
    assert (Nov : owner <> v) by (intros ->; contradiction).
    set (w := ch_world c) in *.
    (* the asset's account before the transfer call *)
    assert (Nva : vault <> a \/ acct_owner (w a) <> p) by (destruct (pk_dec vault a) as [->|]; [right; congruence|auto]).
    assert (SA : safe p w2 v a /\ holds p w w2 v a).
    { destruct U1 as [U1a U1b]. destruct (pk_dec (acct_owner (w a)) p) as [Q|Q].
      - destruct Nva as [Nva|Nva]; [|contradiction]. assert (E1 : w1 a = w a) by (apply W1o; congruence).
        apply (safe_same p w w2 v a S S2 L2). left. split; [|rewrite U1b; congruence].
        rewrite Q. apply U1a. congruence.
      - apply (safe_same p w w2 v a S S2 L2). right. split; [assumption|]. intro Q'. apply U1a in Q'.
        destruct (pk_dec vault a) as [->|Nn]; [rewrite W1 in Q'; cbn [acct_owner] in Q'; congruence|]. rewrite W1o in Q' by congruence. contradiction. }
    destruct SA as [SA SAc].
    assert (KP : ~ signed (move_metas e asset (match s with Idle => vault | Active => owner end) (match s with Idle => owner | Active => vault end) g) v ->
       keeps p me w2 w' v a).
    { intro Ns. eapply (keeps_process (in_cpi e)); try eassumption.
      - apply transfer_careful.
      - left; exact Ns.
      - destruct (pk_dec (acct_owner (w2 a)) pk_zero) as [Q|Q]; [|now right]. left. intro Q2. apply move_signed in Q2.
        destruct s; [|subst; contradiction]. subst vault. destruct U2 as [U2 _].
        assert (acct_owner (w2 a) = me) by (apply U2; rewrite W1; exact Ov). congruence. }
    assert (V2 : acct_owner (w2 vault) = me /\ data (w2 vault) = put (data (w vault)) 1 [mode_byte (flip s)]).
    { destruct U2 as [U2a U2b]. assert (Q : acct_owner (w1 vault) = me) by (rewrite W1; exact Ov). split; [now apply U2a|]. rewrite U2b by assumption. now rewrite W1. }
    assert (VO : forall k, k <> vault -> acct_owner (w k) = me -> acct_owner (w2 k) = me /\ data (w2 k) = data (w k)).
    { intros k Nk Hk. destruct U2 as [U2a U2b]. assert (Q : acct_owner (w1 k) = me) by (rewrite W1o by assumption; exact Hk).
      split; [now apply U2a|]. rewrite U2b by assumption. now rewrite W1o. }
    fold w in SV1, SV2. pose proof SA as (SA1 & SA2 & SA3).
    destruct (pk_dec vault v) as [->|Nvv].
    - (* our vault *) right.
      rewrite SV2 in *. destruct (vault_fields s0 bump mint abump) as (F1 & F2 & F3 & F4). cbv zeta in F1, F2, F3, F4.
      assert (m' = mint) as -> by (apply pk_ext; congruence).
      assert (s = s0) as -> by (apply mode_inj; congruence).
      rewrite F4, D4 in Ca. apply Some_inj in Ca. subst asset. rewrite put_state in V2. destruct V2 as [V2 V2d].
      destruct (move_effect _ _ _ _ _ _ _ S2 L2 E He HT) as (M1 & M2 & M3 & M4 & M5 & M6 & M7 & M8 & M9 & M10 & M11).
      destruct SA1 as [G|(_ & _ & (l & HTl & HU) & HN & HD)]; [contradiction|].
      assert (Nva' : v <> a) by (intro; congruence).
      assert (Ew : data (w2 a) = data (w a)).
      { destruct U1 as [_ U1]. rewrite U1; rewrite W1o by congruence; congruence. }
      assert (SZ : sized w' /\ lam_ok w').
      { split; [eapply (sized_preserved (in_cpi e)); try eassumption; cbn [in_cpi e_prog]; congruence|eapply (lam_ok_preserved (in_cpi e)); try eassumption; cbn [in_cpi e_prog]; congruence]. }
      assert (NO : s_owner (data (w2 a)) = pk_bytes v -> s0 = Idle).
      { intro Q. destruct s0; [reflexivity|]. exfalso. apply Nov. apply (only_holder _ _ _ _ _ Q (proj1 (HD Q)) HU (M6 l HTl)). }
      assert (PG : plain_or_gone p w' v a).
      { right. split; [assumption|]. split; [assumption|]. split; [now apply (M7 l)|]. split; [congruence|]. intro Q. split; [|exact M11]. rewrite M5 in Q. destruct s0.
        - elim Nov. apply pk_ext. exact Q.
        - destruct (list_eq_dec Byte.byte_eq_dec (s_owner (data (w2 a))) (pk_bytes v)) as [Q2|Q2]; [|now apply M8].
          discriminate (NO Q2). }
      split; [split; rewrite M9 by congruence; assumption|]. split; [split; [exact PG|exact SZ]|]. split; [congruence|].
      split; [rewrite <- Ew; exact NO|]. destruct TK as (T1 & T2 & _). destruct s0.
      + exact T2.
      + split; [exact T1|]. destruct PG as [PG|(_ & _ & _ & _ & PG)]; [contradiction|]. split; [assumption|]. split; [assumption|]. split; [assumption|]. now apply PG.
    - (* another vault *) left.
      assert (K : keeps p me w2 w' v a).
      { apply KP. intro Q. apply move_signed in Q. destruct s; congruence. }
      destruct K as (K1 & KC & KV). split; [exact K1|]. split; [eapply holds_trans; eassumption|]. cbn [ch_world ch_holder].
      split.
      + intros _. destruct (VO v ltac:(congruence) SV1) as [Q1 Q2]. destruct (KV v Q1) as [Q3 Q4]. fold w. split; congruence.
      + intro B. destruct TK as (T1 & T2 & T3).
        destruct (pk_dec mint m') as [<-|Nm]; [|rewrite T3 by congruence; exact B].
        exfalso. rewrite B in T1. destruct s; congruence.
  Qed.

  Lemma calm_create c b e infos cl w' s0 : safe p (ch_world c) v a -> vault_at me (ch_world c) v s0 bump mint abump ->
    e_prog e = p -> env_ok e -> e_cpa e = cpa -> ~ signs infos a ->
    bridge_create b e me infos (ch_world c) cl = Ok w' -> calm c (mkChain w' (ch_holder c)).
  Proof.
    intros S [SV1 SV2] E He Ec Na H. destruct AD as (D1 & D2 & D3 & D4 & D5).
    apply create_inv in H as (asset & vault & m' & md & auth & payer & sysp & m & bp & abp & w1 & w2 & w3 & _ & _ & _ & _ & _ & _ & _ & _ & _ & _ & _ & _ & _ & Fv & Ev & Fa & H1 & H2 & H3 & H4).
    pose proof S as (SP & SS & SL).
    set (w := ch_world c) in *.
    assert (Nv : v <> vault) by (intros <-; rewrite SV2 in Ev; discriminate).
    assert (Nm : m' <> mint) by (intros ->; apply Nv; symmetry; apply (find_canonical e _ _ _ bump _ _ ltac:(rewrite Ec; exact D1) ltac:(rewrite Ec; exact D2) D3 Fv)).
    pose proof (find_address_ok _ _ _ _ _ _ Fa) as Ca.
    assert (Naa : asset <> a) by (intros ->; apply Nm; apply (D5 m' abp); now rewrite <- Ec).
    pose proof (sys_create_psteps (as_prog e me) _ _ _ _ _ _ _ (He 36) Hm0 H1) as PS.
    apply sys_create_world in H1 as (C1 & C2 & C3 & _). cbn [as_prog e_prog] in C3.
    assert (S1 : sized w1) by (eapply psteps_sized; eauto). assert (L1 : lam_ok w1) by (eapply psteps_lam_ok; eauto).
    assert (S2 : sized w2) by (eapply set_data_sized; eauto). assert (L2 : lam_ok w2) by (eapply set_data_lam_ok; eauto).
    assert (F2 : forall k, k <> vault -> acct_owner (w2 k) = acct_owner (w k) /\ data (w2 k) = data (w k)).
    { intros k Nk. rewrite (set_data_other _ _ _ _ _ _ _ H2 Nk). destruct (C2 k Nk). auto. }
    assert (F3 : acct_owner (w2 vault) = me).
    { destruct (set_data_ok _ _ _ _ _ _ H2) as [[_ ->]|(_ & _ & _ & _ & ->)]; [exact C3|]. rewrite upd_same. exact C3. }
    assert (K0 : safe p w2 v a /\ holds p w w2 v a).
    { apply safe_same; [now repeat split|assumption|assumption|].
      destruct (pk_dec a vault) as [->|Nav]; [|left; now apply F2]. right. split; [|congruence].
      destruct SP as [SP|(_ & [SP _] & _)]; [assumption|]. rewrite Ev in SP. cbn [length] in SP. lia. }
    destruct K0 as [K0 KC0]. destruct (F2 v Nv) as [V1 V2].
    assert (K1 : keeps p me w2 w3 v a) by (rewrite <- E in *; eapply (keeps_allocate e); eauto).
    assert (K2 : keeps p me w3 w' v a).
    { rewrite <- E in *. eapply (keeps_invoke e) with (asset := asset); try eassumption; [right; eexists; reflexivity|apply K1]. }
    destruct (keeps_trans _ _ _ _ _ _ _ K1 K2) as (K3 & KC & KV).
    split; [exact K3|]. split; [eapply holds_trans; eassumption|]. cbn [ch_world ch_holder]. fold w. split; [|auto].
    intros _. destruct (KV v ltac:(congruence)) as [Q1 Q2]. split; congruence.
  Qed.

  (** C46: along every history *)
  Lemma settled_traffic c c' : traffic (careful a) p me cpa v a mint c c' -> settled p me c v bump mint a abump -> settled p me c' v bump mint a abump.
  Proof.
    induction 1 as [c|c c1 e infos i w2 H IH E He HP Hv Ha HI|c c1 b e infos d w2 h2 H IH E He Ec Ht Hv Ha HI|c c1 c2 H IH HO]; intro S; [assumption| | |];
      specialize (IH S); clear S; pose proof (settled_safe _ IH) as S.
    - eapply settled_calm; [exact IH|]. eapply calm_asset; eauto.
    - pose proof IH as ((s0 & SV & B) & _). unfold bridge_entry in HI. destruct (bridge_decode d) as [[|cl]|]; [|apply bind_ok in HI as (w' & H1 & H2)|discriminate].
      + destruct (toggle_cases _ _ _ _ _ _ _ S SV E He Ec Ht Hv Ha HI) as [C|(T1 & T2 & _ & _ & T3)]; [eapply settled_calm; eauto|].
        split; [exists (flip s0); split; [exact T1|destruct s0; [exact T3|apply T3]]|exact T2].
      + apply Ok_inj in H2. assert (w' = w2 /\ ch_holder c1 = h2) as [-> <-] by (split; congruence).
        eapply settled_calm; [exact IH|]. eapply calm_create; eauto.
    - eapply settled_calm; [exact IH|]. now apply calm_else.
  Qed.

  (** An active vault whose asset is gone or back in the vault stays as it is. *)
  Lemma stuck_traffic c c' : traffic (careful a) p me cpa v a mint c c' -> stuck p me c v bump mint a abump -> stuck p me c' v bump mint a abump.
  Proof.
    induction 1 as [c|c c1 e infos i w2 H IH E He HP Hv Ha HI|c c1 b e infos d w2 h2 H IH E He Ec Ht Hv Ha HI|c c1 c2 H IH HO]; intro S; [assumption| | |];
      specialize (IH S); clear S; pose proof IH as (SV & SH & SP & SS & SL & SC).
    all: assert (K : forall c2, calm c1 c2 -> stuck p me c2 v bump mint a abump).
    1,3,5: intros c3 ((K1 & K2 & K3) & [KC KG] & KV & KH); destruct SV as [V1 V2]; destruct (KV V1) as [V3 V4];
      split; [split; congruence|]; split; [auto|]; split; [assumption|]; split; [assumption|]; split; [assumption|]; destruct SC; auto.
    all: assert (S : safe p (ch_world c1) v a) by (split; [assumption|split; assumption]).
    - apply K. eapply calm_asset; eauto.
    - unfold bridge_entry in HI. destruct (bridge_decode d) as [[|cl]|]; [|apply bind_ok in HI as (w' & H1 & H2)|discriminate].
      + destruct (toggle_cases _ _ _ _ _ _ _ S SV E He Ec Ht Hv Ha HI) as [C|(T1 & T2 & T3 & T4 & _)]; [now apply K|].
        destruct SC as [SC|(_ & _ & SC & _)]; [contradiction|discriminate (T4 SC)].
      + apply Ok_inj in H2. assert (w' = w2 /\ ch_holder c1 = h2) as [-> <-] by (split; congruence).
        apply K. eapply calm_create; eauto.
    - apply K. now apply calm_else.
  Qed.
End Custody.

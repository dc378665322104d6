(** Lemmas: lamports at a derived address stay, and Create with it fails. *)
From Verif Require Import Base State Layout Constr Ext World Proc Borsh Proxy Bridge BaseL Spec SpecB SpecC SpecE SpecH SpecI SpecK SpecL SpecP SpecV SpecX SpecY WorldL ProcSteps FrameL HeadL LayoutL LayoutM AllocL GroupL StepH BorshL ProxyL ProxyM CreateL BridgeL BridgeM ExactL ExactM ExactN BridgeN BridgeO.
From Coq Require Import Strings.Byte.

Lemma squat_pstep e infos w w' k : e_prog e <> pk_zero -> is_signer infos k = false -> pstep e infos w w' -> squatted w k -> squatted w' k.
Proof.
  intros Hz Hn H (O & D & L). destruct H as [w k1 d W O1 L1|w src dst amt W1 W2 N A B C|w k1 sp Sp W S O1 D1 L1|w k1 W O1].
  - unfold squatted, upd. destruct (pk_eqb k k1) eqn:E; [apply pk_eqb_eq in E; subst; congruence|auto].
  - unfold squatted, upd. destruct (pk_eqb k dst) eqn:E; [apply pk_eqb_eq in E; subst; cbn [acct_owner data lamports]; repeat split; try assumption; lia|].
    destruct (pk_eqb k src) eqn:E2; [apply pk_eqb_eq in E2; subst|auto]. destruct C; congruence.
  - unfold squatted, upd. destruct (pk_eqb k k1) eqn:E; [apply pk_eqb_eq in E; subst; lia|auto].
  - unfold squatted, upd. destruct (pk_eqb k k1) eqn:E; [apply pk_eqb_eq in E; subst; congruence|auto].
Qed.
Lemma squat_psteps e infos w w' k : e_prog e <> pk_zero -> is_signer infos k = false -> psteps e infos w w' -> squatted w k -> squatted w' k.
Proof. intros Hz Hn. induction 1 as [|w w1 w2 H1 H2 IH]; [auto|]. intro H. apply IH. exact (squat_pstep _ _ _ _ _ Hz Hn H1 H). Qed.
Lemma squat_process e infos w i w' k : env_ok e -> e_prog e <> pk_zero -> lam_ok w -> ~ signed infos k -> process e infos w i = Ok w' -> squatted w k -> squatted w' k.
Proof.
  intros He Hz Hl Hn H. apply process_psteps in H; try assumption. apply (squat_psteps e (passed infos)); try assumption.
  destruct (is_signer (passed infos) k) eqn:E; [|reflexivity]. elim Hn. now apply is_signer_spec in E.
Qed.
Lemma create_payer b e me infos w c w' payer vault : bridge_create b e me infos w c = Ok w' -> at_pos infos 6 payer -> at_pos infos 1 vault ->
  signs infos payer \/ payer = vault.
Proof.
  intros H P V. unfold bridge_create in H. apply require_ok in H as [_ H].
  apply bind_ok in H as (asset & _ & H). apply bind_ok in H as (vault' & A1 & H). apply bind_ok in H as (mint & _ & H).
  apply bind_ok in H as (metadata & _ & H). apply bind_ok in H as (auth & _ & H). apply bind_ok in H as (coll & _ & H).
  apply bind_ok in H as (payer' & A6 & H). apply bind_ok in H as (sysp & _ & H).
  assert (vault' = vault) as -> by exact (at_det _ _ _ _ (acct_at _ _ _ A1) V). assert (payer' = payer) as -> by exact (at_det _ _ _ _ (acct_at _ _ _ A6) P).
  apply require_ok in H as [_ H]. apply require_ok in H as [_ H]. apply bind_ok in H as (m & _ & H).
  apply require_ok in H as [_ H]. apply require_ok in H as [_ H]. apply require_ok in H as [_ H].
  apply bind_ok in H as (s & _ & H). apply require_ok in H as [_ H]. destruct (find_address e (vault_seeds mint) me 255) as [[k bump]|]; [|discriminate].
  apply require_ok in H as [_ H]. apply require_ok in H as [_ H]. cbv zeta in H. apply require_ok in H as [LG _]. apply andb_true_iff in LG as [_ LG].
  cbn [forallb] in LG. apply andb_true_iff in LG as [G _]. apply granted_iff in G as (_ & G & _). exact (G eq_refl).
Qed.

Section Squat.
Variables (b : benv) (e : env) (me : pubkey) (infos : list ainfo) (w : world) (k : pubkey).
Hypotheses (He : env_ok e) (Hz : e_prog e <> pk_zero) (Hm : me <> e_prog e) (Hm0 : me <> pk_zero) (Hs : sized w) (Hl : lam_ok w) (TM : tm_ok b (e_prog e) me).
Hypotheses (NS : ~ signs infos k) (SQ : squatted w k).

Lemma squat_open e' metas w0 w1 payer sysp x : e_prog e' <> pk_zero -> env_ok e' -> arg metas 0 k -> writable metas k -> optional e' metas 1 payer -> optional e' metas 2 sysp ->
  sized w0 -> squatted w0 k -> ext_arg x -> process e' metas w0 (IAllocate x) <> Ok w1.
Proof using.
  intros Hz' He' A0 W0 O1 O2 S0 (Q1 & Q2 & Q3) HX H. apply process_dispatch in H. cbn [dispatch] in H. unfold process_allocate in H. change (firstn MAX_ACCOUNTS metas) with (passed metas) in H.
  rewrite (optional_acct _ _ _ _ O1), (optional_acct _ _ _ _ O2) in H. apply acct_arg in A0. rewrite A0 in H. cbn [bind] in H.
  assert (HO : open_account (data (w0 k)) (repeat x00 168) [] 0) by (left; repeat split; assumption).
  pose proof (do_alloc_goes e' metas w0 w0 k payer sysp x (repeat x00 168) [] 0 HO S0 W0 HX) as DG.
  destruct (proj1 DG (ex_intro _ w1 H)) as (SG & _ & _ & _ & OG). rewrite Q2 in OG. change (zlen [] =? 0) with true in OG. cbv iota in OG.
  apply (open_goes e' _ _ _ _ _ _ Q2 W0 SG He' Hz') in OG. destruct OG as (_ & V & _). lia.
Qed.
Lemma squat_allocates w0 asset payer sysp seeds bump : asset <> k -> payer <> k -> forall xs w1 w2, sized w1 -> lam_ok w1 -> squatted w1 k ->
  allocate_each e me infos w0 w1 asset payer sysp seeds bump xs = Ok w2 -> squatted w2 k /\ sized w2 /\ lam_ok w2.
Proof using He Hz.
  clear Hm Hm0 Hs Hl TM NS SQ.
  intros N1 N2. induction xs as [|x xs IH]; intros w1 w2 Z0 L S H; cbn [allocate_each] in H; [injection H as <-; now split|].
  apply bind_ok in H as (w3 & H1 & H). apply invoke_iff in H1 as (pda & i & _ & _ & _ & _ & _ & I6 & _).
  assert (NSG : ~ signed (alloc_metas asset payer sysp) k).
  { intros (a & Ha & E1 & E2). unfold alloc_metas, passed in Ha. cbn in Ha. destruct Ha as [<-|[<-|[<-|[]]]]; cbn [ai_key ai_signer] in *; congruence. }
  apply (IH w3 w2); [exact (sized_preserved (in_cpi e) _ _ _ _ (in_cpi_ok _ He) Hz L Z0 I6)|exact (lam_ok_preserved (in_cpi e) _ _ _ _ (in_cpi_ok _ He) Hz L I6)|exact (squat_process (in_cpi e) _ _ _ _ _ (in_cpi_ok _ He) Hz L NSG I6 S)|exact H].
Qed.
(** what a successful Create spares *)
Lemma squat_create c w' : bridge_create b e me infos w c = Ok w' ->
  (squatted w' k /\ sized w' /\ lam_ok w') /\ (forall v, at_pos infos 1 v -> v <> k) /\ (forall a, at_pos infos 0 a -> a <> k) /\
  exists mint bump abump, at_pos infos 2 mint /\
    (forall v, at_pos infos 1 v -> find_address e (vault_seeds mint) me 255 = Some (v, bump)) /\
    (forall a, at_pos infos 0 a -> find_address e (asset_seeds mint) me 255 = Some (a, abump)).
Proof.
  intro H. pose proof H as HH.
  apply create_inv in H as (asset & vault & mint & md & auth & payer & sysp & m & bump & abump & w1 & w2 & w3 & B0 & B1 & B2 & B3 & B4 & B6 & B7 & Bm & Om & _ & Em & Ea & Al & Fv & Ev & Fa & H1 & H2 & H3 & H4).
  pose proof (create_payer _ _ _ _ _ _ _ _ _ HH B6 B1) as PY. pose proof SQ as (Q1 & Q2 & Q3).
  assert (Nv : vault <> k).
  { intro E. subst vault. unfold sys_create in H1. apply require_ok in H1 as [_ H1]. apply require_ok in H1 as [R _]. apply andb_true_iff in R as [R _]. apply andb_true_iff in R as [R _]. lia. }
  assert (Npv : payer <> vault).
  { intro E. subst payer. unfold sys_create in H1. apply require_ok in H1 as [_ H1]. apply require_ok in H1 as [_ H1]. apply require_ok in H1 as [_ H1]. cbn zeta in H1. unfold sys_transfer in H1.
    apply require_ok in H1 as [_ H1]. apply require_ok in H1 as [R _]. apply andb_true_iff in R as [R _]. apply pk_eqb_eq in R. rewrite upd_same in R. cbn [acct_owner as_prog e_prog] in R. contradiction. }
  assert (Np : payer <> k) by (intro E; subst payer; destruct PY; contradiction).
  pose proof (sys_create_psteps (as_prog e me) _ _ _ _ _ _ _ (He 36) Hm0 H1) as PS.
  assert (S1 : sized w1) by (eapply psteps_sized; eauto). assert (L1 : lam_ok w1) by (eapply psteps_lam_ok; eauto).
  assert (S2 : sized w2) by (eapply set_data_sized; eauto). assert (L2 : lam_ok w2) by (eapply set_data_lam_ok; eauto).
  assert (Q : squatted w2 k).
  { assert (R : squatted w1 k).
    { apply (squat_psteps _ _ _ _ k) in PS; [exact PS|exact Hm0| |exact SQ]. unfold is_signer. cbn [existsb ai_key ai_signer].
      replace (pk_eqb payer k) with false by (symmetry; now apply pk_eqb_neq). replace (pk_eqb vault k) with false by (symmetry; now apply pk_eqb_neq).
      reflexivity. }
    unfold squatted. rewrite (set_data_other _ _ _ _ _ _ k H2) by congruence. exact R. }
  destruct (proj2 TM _ _ Bm) as (T1 & T2 & _ & _ & T3 & _). rewrite bridged_exts_spec in H3 by exact T3.
  pose proof (bridged_small _ _ _ _ _ c TM Bm) as SM.
  assert (Na : asset <> k).
  { intro E. subst asset. unfold bridged_payloads in H3, SM. cbn [app map allocate_each fst snd] in H3. apply bind_ok in H3 as (wx & H3 & _).
    cbn [app] in SM. apply Forall_inv in SM. destruct SM as (X1 & _ & _ & X2). cbn [fst snd] in X1, X2.
    apply invoke_iff in H3 as (pda & i & _ & _ & _ & I4 & I5 & I6 & _). apply instr_unambiguous in I5; [subst i|apply ext_ok_of; assumption|assumption]. revert I6.
    assert (W0 : writable (alloc_metas k payer sysp) k) by (exists (mkInfo k true true); split; [left; reflexivity|split; reflexivity]).
    assert (A0 : arg (alloc_metas k payer sysp) 0 k) by (eexists; split; reflexivity).
    assert (OO : forall y i, arg (alloc_metas k payer sysp) i y -> optional (in_cpi e) (alloc_metas k payer sysp) i (if pk_eqb y (e_prog e) then None else Some y)).
    { intros y i A. destruct (pk_eqb y (e_prog e)) eqn:P; [apply pk_eqb_eq in P; subst y; exact A|]. split; [exact A|]. intro R. rewrite R in P. cbn [in_cpi e_prog] in P. now rewrite pk_eqb_refl in P. }
    apply (squat_open (in_cpi e) _ w2 wx _ _ _ Hz (in_cpi_ok _ He) A0 W0 (OO payer 1%nat ltac:(eexists; split; reflexivity)) (OO sysp 2%nat ltac:(eexists; split; reflexivity)) S2 Q).
    now apply ext_arg_of. }
  destruct (squat_allocates w asset payer sysp _ abump Na Np _ w2 w3 S2 L2 Q H3) as (Q4 & S3 & L3).
  apply invoke_iff in H4 as (pda & i & _ & _ & _ & _ & _ & I6 & _).
  assert (NSG : ~ signed (birth_metas e asset auth vault payer sysp) k).
  { intros (a & Ha & E1 & E2). unfold birth_metas, absent, passed in Ha. cbn in Ha. destruct Ha as [<-|[<-|[<-|[<-|[<-|[<-|[<-|[]]]]]]]]; cbn [ai_key ai_signer] in *; congruence. }
  split.
  { split; [exact (squat_process (in_cpi e) _ _ _ _ _ (in_cpi_ok _ He) Hz L3 NSG I6 Q4)|].
    split; [exact (sized_preserved (in_cpi e) _ _ _ _ (in_cpi_ok _ He) Hz L3 S3 I6)|exact (lam_ok_preserved (in_cpi e) _ _ _ _ (in_cpi_ok _ He) Hz L3 I6)]. }
  split; [intros y Y; rewrite (at_det _ _ _ _ Y B1); exact Nv|]. split; [intros y Y; rewrite (at_det _ _ _ _ Y B0); exact Na|].
  exists mint, bump, abump. split; [exact B2|]. split; intros y Y; [rewrite (at_det _ _ _ _ Y B1); exact Fv|rewrite (at_det _ _ _ _ Y B0); exact Fa].
Qed.
Lemma squat_bridge h h' w' : tm_spares b k -> process_bridge b e me infos w h = Ok (w', h') -> squatted w' k /\ sized w' /\ lam_ok w'.
Proof.
  intros SP H. apply bridge_inv in H as (asset & vault & owner & mint & s & A0 & A1 & A2 & A4 & So & Oa & Ov & Vd & Vl & Cv & Vm & Ca & Vs & TG).
  destruct TG as (token & md & ed & rc & vt & vr & payer & grp & w1 & w2 & H1 & H2 & H3 & _ & _). pose proof SQ as (Q1 & Q2 & Q3).
  assert (Nv : vault <> k) by congruence. assert (No : owner <> k) by (intro E; subst owner; contradiction).
  assert (S1 : sized w1) by (eapply set_data_sized; eauto). assert (L1 : lam_ok w1) by (eapply set_data_lam_ok; eauto).
  assert (Q : squatted w1 k) by (unfold squatted; rewrite (set_data_other _ _ _ _ _ _ k H1) by congruence; exact SQ).
  destruct (proj1 TM _ _ _ _ _ _ _ H2 S1 L1) as (_ & _ & _ & _ & S2 & L2).
  assert (R : squatted w2 k) by (apply (SP _ _ _ _ _ _ _ H2 NS); [destruct s; congruence|exact Q]).
  split; [|split; [exact (sized_preserved (in_cpi e) _ _ _ _ (in_cpi_ok _ He) Hz L2 S2 H3)|exact (lam_ok_preserved (in_cpi e) _ _ _ _ (in_cpi_ok _ He) Hz L2 H3)]].
  apply (squat_process (in_cpi e) _ w2 _ w' k (in_cpi_ok _ He) Hz L2) in H3; [exact H3| |exact R].
  intros (a & Ha & E1 & E2). unfold move_metas, passed in Ha. cbn in Ha. destruct Ha as [<-|[<-|[<-|[<-|[]]]]]; cbn [ai_key ai_signer] in *; try discriminate; [destruct s; congruence|].
  destruct grp; cbn [opt_meta absent ai_signer] in E2; discriminate.
Qed.
End Squat.

Lemma later_squatted p me cpa k c c' : p <> pk_zero -> me <> p -> me <> pk_zero -> later p me cpa k c c' ->
  sized (ch_world c) -> lam_ok (ch_world c) -> squatted (ch_world c) k -> squatted (ch_world c') k /\ sized (ch_world c') /\ lam_ok (ch_world c').
Proof.
  intros Hz Hm Hm0. induction 1 as [c|c c1 e infos i w2 H IH E He NS HI|c c1 b e infos d w2 h2 H IH E He Ec TM SP NS HI|c c1 c2 H IH HO S2 L2]; intros S L Q; [auto| | |];
    destruct (IH S L Q) as (Q1 & S1 & L1); cbn [ch_world].
  - subst p. split; [exact (squat_process _ _ _ _ _ _ He Hz L1 NS HI Q1)|]. split; [exact (sized_preserved _ _ _ _ _ He Hz L1 S1 HI)|exact (lam_ok_preserved _ _ _ _ _ He Hz L1 HI)].
  - subst p. unfold bridge_entry in HI. destruct (bridge_decode d) as [[|cl]|]; [|apply bind_ok in HI as (w' & H1 & H2)|discriminate].
    + exact (squat_bridge b e me infos _ k He Hz Hm0 S1 L1 TM NS Q1 _ _ _ SP HI).
    + assert (w' = w2) as -> by congruence. exact (proj1 (squat_create b e me infos _ k He Hz Hm0 S1 L1 TM NS Q1 _ _ H1)).
  - auto.
Qed.
(** Create can never succeed with it *)
Lemma squat_blocks b e me infos w k c w' mint seeds bump : env_ok e -> e_prog e <> pk_zero -> me <> e_prog e -> me <> pk_zero -> sized w -> lam_ok w -> tm_ok b (e_prog e) me ->
  ~ signs infos k -> squatted w k -> at_pos infos 2 mint -> seeds = s_vault ++ pk_bytes mint \/ seeds = s_asset ++ pk_bytes mint ->
  canonical (e_cpa e) me seeds k bump -> bridge_create b e me infos w c <> Ok w'.
Proof.
  intros He Hz Hm Hm0 Hs Hl TM NS SQ A2 HS C H. pose proof H as HH.
  destruct (squat_create b e me infos w k He Hz Hm0 Hs Hl TM NS SQ _ _ H) as (_ & Nv & Na & m' & b1 & b2 & M & V & A).
  rewrite (at_det _ _ _ _ M A2) in *. apply find_iff in C.
  apply create_inv in HH as (asset & vault & _ & _ & _ & _ & _ & _ & _ & _ & _ & _ & _ & B0 & B1 & _).
  destruct HS as [->| ->]; [pose proof (V _ B1) as R; apply (Nv _ B1); change (vault_seeds mint) with (s_vault ++ pk_bytes mint) in R|pose proof (A _ B0) as R; apply (Na _ B0); change (asset_seeds mint) with (s_asset ++ pk_bytes mint) in R];
    rewrite C in R; apply Some_inj in R; congruence.
Qed.
Lemma later_blocked p me cpa k mint seeds bump c c' : p <> pk_zero -> me <> p -> me <> pk_zero -> sized (ch_world c) -> lam_ok (ch_world c) ->
  seeds = s_vault ++ pk_bytes mint \/ seeds = s_asset ++ pk_bytes mint -> canonical cpa me seeds k bump ->
  squatted (ch_world c) k -> later p me cpa k c c' ->
  squatted (ch_world c') k /\
  forall b e infos cl w', e_prog e = p -> env_ok e -> e_cpa e = cpa -> tm_ok b p me -> ~ signs infos k -> at_pos infos 2 mint ->
    bridge_create b e me infos (ch_world c') cl <> Ok w'.
Proof.
  intros Hz Hm Hm0 S L HS C Q H. destruct (later_squatted _ _ _ _ _ _ Hz Hm Hm0 H S L Q) as (Q' & S' & L'). split; [exact Q'|].
  intros b e infos cl w' E He Ec TM NS A2. subst p cpa. exact (squat_blocks b e me infos _ k cl w' mint seeds bump He Hz Hm Hm0 S' L' TM NS Q' A2 HS C).
Qed.
(** through the entry point *)
Lemma entry_goes b e me infos w h t c : env_ok e -> e_prog e <> pk_zero -> rent_mono e -> me <> e_prog e -> me <> pk_zero -> sized w -> lam_ok w -> tm_ok b (e_prog e) me ->
  birth_names me infos t -> data (w (ba_asset t)) = [] -> wallet w (ba_payer t) -> ba_payer t <> e_prog e -> ba_payer t <> ba_asset t -> ba_payer t <> ba_vault t ->
  plain_at e w (ba_auth t) -> plain_at e w (e_prog e) -> plain_at e w pk_zero ->
  (exists r, bridge_entry b e me infos w h [x01; bool_byte c] = Ok r) <-> can_be_born b e me infos w t c.
Proof.
  intros. rewrite <- (birth_goes b e me infos w t c) by assumption. unfold bridge_entry. replace (bridge_decode [x01; bool_byte c]) with (Some (BCreate c)) by (destruct c; reflexivity). cbv iota.
  split; [intros [r H']; apply bind_ok in H' as (w' & H' & _); eauto|intros [w' ->]; cbn [bind]; eauto].
Qed.
Lemma entry_blocked p me cpa k mint seeds bump c c' : p <> pk_zero -> me <> p -> me <> pk_zero -> sized (ch_world c) -> lam_ok (ch_world c) ->
  seeds = s_vault ++ pk_bytes mint \/ seeds = s_asset ++ pk_bytes mint -> canonical cpa me seeds k bump ->
  squatted (ch_world c) k -> later p me cpa k c c' ->
  squatted (ch_world c') k /\
  forall b e infos cl r, e_prog e = p -> env_ok e -> e_cpa e = cpa -> tm_ok b p me -> ~ signs infos k -> at_pos infos 2 mint ->
    bridge_entry b e me infos (ch_world c') (ch_holder c') [x01; bool_byte cl] <> Ok r.
Proof.
  intros Hz Hm Hm0 S L HS C Q H. destruct (later_blocked _ _ _ _ _ _ _ _ _ Hz Hm Hm0 S L HS C Q H) as [Q' B]. split; [exact Q'|].
  intros b e infos cl r E He Ec TM NS A2 R. unfold bridge_entry in R. replace (bridge_decode [x01; bool_byte cl]) with (Some (BCreate cl)) in R by (destruct cl; reflexivity). cbv iota in R.
  apply bind_ok in R as (w' & R & _). exact (B b e infos cl w' E He Ec TM NS A2 R).
Qed.

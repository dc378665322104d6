(** Create gets an answer (C90). *)
From Verif Require Import Base State Layout Constr Ext World Proc BaseL Spec SpecB SpecF SpecE SpecJ SpecSafe SpecCalm WorldL ProcSteps LayoutL LayoutE ConstrL HeadL AcceptL AllocL AllocM AllocC AuthL AuthM GroupL UpdateL TopL CreateL SafeL SafeM SafeN SafeP CalmL CalmO.
From Verif Require Import BridgeL.
From Coq Require Import Strings.Byte.

Definition pars (b : blk) : Prop := parses (bk_type b) (bk_data b).
Definition raw_p (d : bytes) : Prop := exists hd l n, Forall pars l /\ 0 <= n /\ layout d hd l (repeat x00 (Z.to_nat n)).

Section Inline.
Variables (e : env) (He : env_ok e) (Hp : e_prog e <> pk_zero).
Lemma alloc_all_p infos w0 asset payer sysp : forall xs w,
  raw_p (data (w asset)) -> sized w -> Forall (fun x => ext_arg x /\ x_length x = zlen (given x) /\ parses (x_type x) (given x)) xs ->
  answered (allocate_all e (passed infos) w0 w asset payer sysp xs) /\
  forall w', allocate_all e (passed infos) w0 w asset payer sysp xs = Ok w' ->
    raw_p (data (w' asset)) /\ forall k, k <> asset -> data (w' k) = data (w k).
Proof.
  induction xs as [|x xs IH]; intros w HI Hs HF.
  { cbn [allocate_all]. split; [exact I|]. intros w' E. injection E as <-. auto. }
  cbn [allocate_all]. apply Forall_cons_iff in HF as [((X1 & X2 & X3) & X4 & R1) HF].
  destruct HI as (hd & l & n & Rl & Hn & HL). assert (HO : open_account (data (w asset)) hd l n) by (right; split; assumption).
  assert (N : forall w1, do_allocate e (passed infos) w0 w asset payer sysp x = Ok w1 ->
            raw_p (data (w1 asset)) /\ sized w1 /\ forall k, k <> asset -> data (w1 k) = data (w k)).
  { intros w1 H1. assert (Hs1 : sized w1) by (eapply psteps_sized; [eapply do_allocate_psteps; eauto|assumption]).
    pose proof H1 as D. eapply do_allocate_effect in D; [|exact HO|apply Hs|exact X1|unfold u32_max; lia|unfold two32; lia].
    destruct D as (D1 & D2 & D3 & D4 & D5 & D6 & _). split; [|split; [assumption|intros k Hk; apply D6; exact Hk]].
    destruct (D4 X4) as (_ & O1 & _). destruct O1 as [(_ & _ & Q & _)|(O1 & O2)]; [destruct l; discriminate Q|].
    eexists _, _, _. split; [|split; [exact O1|exact O2]]. apply Forall_app. split; [assumption|]. constructor; [exact R1|constructor]. }
  split.
  - apply p_bind; [eapply do_alloc_p; [exact HO|exact X1|lia|lia]|]. intros w1 H1. destruct (N _ H1) as (N1 & N2 & _). apply IH; assumption.
  - intros w' H. apply bind_ok in H as (w1 & H1 & H). destruct (N _ H1) as (N1 & N2 & N3). destruct (IH w1 N1 N2 HF) as [_ I2].
    destruct (I2 _ H) as [I3 I4]. split; [assumption|]. intros k Hk. rewrite I4, N3 by assumption. reflexivity.
Qed.
End Inline.

Lemma p_createskip auth : forall l A f seen R, zlen A mod 8 = 0 -> Forall blk_ok l -> Forall pars l -> zlen A + sect_size l + zlen R < 2147483648 ->
  (forall l', Forall2 (created auth) l l' -> answered (create_loop f auth (A ++ enc_sect (zlen A) l' ++ R) (zlen A + sect_size l) (rev (map bk_type l) ++ seen))) ->
  answered (create_loop (length l + f) auth (A ++ enc_sect (zlen A) l ++ R) (zlen A) seen).
Proof.
  induction l as [|b l IH]; intros A f seen R Hm Hl HR Hs H.
  - specialize (H [] (Forall2_nil _)). cbn [length Nat.add sect_size map rev app enc_sect] in *. now rewrite Z.add_0_r in H.
  - apply Forall_cons_iff in Hl as [Hb Hl]. apply Forall_cons_iff in HR as [Rb HR]. cbn [length sect_size] in *.
    pose proof (sect_size_nonneg l). pose proof (blk_size_mod b Hb). pose proof (blk_size_pos b) as Hbp.
    pose proof (zlen_nonneg R). pose proof (zlen_nonneg A). pose proof (zlen_nonneg (bk_data b)). pose proof (zlen_nonneg (bk_pad b)).
    cbn [enc_sect create_loop Nat.add]. rewrite <- app_assoc.
    set (C := enc_sect (zlen A + blk_size b) l ++ R) in *.
    assert (HC : zlen C = sect_size l + zlen R) by (unfold C; rewrite zlen_app, zlen_enc_sect by assumption; reflexivity).
    assert (Hlen : zlen (A ++ enc_blk (zlen A) b ++ C) = zlen A + blk_size b + zlen C) by (rewrite !zlen_app, zlen_enc_blk by assumption; lia).
    rewrite Hlen.
    replace (EXT_LEN <=? zlen A + blk_size b + zlen C - zlen A) with true by (unfold EXT_LEN; lia).
    rewrite load_hdr_blk by (auto; unfold u32_max; lia). cbn [bind h_type h_len h_bnd].
    rewrite ext_of_code_code.
    assert (Ha : (zlen A + blk_size b - (EXT_LEN + zlen A)) mod two64 = blk_size b - 16).
    { rewrite Z.mod_small; unfold EXT_LEN, two64; lia. }
    rewrite Ha.
    assert (K : answered (require (blk_size b - 16 <=? zlen A + blk_size b + zlen C - zlen A - EXT_LEN) EExtensionDataInvalid
       (guard (zlen (bk_data b) <=? blk_size b - 16)
        (b' <- map_err (on_create (bk_type b) (zlen A + EXT_LEN) (Some auth) (fld (A ++ enc_blk (zlen A) b ++ C) (zlen A + EXT_LEN) (zlen (bk_data b)))) EExtensionDataInvalid ;;
         create_loop (length l + f) auth (put (A ++ enc_blk (zlen A) b ++ C) (zlen A + EXT_LEN) b') (zlen A + blk_size b) (bk_type b :: seen))))).
    2:{ pose proof (proj1 Hb) as Hb1. destruct (bk_type b) eqn:Et; [congruence|..]; exact K. }
    apply p_req. intros _. apply p_guard; [unfold blk_size in *; lia|]. unfold EXT_LEN. rewrite fld_blk_data by (reflexivity || assumption).
    apply p_bind; [apply p_map, p_oncreate; [lia|exact Rb]|]. intros b' Hb'. apply map_err_ok in Hb'.
    assert (Hc : created auth b (with_data b b')).
    { split; [reflexivity|]. exists (zlen A + 16). split; [lia|exact Hb']. }
    pose proof (on_create_fresh _ _ _ _ _ Hb') as (Hl' & _).
    assert (Hz : zlen b' = zlen (bk_data b)) by (unfold zlen; now rewrite Hl').
    rewrite put_blk by auto. unfold C. rewrite (app_assoc A).
    assert (HA : zlen (A ++ enc_blk (zlen A) (with_data b b')) = zlen A + blk_size b)
      by (rewrite zlen_app, zlen_enc_blk by (now apply with_data_ok); rewrite with_data_size by assumption; reflexivity).
    rewrite <- HA. apply IH; auto; [rewrite HA; lia|rewrite HA; lia|].
    intros l' F. specialize (H (with_data b b' :: l') (Forall2_cons _ _ Hc F)).
    cbn [enc_sect map rev] in H. rewrite HA. rewrite with_data_size in H by assumption. rewrite <- !app_assoc in *.
    cbn [app] in H. rewrite Z.add_assoc in H. exact H.
Qed.

Lemma p_createloop auth d : raw_p d -> answered (create_loop (walk_fuel d) auth d ASSET_LEN []).
Proof.
  intros (hd & l & n & Rl & Hn & HL). unfold ASSET_LEN.
  pose proof (layout_fuel _ _ _ _ HL) as Hfu. pose proof (layout_len _ _ _ _ HL) as Hlen. destruct HL as (Ed & Hh & Hf & Ht & Hz).
  assert (Ef : walk_fuel d = (length l + S (walk_fuel d - length l - 1))%nat) by lia. rewrite Ef. set (f := (walk_fuel d - length l - 1)%nat) in *. clearbody f.
  rewrite Ed. rewrite <- Hh at 1 2. apply p_createskip; auto; [rewrite Hh; reflexivity|rewrite Hh; lia|].
  intros l' F. rewrite Hh. destruct (created_sect _ _ _ F) as (S1 & S2 & _). specialize (S2 Hf). set (R := repeat x00 (Z.to_nat n)) in *.
  assert (HP : zlen (hd ++ enc_sect 168 l') = 168 + sect_size l) by (rewrite zlen_app, zlen_enc_sect by assumption; lia).
  cbn [create_loop]. rewrite app_assoc.
  destruct (tail_hdr (hd ++ enc_sect 168 l') R (168 + sect_size l) (eq_sym HP)) as [E|(E & h & Hh1 & Hh2)]; auto.
  + pose proof (sect_size_mod l Hf). lia.
  + replace (EXT_LEN <=? zlen ((hd ++ enc_sect 168 l') ++ R) - (168 + sect_size l)) with false by lia. exact I.
  + replace (EXT_LEN <=? zlen ((hd ++ enc_sect 168 l') ++ R) - (168 + sect_size l)) with true by lia.
    rewrite Hh1. cbn [bind]. rewrite Hh2. exact I.
Qed.
Lemma created_pars auth l l' : Forall2 (created auth) l l' -> Forall pars l -> readable l'.
Proof.
  induction 1 as [|b b' l l' C _ IH]; intro HF; [constructor|]. apply Forall_cons_iff in HF as [Pb HF]. constructor; [|now apply IH].
  apply created_fresh in C as (T & L & K & _). unfold pars in Pb. rewrite T.
  destruct (ext_type_eqb (bk_type b) XCreators) eqn:E.
  - apply ext_type_eqb_eq in E. rewrite E in *. cbn [parses] in *. unfold cr_count in *. rewrite L. exact Pb.
  - rewrite K; [exact Pb|]. intro Q. rewrite Q in E. discriminate E.
Qed.
Lemma create_p e infos w m asset hd l n : sound_accounts e infos w -> env_ok e -> e_prog e <> pk_zero -> arg infos 0 asset -> sized w ->
  open_account (data (w asset)) hd l n -> readable l ->
  Forall (fun x => ext_arg x /\ x_length x = zlen (given x) /\ parses (x_type x) (given x)) (inline m) ->
  answered (process e infos w (ICreate m)).
Proof.
  intros HSA He Hp A0 Hs HI Rl HX. apply p_process; [exact HSA|]. cbn [dispatch]. unfold process_create. pf.
  apply acct_arg in K. rewrite (arg_det _ _ _ _ K A0) in *. clear K.
  assert (HF : Forall ext_arg (inline m)) by (eapply Forall_impl; [|exact HX]; intros x [Q _]; exact Q).
  apply p_bind. { destruct (_ =? 0); [apply p_newacc|]. pf. }
  intros w1 H1.
  assert (W1 : raw_p (data (w1 asset)) /\ sized w1 /\ forall k, k <> asset -> data (w1 k) = data (w k)).
  { destruct (zlen (data (w asset)) =? 0) eqn:E.
    - assert (Hs1 : sized w1) by (eapply psteps_sized; [eapply alloc_create_psteps; eauto|assumption]).
      unfold alloc_create_account in H1. apply bind_ok in H1 as (pp & _ & H1). apply require_ok in H1 as [_ H1].
      apply bind_ok in H1 as (ss & _ & H1). apply require_ok in H1 as [_ H1].
      apply sys_create_data in H1 as (D1 & D2 & _ & D3).
      specialize (Hs1 asset) as Z1. rewrite D1 in Z1. pose proof (create_space_inline m) as Ci. pose proof (sum_inline_nonneg _ HF).
      rewrite zlen_zeros in Z1 by lia.
      split; [|split; [assumption|intros kk Hk; apply D3; exact Hk]]. exists (repeat x00 168), [], (create_space (m_exts m) - 168). split; [constructor|].
      rewrite D1. split; [lia|]. split; [|split; [reflexivity|split; [constructor|split; [apply (tail_zeros (create_space (m_exts m) - 168))|]]]].
      + cbn [enc_sect app]. change (repeat x00 168) with (zeros 168). change (repeat x00 (Z.to_nat (create_space (m_exts m) - 168))) with (zeros (create_space (m_exts m) - 168)).
        rewrite zeros_app by lia. f_equal. lia.
      + rewrite zlen_zeros; lia.
    - rinv H1. split; [|auto]. destruct HI as [(Q & _)|(O1 & O2)]; [rewrite Q in E; discriminate E|]. exists hd, l, n. split; [exact Rl|]. auto. }
  destruct W1 as (I1 & S1 & F1).
  assert (A : answered (match m_exts m with None => Ok w1 | Some l => allocate_all e (passed infos) w w1 asset k4 k5 (swap_order l) end) /\
     forall w2, match m_exts m with None => Ok w1 | Some l => allocate_all e (passed infos) w w1 asset k4 k5 (swap_order l) end = Ok w2 ->
       raw_p (data (w2 asset)) /\ forall k, k <> asset -> data (w2 k) = data (w1 k)).
  { unfold inline in *. destruct (m_exts m) as [xs|]; [|split; [exact I|intros w2 Q; apply Ok_inj in Q; subst; auto]].
    change (swap_order xs) with (inline_order xs). apply alloc_all_p; auto. }
  destruct A as [A1 A2]. apply p_bind; [exact A1|]. intros w2 H2. destruct (A2 _ H2) as [I2 F2].
  assert (Q168 : (ASSET_LEN <=? zlen (data (w2 asset))) = true).
  { destruct I2 as (h2 & l2 & n2 & _ & _ & HL). pose proof (layout_len _ _ _ _ HL). pose proof (sect_size_nonneg l2). pose proof (zlen_nonneg (repeat x00 (Z.to_nat n2))). unfold ASSET_LEN. lia. }
  apply p_bind; [apply p_guard; [exact Q168|now apply p_createloop]|]. intros r H3. apply guard_ok in H3 as [Q H3].
  assert (HA : exists l', well_formed (init_header (fst r) m k1 k0) l' /\ readable l').
  { destruct I2 as (h2 & l2 & n2 & R2 & _ & HL). destruct (create_loop_layout _ _ _ _ _ _ HL H3) as (l' & C & _ & _ & HL').
    exists l'. split; [eexists _, _; eapply init_header_layout, HL'|eapply created_pars; eauto]. }
  destruct HA as (l' & W' & R').
  pf. apply p_bind; [destruct (p_get _ _ XProxy W' R') as [->|(o & b & -> & _)]; [discriminate|exact I|exact I]|]. intros p EP. apply p_bind.
  { destruct (p_get _ _ XProxy W' R') as [G|(o & b & G & _ & P)]; [discriminate| |]; rewrite G in EP; apply Ok_inj in EP; subst p; [exact I|].
    apply p_parse; [exact (proj2 (proxy_goes b) P)|]. intros. exact I. }
  intros px _. apply p_bind. { destruct (is_std (m_standard m) Proxied); [|pf]. destruct px; [|exact I]. pf. }
  intros u _. apply p_bind; [apply p_set|]. intros w3 H4. destruct k2 as [g|]; [|exact I].
  unfold do_group. pf.
  assert (N : g <> asset). { intros ->. match goal with X : negb (pk_eqb asset asset) = true |- _ => rewrite (proj2 (pk_eqb_eq asset asset) eq_refl) in X; discriminate X end. }
  match goal with X : is_asset (data (w3 g)) = true |- _ => pose proof (asset_disc _ X) as DG end.
  assert (EG : data (w3 g) = data (w g)) by (rewrite (set_data_other _ _ _ _ _ _ g H4 N), F2, F1 by assumption; reflexivity).
  assert (PS : psteps e (passed infos) w w3).
  { assert (P1 : psteps e (passed infos) w w1 /\ acct_owner (w1 asset) = e_prog e).
    { destruct (zlen (data (w asset)) =? 0); [eapply alloc_create_psteps; eauto|]. rinv H1. unfold owned_by_prog in *. bnorm. split; [constructor|assumption]. }
    destruct P1 as [P1 O1]. assert (P2 : psteps e (passed infos) w1 w2).
    { destruct (m_exts m); [eapply allocate_all_psteps; eauto|]. apply Ok_inj in H2. subst. constructor. }
    eapply psteps_trans; [exact P1|]. eapply psteps_trans; [exact P2|]. eapply set_data_psteps; exact H4. }
  assert (OG : acct_owner (w g) = e_prog e).
  { destruct (pk_dec (acct_owner (w g)) (e_prog e)) as [O|O]; [exact O|]. exfalso.
    destruct (psteps_keep _ _ _ _ g PS O) as [QO _]; [right; left; rewrite <- EG; intro Z; rewrite Z in DG; vm_compute in DG; discriminate DG|].
    apply O. rewrite <- QO. match goal with X : owned_by_prog e w3 g = true |- _ => unfold owned_by_prog in X; now apply pk_eqb_eq in X end. }
  rewrite EG in *. destruct (at_asset e infos w HSA g (in_opt e infos _ g K2) OG DG) as (lg & Wg & Rg).
  destruct (p_sect _ _ XGrouping Wg Rg) as [->|(o & b & -> & M & P)]; [discriminate|exact I|]. cbn [bind].
  apply p_bind; [now apply p_grouping|]. intros. pf.
Qed.

(** Create succeeds exactly when. *)
From Verif Require Import Base State Layout Constr Ext World Proc BaseL Spec SpecB SpecC SpecE SpecF WorldL ProcSteps LayoutL LayoutM LayoutE HeadL CreatorsL AuthL AuthM AllocL AllocM GroupL AllocC CreateL ConstrL RoyalL ValidL ReadsL CodecL ExactL ExactM AcceptL ExactN.
From Coq Require Import Strings.Byte.

Lemma do_group_goes e infos w asset g auth lg : ours e infos w asset -> initialized (data (w asset)) -> writable infos g -> sized w ->
  (acct_owner (w g) = e_prog e -> initialized (data (w g)) -> well_formed (data (w g)) lg /\ grouping_sane lg) ->
  goes (do_group e (passed infos) w asset g auth) <-> may_join e infos w asset g auth lg (s_group (data (w asset))) (s_authority (data (w asset))).
Proof.
  intros [Ho Hw] Hi Wg Hs Hwf. unfold do_group, may_join. cbv zeta.
  rewrite !goes_require, !owned_spec, !is_asset_spec, signer_spec, not_same_spec, no_group_spec, bytes_eqb_eq.
  change (f_authority (data (w g))) with (s_authority (data (w g))). change (f_authority (data (w asset))) with (s_authority (data (w asset))).
  assert (X : acct_owner (w g) = e_prog e -> initialized (data (w g)) -> g <> asset ->
      goes (r <- sect_get XGrouping (drop ASSET_LEN (data (w g))) ;;
             match r with
             | None => Err EExtensionNotFound
             | Some (off, b) =>
                 gr <- grouping_from_bytes off b ;;
                 require (group_signer_ok (s_authority (data (w g))) gr auth) EInvalidAuthority
                  (require ((g_max gr =? 0) || (g_size gr <? g_max gr)) EExtensionDataInvalid
                   (w1 <- set_data e (passed infos) w asset (put (data (w asset)) 36 (pk_bytes g)) ;;
                    set_data e (passed infos) w1 g
                      (put (data (w g)) (ASSET_LEN + off) (le_enc 8 ((g_size gr + 1) mod two64)))))
             end) <-> exists b, lookup XGrouping (ext_list lg) = Some b /\ group_signer (data (w g)) b auth /\ (gr_max b = 0 \/ gr_size b < gr_max b)).
  { intros Go Gi Gn. destruct (Hwf Go Gi) as [Gw Gs]. assert (NX : XGrouping <> XNone) by discriminate.
    destruct (sect_wf _ _ _ Gw NX) as [[E S]|(off & b & E & S & M & O & Z)]; rewrite S; cbn [bind].
    - split; [intro H; elim (goes_err _ H)|]. intros (b & H & _). congruence.
    - specialize (Gs b E). rewrite (ExactL.grouping_goes off b Gs M). cbn [bind]. rewrite !goes_require. change (s_authority (data (w g))) with (f_authority (data (w g))).
      rewrite (signer_ok_spec _ _ _ Gs). cbn [g_max g_size]. rewrite orb_true_iff, Z.eqb_eq, Z.ltb_lt. split.
      + intros (H1 & H2 & _). exists b. auto.
      + intros (b' & H0 & H1 & H2). assert (b' = b) as -> by congruence. split; [exact H1|]. split; [exact H2|].
        apply goes_two; [exact Gn|now split|now split| |].
        * rewrite zlen_put; [apply Hs|lia|]. pose proof (initialized_len _ Hi). rewrite pk_zlen. lia.
        * apply (size_len e infos _ _ _ b); [now split|exact Hs|exact O|lia|exact Z]. }
  split.
  - intros (H1 & H2 & H3 & H4 & H5 & H6 & H7 & H8 & H9). repeat (split; [assumption|]). now apply X.
  - intros (H1 & H2 & H3 & H4 & H5 & H6 & H7). repeat (split; [assumption|]). now apply X.
Qed.

(** validation *)
Lemma create_loop_goes_skip auth : forall l A f seen R, zlen A mod 8 = 0 -> Forall blk_ok l -> zlen A + sect_size l + zlen R < 2147483648 ->
  (forall l', Forall2 (created auth) l l' -> goes (create_loop f auth (A ++ enc_sect (zlen A) l' ++ R) (zlen A + sect_size l) (rev (map bk_type l) ++ seen))) ->
  goes (create_loop (length l + f) auth (A ++ enc_sect (zlen A) l ++ R) (zlen A) seen) <-> Forall (fun b => acceptable (bk_type b) (bk_data b)) l.
Proof.
  induction l as [|b l IH]; intros A f seen R Hm Hl Hs HE.
  - split; [intros _; constructor|]. intros _. specialize (HE [] (Forall2_nil _)). cbn [length Nat.add sect_size map rev app enc_sect] in *. now rewrite Z.add_0_r in HE.
  - apply Forall_cons_iff in Hl as [Hb Hl]. cbn [length sect_size] in *.
    pose proof (sect_size_nonneg l). pose proof (blk_size_mod b Hb). pose proof (blk_size_pos b) as Hbp.
    pose proof (zlen_nonneg R). pose proof (zlen_nonneg A). pose proof (zlen_nonneg (bk_data b)). pose proof (zlen_nonneg (bk_pad b)).
    cbn [enc_sect create_loop Nat.add]. rewrite <- app_assoc.
    set (C := enc_sect (zlen A + blk_size b) l ++ R) in *.
    assert (HC : zlen C = sect_size l + zlen R) by (unfold C; rewrite zlen_app, zlen_enc_sect by assumption; reflexivity).
    assert (Hlen : zlen (A ++ enc_blk (zlen A) b ++ C) = zlen A + blk_size b + zlen C) by (rewrite !zlen_app, zlen_enc_blk by assumption; lia).
    rewrite Hlen.
    replace (EXT_LEN <=? zlen A + blk_size b + zlen C - zlen A) with true by (unfold EXT_LEN; lia).
    rewrite load_hdr_blk by (auto; unfold u32_max; lia). cbn [bind h_type h_len h_bnd].
    rewrite ext_of_code_code.
    assert (Ha : (zlen A + blk_size b - (EXT_LEN + zlen A)) mod two64 = blk_size b - 16).
    { rewrite Z.mod_small; unfold EXT_LEN, two64; lia. }
    rewrite Ha. rewrite Forall_cons_iff.
    assert (K : goes (require (blk_size b - 16 <=? zlen A + blk_size b + zlen C - zlen A - EXT_LEN) EExtensionDataInvalid
             (guard (zlen (bk_data b) <=? blk_size b - 16)
              (b' <- map_err (on_create (bk_type b) (zlen A + EXT_LEN) (Some auth)
                               (fld (A ++ enc_blk (zlen A) b ++ C) (zlen A + EXT_LEN) (zlen (bk_data b)))) EExtensionDataInvalid ;;
               create_loop (length l + f) auth (put (A ++ enc_blk (zlen A) b ++ C) (zlen A + EXT_LEN) b') (zlen A + blk_size b) (bk_type b :: seen)))) <->
        acceptable (bk_type b) (bk_data b) /\ Forall (fun b => acceptable (bk_type b) (bk_data b)) l).
    { rewrite goes_require, goes_guard, goes_bind. unfold EXT_LEN. rewrite fld_blk_data by (reflexivity || assumption).
      rewrite <- (on_create_goes (bk_type b) (zlen A + 16) (Some auth) (bk_data b)) by lia.
      assert (REST : forall b', on_create (bk_type b) (zlen A + 16) (Some auth) (bk_data b) = Ok b' ->
         goes (create_loop (length l + f) auth (put (A ++ enc_blk (zlen A) b ++ C) (zlen A + 16) b') (zlen A + blk_size b) (bk_type b :: seen)) <->
         Forall (fun b => acceptable (bk_type b) (bk_data b)) l).
      { intros b' Hb'. assert (Hc : created auth b (with_data b b')).
        { split; [reflexivity|]. exists (zlen A + 16). split; [lia|exact Hb']. }
        pose proof (on_create_fresh _ _ _ _ _ Hb') as (Hl' & _).
        assert (Hz : zlen b' = zlen (bk_data b)) by (unfold zlen; now rewrite Hl').
        rewrite put_blk by auto. unfold C. rewrite (app_assoc A).
        assert (HA : zlen (A ++ enc_blk (zlen A) (with_data b b')) = zlen A + blk_size b)
          by (rewrite zlen_app, zlen_enc_blk by (now apply with_data_ok); rewrite with_data_size by assumption; reflexivity).
        rewrite <- HA. apply IH; auto; [rewrite HA; lia|rewrite HA; lia|].
        intros l' F. specialize (HE (with_data b b' :: l') (Forall2_cons _ _ Hc F)). cbn [enc_sect map rev] in HE. rewrite with_data_size in HE by assumption.
        rewrite HA. rewrite <- !app_assoc in *. cbn [app] in HE. rewrite Z.add_assoc in HE. exact HE. }
      split.
      - intros (_ & _ & b' & G1 & G2). apply map_err_ok in G1. split; [now exists b'|]. now apply (REST b').
      - intros ([b' G1] & G2). split; [lia|]. split; [unfold blk_size; lia|]. exists b'. split; [rewrite G1; reflexivity|]. now apply (REST b'). }
    pose proof (proj1 Hb) as Hb1. destruct (bk_type b) eqn:Et; [now elim Hb1|..]; exact K.
Qed.
Lemma create_loop_goes auth d hd l tl : layout d hd l tl ->
  goes (create_loop (walk_fuel d) auth d ASSET_LEN []) <-> Forall (fun b => acceptable (bk_type b) (bk_data b)) l.
Proof.
  intros HL. pose proof (layout_fuel _ _ _ _ HL) as Hfu. pose proof (layout_len _ _ _ _ HL) as Hlen.
  pose proof HL as (Ed & Hh & Hf & Ht & Hz).
  assert (Ef : walk_fuel d = (length l + S (walk_fuel d - length l - 1))%nat) by lia.
  rewrite Ef. rewrite Ed at 2. unfold ASSET_LEN. rewrite <- Hh. apply create_loop_goes_skip; rewrite ?Hh; auto; [lia|].
  intros l' F. destruct (created_sect _ _ _ F) as (S1 & S2 & S3). specialize (S2 Hf).
  assert (HP : zlen (hd ++ enc_sect 168 l') = 168 + sect_size l) by (rewrite zlen_app, zlen_enc_sect by assumption; lia).
  rewrite app_assoc. cbn [create_loop].
  destruct (tail_hdr (hd ++ enc_sect 168 l') tl (168 + sect_size l) (eq_sym HP)) as [E|(E & h & Hh1 & Hh2)]; auto.
  - pose proof (sect_size_mod l Hf). lia.
  - replace (EXT_LEN <=? zlen ((hd ++ enc_sect 168 l') ++ tl) - (168 + sect_size l)) with false by lia. apply goes_ok.
  - replace (EXT_LEN <=? zlen ((hd ++ enc_sect 168 l') ++ tl) - (168 + sect_size l)) with true by lia.
    rewrite Hh1. cbn [bind]. rewrite Hh2. change (ext_of_code 0) with (Some XNone). apply goes_ok.
Qed.

(** everything after the account and its extensions are there *)
Definition create_rest (e : env) (infos : list ainfo) (w2 : world) (m : metadata_input) (asset auth owner : pubkey) (group gauth : option pubkey) : res world :=
  r <- guard (ASSET_LEN <=? zlen (data (w2 asset))) (create_loop (walk_fuel (data (w2 asset))) (pk_bytes auth) (data (w2 asset)) ASSET_LEN []) ;;
    let d := init_header (fst r) m owner auth in
    let has_manager := existsb (ext_type_eqb XManager) (snd r) in
    require (Bool.eqb (is_std (m_standard m) Managed) has_manager) EExtensionDataInvalid
     (p <- asset_get XProxy d ;;
      px <- (match p with
             | None => Ok None
             | Some (_, b) => q <- proxy_from_bytes b ;; Ok (Some q)
             end) ;;
      u <- (if is_std (m_standard m) Proxied then
              match px with
              | None => Err EExtensionDataInvalid
              | Some q =>
                  k <- ok_or (e_cpa e (p_seeds q) (p_bump q) (p_program q)) EInvalidSeeds ;;
                  require (pk_eqb k asset) EInvalidSeeds (Ok tt)
              end
            else require (match px with None => true | Some _ => false end) EExtensionDataInvalid
                   (Ok tt)) ;;
      w3 <- set_data e infos w2 asset d ;;
      match group with
      | None => Ok w3
      | Some g => do_group e infos w3 asset g (match gauth with Some a => a | None => auth end)
      end).
Lemma created_proxy auth l l' : Forall2 (created auth) l l' -> lookup XProxy (ext_list l') = lookup XProxy (ext_list l).
Proof.
  induction 1 as [|b b' l l' Hb _ IH]; [reflexivity|]. destruct (created_fresh _ _ _ Hb) as (T & _ & K & _). cbn [ext_list map lookup]. fold (ext_list l) (ext_list l').
  rewrite T, IH. destruct (ext_type_eqb (bk_type b) XProxy) eqn:E; [|reflexivity]. apply ext_type_eqb_eq in E. rewrite K; [reflexivity|]. rewrite E. discriminate.
Qed.
Lemma lookup_acceptable t l b : Forall (fun k => acceptable (bk_type k) (bk_data k)) l -> lookup t (ext_list l) = Some b -> acceptable t b.
Proof.
  induction 1 as [|k l Hk _ IH]; [discriminate|]. cbn [ext_list map lookup]. fold (ext_list l). destruct (ext_type_eqb (bk_type k) t) eqn:E; [|exact IH].
  intro Q. apply some_inj in Q. subst b. apply ext_type_eqb_eq in E. now subst t.
Qed.
Lemma rest_goes e infos w m asset auth owner og oga hd l tl lg : layout (data (w asset)) hd l tl -> ours e infos w asset -> sized w ->
  (forall g, og = Some g -> writable infos g /\ (acct_owner (w g) = e_prog e -> initialized (data (w g)) -> g <> asset -> well_formed (data (w g)) lg /\ grouping_sane lg)) ->
  goes (create_rest e (passed infos) w m asset auth owner og oga) <->
  Forall (fun b => acceptable (bk_type b) (bk_data b)) l /\ standard_ok e (m_standard m) asset l /\
  forall g, og = Some g -> may_join e infos w asset g (match oga with Some a => a | None => auth end) lg (s_group hd) (pk_bytes auth).
Proof.
  intros HL Ho Hs Hg. unfold create_rest. assert (G168 : 168 <= zlen (data (w asset))) by (pose proof (layout_len _ _ _ _ HL) as Q; pose proof (sect_size_nonneg l); pose proof (zlen_nonneg tl); lia). replace (ASSET_LEN <=? zlen (data (w asset))) with true by (unfold ASSET_LEN; lia). cbn [guard]. rewrite goes_bind. rewrite <- (create_loop_goes (pk_bytes auth) _ _ _ _ HL).
  assert (REST : forall r, create_loop (walk_fuel (data (w asset))) (pk_bytes auth) (data (w asset)) ASSET_LEN [] = Ok r -> Forall (fun b => acceptable (bk_type b) (bk_data b)) l ->
    goes (let d := init_header (fst r) m owner auth in
    let has_manager := existsb (ext_type_eqb XManager) (snd r) in
    require (Bool.eqb (is_std (m_standard m) Managed) has_manager) EExtensionDataInvalid
     (p <- asset_get XProxy d ;;
      px <- (match p with
             | None => Ok None
             | Some (_, b) => q <- proxy_from_bytes b ;; Ok (Some q)
             end) ;;
      u <- (if is_std (m_standard m) Proxied then
              match px with
              | None => Err EExtensionDataInvalid
              | Some q =>
                  k <- ok_or (e_cpa e (p_seeds q) (p_bump q) (p_program q)) EInvalidSeeds ;;
                  require (pk_eqb k asset) EInvalidSeeds (Ok tt)
              end
            else require (match px with None => true | Some _ => false end) EExtensionDataInvalid
                   (Ok tt)) ;;
      w3 <- set_data e (passed infos) w asset d ;;
      match og with
      | None => Ok w3
      | Some g => do_group e (passed infos) w3 asset g (match oga with Some a => a | None => auth end)
      end)) <-> standard_ok e (m_standard m) asset l /\
      forall g, og = Some g -> may_join e infos w asset g (match oga with Some a => a | None => auth end) lg (s_group hd) (pk_bytes auth)).
  { intros r Hr Hacc. destruct (create_loop_layout _ _ _ _ _ _ HL Hr) as (l' & HC & _ & Hseen & L3).
    pose proof (created_sect _ _ _ HC) as (Hsz & _ & Hty). pose proof (created_proxy _ _ _ HC) as Hpx.
    set (hd1 := init_header hd m owner auth).
    pose proof (init_header_layout _ _ _ _ m owner auth L3) as L4. fold hd1 in L4.
    assert (Hhd : zlen hd = 168) by (destruct L3 as (_ & ? & _); assumption).
    destruct (init_header_fields hd m owner auth ltac:(lia)) as (I0 & I1 & I2 & I3 & I4 & I5 & I6 & I7 & I8 & I9 & I10). fold hd1 in I0, I1, I2, I3, I4, I5, I6, I7, I8, I9, I10.
    cbv zeta. rewrite goes_require.
    assert (Hman : Bool.eqb (is_std (m_standard m) Managed) (existsb (ext_type_eqb XManager) (snd r)) = true <-> (m_standard m = Managed <-> In XManager (map bk_type l))).
    { rewrite Hseen, eqb_true_iff. rewrite <- (existsb_ext_in XManager). destruct (existsb _ _); unfold is_std; destruct (m_standard m); cbn; split; intro Q; try discriminate Q; try reflexivity; try (split; congruence); exfalso; destruct Q as [Q1 Q2]; try (specialize (Q1 eq_refl); discriminate Q1); specialize (Q2 eq_refl); discriminate Q2. }
    rewrite Hman. rewrite (layout_get _ _ _ _ L4 XProxy ltac:(discriminate)). cbn [bind].
    assert (GRP : goes (w3 <- set_data e (passed infos) w asset (init_header (fst r) m owner auth) ;;
      match og with
      | None => Ok w3
      | Some g => do_group e (passed infos) w3 asset g (match oga with Some a => a | None => auth end)
      end) <-> forall g, og = Some g -> may_join e infos w asset g (match oga with Some a => a | None => auth end) lg (s_group hd) (pk_bytes auth)).
    { pose proof (layout_len _ _ _ _ L4) as Z4. pose proof (layout_len _ _ _ _ HL) as Z0. 
      destruct (goes_set e infos w asset (init_header (fst r) m owner auth) Ho) as [w3 H3]; [specialize (Hs asset); lia|]. rewrite H3. cbn [bind].
      pose proof H3 as Hset. apply set_data_only in Hset as [(P1 & P2 & P3) D3].
      assert (S3 : sized w3) by (eapply psteps_sized; [eapply set_data_psteps; exact H3|assumption]).
      destruct og as [g|]; [|split; [intros _ g Q; discriminate Q|intros _; apply goes_ok]].
      destruct (Hg g eq_refl) as [Wg Hgw].
      assert (O3 : ours e infos w3 asset) by (destruct Ho as [O1 O2]; split; [|exact O2]; rewrite (set_data_owner _ _ _ _ _ _ _ H3); exact O1).
      assert (I : initialized (data (w3 asset))).
      { destruct (hd_fields _ _ _ _ L4) as (Q1 & _). rewrite D3. split; [unfold zlen in *; pose proof (sect_size_nonneg l'); pose proof (zlen_nonneg tl); unfold zlen in *; lia|]. change (nth 0 (init_header (fst r) m owner auth) x00) with (s_disc (init_header (fst r) m owner auth)). rewrite Q1. exact I1. }
      destruct (hd_fields _ _ _ _ L4) as (_ & _ & _ & _ & _ & Q6 & Q7 & _).
      assert (J : may_join e infos w3 asset g (match oga with Some a => a | None => auth end) lg (s_group (data (w3 asset))) (s_authority (data (w3 asset))) <->
                  may_join e infos w asset g (match oga with Some a => a | None => auth end) lg (s_group hd) (pk_bytes auth)).
      { rewrite D3, Q6, Q7, I6, I7. unfold may_join. destruct (pk_dec g asset) as [->|N]; [tauto|]. rewrite (P1 g N). tauto. }
      destruct (pk_dec g asset) as [->|N].
      - split; [|intro Q; specialize (Q asset eq_refl); destruct Q as (_ & _ & _ & Q & _); now elim Q]. unfold do_group. cbv zeta. rewrite !goes_require, not_same_spec. tauto.
      - rewrite (do_group_goes e infos w3 asset g (match oga with Some a => a | None => auth end) lg O3 I Wg S3).
        + rewrite J. split; [intros Q g' Eg; apply some_inj in Eg; now subst g'|intro Q; now apply Q].
        + rewrite (P1 g N). intros; now apply Hgw. }
    unfold standard_ok. rewrite <- Hpx. pose proof (loc_lookup XProxy l' 168) as LK. rewrite LK.
    assert (A97 : forall b, lookup XProxy (ext_list l') = Some b -> length b = 97%nat).
    { intros b Q. rewrite Hpx in Q. apply (lookup_acceptable _ _ _ Hacc) in Q as [Q _]. exact Q. }
    rewrite LK in A97. destruct (loc XProxy 168 l') as [[c k]|]; cbn [option_map fst snd] in *.
    - specialize (A97 _ eq_refl). destruct (proj2 (proxy_goes (bk_data k)) A97) as [q Hq]. rewrite Hq. cbn [bind]. destruct (proxy_len _ _ Hq) as [_ ->]. cbn [p_seeds p_bump p_program].
      destruct (is_std (m_standard m) Proxied) eqn:E.
      + assert (Em : m_standard m = Proxied) by (unfold is_std in E; destruct (m_standard m); try discriminate E; reflexivity).
        rewrite goes_unit, GRP. assert (Q : goes (k0 <- ok_or (e_cpa e (sub (bk_data k) 32 32) (nth 64 (bk_data k) x00) (sub (bk_data k) 0 32)) EInvalidSeeds ;; require (pk_eqb k0 asset) EInvalidSeeds (Ok tt)) <-> proxy_derives e (bk_data k) asset).
        { unfold proxy_derives. destruct (e_cpa e _ _ _) as [k0|]; cbn [ok_or bind]; [|split; [intro Q; elim (goes_err _ Q)|intros [_ Q]; discriminate Q]].
          rewrite goes_require, pk_eqb_eq. split; [intros [-> _]; auto|intros [_ Q]; apply some_inj in Q; split; [exact Q|apply goes_ok]]. }
        rewrite Q. split.
        * intros (H1 & H2 & H3). split; [|exact H3]. split; [exact H1|]. split; [|intro X; contradiction]. intros _. exists (bk_data k). auto.
        * intros ((H1 & H2 & _) & H3). split; [exact H1|]. split; [|exact H3]. destruct (H2 Em) as (b & Eb & Hb). apply some_inj in Eb. now subst b.
      + rewrite goes_unit, goes_require. split; [intros (_ & (Q & _) & _); discriminate Q|]. intros ((_ & _ & Q) & _). exfalso. assert (N : m_standard m <> Proxied) by (intro Q'; rewrite Q' in E; discriminate E). specialize (Q N). discriminate Q.
    - cbn [bind]. destruct (is_std (m_standard m) Proxied) eqn:E.
      + assert (Em : m_standard m = Proxied) by (unfold is_std in E; destruct (m_standard m); try discriminate E; reflexivity).
        rewrite goes_unit. split; [intros (_ & Q & _); elim (goes_err _ Q)|]. intros ((_ & Q & _) & _). destruct (Q Em) as (b & Eb & _). discriminate Eb.
      + rewrite goes_unit, goes_require, GRP. assert (N : m_standard m <> Proxied) by (intro Q'; rewrite Q' in E; discriminate E).
        split; [intros (H1 & _ & H2); split; [|exact H2]; split; [exact H1|]; split; [intro; contradiction|reflexivity]|].
        intros ((H1 & _) & H2). split; [exact H1|]. split; [split; [reflexivity|apply goes_ok]|exact H2]. }
  split.
  - intros (r & Hr & H). split; [now exists r|]. apply (REST r Hr); [|exact H]. apply (create_loop_goes (pk_bytes auth) _ _ _ _ HL). now exists r.
  - intros ([r Hr] & H). exists r. split; [exact Hr|]. apply (REST r Hr); [|exact H]. apply (create_loop_goes (pk_bytes auth) _ _ _ _ HL). now exists r.
Qed.

(** inline extensions *)
Lemma lookup_snoc t l b : lookup t (ext_list (l ++ [b])) = None <-> lookup t (ext_list l) = None /\ t <> bk_type b.
Proof.
  induction l as [|k l IH]; cbn [app ext_list map lookup].
  - destruct (ext_type_eqb (bk_type b) t) eqn:E; [apply ext_type_eqb_eq in E; subst; split; [discriminate|intros [_ Q]; now elim Q]|].
    split; [intros _; split; [reflexivity|]|reflexivity]. intros ->. rewrite ext_type_eqb_refl in E. discriminate E.
  - fold (ext_list (l ++ [b])) (ext_list l). destruct (ext_type_eqb (bk_type k) t); [split; [discriminate|intros [Q _]; discriminate Q]|exact IH].
Qed.
Lemma sum_sect xs : Forall (fun x => x_length x = zlen (given x)) xs -> fold_left (fun t x => t + pad8 (x_length x + EXT_LEN)) xs 0 = sect_size (inline_blks xs).
Proof.
  assert (F : forall xs t, fold_left (fun t x => t + pad8 (x_length x + EXT_LEN)) xs t = t + fold_left (fun t x => t + pad8 (x_length x + EXT_LEN)) xs 0).
  { clear. induction xs as [|x xs IH]; intro t; cbn [fold_left]; [lia|]. rewrite IH, (IH (0 + _)). lia. }
  induction 1 as [|x xs Hx _ IH]; [reflexivity|]. cbn [fold_left inline_blks map sect_size]. fold (inline_blks xs). rewrite F, IH, blk_of_size, Hx. unfold EXT_LEN. rewrite (Z.add_comm 16). lia.
Qed.
Lemma alloc_all_goes e infos w0 asset payer sysp hd : env_ok e -> e_prog e <> pk_zero -> writable infos asset -> signed infos asset -> s_disc hd = x00 ->
  forall xs w l n, open_account (data (w asset)) hd l n -> data (w asset) <> [] -> acct_owner (w asset) = e_prog e -> sized w ->
  Forall ext_arg xs -> Forall (fun x => x_length x = zlen (given x)) xs -> sect_size (inline_blks xs) <= n ->
  goes (allocate_all e (passed infos) w0 w asset payer sysp xs) <-> Forall (fun x => lookup (x_type x) (ext_list l) = None) xs /\ NoDup (map x_type xs).
Proof.
  intros He Hz Hw Hsg Hd0. induction xs as [|x xs IH]; intros w l n HO NE Ho Hs HF HC Hn.
  - cbn [allocate_all map]. split; [intros _; split; constructor|intros _; apply goes_ok].
  - apply Forall_cons_iff in HF as [Hx HF]. apply Forall_cons_iff in HC as [Cx HC]. cbn [allocate_all inline_blks map sect_size] in *. fold (inline_blks xs) in *.
    assert (HL : layout (data (w asset)) hd l (repeat x00 (Z.to_nat n))) by (destruct HO as [[Q _]|[_ Q]]; [contradiction|exact Q]).
    pose proof (sect_size_nonneg (inline_blks xs)) as Sn.
    pose proof (layout_len _ _ _ _ HL) as Z0. rewrite zlen_repeat in Z0.
    assert (D0 : s_disc (data (w asset)) = x00) by (destruct (hd_fields _ _ _ _ HL) as [Q _]; congruence).
    pose proof (blk_size_pos (blk_of (x_type x) (given x))) as Bp. pose proof (sect_size_nonneg l) as Ln.
    assert (ONE : goes (do_allocate e (passed infos) w0 w asset payer sysp x) <-> lookup (x_type x) (ext_list l) = None).
    { rewrite (do_alloc_goes e infos w0 w asset payer sysp x hd l n HO Hs Hw Hx).
      assert (G : goes (if zlen (data (w asset)) =? 0 then alloc_create_account e (passed infos) w asset payer sysp (new_end l x)
        else if (zlen (data (w asset)) <? new_end l x) || (negb (x_length x =? zlen (given x)) && (new_end l x <? zlen (data (w asset))))
             then resize e (passed infos) w0 w (new_end l x) asset payer sysp else Ok w)).
      { replace (zlen (data (w asset)) =? 0) with false by lia. replace (x_length x =? zlen (given x)) with true by lia. cbn [negb andb]. rewrite orb_false_r.
        replace (zlen (data (w asset)) <? new_end l x) with false; [apply goes_ok|]. symmetry. apply Z.ltb_ge. unfold new_end. replace (x_length x =? zlen (given x)) with true by lia.
        rewrite blk_of_size in Hn. unfold pad8 in Hn. rewrite Cx. lia. }
      split; [tauto|]. intro Q. split; [exact Hsg|]. split; [auto|]. split; [exact Q|]. split; [lia|exact G]. }
    assert (NXT : forall w1, do_allocate e (passed infos) w0 w asset payer sysp x = Ok w1 ->
       goes (allocate_all e (passed infos) w0 w1 asset payer sysp xs) <-> Forall (fun y => lookup (x_type y) (ext_list l) = None) xs /\ NoDup (x_type x :: map x_type xs)).
    { intros w1 H1. destruct Hx as (X1 & X2 & X3).
      assert (Hs1 : sized w1) by (eapply psteps_sized; [eapply do_allocate_psteps; eauto|assumption]).
      pose proof H1 as D. eapply do_allocate_effect in D; [|exact HO|apply Hs|exact X1|unfold u32_max; lia|unfold two32; lia].
      destruct D as (_ & _ & _ & D4 & _ & _ & _ & D8). destruct (D4 Cx) as (_ & O1 & _). destruct (D8 NE) as (Ow1 & _ & _).
      assert (NE1 : data (w1 asset) <> []).
      { destruct O1 as [(_ & _ & Q & _)|[_ Q]]; [now destruct l|]. intro E0. apply layout_len in Q. rewrite E0 in Q. change (zlen []) with 0 in Q. pose proof (sect_size_nonneg (l ++ [blk_of (x_type x) (given x)])). rewrite zlen_repeat in Q. lia. }
      rewrite (IH w1 _ _ O1 NE1 Ow1 Hs1 HF HC) by lia. rewrite NoDup_cons_iff, !Forall_forall. split.
      - intros [Q1 Q2]. split; [intros y Hy; specialize (Q1 y Hy); apply lookup_snoc in Q1 as [Q1 _]; exact Q1|]. split; [|exact Q2]. intro Q. apply in_map_iff in Q as (y & Ey & Hy). specialize (Q1 y Hy). apply lookup_snoc in Q1 as [_ Q1]. now apply Q1.
      - intros (Q1 & Q2 & Q3). split; [|exact Q3]. intros y Hy. apply lookup_snoc. split; [now apply Q1|]. cbn [blk_of bk_type]. intro Q. apply Q2. rewrite <- Q. now apply in_map. }
    rewrite goes_bind, Forall_cons_iff. split.
    + intros (w1 & H1 & H). apply (NXT w1 H1) in H as [Q1 Q2]. split; [|exact Q2]. split; [apply ONE; now exists w1|exact Q1].
    + intros ((Q0 & Q1) & Q2). apply ONE in Q0 as [w1 H1]. exists w1. split; [exact H1|]. apply (NXT w1 H1). auto.
Qed.

Lemma alloc_all_open e infos w0 asset payer sysp hd w2 : env_ok e -> e_prog e <> pk_zero ->
  forall xs w l n, open_account (data (w asset)) hd l n -> sized w -> Forall ext_arg xs -> Forall (fun x => x_length x = zlen (given x)) xs ->
  allocate_all e infos w0 w asset payer sysp xs = Ok w2 -> open_account (data (w2 asset)) hd (l ++ inline_blks xs) (room_left n xs).
Proof.
  intros He Hz. induction xs as [|x xs IH]; intros w l n HO Hs HF HC H.
  - cbn [allocate_all] in H. apply Ok_inj in H. subst w2. cbn [inline_blks map]. rewrite app_nil_r. exact HO.
  - cbn [allocate_all] in H. apply bind_ok in H as (w3 & H3 & H). apply Forall_cons_iff in HF as [(X1 & X2 & X3) HF]. apply Forall_cons_iff in HC as [Cx HC].
    assert (Hs1 : sized w3) by (eapply psteps_sized; [eapply do_allocate_psteps; eauto|assumption]).
    eapply do_allocate_effect in H3; [|exact HO|apply Hs|exact X1|unfold u32_max; lia|unfold two32; lia].
    destruct H3 as (_ & _ & _ & D4 & _). destruct (D4 Cx) as (_ & O3 & _).
    specialize (IH w3 _ _ O3 Hs1 HF HC H). rewrite <- app_assoc in IH. cbn [app] in IH. cbn [room_left fold_left]. rewrite blk_of_size, <- Cx in IH. exact IH.
Qed.

Lemma create_goes e infos w m asset auth owner og oga payer sysp hd l n lg :
  arg infos 0 asset -> arg infos 1 auth -> arg infos 2 owner -> optional e infos 3 og -> optional e infos 4 oga -> optional e infos 5 payer -> optional e infos 6 sysp ->
  open_account (data (w asset)) hd l n -> Forall ext_arg (inline m) -> data (w asset) = [] \/ sect_size (inline_blks (inline m)) <= n ->
  (forall g, og = Some g -> writable infos g /\ (acct_owner (w g) = e_prog e -> initialized (data (w g)) -> well_formed (data (w g)) lg /\ grouping_sane lg)) ->
  writable infos asset -> plain_accounts e infos w -> sized w -> env_ok e -> e_prog e <> pk_zero ->
  (exists w', process e infos w (ICreate m) = Ok w') <->
  signed infos asset /\
  (data (w asset) = [] -> can_open e infos w asset payer sysp (168 + sect_size (inline_blks (inline m)))) /\
  (data (w asset) <> [] -> acct_owner (w asset) = e_prog e /\ s_disc (data (w asset)) = x00) /\
  Forall (fun x => zlen (given x) = x_length x) (inline m) /\
  Forall (fun x => lookup (x_type x) (ext_list l) = None) (inline m) /\ NoDup (map x_type (inline m)) /\
  Forall (fun b => acceptable (bk_type b) (bk_data b)) (l ++ inline_blks (inline m)) /\
  standard_ok e (m_standard m) asset (l ++ inline_blks (inline m)) /\
  forall g, og = Some g -> may_join e infos w asset g (match oga with Some a => a | None => auth end) lg (s_group hd) (pk_bytes auth).
Proof.
  intros A0 A1 A2 O3 O4 O5 O6 HO HF HR Hg Hw Hp Hs He Hz.
  assert (G : signed infos asset -> _) by exact (signed_gate e infos w asset (ICreate m) A0 Hp eq_refl).
  assert (CE : (exists w', process e infos w (ICreate m) = Ok w') -> signed infos asset /\ Forall (fun x => x_length x = zlen (given x)) (inline m)).
  { intros [w' H]. destruct (create_effect e infos w m w' asset hd l n He Hz A0 HO Hs HF H) as (a1 & o1 & l1 & h1 & _ & _ & S & _ & _ & C & _). auto. }
  assert (MAIN : signed infos asset -> Forall (fun x => x_length x = zlen (given x)) (inline m) ->
    (exists w', process e infos w (ICreate m) = Ok w') <->
    (data (w asset) = [] -> can_open e infos w asset payer sysp (168 + sect_size (inline_blks (inline m)))) /\
    (data (w asset) <> [] -> acct_owner (w asset) = e_prog e /\ s_disc (data (w asset)) = x00) /\
    Forall (fun x => lookup (x_type x) (ext_list l) = None) (inline m) /\ NoDup (map x_type (inline m)) /\
    Forall (fun b => acceptable (bk_type b) (bk_data b)) (l ++ inline_blks (inline m)) /\
    standard_ok e (m_standard m) asset (l ++ inline_blks (inline m)) /\
    forall g, og = Some g -> may_join e infos w asset g (match oga with Some a => a | None => auth end) lg (s_group hd) (pk_bytes auth)).
  { intros Hsg HC. rewrite (G Hsg). cbn [dispatch]. unfold process_create. rewrite (optional_acct _ _ _ _ O3), (optional_acct _ _ _ _ O4), (optional_acct _ _ _ _ O5), (optional_acct _ _ _ _ O6). args. cbn [bind].
    pose proof Hsg as Hsg'. apply signer_spec in Hsg'. rewrite Hsg'. cbn [require].
    assert (Esp : create_space (m_exts m) = 168 + sect_size (inline_blks (inline m))) by (rewrite create_space_inline, sum_sect by assumption; reflexivity).
    rewrite Esp. set (S := sect_size (inline_blks (inline m))) in *. assert (S0 : 0 <= S) by apply sect_size_nonneg.
    match goal with |- goes ?t <-> _ => change t with (w1 <- (if zlen (data (w asset)) =? 0 then
             alloc_create_account e (passed infos) w asset payer sysp (168 + S)
           else
             require (owned_by_prog e w asset) EIllegalOwner
              (require (ASSET_LEN <=? zlen (data (w asset))) EInvalidAccountLength
               (require (beqb (byte_at (data (w asset)) 0) DISC_UNINIT) EAlreadyInitialized (Ok w)))) ;;
      w2 <- (match m_exts m with
           | None => Ok w1
           | Some l => allocate_all e (passed infos) w w1 asset payer sysp (swap_order l)
           end) ;; create_rest e (passed infos) w2 m asset auth owner og oga) end.
    rewrite goes_bind.
    assert (FIRST : goes (if zlen (data (w asset)) =? 0 then
             alloc_create_account e (passed infos) w asset payer sysp (168 + S)
           else
             require (owned_by_prog e w asset) EIllegalOwner
              (require (ASSET_LEN <=? zlen (data (w asset))) EInvalidAccountLength
               (require (beqb (byte_at (data (w asset)) 0) DISC_UNINIT) EAlreadyInitialized (Ok w)))) <->
         (data (w asset) = [] -> can_open e infos w asset payer sysp (168 + S)) /\
         (data (w asset) <> [] -> acct_owner (w asset) = e_prog e /\ s_disc (data (w asset)) = x00)).
    { destruct (Z.eqb_spec (zlen (data (w asset))) 0) as [Q|Q].
      - apply zlen_0 in Q. rewrite (open_goes e infos w asset payer sysp _ Q Hw Hsg He Hz). tauto.
      - assert (NE : data (w asset) <> []) by (intro E0; rewrite E0 in Q; now elim Q). rewrite !goes_require, owned_spec, beqb_eq. change (byte_at (data (w asset)) 0) with (s_disc (data (w asset))).
        assert (ZL : ASSET_LEN <=? zlen (data (w asset)) = true).
        { destruct HO as [[E0 _]|[_ HL]]; [contradiction|]. apply layout_len in HL. pose proof (sect_size_nonneg l). pose proof (zlen_nonneg (repeat x00 (Z.to_nat n))). unfold ASSET_LEN. lia. }
        rewrite ZL. unfold DISC_UNINIT. split; [tauto|]. intros [_ Q2]. destruct (Q2 NE). repeat (split; [assumption || reflexivity|]). apply goes_ok. }
    assert (NEXT : forall w1, (if zlen (data (w asset)) =? 0 then
             alloc_create_account e (passed infos) w asset payer sysp (168 + S)
           else
             require (owned_by_prog e w asset) EIllegalOwner
              (require (ASSET_LEN <=? zlen (data (w asset))) EInvalidAccountLength
               (require (beqb (byte_at (data (w asset)) 0) DISC_UNINIT) EAlreadyInitialized (Ok w)))) = Ok w1 ->
        goes (w2 <- (match m_exts m with
           | None => Ok w1
           | Some l => allocate_all e (passed infos) w w1 asset payer sysp (swap_order l)
           end) ;; create_rest e (passed infos) w2 m asset auth owner og oga) <->
        Forall (fun x => lookup (x_type x) (ext_list l) = None) (inline m) /\ NoDup (map x_type (inline m)) /\
        Forall (fun b => acceptable (bk_type b) (bk_data b)) (l ++ inline_blks (inline m)) /\
        standard_ok e (m_standard m) asset (l ++ inline_blks (inline m)) /\
        forall g, og = Some g -> may_join e infos w asset g (match oga with Some a => a | None => auth end) lg (s_group hd) (pk_bytes auth)).
    { intros w1 H1.
      assert (W1 : exists n1, open_account (data (w1 asset)) hd l n1 /\ data (w1 asset) <> [] /\ acct_owner (w1 asset) = e_prog e /\ sized w1 /\ S <= n1 /\ s_disc hd = x00 /\
               (forall k, k <> asset -> data (w1 k) = data (w k) /\ acct_owner (w1 k) = acct_owner (w k))).
      { destruct (Z.eqb_spec (zlen (data (w asset))) 0) as [E|E].
        - apply zlen_0 in E. destruct HO as [(_ & -> & -> & ->)|[_ HL]]; [|apply layout_len in HL; rewrite E in HL; change (zlen []) with 0 in HL; pose proof (sect_size_nonneg l); pose proof (zlen_nonneg (repeat x00 (Z.to_nat n))); lia].
          assert (Hs1 : sized w1) by (eapply psteps_sized; [eapply alloc_create_psteps; eauto|assumption]).
          unfold alloc_create_account in H1. apply bind_ok in H1 as (pp & _ & H1). apply require_ok in H1 as [_ H1].
          apply bind_ok in H1 as (ss & _ & H1). apply require_ok in H1 as [_ H1].
          apply sys_create_world in H1 as (D1 & D2 & D3 & D4 & _). exists S. rewrite D1.
          split. { right. split; [lia|]. split; [|split; [reflexivity|split; [constructor|split; [apply (tail_zeros S)|]]]].
               - cbn [enc_sect app]. change (repeat x00 168) with (zeros 168). change (repeat x00 (Z.to_nat S)) with (zeros S).
                 rewrite zeros_app by lia. reflexivity.
               - rewrite zlen_zeros; lia. }
          split. { intro Q. apply (f_equal zlen) in Q. rewrite zlen_zeros in Q by lia. change (zlen []) with 0 in Q. lia. }
          split; [exact D3|]. split; [exact Hs1|]. split; [lia|]. split; [reflexivity|exact D2].
        - apply require_ok in H1 as [Q1 H1]. apply require_ok in H1 as [Q2 H1]. apply require_ok in H1 as [Q3 H1]. apply Ok_inj in H1. subst w1.
          assert (NE : data (w asset) <> []) by (intro E0; rewrite E0 in E; now elim E). exists n. split; [exact HO|]. split; [exact NE|]. apply owned_spec in Q1. split; [exact Q1|]. split; [exact Hs|].
          split; [destruct HR; [contradiction|assumption]|]. destruct HO as [[E0 _]|[_ HL]]; [contradiction|]. destruct (hd_fields _ _ _ _ HL) as [Q4 _]. split; [|auto]. rewrite <- Q4. apply beqb_eq in Q3. exact Q3. }
      destruct W1 as (n1 & O1 & NE1 & Ow1 & S1 & R1 & D1 & F1).
      pose proof (alloc_all_goes e infos w asset payer sysp hd He Hz Hw Hsg D1 (inline m) w1 l n1 O1 NE1 Ow1 S1 HF HC R1) as AG.
      assert (EA : (match m_exts m with None => Ok w1 | Some l => allocate_all e (passed infos) w w1 asset payer sysp (swap_order l) end) = allocate_all e (passed infos) w w1 asset payer sysp (inline m)).
      { unfold inline. destruct (m_exts m); reflexivity. }
      rewrite EA. rewrite goes_bind.
      assert (R2 : forall w2, allocate_all e (passed infos) w w1 asset payer sysp (inline m) = Ok w2 ->
          goes (create_rest e (passed infos) w2 m asset auth owner og oga) <->
          Forall (fun b => acceptable (bk_type b) (bk_data b)) (l ++ inline_blks (inline m)) /\
          standard_ok e (m_standard m) asset (l ++ inline_blks (inline m)) /\
          forall g, og = Some g -> may_join e infos w asset g (match oga with Some a => a | None => auth end) lg (s_group hd) (pk_bytes auth)).
      { intros w2 H2. destruct (allocate_all_effect e He Hz _ _ _ _ _ hd _ _ _ _ _ O1 S1 HF H2) as (G1 & G2 & G3 & G4).
        assert (O2 : open_account (data (w2 asset)) hd (l ++ inline_blks (inline m)) (room_left n1 (inline m))).
        { exact (alloc_all_open e _ w asset payer sysp hd w2 He Hz (inline m) w1 l n1 O1 S1 HF HC H2). }
        assert (L2 : layout (data (w2 asset)) hd (l ++ inline_blks (inline m)) (repeat x00 (Z.to_nat (room_left n1 (inline m))))).
        { destruct O2 as [(E & _ & E2 & _)|[_ O2]]; [|exact O2]. exfalso.
          assert (E3 : inline m = []) by (apply app_eq_nil in E2 as [_ E2]; unfold inline_blks in E2; now apply map_eq_nil in E2).
          rewrite E3 in H2. cbn [allocate_all] in H2. apply Ok_inj in H2. now subst w2. }
        rewrite (rest_goes e infos w2 m asset auth owner og oga hd _ _ lg L2); [|split; [now apply G3|exact Hw]|exact G2|].
        - assert (J : forall g, may_join e infos w2 asset g (match oga with Some a => a | None => auth end) lg (s_group hd) (pk_bytes auth) <-> may_join e infos w asset g (match oga with Some a => a | None => auth end) lg (s_group hd) (pk_bytes auth)).
          { intro g. unfold may_join. destruct (pk_dec g asset) as [->|N]; [tauto|]. destruct (G1 g N) as [-> ->], (F1 g N) as [-> ->]. tauto. }
          split; intros (Q1 & Q2 & Q3); (split; [exact Q1|]; split; [exact Q2|]); intros g Eg; apply J; now apply Q3.
        - intros g Eg. destruct (Hg g Eg) as [Wg Hgw]. split; [exact Wg|]. intros Og Ig N. destruct (G1 g N) as [E1 E2], (F1 g N) as [E3 E4]. rewrite E1, E3 in *. apply Hgw; congruence. }
      split.
      - intros (w2 & H2 & H). apply (R2 w2 H2) in H. assert (Q : Forall (fun x => lookup (x_type x) (ext_list l) = None) (inline m) /\ NoDup (map x_type (inline m))) by (apply AG; now exists w2). tauto.
      - intros (Q1 & Q2 & H). assert (Q : goes (allocate_all e (passed infos) w w1 asset payer sysp (inline m))) by (apply AG; auto). destruct Q as [w2 H2]. exists w2. split; [exact H2|]. now apply (R2 w2 H2). }
    split.
    - intros (w1 & H1 & H). apply (NEXT w1 H1) in H. assert (Q : (data (w asset) = [] -> can_open e infos w asset payer sysp (168 + S)) /\
         (data (w asset) <> [] -> acct_owner (w asset) = e_prog e /\ s_disc (data (w asset)) = x00)) by (apply FIRST; now exists w1). tauto.
    - intros (Q1 & Q2 & H). destruct (proj2 FIRST (conj Q1 Q2)) as [w1 H1]. exists w1. split; [exact H1|]. now apply (NEXT w1 H1). }
  assert (SYM : Forall (fun x => x_length x = zlen (given x)) (inline m) <-> Forall (fun x => zlen (given x) = x_length x) (inline m)) by (split; apply Forall_impl; auto).
  split.
  - intro H. destruct (CE H) as [Hsg HC]. apply (MAIN Hsg HC) in H. apply SYM in HC. tauto.
  - intros (Hsg & Q1 & Q2 & HC & Q). apply SYM in HC. apply (MAIN Hsg HC). tauto.
Qed.

(** Update succeeds exactly when. *)
From Verif Require Import Base State Layout Constr Ext World Proc BaseL Spec SpecB SpecC SpecE SpecF WorldL ProcSteps LayoutL LayoutM LayoutE HeadL CreatorsL AuthL AuthM AllocL AllocM GroupL AllocC CreateL ResizeL UpdateL UpdateM ConstrL RoyalL ValidL ReadsL CodecL ExactL ExactM AcceptL ExactN ExactO.
From Coq Require Import Strings.Byte.

Lemma find_goes t : t <> XNone -> forall l A fuel, zlen A mod 8 = 0 -> Forall blk_ok l -> zlen A + sect_size l <= u32_max -> (length l < fuel)%nat ->
  goes (update_find fuel t (A ++ enc_sect (zlen A) l) (zlen A)).
Proof.
  intro Ht. induction l as [|b l IH]; intros A fuel Hm Hl Hs Hf; (destruct fuel as [|f]; [cbn [length] in Hf; lia|]); cbn [update_find enc_sect sect_size length] in *.
  - rewrite app_nil_r. replace (zlen A <? zlen A) with false by lia. apply goes_ok.
  - apply Forall_cons_iff in Hl as [Hb Hl]. pose proof (sect_size_nonneg l). pose proof (blk_size_mod b Hb). pose proof (blk_size_pos b). pose proof (zlen_nonneg A).
    set (C := enc_sect (zlen A + blk_size b) l). 
    replace (zlen A <? zlen (A ++ enc_blk (zlen A) b ++ C)) with true by (rewrite !zlen_app, zlen_enc_blk by assumption; pose proof (zlen_nonneg C); lia).
    rewrite load_hdr_blk by (auto; unfold u32_max in *; lia). cbn [bind blk_hdr h_type h_bnd].
    destruct (ext_code (bk_type b) =? ext_code t); [apply goes_ok|]. destruct (ext_code (bk_type b) =? 0); [apply goes_ok|].
    assert (ZA : zlen (A ++ enc_blk (zlen A) b) = zlen A + blk_size b) by (rewrite zlen_app, zlen_enc_blk by assumption; reflexivity).
    unfold C. rewrite <- ZA. rewrite app_assoc. apply IH; [rewrite ZA; lia|assumption|lia|lia].
Qed.
Lemma find_layout_goes d hd l t : layout d hd l [] -> t <> XNone -> goes (update_find (walk_fuel d) t d ASSET_LEN).
Proof.
  intros HL Ht. pose proof (layout_u32 _ _ _ _ HL) as Hu. pose proof (layout_fuel _ _ _ _ HL) as Hf. destruct HL as (-> & Hh & Hl & _ & _).
  rewrite app_nil_r in *. unfold ASSET_LEN. rewrite <- Hh at 2 3. apply find_goes; auto; rewrite Hh; auto; reflexivity.
Qed.

(** boundaries after the new block *)
Lemma fix_goes delta : forall l A c fuel, Forall blk_ok l -> 0 <= c -> zlen A = c + delta -> zlen A mod 8 = 0 ->
  c + sect_size l <= u32_max -> zlen A + sect_size l <= u32_max -> (length l < fuel)%nat ->
  goes (fix_boundaries fuel delta (A ++ enc_sect c l) (zlen A)).
Proof.
  induction l as [|b l IH]; intros A c fuel Hl Hc HA HA0 Hs1 Hs2 Hf; (destruct fuel as [|f]; [cbn [length] in Hf; lia|]); cbn [fix_boundaries enc_sect sect_size length] in *.
  - rewrite app_nil_r. replace (zlen A <? zlen A) with false by lia. apply goes_ok.
  - apply Forall_cons_iff in Hl as [Hb Hl].
    pose proof (sect_size_nonneg l). pose proof (blk_size_pos b). pose proof (zlen_nonneg A).
    assert (Hzz : zlen (A ++ enc_blk c b ++ enc_sect (c + blk_size b) l) = zlen A + blk_size b + sect_size l) by (rewrite !zlen_app, zlen_enc_blk, zlen_enc_sect by assumption; lia).
    rewrite Hzz. replace (zlen A <? _) with true by lia. 
    assert (LH : goes (load_hdr (A ++ enc_blk c b ++ enc_sect (c + blk_size b) l) (zlen A))) by (unfold load_hdr; apply goes_guard; split; [rewrite Hzz; unfold EXT_LEN; lia|apply goes_ok]).
    destruct LH as [h Hh]. rewrite Hh. apply load_hdr_ok in Hh as (_ & _ & _ & ->). cbn [bind h_bnd]. cbv zeta.
    assert (EB : le32 (A ++ enc_blk c b ++ enc_sect (c + blk_size b) l) (zlen A + 8) = c + blk_size b).
    { rewrite le32_fld. unfold enc_blk. rewrite <- !app_assoc.
      rewrite (app_assoc A), (app_assoc (A ++ le_enc 4 (ext_code (bk_type b)))).
      rewrite fld_mid; [apply le_dec_enc4; lia| |].
      - rewrite !zlen_app, !le_enc_zlen. lia.
      - now rewrite le_enc_zlen. }
    rewrite EB. unfold sat_add_u32. replace (Z.min u32_max (Z.max 0 (c + blk_size b + delta))) with (zlen A + blk_size b) by lia.
    assert (EP : put (A ++ enc_blk c b ++ enc_sect (c + blk_size b) l) (zlen A + 8) (le_enc 4 (zlen A + blk_size b))
                 = (A ++ enc_blk (zlen A) b) ++ enc_sect (c + blk_size b) l).
    { unfold enc_blk. rewrite <- !app_assoc.
      rewrite (app_assoc A), (app_assoc (A ++ le_enc 4 (ext_code (bk_type b)))).
      rewrite put_mid; [now rewrite <- !app_assoc| |].
      - rewrite !zlen_app, !le_enc_zlen. lia.
      - now rewrite !le_enc_zlen. }
    rewrite EP.
    assert (HA' : zlen (A ++ enc_blk (zlen A) b) = zlen A + blk_size b)
      by (rewrite zlen_app, zlen_enc_blk by assumption; reflexivity).
    pose proof (blk_size_mod b Hb). rewrite <- HA'. apply IH; auto; lia.
Qed.

Lemma size_goes0 e infos w0 w k payer sysp size : ours e infos w k -> e_prog e <> pk_zero -> env_ok e -> sized w -> lam_ok w -> zlen (data (w0 k)) = zlen (data (w k)) -> 0 < size ->
  goes (resize e (passed infos) w0 w size k payer sysp) <-> can_size e infos w k payer sysp size.
Proof.
  intros O Hp He Hs Hl Hz H0. unfold can_size. destruct (Z.lt_ge_cases size (zlen (data (w k)))) as [C|C].
  - destruct payer as [p|].
    + rewrite (shrink_goes e infos w0 w k p sysp size) by (auto; apply He). split.
      * intro H. split; [lia|]. intros _. eauto.
      * intros [_ H]. destruct (H C) as (p' & E & Q). apply some_inj in E. subst p'. exact Q.
    + split.
      * unfold resize. cbv zeta. replace (size <? zlen (data (w k))) with true by lia. cbn [ok_or bind]. intros [x H]. discriminate.
      * intros [_ H]. destruct (H C) as (p' & E & Q). discriminate.
  - rewrite (grow_goes e infos w0 w k payer sysp size) by (auto; lia). split; [intro H; split; [auto|lia]|tauto].
Qed.
(** writing bytes of the same length changes nothing about sizing *)
Lemma set_same_size e infos w k d w1 payer sysp size : e_prog e <> pk_zero -> acct_owner (w k) = e_prog e -> set_data e (passed infos) w k d = Ok w1 -> zlen d = zlen (data (w k)) ->
  can_size e infos w1 k payer sysp size <-> can_size e infos w k payer sysp size.
Proof.
  intros Hz Ho H Hd. apply set_data_only in H as [(P1 & P2 & P3) D]. unfold can_size, can_grow, can_shrink.
  assert (L : forall k', lamports (w1 k') = lamports (w k')) by (intro k'; destruct (pk_dec k' k) as [->|N]; [exact P2|now rewrite P1]).
  assert (CP : forall p a, can_pay infos w1 p a <-> can_pay infos w p a).
  { intros p a. unfold can_pay. destruct (pk_dec p k) as [->|N]; [|rewrite (P1 p N); tauto]. rewrite P3, Ho. split; intros (_ & _ & Q & _); congruence. }
  rewrite D, Hd, !L. split; intros [H1 H2]; split.
  - intro Q. destruct (H1 Q) as (A & B & C). split; [exact A|]. split; [exact B|]. intro R. destruct (C R) as (C1 & C2 & p & C3 & C4). split; [exact C1|]. split; [exact C2|]. exists p. split; [exact C3|]. now apply CP.
  - intro Q. destruct (H2 Q) as (p & E & R). exists p. split; [exact E|]. now rewrite L in R.
  - intro Q. destruct (H1 Q) as (A & B & C). split; [exact A|]. split; [exact B|]. intro R. destruct (C R) as (C1 & C2 & p & C3 & C4). split; [exact C1|]. split; [exact C2|]. exists p. split; [exact C3|]. now apply CP.
  - intro Q. destruct (H2 Q) as (p & E & R). exists p. split; [exact E|]. now rewrite L.
Qed.
Lemma memmove_goes d dst src n : 0 <= n -> 0 <= dst -> 0 <= src -> dst + n <= zlen d -> src + n <= zlen d -> exists d', memmove d dst src n = Ok d' /\ zlen d' = zlen d.
Proof.
  intros. unfold memmove. destruct (Z.eqb_spec n 0); [now exists d|]. replace (_ && _ && _ && _) with true by lia. eexists. split; [reflexivity|]. apply zlen_put; [lia|]. rewrite zlen_fld; lia.
Qed.
Lemma room_found_goes e infos w0 w asset payer sysp hd l1 b l2 n : layout (data (w asset)) hd (l1 ++ b :: l2) [] -> 0 <= n <= 2000000000 ->
  ours e infos w asset -> env_ok e -> e_prog e <> pk_zero -> sized w -> lam_ok w -> zlen (data (w0 asset)) = zlen (data (w asset)) ->
  let c := 168 + sect_size l1 in
  let ns := zlen (data (w asset)) - blk_size b + pad8 (16 + n) in
  goes (update_room e (passed infos) w0 w asset payer sysp c (Some (blk_hdr c b)) n) <-> (ns <> zlen (data (w asset)) -> can_size e infos w asset payer sysp ns).
Proof.
  intros HL Hn Ho He Hp Hs Hl Hz0 c ns.
  destruct (layout_at _ _ _ _ HL c l1 b l2 eq_refl eq_refl) as (A & Ed & HA & Hb & EA).
  pose proof (layout_len _ _ _ _ HL) as Hlen. pose proof HL as (_ & Hh & Hf & Htl & Hz).
  apply Forall_app in Hf as [Hf1 Hf2]. apply Forall_cons_iff in Hf2 as [_ Hf2].
  rewrite sect_size_app in Hlen. cbn [sect_size] in Hlen. change (zlen []) with 0 in Hlen.
  pose proof (sect_size_nonneg l1) as Hp1. pose proof (sect_size_nonneg l2) as Hp2. pose proof (blk_size_pos b) as Hpb.
  assert (Hcm : c mod 8 = 0) by (pose proof (sect_size_mod l1 Hf1); unfold c; lia).
  unfold update_room. change EXT_LEN with 16. set (ub := pad8 (c + 16 + n)). cbv zeta. cbn [blk_hdr h_len h_bnd].
  assert (Eub : ub = c + pad8 (16 + n)) by (unfold ub, pad8; lia).
  pose proof (pad8_ge (c + 16 + n)) as Hpad. fold ub in Hpad.
  destruct (zlen (bk_data b) =? n) eqn:En.
  - assert (U : ub = c + blk_size b) by (unfold ub; replace n with (zlen (bk_data b)) by lia; now apply blk_size_pad8).
    split; [intros _ Q; exfalso; apply Q; unfold ns; lia|intros _; apply goes_ok].
  - rewrite to_i32_small by (unfold blk_size, c in *; pose proof (zlen_nonneg (bk_data b)); pose proof (zlen_nonneg (bk_pad b)); lia).
    set (delta := ub - (c + blk_size b)) in *. assert (Ens : ns = zlen (data (w asset)) + delta) by (unfold ns, delta; lia).
    rewrite (layout_last _ _ _ _ HL). cbn [bind].
    destruct (last_res _) as [[lh o]|] eqn:Hlo.
    2:{ exfalso. destruct (list_last_case (l1 ++ b :: l2)) as [Q|(l' & b' & Q)]; [destruct l1; discriminate Q|]. rewrite Q in *. rewrite last_blk_app in Hlo. discriminate Hlo. }
    assert (Eab : h_bnd lh = zlen (data (w asset))).
    { destruct (list_last_case (l1 ++ b :: l2)) as [Q|(l' & b' & Q)]; [destruct l1; discriminate Q|].
      pose proof Q as Q'. rewrite Q in Hlo. rewrite last_blk_app in Hlo. unfold last_res, blk_hdr in Hlo. cbn [option_map fst snd] in Hlo.
      assert (E : h_bnd lh = 168 + sect_size l' + blk_size b') by (apply (f_equal (option_map (fun p => h_bnd (fst p)))) in Hlo; cbn [option_map fst h_bnd] in Hlo; congruence).
      apply (f_equal sect_size) in Q'. rewrite !sect_size_app in Q'. cbn [sect_size] in Q'. lia. }
    rewrite Eab. replace (Z.max 0 (zlen (data (w asset)) + delta)) with ns by (unfold delta in *; lia).
    replace (Z.max 0 (zlen (data (w asset)) - (c + blk_size b))) with (sect_size l2) by lia.
    destruct (0 <? delta) eqn:Ed0.
    + replace (delta <? 0) with false by lia. rewrite goes_bind.
      assert (R : goes (resize e (passed infos) w0 w ns asset payer sysp) <-> can_size e infos w asset payer sysp ns) by (apply size_goes0; auto; lia).
      split; [intros (w1 & H1 & _) _; apply R; now exists w1|]. intro H. destruct (proj2 R (H ltac:(lia))) as [w1 H1]. exists w1. split; [exact H1|].
      pose proof H1 as D. apply resize_data in D as (D1 & F1 & O1). assert (Z1 : zlen (data (w1 asset)) = ns) by (rewrite D1; apply zlen_realloc; lia).
      destruct (memmove_goes (data (w1 asset)) ub (c + blk_size b) (sect_size l2)) as (d' & Hd' & Zd'); try (unfold delta in *; lia).
      rewrite Hd'. cbn [bind]. pose proof (resize_max _ _ _ _ _ _ _ _ _ Hs H1). destruct (goes_set e infos w1 asset d') as [w2 H2]; [split; [rewrite O1; apply Ho|apply Ho]|lia|]. rewrite H2. apply goes_ok.
    + cbn [bind].
      destruct (memmove_goes (data (w asset)) ub (c + blk_size b) (sect_size l2)) as (d' & Hd' & Zd'); try (unfold delta in *; lia).
      rewrite Hd'. cbn [bind]. destruct (goes_set e infos w asset d' Ho) as [w2 H2]; [specialize (Hs asset); lia|]. rewrite H2. cbn [bind].
      destruct (delta <? 0) eqn:Ed1.
      * assert (O2 : ours e infos w2 asset) by (split; [rewrite (set_data_owner _ _ _ _ _ _ _ H2); apply Ho|apply Ho]).
        pose proof H2 as S2. apply set_data_only in S2 as [(P1 & P2 & P3) D2].
        rewrite (size_goes0 e infos w0 w2 asset payer sysp ns O2 Hp He).
        -- rewrite (set_same_size _ _ _ _ _ _ payer sysp ns Hp (proj1 Ho) H2 Zd'). split; [auto|]. intro H. apply H. lia.
        -- eapply psteps_sized; [eapply set_data_psteps; exact H2|assumption].
        -- intro k. destruct (pk_dec k asset) as [->|N]; [rewrite P2; apply Hl|rewrite (P1 k N); apply Hl].
        -- rewrite D2. congruence.
        -- unfold delta in *. lia.
      * split; [intros _ Q; lia|intros _; apply goes_ok].
Qed.
Lemma room_new_goes e infos w0 w asset payer sysp hd l n : layout (data (w asset)) hd l [] -> 0 <= n <= 2000000000 ->
  ours e infos w asset -> env_ok e -> e_prog e <> pk_zero -> sized w -> lam_ok w -> zlen (data (w0 asset)) = zlen (data (w asset)) ->
  let c := 168 + sect_size l in
  let ns := zlen (data (w asset)) + pad8 (16 + n) in
  goes (update_room e (passed infos) w0 w asset payer sysp c None n) <-> (ns <> zlen (data (w asset)) -> can_size e infos w asset payer sysp ns).
Proof.
  intros HL Hn Ho He Hp Hs Hl Hz0 c ns. pose proof (layout_len _ _ _ _ HL) as Hlen. change (zlen []) with 0 in Hlen. pose proof (sect_size_nonneg l).
  assert (Hcm : c mod 8 = 0) by (destruct HL as (_ & _ & Hf & _); pose proof (sect_size_mod l Hf); unfold c; lia).
  unfold update_room. cbv zeta. unfold EXT_LEN. assert (E : pad8 (c + 16 + n) = ns) by (unfold ns, pad8; lia). rewrite E.
  assert (N : ns <> zlen (data (w asset))) by (pose proof (pad8_ge (16 + n)); unfold ns; lia).
  assert (R : goes (resize e (passed infos) w0 w ns asset payer sysp) <-> can_size e infos w asset payer sysp ns).
  { apply size_goes0; auto. pose proof (pad8_ge (16 + n)). unfold ns. lia. }
  rewrite R. split; auto.
Qed.

Lemma finish_goes e infos w3 asset buffer t hd l1 B0 c0 l2 n src found :
  let c := 168 + sect_size l1 in
  let ub := pad8 (c + 16 + n) in
  zlen hd = 168 -> Forall blk_ok l1 -> Forall blk_ok l2 -> 0 <= n -> ours e infos w3 asset ->
  data (w3 asset) = (hd ++ enc_sect 168 l1) ++ B0 ++ enc_sect c0 l2 -> zlen B0 = ub - c ->
  match found with Some h => h_bnd h | None => c end = c0 -> 0 <= c0 -> c0 + sect_size l2 < 2147483648 ->
  zlen (data (w3 asset)) <= 10485760 -> (length l2 < e_fuel e)%nat ->
  (0 < n -> match buffer with
            | Some bk => 184 + n <= zlen (data (w3 bk))
            | None => forall bs, src = Some bs -> zlen bs = n
            end) ->
  goes (update_finish e (passed infos) w3 asset buffer t c found n src).
Proof.
  intros c ub Hh Hf1 Hf2 Hn Ho D HB Hold Hc0 Hb0 Hz Hfuel Hsrc.
  unfold update_finish. change EXT_LEN with 16. fold ub. cbv zeta. rewrite Hold.
  pose proof (pad8_ge (c + 16 + n)) as Hpad. fold ub in Hpad. pose proof (sect_size_nonneg l1) as Hp1. pose proof (sect_size_nonneg l2) as Hp2.
  assert (Hcm : c mod 8 = 0) by (pose proof (sect_size_mod l1 Hf1); unfold c; lia).
  assert (Hum : ub mod 8 = 0) by apply pad8_mod.
  set (A := hd ++ enc_sect 168 l1) in *.
  assert (HA : zlen A = c) by (unfold A; rewrite zlen_app, zlen_enc_sect by assumption; unfold c; lia).
  set (B1 := put B0 0 (enc_hdr (ext_code t) n ub)) in *.
  assert (HB1 : zlen B1 = ub - c) by (unfold B1; rewrite zlen_put; [assumption|lia|change (zlen (enc_hdr (ext_code t) n ub)) with 12; lia]).
  pose proof (zlen_enc_sect l2 c0 Hf2) as Zs0.
  assert (ZD : zlen (data (w3 asset)) = ub + sect_size l2) by (rewrite D, !zlen_app; lia).
  assert (E4 : set_hdr (data (w3 asset)) c (ext_code t) n ub = Ok ((A ++ B1) ++ enc_sect c0 l2)).
  { unfold set_hdr. match goal with |- guard ?q _ = _ => replace q with true by (unfold EXT_LEN; lia) end. cbn [guard]. f_equal.
    rewrite D. replace c with (zlen A + 0) by lia. rewrite put_inside by (change (zlen (enc_hdr (ext_code t) n ub)) with 12; lia).
    now rewrite <- !app_assoc. }
  rewrite E4. cbn [bind].
  assert (HAB : zlen (A ++ B1) = ub) by (rewrite zlen_app; lia).
  rewrite to_i32_small by lia.
  assert (F : goes (fix_boundaries (e_fuel e) (ub - c0) ((A ++ B1) ++ enc_sect c0 l2) ub)).
  { rewrite <- HAB at 2. apply fix_goes; auto; try (unfold u32_max; lia). }
  destruct F as [d5 H5]. rewrite H5. cbn [bind].
  assert (H45 : forall f d cur r, fix_boundaries f (ub - c0) d cur = Ok r -> 0 <= cur -> zlen r = zlen d).
  { clear. induction f as [|f IH]; intros d cur r H Hc; [discriminate|]. cbn [fix_boundaries] in H. destruct (cur <? zlen d); [|congruence].
    apply bind_ok in H as (h & Hh & H). apply load_hdr_ok in Hh as (_ & Q2 & _ & _). cbv zeta in H. apply IH in H.
    - rewrite H, zlen_put; [reflexivity|lia|]. rewrite le_enc_zlen. lia.
    - unfold sat_add_u32, u32_max. lia. }
  pose proof (H45 _ _ _ _ H5 ltac:(lia)) as Z5. rewrite zlen_app, HAB, Zs0 in Z5.
  assert (MC : forall bs, zlen bs = n -> exists d6, memcpy_at d5 (c + 16) bs = Ok d6 /\ zlen d6 = zlen d5).
  { intros bs Hb. unfold memcpy_at. match goal with |- context [guard ?q _] => replace q with true by lia end. cbn [guard]. replace (c + 16 + zlen bs <=? zlen d5) with true by lia.
    eexists. split; [reflexivity|]. apply zlen_put; lia. }
  assert (FIN : forall d6, zlen d6 = zlen d5 -> goes (set_data e (passed infos) w3 asset d6)) by (intros d6 Q; apply goes_set; [exact Ho|lia]).
  destruct (0 <? n) eqn:En; [|cbn [bind]; now apply FIN]. specialize (Hsrc ltac:(lia)). destruct buffer as [bk|].
  - unfold slice. match goal with |- context [guard ?q _] => replace q with true by (change ASSET_LEN with 168; lia) end. cbn [guard bind]. change (ASSET_LEN + 16) with 184.
    destruct (MC (fld (data (w3 bk)) 184 (184 + n - 184))) as (d6 & H6 & Z6); [rewrite zlen_fld; lia|]. rewrite H6. cbn [bind]. now apply FIN.
  - destruct src as [bs|]; [|cbn [bind]; now apply FIN]. destruct (MC bs (Hsrc bs eq_refl)) as (d6 & H6 & Z6). rewrite H6. cbn [bind]. now apply FIN.
Qed.

(** the new payload *)
Lemma validate_goes t al inp cur auth : al mod 8 = 0 -> (forall a c, cur = Some (a, c) -> a mod 8 = 0) ->
  goes (validate t al inp cur auth) <-> fits t (option_map snd cur) inp.
Proof.
  intros Ha Hc. unfold validate, fits. destruct cur as [[a c]|]; cbn [option_map snd].
  - rewrite <- (on_update_goes t a c al inp (Some auth)) by (auto; now apply (Hc a c)).
    destruct (on_update t a c al inp (Some auth)) as [r| | | |]; cbn [map_err]; (split; intros [x Q]; try discriminate Q); [now exists r|now exists r].
  - assert (K : goes (map_err (on_create t al (Some auth) inp) EExtensionDataInvalid) <-> acceptable t inp).
    { rewrite <- (on_create_goes t al (Some auth) inp) by auto. destruct (on_create t al (Some auth) inp) as [r| | | |]; cbn [map_err]; (split; intros [x Q]; try discriminate Q); [now exists r|now exists r]. }
    destruct t; try (split; [intro Q; elim (goes_err _ Q)|intros (Q1 & Q2 & Q3 & _); contradiction]);
      (rewrite K; split; [intro Q; repeat (split; [discriminate|]); exact Q|tauto]).
Qed.
Definition source_ok (x : ext_input) (cur : option bytes) : Prop :=
  match x_data x with
  | None => x_length x = 0
  | Some bs => zlen bs = x_length x /\ fits (x_type x) cur bs
  end.
Lemma source_goes e infos w asset auth x hd l : layout (data (w asset)) hd l [] -> e_heap_al e mod 8 = 0 ->
  let r := match loc (x_type x) 168 l with Some (c, b) => (c, Some (blk_hdr c b)) | None => (168 + sect_size l, None) end in
  (goes (update_source e (passed infos) w asset auth None (Some x) (x_type x) (fst r) (snd r)) <-> source_ok x (lookup (x_type x) (ext_list l))) /\
  (forall y, update_source e (passed infos) w asset auth None (Some x) (x_type x) (fst r) (snd r) = Ok y ->
     exists o, y = (x_length x, o, w) /\ (forall bs, o = Some bs -> zlen bs = x_length x)).
Proof.
  intros HL Hal r.
  assert (CUR : exists q, (match snd r with
                     | None => Ok None
                     | Some c => s <- slice (data (w asset)) (fst r + 16) (fst r + 16 + h_len c) ;; Ok (Some (fst r + 16, s))
                     end) = Ok q /\ option_map snd q = lookup (x_type x) (ext_list l) /\ forall a c, q = Some (a, c) -> a mod 8 = 0).
  { rewrite (loc_lookup (x_type x) l 168). unfold r. destruct (loc (x_type x) 168 l) as [[c b0]|] eqn:El; cbn [fst snd].
    - apply loc_some in El as (l1 & l2 & -> & -> & _ & _).
      destruct (layout_at _ _ _ _ HL _ l1 b0 l2 eq_refl eq_refl) as (A & Ed & HA & Hb & _).
      cbn [blk_hdr h_len]. pose proof (layout_len _ _ _ _ HL) as ZL. rewrite sect_size_app in ZL. cbn [sect_size] in ZL. change (zlen []) with 0 in ZL.
      pose proof (sect_size_nonneg l1). pose proof (sect_size_nonneg l2). pose proof (zlen_nonneg (bk_data b0)). pose proof (zlen_nonneg (bk_pad b0)).
      destruct HL as (_ & _ & Hf & _). apply Forall_app in Hf as [Hf1 _]. pose proof (sect_size_mod l1 Hf1).
      unfold slice. match goal with |- context [guard ?q _] => replace q with true by (unfold blk_size in *; lia) end. cbn [guard bind]. eexists. split; [reflexivity|]. cbn [option_map snd fst].
      split; [|intros a c Q; apply some_inj, (f_equal fst) in Q; cbn [fst] in Q; lia].
      match goal with |- Some (fld _ _ ?n) = _ => replace n with (zlen (bk_data b0)) by lia end.
      rewrite Ed. now rewrite fld_blk_data by auto.
    - exists None. split; [reflexivity|]. split; [reflexivity|]. intros a c Q. discriminate Q. }
  destruct CUR as (q & Hq & Eq & Aq). unfold update_source. cbv zeta. unfold EXT_LEN. rewrite Hq. unfold source_ok.
  destruct (x_data x) as [bs|]; cbn [bind].
  - pose proof (validate_goes (x_type x) (e_heap_al e) bs q (pk_bytes auth) Hal Aq) as V. rewrite Eq in V.
    split.
    + rewrite goes_bind. split.
      * intros (y & Hy & H). apply bind_ok in Hy as (bs' & Hv & Hy). apply Ok_inj in Hy. subst y. destruct (zlen bs' <? x_length x) eqn:Q1; [elim (goes_err _ H)|]. destruct (x_length x <? zlen bs') eqn:Q2; [elim (goes_err _ H)|].
        split; [|apply V; now exists bs']. apply validate_stored, stored_len in Hv. unfold zlen in *. lia.
      * intros [Z F]. apply V in F as [bs' Hv]. rewrite Hv. cbn [bind]. eexists. split; [reflexivity|]. cbv beta iota zeta. apply validate_stored, stored_len in Hv.
        replace (zlen bs' <? x_length x) with false by (unfold zlen in *; lia). replace (x_length x <? zlen bs') with false by (unfold zlen in *; lia). apply goes_ok.
    + intros y Hy. apply bind_ok in Hy as (r0 & Hr & Hy). apply bind_ok in Hr as (bs' & Hv & Hr). apply Ok_inj in Hr. subst r0. destruct (zlen bs' <? x_length x) eqn:Q1; [discriminate Hy|]. destruct (x_length x <? zlen bs') eqn:Q2; [discriminate Hy|].
      apply Ok_inj in Hy. exists (Some bs'). split; [rewrite <- Hy; repeat f_equal; lia|]. intros b0 E. apply some_inj in E. subst b0. lia.
  - split.
    + destruct (0 <? x_length x) eqn:Q1; [split; [intro H; elim (goes_err _ H)|lia]|]. destruct (x_length x <? 0) eqn:Q2; [split; [intro H; elim (goes_err _ H)|lia]|]. split; [lia|intros _; apply goes_ok].
    + intros y Hy. destruct (0 <? x_length x) eqn:Q1; [discriminate Hy|]. destruct (x_length x <? 0) eqn:Q2; [discriminate Hy|]. apply Ok_inj in Hy. exists None. split; [rewrite <- Hy; repeat f_equal; lia|]. intros b0 E. discriminate E.
Qed.

(** ** The instruction *)
Lemma room_finish e infos w0 w asset payer sysp t hd l n buffer off found : layout (data (w asset)) hd l [] -> 0 <= n <= 2000000000 ->
  (off, found) = match loc t 168 l with Some (c, b) => (c, Some (blk_hdr c b)) | None => (168 + sect_size l, None) end ->
  ours e infos w asset -> env_ok e -> e_prog e <> pk_zero -> sized w -> lam_ok w -> zlen (data (w0 asset)) = zlen (data (w asset)) -> (length l < e_fuel e)%nat ->
  (goes (update_room e (passed infos) w0 w asset payer sysp off found n) <->
     (updated_size (data (w asset)) l t n <> zlen (data (w asset)) -> can_size e infos w asset payer sysp (updated_size (data (w asset)) l t n))) /\
  forall o w3, (0 < n -> match buffer with Some bk => bk <> asset /\ 184 + n <= zlen (data (w bk)) | None => forall bs, o = Some bs -> zlen bs = n end) ->
     update_room e (passed infos) w0 w asset payer sysp off found n = Ok w3 ->
     goes (update_finish e (passed infos) w3 asset buffer t off found n o).
Proof.
  intros HL Hx Er Ho He Hp Hs Hl Hz0 Hfuel.
  pose proof (layout_len _ _ _ _ HL) as Hlen. change (zlen []) with 0 in Hlen. pose proof HL as (_ & Hh & HF & _ & Hz).
  assert (ZW : forall w3, update_room e (passed infos) w0 w asset payer sysp off found n = Ok w3 -> sized w3).
  { intros w3 H. apply (update_room_psteps e Hp) in H as [H _]; [|apply Ho]. eapply psteps_sized; eassumption. }
  assert (BUF : forall (o : option bytes) (w3 : world), (forall k, k <> asset -> data (w3 k) = data (w k)) ->
     (0 < n -> match buffer with Some bk => bk <> asset /\ 184 + n <= zlen (data (w bk)) | None => forall bs, o = Some bs -> zlen bs = n end) ->
     (0 < n -> match buffer with Some bk => 184 + n <= zlen (data (w3 bk)) | None => forall bs, o = Some bs -> zlen bs = n end)).
  { intros o w3 F H H0. specialize (H H0). destruct buffer as [bk|]; [|exact H]. destruct H as [N H]. now rewrite F. }
  unfold updated_size. rewrite (loc_lookup t l 168).
  destruct (loc t 168 l) as [[c b0]|] eqn:El; pose proof (f_equal fst Er) as E1; pose proof (f_equal snd Er) as E2; clear Er; cbn [fst snd] in E1, E2; subst off found; cbn [option_map snd].
  - apply loc_some in El as (l1 & l2 & -> & -> & Tb & Hfa).
    pose proof HF as HF'. apply Forall_app in HF' as [Hf1 Hf2]. apply Forall_cons_iff in Hf2 as [Hb0 Hf2].
    assert (Eb : (16 + zlen (bk_data b0) + 7) / 8 * 8 = blk_size b0).
    { pose proof (blk_size_pad8 b0 0 Hb0 eq_refl) as Q. unfold pad8 in Q. rewrite <- (Z.add_0_l (blk_size b0)), <- Q. reflexivity. }
    rewrite Eb. change ((16 + n + 7) / 8 * 8) with (pad8 (16 + n)).
    split; [exact (room_found_goes e infos w0 w asset payer sysp hd l1 b0 l2 n HL Hx Ho He Hp Hs Hl Hz0)|].
    intros o w3 Hbs Hroom. specialize (ZW w3 Hroom).
    pose proof (update_room_found _ _ _ _ _ _ _ _ _ _ _ _ _ _ HL Hx Hroom) as (B0 & tl' & D3 & ZB & Ht' & F3 & O3).
    assert (Etl : tl' = []) by (destruct Ht' as [->|[-> _]]; reflexivity). subst tl'. rewrite app_nil_r in D3.
    pose proof (sect_size_nonneg l1). pose proof (sect_size_nonneg l2). pose proof (blk_size_pos b0). rewrite sect_size_app in Hlen. cbn [sect_size] in Hlen.
    apply (finish_goes e infos w3 asset buffer t hd l1 B0 (168 + sect_size l1 + blk_size b0) l2); auto; try lia.
    + split; [rewrite O3; apply Ho|apply Ho].
    + rewrite app_length in Hfuel. cbn [length] in Hfuel. lia.
    + exact (BUF o w3 F3 Hbs).
  - change ((16 + n + 7) / 8 * 8) with (pad8 (16 + n)). rewrite Z.sub_0_r.
    split; [exact (room_new_goes e infos w0 w asset payer sysp hd l n HL Hx Ho He Hp Hs Hl Hz0)|].
    intros o w3 Hbs Hroom. specialize (ZW w3 Hroom).
    pose proof (update_room_new _ _ _ _ _ _ _ _ _ _ _ _ HL ltac:(apply Hx) Hroom) as (B0 & D3 & ZB & F3 & O3).
    pose proof (sect_size_nonneg l).
    apply (finish_goes e infos w3 asset buffer t hd l B0 (168 + sect_size l) []); auto; try (cbn [sect_size length]; lia).
    + split; [rewrite O3; apply Ho|apply Ho].
    + cbn [enc_sect]. rewrite app_nil_r. exact D3.
    + exact (BUF o w3 F3 Hbs).
Qed.
Lemma update_ext_goes e infos w0 w asset auth payer sysp x hd l : layout (data (w asset)) hd l [] -> x_type x <> XNone -> 0 <= x_length x <= 2000000000 ->
  ours e infos w asset -> env_ok e -> e_prog e <> pk_zero -> sized w -> lam_ok w -> zlen (data (w0 asset)) = zlen (data (w asset)) ->
  e_heap_al e mod 8 = 0 -> (length l < e_fuel e)%nat ->
  goes (update_ext e (passed infos) w0 w asset auth None payer sysp (Some x)) <->
  source_ok x (lookup (x_type x) (ext_list l)) /\
  (updated_size (data (w asset)) l (x_type x) (x_length x) <> zlen (data (w asset)) ->
   can_size e infos w asset payer sysp (updated_size (data (w asset)) l (x_type x) (x_length x))).
Proof.
  intros HL Ht Hx Ho He Hp Hs Hl Hz0 Hal Hfuel. unfold update_ext. cbn [update_type bind].
  destruct (find_layout_goes _ _ _ _ HL Ht) as [f Hf]. rewrite Hf. cbn [bind]. destruct f as [off found].
  destruct (update_find_layout _ _ _ _ _ _ HL Ht Hf) as [Er _]. clear Hf.
  pose proof (source_goes e infos w asset auth x hd l HL Hal) as SG. cbv zeta in SG. rewrite <- Er in SG. cbn [fst snd] in SG. destruct SG as [SG SR].
  rewrite goes_bind.
  destruct (room_finish e infos w0 w asset payer sysp (x_type x) hd l (x_length x) None off found HL Hx Er Ho He Hp Hs Hl Hz0 Hfuel) as [RG RF].
  split.
  - intros (y & Hy & H). destruct (SR y Hy) as (o & -> & Hbs). split; [apply SG; eexists; exact Hy|]. apply RG. apply goes_bind in H as (w3 & H3 & _). now exists w3.
  - intros [S1 S2]. apply SG in S1 as [y Hy]. exists y. split; [exact Hy|]. destruct (SR y Hy) as (o & -> & Hbs). apply RG in S2 as [w3 H3]. rewrite H3. cbn [bind]. now apply RF.
Qed.

(** with a buffer account *)
Lemma size_same e infos w w1 k payer sysp size : (forall k', lamports (w1 k') = lamports (w k')) -> zlen (data (w1 k)) = zlen (data (w k)) ->
  (forall p, acct_owner (w1 p) = acct_owner (w p)) -> (forall p, acct_owner (w p) = pk_zero -> data (w1 p) = data (w p)) ->
  can_size e infos w1 k payer sysp size <-> can_size e infos w k payer sysp size.
Proof.
  intros L ZD O D. unfold can_size, can_grow, can_shrink.
  assert (CP : forall p a, can_pay infos w1 p a <-> can_pay infos w p a).
  { intros p a. unfold can_pay. rewrite O, L. split; intros (Q1 & Q2 & Q3 & Q4 & Q5); (split; [exact Q1|]; split; [exact Q2|]; split; [exact Q3|]; split; [|exact Q5]); pose proof (D p Q3); congruence. }
  rewrite ZD, !L. split; intros [H1 H2]; split.
  - intro Q. destruct (H1 Q) as (A & B & C). split; [exact A|]. split; [exact B|]. intro R. destruct (C R) as (C1 & C2 & p & C3 & C4). split; [exact C1|]. split; [exact C2|]. exists p. split; [exact C3|]. now apply CP.
  - intro Q. destruct (H2 Q) as (p & E & R). exists p. split; [exact E|]. now rewrite L in R.
  - intro Q. destruct (H1 Q) as (A & B & C). split; [exact A|]. split; [exact B|]. intro R. destruct (C R) as (C1 & C2 & p & C3 & C4). split; [exact C1|]. split; [exact C2|]. exists p. split; [exact C3|]. now apply CP.
  - intro Q. destruct (H2 Q) as (p & E & R). exists p. split; [exact E|]. now rewrite L.
Qed.
Lemma first_at d hd b l tl : layout d hd (b :: l) tl ->
  first_extension d = Ok (Some (mkHdr (ext_code (bk_type b)) (zlen (bk_data b)) (168 + blk_size b), 184)) /\ 168 + blk_size b <= zlen d.
Proof.
  intro HL. pose proof (layout_len _ _ _ _ HL) as Z. pose proof (layout_u32 _ _ _ _ HL) as U. destruct HL as (-> & Hh & Hf & _ & _). apply Forall_cons_iff in Hf as [Hb Hf]. cbn [sect_size enc_sect] in *.
  pose proof (sect_size_nonneg l). pose proof (zlen_nonneg tl). pose proof (blk_size_pos b). split; [|lia].
  unfold first_extension. change (ASSET_LEN + EXT_LEN) with 184. match goal with |- (if ?q then _ else _) = _ => replace q with true by lia end.
  change ASSET_LEN with 168. rewrite <- app_assoc. rewrite load_hdr_blk; [|auto|assumption|reflexivity|lia]. cbn [bind h_type]. rewrite ext_of_code_code.
  destruct Hb as [Hb _]. destruct (bk_type b); try reflexivity. now elim Hb.
Qed.
Lemma find_cur d hd l t : layout d hd l [] ->
  let r := match loc t 168 l with Some (c, b) => (c, Some (blk_hdr c b)) | None => (168 + sect_size l, None) end in
  exists q, (match snd r with
             | None => Ok None
             | Some c => s <- slice d (fst r + 16) (fst r + 16 + h_len c) ;; Ok (Some (fst r + 16, s))
             end) = Ok q /\ option_map snd q = lookup t (ext_list l) /\ forall a c, q = Some (a, c) -> a mod 8 = 0.
Proof.
  intros HL r. rewrite (loc_lookup t l 168). unfold r. destruct (loc t 168 l) as [[c b0]|] eqn:El; cbn [fst snd].
  - apply loc_some in El as (l1 & l2 & -> & -> & _ & _).
    destruct (layout_at _ _ _ _ HL _ l1 b0 l2 eq_refl eq_refl) as (A & Ed & HA & Hb & _).
    cbn [blk_hdr h_len]. pose proof (layout_len _ _ _ _ HL) as ZL. rewrite sect_size_app in ZL. cbn [sect_size] in ZL. change (zlen []) with 0 in ZL.
    pose proof (sect_size_nonneg l1). pose proof (sect_size_nonneg l2). pose proof (zlen_nonneg (bk_data b0)). pose proof (zlen_nonneg (bk_pad b0)).
    destruct HL as (_ & _ & Hf & _). apply Forall_app in Hf as [Hf1 _]. pose proof (sect_size_mod l1 Hf1).
    unfold slice. match goal with |- context [guard ?q _] => replace q with true by (unfold blk_size in *; lia) end. cbn [guard bind]. eexists. split; [reflexivity|]. cbn [option_map snd fst].
    split; [|intros a c Q; apply some_inj, (f_equal fst) in Q; cbn [fst] in Q; lia].
    match goal with |- Some (fld _ _ ?n) = _ => replace n with (zlen (bk_data b0)) by lia end.
    rewrite Ed. now rewrite fld_blk_data by auto.
  - exists None. split; [reflexivity|]. split; [reflexivity|]. intros a c Q. discriminate Q.
Qed.
Lemma buffer_ext_goes e infos w0 w asset auth payer sysp bk hb bb lb tb hd l : layout (data (w asset)) hd l [] -> layout (data (w bk)) hb (bb :: lb) tb ->
  bk <> asset -> writable infos bk -> acct_owner (w asset) = e_prog e ->
  ours e infos w asset -> env_ok e -> e_prog e <> pk_zero -> sized w -> lam_ok w -> zlen (data (w0 asset)) = zlen (data (w asset)) -> (length l < e_fuel e)%nat ->
  goes (update_ext e (passed infos) w0 w asset auth (Some bk) payer sysp None) <->
  acct_owner (w bk) = e_prog e /\ s_disc (data (w bk)) = x00 /\
  fits (bk_type bb) (lookup (bk_type bb) (ext_list l)) (sub (data (w bk)) 168 (length (bk_data bb))) /\
  (updated_size (data (w asset)) l (bk_type bb) (zlen (bk_data bb)) <> zlen (data (w asset)) ->
   can_size e infos w asset payer sysp (updated_size (data (w asset)) l (bk_type bb) (zlen (bk_data bb)))).
Proof.
  intros HL HB Nb Wb Ow Ho He Hp Hs Hl Hz0 Hfuel. unfold update_ext, update_type.
  destruct (first_at _ _ _ _ _ HB) as [FE ZB]. set (bd := data (w bk)) in *. set (t := bk_type bb) in *. set (n := zlen (bk_data bb)) in *.
  assert (Ht : t <> XNone) by (destruct HB as (_ & _ & Hf & _); apply Forall_cons_iff in Hf as [(Q & _) _]; exact Q).
  assert (Bk : blk_ok bb) by (destruct HB as (_ & _ & Hf & _); now apply Forall_cons_iff in Hf as [Q _]).
  assert (Hn : 0 <= n <= 2000000000). { unfold n. pose proof (zlen_nonneg (bk_data bb)). pose proof (zlen_nonneg (bk_pad bb)). unfold blk_size in ZB. specialize (Hs bk). fold bd in Hs. lia. }
  assert (Hfit : 184 + n <= zlen bd) by (unfold n, blk_size in *; pose proof (zlen_nonneg (bk_pad bb)); lia).
  cbv zeta. fold bd. rewrite FE. cbn [bind h_type]. fold t. rewrite ext_of_code_code. cbn [ok_or].
  rewrite goes_bind. 
  assert (TY : forall t0, require (owned_by_prog e w bk) EIllegalOwner (require (negb (pk_eqb bk asset)) EAccountBorrowFailed
      (require (ASSET_LEN + EXT_LEN <=? zlen bd) EInvalidAccountLength (require (beqb (byte_at bd 0) DISC_UNINIT) EAlreadyInitialized (Ok t)))) = Ok t0 <->
      acct_owner (w bk) = e_prog e /\ s_disc bd = x00 /\ t0 = t).
  { intro t0. split.
    - intro H. apply require_ok in H as [H1 H]. apply require_ok in H as [_ H]. apply require_ok in H as [_ H]. apply require_ok in H as [H4 H]. apply Ok_inj in H. apply owned_spec in H1. apply beqb_eq in H4. auto.
    - intros (H1 & H2 & ->). apply owned_spec in H1. rewrite H1. replace (pk_eqb bk asset) with false by (symmetry; apply not_true_iff_false; intro Q; apply pk_eqb_eq in Q; contradiction).
      change (ASSET_LEN + EXT_LEN) with 184. replace (184 <=? zlen bd) with true by lia. change (byte_at bd 0) with (s_disc bd). rewrite H2. reflexivity. }
  destruct (find_layout_goes _ _ _ _ HL Ht) as [f Hf]. destruct f as [off found].
  destruct (update_find_layout _ _ _ _ _ _ HL Ht Hf) as [Er _].
  destruct (find_cur _ _ _ t HL) as (q & Hq & Eq & Aq). rewrite <- Er in Hq. cbn [fst snd] in Hq.
  assert (SRC : acct_owner (w bk) = e_prog e -> (goes (update_source e (passed infos) w asset auth (Some bk) None t off found) <-> fits t (lookup t (ext_list l)) (sub bd 168 (length (bk_data bb)))) /\
     (forall y, update_source e (passed infos) w asset auth (Some bk) None t off found = Ok y -> exists w2 inp, y = (n, None, w2) /\ set_data e (passed infos) w bk (put bd 168 inp) = Ok w2 /\ zlen inp = n)).
  { intro Ob. unfold update_source. cbv zeta. fold bd. unfold EXT_LEN. rewrite FE, Hq. cbn [bind h_type h_bnd h_len]. fold t n.
    replace (ext_code t =? ext_code t) with true by lia. replace (168 + blk_size bb <=? zlen bd) with true by lia. cbn [require]. unfold ASSET_LEN.
    assert (Esl : slice bd 168 (168 + n) = Ok (sub bd 168 (length (bk_data bb)))).
    { unfold slice. replace ((0 <=? 168) && (168 <=? 168 + n) && (168 + n <=? zlen bd)) with true by lia. cbn [guard]. f_equal. rewrite sub_fld. f_equal. unfold n, zlen. lia. }
    rewrite Esl. cbn [bind]. pose proof (validate_goes t 168 (sub bd 168 (length (bk_data bb))) q (pk_bytes auth) eq_refl Aq) as V. rewrite Eq in V.
    assert (LI : forall inp, validate t 168 (sub bd 168 (length (bk_data bb))) q (pk_bytes auth) = Ok inp -> zlen inp = n).
    { intros inp Hv. apply validate_stored, stored_len in Hv. rewrite sub_fld in Hv. apply (f_equal Z.of_nat) in Hv. change (Z.of_nat (length inp)) with (zlen inp) in Hv. rewrite Hv.
      match goal with |- Z.of_nat (length ?x) = _ => change (zlen x = n) end. rewrite zlen_fld; unfold n, zlen in *; lia. }
    split.
    - rewrite goes_bind. split; [intros (inp & Hv & _); apply V; now exists inp|]. intro Q. apply V in Q as [inp Hv]. exists inp. split; [exact Hv|].
      specialize (LI inp Hv). destruct (goes_set e infos w bk (put bd 168 inp)) as [w2 H2]; [split; assumption|rewrite zlen_put by lia; apply Hs|]. rewrite H2. apply goes_ok.
    - intros y Hy. apply bind_ok in Hy as (inp & Hv & Hy). apply bind_ok in Hy as (w2 & H2 & Hy). apply Ok_inj in Hy. exists w2, inp. auto. }
  assert (AFTER : forall w2 inp, acct_owner (w bk) = e_prog e -> set_data e (passed infos) w bk (put bd 168 inp) = Ok w2 -> zlen inp = n ->
     goes (w3 <- update_room e (passed infos) w0 w2 asset payer sysp off found n ;; update_finish e (passed infos) w3 asset (Some bk) t off found n None) <->
     (updated_size (data (w asset)) l t n <> zlen (data (w asset)) -> can_size e infos w asset payer sysp (updated_size (data (w asset)) l t n))).
  { intros w2 inp Ob H2 Zi. pose proof H2 as S2. apply set_data_only in S2 as [(P1 & P2 & P3) D2].
    assert (Na : asset <> bk) by congruence. rewrite <- (P1 asset Na) in *.
    assert (L2 : forall k, lamports (w2 k) = lamports (w k)) by (intro k; destruct (pk_dec k bk) as [->|N]; [exact P2|now rewrite P1]).
    assert (S2 : sized w2) by (eapply psteps_sized; [eapply set_data_psteps; exact H2|assumption]).
    assert (Hl2 : lam_ok w2) by (intro k; rewrite L2; apply Hl).
    assert (Ho2 : ours e infos w2 asset) by (split; [exact Ow|apply Ho]).
    destruct (room_finish e infos w0 w2 asset payer sysp t hd l n (Some bk) off found HL Hn Er Ho2 He Hp S2 Hl2 Hz0 Hfuel) as [RG RF].
    assert (SS : forall size, can_size e infos w2 asset payer sysp size <-> can_size e infos w asset payer sysp size).
    { intro size. apply size_same; [exact L2|now rewrite P1|..].
      - intro p. destruct (pk_dec p bk) as [->|N]; [exact P3|now rewrite P1].
      - intros p Hz. rewrite P1; [reflexivity|]. intros ->. congruence. }
    rewrite SS in RG. rewrite <- RG. rewrite goes_bind. split; [intros (w3 & H3 & _); now exists w3|]. intros [w3 H3]. exists w3. split; [exact H3|]. apply RF; [|exact H3].
    intros _. split; [exact Nb|]. rewrite D2, zlen_put; lia. }
  split.
  - intros (t0 & Hty & H). apply TY in Hty as (Ob & Di & ->). rewrite Hf in H. cbn [bind] in H. split; [exact Ob|]. split; [exact Di|].
    destruct (SRC Ob) as [SG SR]. apply goes_bind in H as (y & Hy & H). destruct (SR y Hy) as (w2 & inp & -> & H2 & Zi). split; [apply SG; eexists; exact Hy|]. now apply (AFTER w2 inp).
  - intros (Ob & Di & Hfi & Hsz). exists t. split; [apply TY; auto|]. rewrite Hf. cbn [bind]. destruct (SRC Ob) as [SG SR]. apply SG in Hfi as [y Hy]. destruct (SR y Hy) as (w2 & inp & -> & H2 & Zi). rewrite Hy. cbn [bind]. now apply (AFTER w2 inp).
Qed.

Section Update.
Variables (e : env) (infos : list ainfo) (w : world) (asset auth : pubkey) (ob og payer sysp : option pubkey) (hd : bytes) (l : list blk) (a : update_input).
Hypotheses (R : ready e infos w asset) (A1 : arg infos 1 auth) (O2 : optional e infos 2 ob) (O3 : optional e infos 3 og) (O4 : optional e infos 4 payer) (O5 : optional e infos 5 sysp)
  (HL : layout (data (w asset)) hd l []) (Hl : lam_ok w) (He : env_ok e) (Hp : e_prog e <> pk_zero) (Hal : e_heap_al e mod 8 = 0) (Hfuel : (length l < e_fuel e)%nat).
Lemma head_len : zlen (upd_head a (data (w asset))) = zlen (data (w asset)).
Proof. pose proof (layout_len _ _ _ _ (upd_head_layout a _ _ _ _ HL)) as Z1. pose proof (layout_len _ _ _ _ HL) as Z2. lia. Qed.
Lemma update_start (P : Prop) :
  (forall w1, set_data e (passed infos) w asset (upd_head a (data (w asset))) = Ok w1 ->
     goes (match u_ext a, ob with
       | None, None => Ok w1
       | Some _, Some _ => Err EInvalidInstructionData
       | _, _ => update_ext e (passed infos) w w1 asset auth ob payer sysp (u_ext a)
       end) <-> P) ->
  (exists w', process e infos w (IUpdate a) = Ok w') <-> gate infos w asset /\ in_charge infos w asset auth /\ P.
Proof.
  intro H. rewrite (gate_exact _ _ _ _ _ R). pose proof R as (A0 & Ho & Hi & Hw & _ & Hs).
  change (blocked_when_locked (IUpdate a) = true -> none_locked e infos w) with (false = true -> none_locked e infos w).
  match goal with |- _ /\ _ /\ ?q <-> _ => change q with (goes (dispatch e (passed infos) w (IUpdate a))) end.
  cbn [dispatch]. unfold process_update. rewrite (optional_acct _ _ _ _ O2), (optional_acct _ _ _ _ O3), (optional_acct _ _ _ _ O4), (optional_acct _ _ _ _ O5). args. cbn [bind].
  rewrite !goes_require, signer_spec, owned_spec. cbv zeta. rewrite check_goes. fold (upd_head a (data (w asset))).
  destruct (goes_set e infos w asset (upd_head a (data (w asset)))) as [w1 H1]; [split; assumption|rewrite head_len; apply Hs|].
  rewrite H1. cbn [bind]. rewrite (H w1 H1). unfold in_charge. intuition discriminate.
Qed.
Lemma after_head w1 : set_data e (passed infos) w asset (upd_head a (data (w asset))) = Ok w1 ->
  layout (data (w1 asset)) (upd_head a hd) l [] /\ ours e infos w1 asset /\ sized w1 /\ lam_ok w1 /\ zlen (data (w1 asset)) = zlen (data (w asset)) /\
  (forall k, k <> asset -> w1 k = w k).
Proof.
  intro H1. pose proof R as (A0 & Ho & Hi & Hw & _ & Hs). pose proof H1 as S. apply set_data_only in S as [(P1 & P2 & P3) D].
  split; [rewrite D; now apply upd_head_layout|]. split; [split; [congruence|exact Hw]|]. split; [eapply psteps_sized; [eapply set_data_psteps; exact H1|assumption]|].
  split; [intro k; destruct (pk_dec k asset) as [->|N]; [rewrite P2; apply Hl|rewrite (P1 k N); apply Hl]|]. split; [rewrite D; apply head_len|exact P1].
Qed.
Lemma update_head_exact : u_ext a = None -> ob = None ->
  (exists w', process e infos w (IUpdate a) = Ok w') <-> gate infos w asset /\ in_charge infos w asset auth.
Proof.
  intros Ex Eb. rewrite (update_start True); [tauto|]. intros w1 _. rewrite Ex, Eb. split; [auto|intros _; apply goes_ok].
Qed.
Lemma update_exact x : u_ext a = Some x -> ob = None -> x_type x <> XNone -> 0 <= x_length x <= 2000000000 ->
  (exists w', process e infos w (IUpdate a) = Ok w') <->
  gate infos w asset /\ in_charge infos w asset auth /\
  match x_data x with
  | None => x_length x = 0
  | Some bs => zlen bs = x_length x /\ fits (x_type x) (lookup (x_type x) (ext_list l)) bs
  end /\
  (updated_size (data (w asset)) l (x_type x) (x_length x) <> zlen (data (w asset)) ->
   can_size e infos w asset payer sysp (updated_size (data (w asset)) l (x_type x) (x_length x))).
Proof.
  intros Ex Eb Ht Hx. apply update_start. intros w1 H1. rewrite Ex, Eb.
  destruct (after_head w1 H1) as (L1 & Ow & S1 & La & Z1 & _).
  rewrite (update_ext_goes e infos w w1 asset auth payer sysp x (upd_head a hd) l L1 Ht Hx Ow He Hp S1 La (eq_sym Z1) Hal Hfuel).
  unfold source_ok. pose proof R as (_ & Ho & _).
  assert (EU : updated_size (data (w1 asset)) l (x_type x) (x_length x) = updated_size (data (w asset)) l (x_type x) (x_length x)) by (unfold updated_size; now rewrite Z1).
  rewrite EU, Z1, (set_same_size _ _ _ _ _ _ payer sysp _ Hp Ho H1 head_len). reflexivity.
Qed.
Lemma update_both_refused x bk : u_ext a = Some x -> ob = Some bk -> ~ exists w', process e infos w (IUpdate a) = Ok w'.
Proof.
  intros Ex Eb. rewrite (update_start False); [tauto|]. intros w1 _. rewrite Ex, Eb. split; [intro Q; elim (goes_err _ Q)|intros []].
Qed.
Lemma update_buffer_exact bk hb bb lb tb : u_ext a = None -> ob = Some bk -> bk <> asset -> writable infos bk -> layout (data (w bk)) hb (bb :: lb) tb ->
  (exists w', process e infos w (IUpdate a) = Ok w') <->
  gate infos w asset /\ in_charge infos w asset auth /\
  acct_owner (w bk) = e_prog e /\ s_disc (data (w bk)) = x00 /\
  fits (bk_type bb) (lookup (bk_type bb) (ext_list l)) (sub (data (w bk)) 168 (length (bk_data bb))) /\
  (updated_size (data (w asset)) l (bk_type bb) (zlen (bk_data bb)) <> zlen (data (w asset)) ->
   can_size e infos w asset payer sysp (updated_size (data (w asset)) l (bk_type bb) (zlen (bk_data bb)))).
Proof.
  intros Ex Eb Nb Wb HB. apply update_start. intros w1 H1. rewrite Ex, Eb.
  destruct (after_head w1 H1) as (L1 & Ow & S1 & La & Z1 & P1). pose proof (P1 bk Nb) as Eb1. rewrite <- Eb1 in HB |- *.
  rewrite (buffer_ext_goes e infos w w1 asset auth payer sysp bk hb bb lb tb (upd_head a hd) l L1 HB Nb Wb (proj1 Ow) Ow He Hp S1 La (eq_sym Z1) Hfuel).
  pose proof R as (_ & Ho & _).
  assert (EU : updated_size (data (w1 asset)) l (bk_type bb) (zlen (bk_data bb)) = updated_size (data (w asset)) l (bk_type bb) (zlen (bk_data bb))) by (unfold updated_size; now rewrite Z1).
  rewrite EU, Z1, (set_same_size _ _ _ _ _ _ payer sysp _ Hp Ho H1 head_len). reflexivity.
Qed.
End Update.

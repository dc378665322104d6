(** Update on an account with bytes after its extensions succeeds exactly when. *)
From Verif Require Import Base State Layout Constr Ext World Proc BaseL Spec SpecB SpecC SpecE SpecF SpecW WorldL ProcSteps LayoutL LayoutM LayoutE HeadL CreatorsL AuthL AuthM AllocL AllocM GroupL AllocC CreateL ResizeL UpdateL UpdateM ConstrL RoyalL ValidL ReadsL CodecL ExactL ExactM AcceptL ExactN ExactO ExactP.
From Coq Require Import Strings.Byte.

Lemma head_retitled a d : upd_head a d = retitled a d.
Proof.
  unfold upd_head, retitled. cbv zeta. destruct (u_name a) as [n|]; [|reflexivity].
  now rewrite pod_name.
Qed.

(** the boundary loop when no boundary changes *)
Lemma fix_ends : forall fuel d p, 0 <= p -> goes (fix_boundaries fuel 0 d p) <-> ends d fuel p.
Proof.
  induction fuel as [|f IH]; intros d p Hp; cbn [fix_boundaries].
  - split; [intros [x H]; discriminate H|intro H; inversion H].
  - destruct (Z.ltb_spec p (zlen d)) as [C|C]; [|split; [intros _; now apply ends_out|intros _; apply goes_ok]].
    rewrite goes_bind.
    assert (KEEP : p + 16 <= zlen d -> put d (p + 8) (le_enc 4 (sat_add_u32 (le32 d (p + 8)) 0)) = d /\ sat_add_u32 (le32 d (p + 8)) 0 = le32 d (p + 8) /\ 0 <= le32 d (p + 8)).
    { intro H2. rewrite le32_fld. pose proof (le_dec_range (fld d (p + 8) 4)) as R. rewrite zlen_fld in R by lia. change (256 ^ 4) with 4294967296 in R.
      assert (S0 : sat_add_u32 (le_dec (fld d (p + 8) 4)) 0 = le_dec (fld d (p + 8) 4)) by (unfold sat_add_u32, u32_max; lia). rewrite S0.
      assert (E : le_enc 4 (le_dec (fld d (p + 8) 4)) = fld d (p + 8) 4).
      { pose proof (le_enc_dec (fld d (p + 8) 4)) as E. replace (length (fld d (p + 8) 4)) with 4%nat in E; [exact E|].
        pose proof (zlen_fld d (p + 8) 4 ltac:(lia) ltac:(lia) ltac:(lia)) as Q. unfold zlen in Q. lia. }
      rewrite E. split; [apply put_same; lia|]. split; [reflexivity|lia]. }
    split.
    + intros (h & Hh & H). apply load_hdr_ok in Hh as (Q1 & Q2 & Q3 & ->). cbn [h_bnd] in H. cbv zeta in H. destruct (KEEP Q2) as (K1 & K2 & K3). rewrite K1, K2 in H.
      apply IH in H; [|assumption]. now apply ends_hop.
    + intro H. inversion H as [? ? Q|? ? Q1 Q2 Q3 Q4]; subst; [lia|]. destruct (KEEP Q2) as (K1 & K2 & K3).
      eexists. split; [unfold load_hdr; match goal with |- guard ?q _ = _ => replace q with true by (unfold EXT_LEN; lia) end; reflexivity|]. cbn [h_bnd]. cbv zeta.
      rewrite <- le32_fld, K1, K2. now apply IH.
Qed.
Lemma ends_sect tl : forall l A k, Forall blk_ok l -> zlen A mod 8 = 0 -> zlen A + sect_size l <= u32_max ->
  ends (A ++ enc_sect (zlen A) l ++ tl) (length l + k) (zlen A) <-> ends (A ++ enc_sect (zlen A) l ++ tl) k (zlen A + sect_size l).
Proof.
  induction l as [|b l IH]; intros A k Hl Hm Hs; cbn [enc_sect sect_size length Nat.add] in *; [rewrite Z.add_0_r; tauto|].
  apply Forall_cons_iff in Hl as [Hb Hl]. pose proof (sect_size_nonneg l) as S0. pose proof (blk_size_mod b Hb) as Bm. pose proof (blk_size_pos b) as Bp. pose proof (zlen_nonneg A) as A0. pose proof (zlen_nonneg tl) as T0.
  rewrite <- app_assoc.
  assert (ZA : zlen (A ++ enc_blk (zlen A) b) = zlen A + blk_size b) by (rewrite zlen_app, zlen_enc_blk by assumption; reflexivity).
  assert (ZD : zlen (A ++ enc_blk (zlen A) b ++ enc_sect (zlen A + blk_size b) l ++ tl) = zlen A + blk_size b + sect_size l + zlen tl) by (rewrite !zlen_app, zlen_enc_blk, zlen_enc_sect by assumption; lia).
  assert (EB : le32 (A ++ enc_blk (zlen A) b ++ enc_sect (zlen A + blk_size b) l ++ tl) (zlen A + 8) = zlen A + blk_size b).
  { rewrite le32_fld. unfold enc_blk. rewrite <- !app_assoc.
    rewrite (app_assoc A), (app_assoc (A ++ le_enc 4 (ext_code (bk_type b)))).
    rewrite fld_mid; [apply le_dec_enc4; lia| |].
    - rewrite !zlen_app, !le_enc_zlen. lia.
    - now rewrite le_enc_zlen. }
  specialize (IH (A ++ enc_blk (zlen A) b) k Hl ltac:(rewrite ZA; lia) ltac:(rewrite ZA; lia)). rewrite ZA, <- !app_assoc in IH.
  rewrite Z.add_assoc. rewrite <- IH. split.
  - intro H. inversion H as [? ? Q|? ? Q1 Q2 Q3 Q4]; subst; [lia|]. now rewrite EB in Q4.
  - intro H. apply ends_hop; [lia|lia|lia|]. now rewrite EB.
Qed.

(** the search *)
Lemma find_goes_t t tl : t <> XNone -> tail_ok tl -> forall l A fuel, zlen A mod 8 = 0 -> Forall blk_ok l -> zlen A + sect_size l <= u32_max -> (length l < fuel)%nat ->
  goes (update_find fuel t (A ++ enc_sect (zlen A) l ++ tl) (zlen A)) <-> (loc t (zlen A) l = None -> tl = [] \/ 16 <= zlen tl).
Proof.
  intros Ht Htl. induction l as [|b l IH]; intros A fuel Hm Hl Hs Hf; (destruct fuel as [|f]; [cbn [length] in Hf; lia|]); cbn [update_find enc_sect sect_size length loc app] in *.
  - rewrite zlen_app. pose proof (zlen_nonneg tl) as T0. destruct (Z.ltb_spec (zlen A) (zlen A + zlen tl)) as [C|C].
    + destruct (tail_hdr A tl (zlen A) eq_refl Hm Htl) as [Q|[Q0 (h' & Q1 & Q2)]]; unfold EXT_LEN in *; rewrite ?zlen_app in *.
      * split.
        -- intros [r H]. apply bind_ok in H as (h & Hh & _). apply load_hdr_ok in Hh as (_ & Q2 & _). rewrite zlen_app in Q2. lia.
        -- intro H. destruct (H eq_refl) as [->|H1]; [change (zlen []) with 0 in C|]; lia.
      * rewrite Q1. cbn [bind]. rewrite Q2. split; [intros _ _; right; lia|]. intros _. destruct (0 =? ext_code t); [apply goes_ok|]. cbn [Z.eqb]. apply goes_ok.
    + assert (tl = []) by (apply zlen_0; lia). split; [auto|intros _; apply goes_ok].
  - apply Forall_cons_iff in Hl as [Hb Hl]. pose proof (sect_size_nonneg l). pose proof (blk_size_mod b Hb). pose proof (blk_size_pos b). pose proof (zlen_nonneg A). pose proof (zlen_nonneg tl).
    rewrite <- app_assoc. set (C := enc_sect (zlen A + blk_size b) l ++ tl).
    replace (zlen A <? zlen (A ++ enc_blk (zlen A) b ++ C)) with true by (rewrite !zlen_app, zlen_enc_blk by assumption; pose proof (zlen_nonneg C); lia).
    rewrite load_hdr_blk by (auto; unfold u32_max in *; lia). cbn [bind blk_hdr h_type h_bnd].
    assert (EQ : (ext_code (bk_type b) =? ext_code t) = ext_type_eqb (bk_type b) t).
    { apply Bool.eq_iff_eq_true. rewrite ext_type_eqb_eq, Z.eqb_eq. split; [apply ext_code_inj|now intros ->]. }
    rewrite EQ. destruct (ext_type_eqb (bk_type b) t); [split; [discriminate|intros _; apply goes_ok]|].
    replace (ext_code (bk_type b) =? 0) with false by (destruct Hb as [Hb _]; destruct (bk_type b); (reflexivity || now elim Hb)).
    assert (ZA : zlen (A ++ enc_blk (zlen A) b) = zlen A + blk_size b) by (rewrite zlen_app, zlen_enc_blk by assumption; reflexivity).
    unfold C. rewrite app_assoc. specialize (IH (A ++ enc_blk (zlen A) b) f). rewrite ZA in IH. apply IH; [lia|assumption|lia|lia].
Qed.
Lemma find_layout_t d hd l tl t : layout d hd l tl -> t <> XNone -> goes (update_find (walk_fuel d) t d ASSET_LEN) <-> (loc t 168 l = None -> tl = [] \/ 16 <= zlen tl).
Proof.
  intros HL Ht. pose proof (layout_u32 _ _ _ _ HL) as Hu. pose proof (layout_fuel _ _ _ _ HL) as Hf. destruct HL as (-> & Hh & Hl & Htl & _).
  unfold ASSET_LEN. rewrite <- Hh at 2 3 4. apply find_goes_t; auto; rewrite Hh; auto; reflexivity.
Qed.
Lemma find_cur_t d hd l tl t : layout d hd l tl ->
  let r := match loc t 168 l with Some (c, b) => (c, Some (blk_hdr c b)) | None => (168 + sect_size l, None) end in
  exists q, (match snd r with
             | None => Ok None
             | Some c => s <- slice d (fst r + 16) (fst r + 16 + h_len c) ;; Ok (Some (fst r + 16, s))
             end) = Ok q /\ option_map snd q = lookup t (ext_list l) /\ forall a c, q = Some (a, c) -> a mod 8 = 0.
Proof.
  intros HL r. rewrite (loc_lookup t l 168). unfold r. destruct (loc t 168 l) as [[c b0]|] eqn:El; cbn [fst snd].
  - apply loc_some in El as (l1 & l2 & -> & -> & _ & _).
    destruct (layout_at _ _ _ _ HL _ l1 b0 l2 eq_refl eq_refl) as (A & Ed & HA & Hb & _).
    cbn [blk_hdr h_len]. pose proof (layout_len _ _ _ _ HL) as ZL. rewrite sect_size_app in ZL. cbn [sect_size] in ZL. pose proof (zlen_nonneg tl).
    pose proof (sect_size_nonneg l1). pose proof (sect_size_nonneg l2). pose proof (zlen_nonneg (bk_data b0)). pose proof (zlen_nonneg (bk_pad b0)).
    destruct HL as (_ & _ & Hf & _). apply Forall_app in Hf as [Hf1 _]. pose proof (sect_size_mod l1 Hf1).
    unfold slice. match goal with |- context [guard ?q _] => replace q with true by (unfold blk_size in *; lia) end. cbn [guard bind]. eexists. split; [reflexivity|]. cbn [option_map snd fst].
    split; [|intros a c Q; apply some_inj, (f_equal fst) in Q; cbn [fst] in Q; lia].
    match goal with |- Some (fld _ _ ?n) = _ => replace n with (zlen (bk_data b0)) by lia end.
    rewrite Ed. now rewrite fld_blk_data by auto.
  - exists None. split; [reflexivity|]. split; [reflexivity|]. intros a c Q. discriminate Q.
Qed.
Lemma source_goes_t e infos w asset auth x hd l tl : layout (data (w asset)) hd l tl -> e_heap_al e mod 8 = 0 ->
  let r := match loc (x_type x) 168 l with Some (c, b) => (c, Some (blk_hdr c b)) | None => (168 + sect_size l, None) end in
  (goes (update_source e (passed infos) w asset auth None (Some x) (x_type x) (fst r) (snd r)) <-> source_ok x (lookup (x_type x) (ext_list l))) /\
  (forall y, update_source e (passed infos) w asset auth None (Some x) (x_type x) (fst r) (snd r) = Ok y ->
     exists o, y = (x_length x, o, w) /\ (forall bs, o = Some bs -> zlen bs = x_length x)).
Proof.
  intros HL Hal r.
  destruct (find_cur_t _ _ _ _ (x_type x) HL) as (q & Hq & Eq & Aq). fold r in Hq. unfold update_source. cbv zeta. unfold EXT_LEN. rewrite Hq. unfold source_ok.
  destruct (x_data x) as [bs|]; cbn [bind].
  - pose proof (validate_goes (x_type x) (e_heap_al e) bs q (pk_bytes auth) Hal Aq) as V. rewrite Eq in V.
    split.
    + rewrite goes_bind. split.
      * intros (y & Hy & H). apply bind_ok in Hy as (bs' & Hv & Hy). apply Ok_inj in Hy. subst y. destruct (zlen bs' <? x_length x) eqn:Q1; [elim (goes_err _ H)|]. destruct (x_length x <? zlen bs') eqn:Q2; [elim (goes_err _ H)|].
        split; [|apply V; now exists bs']. apply validate_stored, stored_len in Hv. unfold zlen in *. lia.
      * intros [Z F]. apply V in F as [bs' Hv]. rewrite Hv. cbn [bind]. eexists. split; [reflexivity|]. cbv beta iota zeta. apply validate_stored, stored_len in Hv.
        replace (zlen bs' <? x_length x) with false by (unfold zlen in *; lia). replace (x_length x <? zlen bs') with false by (unfold zlen in *; lia). apply goes_ok.
    + intros y Hy. apply bind_ok in Hy as (r0 & Hr & Hy). apply bind_ok in Hr as (bs' & Hv & Hr). apply Ok_inj in Hr. subst r0. destruct (zlen bs' <? x_length x) eqn:Q1; [discriminate Hy|]. destruct (x_length x <? zlen bs') eqn:Q2; [discriminate Hy|].
      apply Ok_inj in Hy. exists (Some bs'). split; [rewrite <- Hy; repeat f_equal; lia|]. intros b0 E. apply some_inj in E. subst b0. lia.
  - split.
    + destruct (0 <? x_length x) eqn:Q1; [split; [intro H; elim (goes_err _ H)|lia]|]. destruct (x_length x <? 0) eqn:Q2; [split; [intro H; elim (goes_err _ H)|lia]|]. split; [lia|intros _; apply goes_ok].
    + intros y Hy. destruct (0 <? x_length x) eqn:Q1; [discriminate Hy|]. destruct (x_length x <? 0) eqn:Q2; [discriminate Hy|]. apply Ok_inj in Hy. exists None. split; [rewrite <- Hy; repeat f_equal; lia|]. intros b0 E. discriminate E.
Qed.


(** another amount of room *)
Lemma room_other e infos w0 w asset payer sysp hd l1 b l2 tl n : layout (data (w asset)) hd (l1 ++ b :: l2) tl -> 0 <= n <= 2000000000 ->
  ours e infos w asset -> env_ok e -> e_prog e <> pk_zero -> sized w -> lam_ok w -> zlen (data (w0 asset)) = zlen (data (w asset)) ->
  blk_size b <> pad8 (16 + n) ->
  let c := 168 + sect_size l1 in
  let ns := 168 + sect_size (l1 ++ b :: l2) - blk_size b + pad8 (16 + n) in
  goes (update_room e (passed infos) w0 w asset payer sysp c (Some (blk_hdr c b)) n) <-> can_size e infos w asset payer sysp ns.
Proof.
  intros HL Hn Ho He Hp Hs Hl Hz0 Hd c ns.
  destruct (layout_at _ _ _ _ HL c l1 b l2 eq_refl eq_refl) as (A & Ed & HA & Hb & EA).
  pose proof (layout_len _ _ _ _ HL) as Hlen. destruct (layout_last_bnd _ _ _ _ HL) as (o & Eo & Bo). pose proof HL as (_ & Hh & Hf & Htl & Hz).
  apply Forall_app in Hf as [Hf1 Hf2]. apply Forall_cons_iff in Hf2 as [_ Hf2].
  pose proof (sect_size_nonneg l1) as Hp1. pose proof (sect_size_nonneg l2) as Hp2. pose proof (blk_size_pos b) as Hpb. pose proof (zlen_nonneg tl) as Ht0.
  assert (ES : sect_size (l1 ++ b :: l2) = sect_size l1 + blk_size b + sect_size l2) by (rewrite sect_size_app; cbn [sect_size]; lia). rewrite ES in *.
  assert (Hcm : c mod 8 = 0) by (pose proof (sect_size_mod l1 Hf1); unfold c; lia).
  unfold update_room. change EXT_LEN with 16. set (ub := pad8 (c + 16 + n)). cbv zeta. cbn [blk_hdr h_len h_bnd].
  assert (Eub : ub = c + pad8 (16 + n)) by (unfold ub, pad8; lia).
  pose proof (pad8_ge (c + 16 + n)) as Hpad. fold ub in Hpad.
  destruct (zlen (bk_data b) =? n) eqn:En.
  - assert (U : ub = c + blk_size b) by (unfold ub; replace n with (zlen (bk_data b)) by lia; now apply blk_size_pad8). exfalso. lia.
  - rewrite to_i32_small by (unfold blk_size, c in *; pose proof (zlen_nonneg (bk_data b)); pose proof (zlen_nonneg (bk_pad b)); lia).
    set (delta := ub - (c + blk_size b)) in *. assert (Ens : ns = 168 + (sect_size l1 + blk_size b + sect_size l2) + delta) by (unfold ns, delta; rewrite ES; lia).
    rewrite Eo. cbn [bind]. destruct o as [[lh oo]|]; [|exfalso; lia]. rewrite Bo.
    replace (Z.max 0 (168 + (sect_size l1 + blk_size b + sect_size l2) + delta)) with ns by (unfold delta, c in *; lia).
    replace (Z.max 0 (168 + (sect_size l1 + blk_size b + sect_size l2) - (c + blk_size b))) with (sect_size l2) by (unfold c; lia).
    destruct (0 <? delta) eqn:Ed0.
    + replace (delta <? 0) with false by lia. rewrite goes_bind.
      assert (R : goes (resize e (passed infos) w0 w ns asset payer sysp) <-> can_size e infos w asset payer sysp ns) by (apply size_goes0; auto; lia).
      split; [intros (w1 & H1 & _); apply R; now exists w1|]. intro H. destruct (proj2 R H) as [w1 H1]. exists w1. split; [exact H1|].
      pose proof H1 as D. apply resize_data in D as (D1 & F1 & O1). assert (Z1 : zlen (data (w1 asset)) = ns) by (rewrite D1; apply zlen_realloc; lia).
      destruct (memmove_goes (data (w1 asset)) ub (c + blk_size b) (sect_size l2)) as (d' & Hd' & Zd'); try (unfold delta, c in *; lia).
      rewrite Hd'. cbn [bind]. pose proof (resize_max _ _ _ _ _ _ _ _ _ Hs H1). destruct (goes_set e infos w1 asset d') as [w2 H2]; [split; [rewrite O1; apply Ho|apply Ho]|lia|]. rewrite H2. apply goes_ok.
    + cbn [bind].
      destruct (memmove_goes (data (w asset)) ub (c + blk_size b) (sect_size l2)) as (d' & Hd' & Zd'); try (unfold delta, c in *; lia).
      rewrite Hd'. cbn [bind]. destruct (goes_set e infos w asset d' Ho) as [w2 H2]; [specialize (Hs asset); lia|]. rewrite H2. cbn [bind].
      replace (delta <? 0) with true by (unfold delta in *; lia).
      assert (O2 : ours e infos w2 asset) by (split; [rewrite (set_data_owner _ _ _ _ _ _ _ H2); apply Ho|apply Ho]).
      pose proof H2 as S2. apply set_data_only in S2 as [(P1 & P2 & P3) D2].
      rewrite (size_goes0 e infos w0 w2 asset payer sysp ns O2 Hp He).
      * rewrite (set_same_size _ _ _ _ _ _ payer sysp ns Hp (proj1 Ho) H2 Zd'). reflexivity.
      * eapply psteps_sized; [eapply set_data_psteps; exact H2|assumption].
      * intro k. destruct (pk_dec k asset) as [->|N]; [rewrite P2; apply Hl|rewrite (P1 k N); apply Hl].
      * rewrite D2. congruence.
      * unfold delta, c in *. lia.
Qed.
(** the same amount of room *)
Lemma room_same e infos w0 w asset payer sysp hd l1 b l2 tl n : layout (data (w asset)) hd (l1 ++ b :: l2) tl -> 0 <= n <= 2000000000 ->
  ours e infos w asset -> sized w -> blk_size b = pad8 (16 + n) ->
  let c := 168 + sect_size l1 in
  exists w3, update_room e (passed infos) w0 w asset payer sysp c (Some (blk_hdr c b)) n = Ok w3 /\ (forall k, data (w3 k) = data (w k)) /\ (forall k, acct_owner (w3 k) = acct_owner (w k)).
Proof.
  intros HL Hn Ho Hs Hd c.
  pose proof (layout_len _ _ _ _ HL) as Hlen. destruct (layout_last_bnd _ _ _ _ HL) as (o & Eo & Bo). pose proof HL as (_ & Hh & Hf & Htl & Hz).
  apply Forall_app in Hf as [Hf1 Hf2]. apply Forall_cons_iff in Hf2 as [_ Hf2].
  pose proof (sect_size_nonneg l1) as Hp1. pose proof (sect_size_nonneg l2) as Hp2. pose proof (blk_size_pos b) as Hpb. pose proof (zlen_nonneg tl) as Ht0.
  assert (ES : sect_size (l1 ++ b :: l2) = sect_size l1 + blk_size b + sect_size l2) by (rewrite sect_size_app; cbn [sect_size]; lia). rewrite ES in *.
  assert (Hcm : c mod 8 = 0) by (pose proof (sect_size_mod l1 Hf1); unfold c; lia).
  unfold update_room. change EXT_LEN with 16. assert (Eub : pad8 (c + 16 + n) = c + blk_size b) by (rewrite Hd; unfold pad8; lia). rewrite Eub. cbv zeta. cbn [blk_hdr h_len h_bnd].
  destruct (zlen (bk_data b) =? n) eqn:En; [exists w; auto|]. replace (c + blk_size b - (c + blk_size b)) with 0 by lia. change (to_i32 0) with 0.
  rewrite Eo. cbn [bind]. destruct o as [[lh oo]|]; [|exfalso; lia]. rewrite Bo. cbn [Z.ltb Z.compare bind].
  match goal with |- context [memmove _ _ _ ?q] => set (m := q) end. assert (M : 0 <= m <= sect_size l2) by (unfold m, c; lia).
  assert (EM : memmove (data (w asset)) (c + blk_size b) (c + blk_size b) m = Ok (data (w asset))).
  { unfold memmove. destruct (m =? 0) eqn:E0; [reflexivity|]. replace (_ && _ && _ && _) with true by (unfold c in *; lia). f_equal. apply put_same; unfold c in *; lia. }
  rewrite EM. cbn [bind]. destruct (goes_set e infos w asset (data (w asset)) Ho (Hs asset)) as [w2 H2]. rewrite H2. exists w2. split; [reflexivity|].
  apply set_data_world in H2 as (D & F & O). split; [|exact O]. intro k. destruct (pk_dec k asset) as [->|N]; [exact D|now apply F].
Qed.
Lemma finish_same e infos w3 asset buffer t hd l1 b l2 tl n src : layout (data (w3 asset)) hd (l1 ++ b :: l2) tl -> 0 <= n <= 2000000000 ->
  ours e infos w3 asset -> sized w3 -> bk_type b = t -> blk_size b = pad8 (16 + n) -> (length l2 < e_fuel e)%nat ->
  (0 < n -> match buffer with
            | Some bk => 184 + n <= zlen (data (w3 bk))
            | None => forall bs, src = Some bs -> zlen bs = n
            end) ->
  let c := 168 + sect_size l1 in
  goes (update_finish e (passed infos) w3 asset buffer t c (Some (blk_hdr c b)) n src) <->
  ends (over (data (w3 asset)) (Z.to_nat (c + 4)) (le_enc 4 n)) (e_fuel e - length l2) (168 + sect_size (l1 ++ b :: l2)).
Proof.
  intros HL Hn Ho Hs Tb Hd Hfuel Hsrc c.
  destruct (layout_at _ _ _ _ HL c l1 b l2 eq_refl eq_refl) as (A & Ed & HA & Hb & EA).
  pose proof (layout_len _ _ _ _ HL) as Hlen. pose proof (layout_u32 _ _ _ _ HL) as HU. pose proof HL as (_ & Hh & Hf & Htl & Hz).
  apply Forall_app in Hf as [Hf1 Hf2]. apply Forall_cons_iff in Hf2 as [_ Hf2].
  pose proof (sect_size_nonneg l1) as Hp1. pose proof (sect_size_nonneg l2) as Hp2. pose proof (blk_size_pos b) as Hpb. pose proof (zlen_nonneg tl) as Ht0. pose proof (blk_size_mod b Hb) as Hbm.
  assert (ES : sect_size (l1 ++ b :: l2) = sect_size l1 + blk_size b + sect_size l2) by (rewrite sect_size_app; cbn [sect_size]; lia). rewrite ES in *.
  assert (Hcm : c mod 8 = 0) by (pose proof (sect_size_mod l1 Hf1); unfold c; lia).
  unfold update_finish. change EXT_LEN with 16. assert (Eub : pad8 (c + 16 + n) = c + blk_size b) by (rewrite Hd; unfold pad8; lia). rewrite Eub. cbv zeta. cbn [blk_hdr h_bnd].
  replace (c + blk_size b - (c + blk_size b)) with 0 by lia. change (to_i32 0) with 0.
  set (B1 := le_enc 4 (ext_code t) ++ le_enc 4 n ++ le_enc 4 (c + blk_size b) ++ bk_unused b ++ bk_data b ++ bk_pad b).
  assert (HB1 : zlen (A ++ B1) = c + blk_size b).
  { pose proof (zlen_enc_blk c b Hb) as Q. unfold enc_blk in Q. rewrite zlen_app, HA. f_equal. rewrite <- Q. unfold B1. rewrite !zlen_app, !le_enc_zlen. reflexivity. }
  assert (D4 : put (data (w3 asset)) c (enc_hdr (ext_code t) n (c + blk_size b)) = (A ++ B1) ++ enc_sect (c + blk_size b) l2 ++ tl).
  { rewrite Ed. unfold enc_blk, enc_hdr, B1. rewrite Tb.
    rewrite <- !app_assoc. set (R := bk_unused b ++ bk_data b ++ bk_pad b ++ enc_sect (c + blk_size b) l2 ++ tl).
    rewrite (app_assoc (le_enc 4 (zlen (bk_data b)))), (app_assoc (le_enc 4 (ext_code t)) (le_enc 4 (zlen (bk_data b)) ++ _)).
    rewrite put_mid; [now rewrite <- !app_assoc|now symmetry|]. rewrite !zlen_app, !le_enc_zlen. reflexivity. }
  assert (DO : over (data (w3 asset)) (Z.to_nat (c + 4)) (le_enc 4 n) = (A ++ B1) ++ enc_sect (c + blk_size b) l2 ++ tl).
  { change (put (data (w3 asset)) (c + 4) (le_enc 4 n) = (A ++ B1) ++ enc_sect (c + blk_size b) l2 ++ tl). rewrite Ed. unfold enc_blk, B1. rewrite Tb. rewrite <- !app_assoc.
    rewrite (app_assoc A (le_enc 4 (ext_code t))). rewrite put_mid; [now rewrite <- !app_assoc| |now rewrite !le_enc_zlen]. rewrite zlen_app, le_enc_zlen. lia. }
  rewrite DO. set (d4 := (A ++ B1) ++ enc_sect (c + blk_size b) l2 ++ tl) in *.
  assert (Z4 : zlen d4 = zlen (data (w3 asset))) by (unfold d4; rewrite zlen_app, HB1, zlen_app, zlen_enc_sect by assumption; unfold c; lia).
  assert (E4 : set_hdr (data (w3 asset)) c (ext_code t) n (c + blk_size b) = Ok d4).
  { unfold set_hdr. match goal with |- guard ?q _ = _ => replace q with true by (unfold EXT_LEN, c in *; lia) end. cbn [guard]. now rewrite D4. }
  rewrite E4. cbn [bind].
  assert (EE : goes (fix_boundaries (e_fuel e) 0 d4 (c + blk_size b)) <-> ends d4 (e_fuel e - length l2) (168 + (sect_size l1 + blk_size b + sect_size l2))).
  { rewrite fix_ends by (unfold c; lia). replace (e_fuel e) with (length l2 + (e_fuel e - length l2))%nat at 1 by lia.
    replace (168 + (sect_size l1 + blk_size b + sect_size l2)) with (zlen (A ++ B1) + sect_size l2) by (rewrite HB1; unfold c; lia).
    unfold d4. rewrite <- HB1. apply ends_sect; [assumption|rewrite HB1; lia|rewrite HB1; unfold c; lia]. }
  rewrite <- EE. rewrite goes_bind. split; [intros (d5 & H5 & _); now exists d5|]. intros [d5 H5]. exists d5. split; [exact H5|]. apply fix_zero in H5. subst d5.
  specialize (Hs asset) as Hs0.
  assert (FIN : forall d6, zlen d6 = zlen d4 -> goes (set_data e (passed infos) w3 asset d6)) by (intros d6 Q; apply goes_set; [exact Ho|lia]).
  assert (Hroom : c + 16 + n <= zlen d4) by (pose proof (pad8_ge (16 + n)); unfold c in *; lia).
  assert (MC : forall bs, zlen bs = n -> exists d6, memcpy_at d4 (c + 16) bs = Ok d6 /\ zlen d6 = zlen d4).
  { intros bs Q. unfold memcpy_at. match goal with |- context [guard ?q _] => replace q with true by (unfold c in *; lia) end. cbn [guard]. replace (c + 16 + zlen bs <=? zlen d4) with true by lia.
    eexists. split; [reflexivity|]. apply zlen_put; unfold c in *; lia. }
  destruct (0 <? n) eqn:En; [|cbn [bind]; now apply FIN]. specialize (Hsrc ltac:(lia)). destruct buffer as [bk|].
  - unfold slice. match goal with |- context [guard ?q _] => replace q with true by (change ASSET_LEN with 168; lia) end. cbn [guard bind]. change (ASSET_LEN + 16) with 184.
    destruct (MC (fld (data (w3 bk)) 184 (184 + n - 184))) as (d6 & H6 & Z6); [rewrite zlen_fld; lia|]. rewrite H6. cbn [bind]. now apply FIN.
  - destruct src as [bs|]; [|cbn [bind]; now apply FIN]. destruct (MC bs (Hsrc bs eq_refl)) as (d6 & H6 & Z6). rewrite H6. cbn [bind]. now apply FIN.
Qed.

Lemma split_uniq t : forall l1 l1' b b' l2 l2', l1 ++ b :: l2 = l1' ++ b' :: l2' -> Forall (fun x => bk_type x <> t) l1 -> Forall (fun x => bk_type x <> t) l1' ->
  bk_type b = t -> bk_type b' = t -> l1 = l1' /\ b = b' /\ l2 = l2'.
Proof.
  induction l1 as [|x l1 IH]; intros [|x' l1'] b b' l2 l2' E F F' T T'; cbn [app] in E.
  - injection E as -> ->. auto.
  - injection E as -> ->. apply Forall_cons_iff in F' as [Q _]. contradiction.
  - injection E as E _. subst b'. apply Forall_cons_iff in F as [Q _]. contradiction.
  - injection E as -> E. apply Forall_cons_iff in F as [_ F]. apply Forall_cons_iff in F' as [_ F']. destruct (IH _ _ _ _ _ E F F' T T') as (-> & -> & ->). auto.
Qed.
Lemma absent_loc t l c : lookup t (ext_list l) = None <-> loc t c l = None.
Proof. rewrite (loc_lookup t l c). destruct (loc t c l); cbn [option_map]; split; congruence. Qed.
Lemma room_for_blk b : blk_ok b -> room_for (zlen (bk_data b)) = blk_size b.
Proof. intro Hb. pose proof (blk_size_pad8 b 0 Hb eq_refl) as Q. unfold pad8 in Q. unfold room_for. lia. Qed.

Definition room_cond (e : env) (infos : list ainfo) (w : world) (asset : pubkey) (payer sysp : option pubkey)
    (D : bytes) (l : list blk) (tl : bytes) (t : ext_type) (n : Z) : Prop :=
  (lookup t (ext_list l) = None ->
     (tl = [] \/ 16 <= zlen tl) /\ can_size e infos w asset payer sysp (168 + sect_size l + room_for n)) /\
  (forall l1 b l2, l = l1 ++ b :: l2 -> bk_type b = t -> lookup t (ext_list l1) = None ->
     (room_for (zlen (bk_data b)) <> room_for n ->
        can_size e infos w asset payer sysp (168 + sect_size l - room_for (zlen (bk_data b)) + room_for n)) /\
     (room_for (zlen (bk_data b)) = room_for n ->
        ends (over D (Z.to_nat (168 + sect_size l1 + 4)) (le_enc 4 n)) (e_fuel e - length l2) (168 + sect_size l))).

Lemma room_finish_t e infos w0 w asset payer sysp t hd l tl n buffer off found o : layout (data (w asset)) hd l tl -> 0 <= n <= 2000000000 ->
  (off, found) = match loc t 168 l with Some (c, b) => (c, Some (blk_hdr c b)) | None => (168 + sect_size l, None) end ->
  (loc t 168 l = None -> tl = [] \/ 16 <= zlen tl) ->
  ours e infos w asset -> env_ok e -> e_prog e <> pk_zero -> sized w -> lam_ok w -> zlen (data (w0 asset)) = zlen (data (w asset)) -> (length l < e_fuel e)%nat ->
  (0 < n -> match buffer with Some bk => bk <> asset /\ 184 + n <= zlen (data (w bk)) | None => forall bs, o = Some bs -> zlen bs = n end) ->
  goes (w3 <- update_room e (passed infos) w0 w asset payer sysp off found n ;; update_finish e (passed infos) w3 asset buffer t off found n o) <->
  room_cond e infos w asset payer sysp (data (w asset)) l tl t n.
Proof.
  intros HL Hx Er Hfd Ho He Hp Hs Hl Hz0 Hfuel Hbs. unfold room_cond.
  pose proof (layout_len _ _ _ _ HL) as Hlen. pose proof HL as (_ & Hh & HF & _ & Hz).
  assert (ZW : forall w3, update_room e (passed infos) w0 w asset payer sysp off found n = Ok w3 -> sized w3).
  { intros w3 H. apply (update_room_psteps e Hp) in H as [H _]; [|apply Ho]. eapply psteps_sized; eassumption. }
  assert (BUF : forall w3 : world, (forall k, k <> asset -> data (w3 k) = data (w k)) ->
     (0 < n -> match buffer with Some bk => 184 + n <= zlen (data (w3 bk)) | None => forall bs, o = Some bs -> zlen bs = n end)).
  { intros w3 F H0. specialize (Hbs H0). destruct buffer as [bk|]; [|exact Hbs]. destruct Hbs as [N H]. now rewrite F. }
  rewrite (absent_loc t l 168). destruct (loc t 168 l) as [[c b0]|] eqn:El; pose proof (f_equal fst Er) as E1; pose proof (f_equal snd Er) as E2; clear Er; cbn [fst snd] in E1, E2; subst off found.
  - apply loc_some in El as (l1 & l2 & -> & -> & Tb & Hfa).
    pose proof HF as HF'. apply Forall_app in HF' as [Hf1 Hf2]. apply Forall_cons_iff in Hf2 as [Hb0 Hf2].
    pose proof (room_for_blk b0 Hb0) as Eb.
    pose proof (sect_size_nonneg l1). pose proof (sect_size_nonneg l2). pose proof (blk_size_pos b0). pose proof (zlen_nonneg tl).
    assert (ES : sect_size (l1 ++ b0 :: l2) = sect_size l1 + blk_size b0 + sect_size l2) by (rewrite sect_size_app; cbn [sect_size]; lia).
    assert (Hfuel2 : (length l2 < e_fuel e)%nat) by (rewrite app_length in Hfuel; cbn [length] in Hfuel; lia).
    match goal with |- _ <-> _ /\ ?Q => assert (K : Q <-> ((blk_size b0 <> room_for n -> can_size e infos w asset payer sysp (168 + sect_size (l1 ++ b0 :: l2) - blk_size b0 + room_for n)) /\
      (blk_size b0 = room_for n -> ends (over (data (w asset)) (Z.to_nat (168 + sect_size l1 + 4)) (le_enc 4 n)) (e_fuel e - length l2) (168 + sect_size (l1 ++ b0 :: l2))))) end.
    { rewrite <- Eb. split.
      - intro Q. apply (Q l1 b0 l2 eq_refl Tb). apply (absent_loc t l1 0). destruct (loc t 0 l1) as [[c' b']|] eqn:Q1; [|reflexivity]. exfalso.
        apply loc_some in Q1 as (y1 & y2 & -> & _ & Q1 & _). rewrite Forall_app, Forall_cons_iff in Hfa. tauto.
      - intros Q l1' b' l2' El' Tb' Ab. apply (absent_loc t l1' 0), loc_none in Ab. destruct (split_uniq t _ _ _ _ _ _ El' Hfa Ab Tb Tb') as (<- & <- & <-). exact Q. }
    rewrite K. clear K. destruct (Z.eq_dec (blk_size b0) (room_for n)) as [Q|Q].
    + destruct (room_same e infos w0 w asset payer sysp hd l1 b0 l2 tl n HL Hx Ho Hs Q) as (w3 & H3 & D3 & O3). rewrite H3. cbn [bind].
      pose proof (D3 asset) as DA. rewrite <- DA in HL.
      rewrite (finish_same e infos w3 asset buffer t hd l1 b0 l2 tl n o HL Hx); auto.
      * rewrite DA. split; [intro R; split; [discriminate|]; split; [contradiction|auto]|]. intros (_ & _ & R). auto.
      * split; [rewrite O3; apply Ho|apply Ho].
      * apply BUF. intros k _. apply D3.
    + rewrite goes_bind. pose proof (room_other e infos w0 w asset payer sysp hd l1 b0 l2 tl n HL Hx Ho He Hp Hs Hl Hz0 Q) as RG. cbv zeta in RG.
      change (pad8 (16 + n)) with (room_for n) in RG. split.
      * intros (w3 & H3 & _). split; [discriminate|]. split; [|contradiction]. intros _. apply RG. now exists w3.
      * intros (_ & R & _). destruct (proj2 RG (R Q)) as [w3 H3]. exists w3. split; [exact H3|]. specialize (ZW w3 H3).
        pose proof (update_room_found _ _ _ _ _ _ _ _ _ _ _ _ _ _ HL Hx H3) as (B0 & tl' & D3 & ZB & Ht' & F3 & O3).
        assert (Hcm : sect_size l1 mod 8 = 0) by now apply sect_size_mod.
        assert (Etl : tl' = []). { destruct Ht' as [->|[-> Q']]; [reflexivity|exfalso]. unfold room_for, pad8 in *. lia. }
        subst tl'. rewrite app_nil_r in D3. rewrite ES in *.
        apply (finish_goes e infos w3 asset buffer t hd l1 B0 (168 + sect_size l1 + blk_size b0) l2); auto; try lia.
        -- split; [rewrite O3; apply Ho|apply Ho].
        -- exact (BUF w3 F3).
  - match goal with |- _ <-> _ /\ ?Q => assert (K : Q) end.
    { intros l1 b l2 -> Tb _. apply loc_none in El. rewrite Forall_app, Forall_cons_iff in El. tauto. }
    pose proof (sect_size_nonneg l). pose proof (zlen_nonneg tl). pose proof (sect_size_mod l HF) as Hm.
    unfold update_room at 1. cbv zeta. unfold EXT_LEN at 1. assert (E : pad8 (168 + sect_size l + 16 + n) = 168 + sect_size l + room_for n) by (unfold pad8, room_for; lia). rewrite E.
    rewrite goes_bind. pose proof (size_goes0 e infos w0 w asset payer sysp (168 + sect_size l + room_for n) Ho Hp He Hs Hl Hz0 ltac:(unfold room_for; lia)) as RG. split.
    + intros (w3 & H3 & _). split; [|exact K]. intros _. split; [auto|]. apply RG. now exists w3.
    + intros [R _]. destruct (proj2 RG (proj2 (R eq_refl))) as [w3 H3]. exists w3. split; [exact H3|].
      assert (H3' : update_room e (passed infos) w0 w asset payer sysp (168 + sect_size l) None n = Ok w3) by (unfold update_room; cbv zeta; unfold EXT_LEN; rewrite E; exact H3).
      specialize (ZW w3 H3'). pose proof (update_room_new _ _ _ _ _ _ _ _ _ _ _ _ HL ltac:(apply Hx) H3') as (B0 & D3 & ZB & F3 & O3).
      apply (finish_goes e infos w3 asset buffer t hd l B0 (168 + sect_size l) []); auto; try (cbn [sect_size length]; lia).
      * split; [rewrite O3; apply Ho|apply Ho].
      * cbn [enc_sect]. rewrite app_nil_r. exact D3.
      * exact (BUF w3 F3).
Qed.

Lemma update_ext_goes_t e infos w0 w asset auth payer sysp x hd l tl : layout (data (w asset)) hd l tl -> x_type x <> XNone -> 0 <= x_length x <= 2000000000 ->
  ours e infos w asset -> env_ok e -> e_prog e <> pk_zero -> sized w -> lam_ok w -> zlen (data (w0 asset)) = zlen (data (w asset)) ->
  e_heap_al e mod 8 = 0 -> (length l < e_fuel e)%nat ->
  goes (update_ext e (passed infos) w0 w asset auth None payer sysp (Some x)) <->
  source_ok x (lookup (x_type x) (ext_list l)) /\ room_cond e infos w asset payer sysp (data (w asset)) l tl (x_type x) (x_length x).
Proof.
  intros HL Ht Hx Ho He Hp Hs Hl Hz0 Hal Hfuel. unfold update_ext. cbn [update_type bind].
  pose proof (find_layout_t _ _ _ _ _ HL Ht) as FG.
  assert (FR : room_cond e infos w asset payer sysp (data (w asset)) l tl (x_type x) (x_length x) -> loc (x_type x) 168 l = None -> tl = [] \/ 16 <= zlen tl).
  { intros [Q _] E. apply Q. now apply (absent_loc (x_type x) l 168). }
  rewrite goes_bind.
  pose proof (source_goes_t e infos w asset auth x hd l tl HL Hal) as SG. cbv zeta in SG.
  split.
  - intros ([off found] & Hf & H). assert (Fd : loc (x_type x) 168 l = None -> tl = [] \/ 16 <= zlen tl) by (apply FG; eexists; exact Hf).
    destruct (update_find_layout _ _ _ _ _ _ HL Ht Hf) as [Er _]. rewrite <- Er in SG. cbn [fst snd] in SG. destruct SG as [SG SR].
    apply goes_bind in H as (y & Hy & H). destruct (SR y Hy) as (o & -> & Hbs). split; [apply SG; eexists; exact Hy|].
    now apply (room_finish_t e infos w0 w asset payer sysp (x_type x) hd l tl (x_length x) None off found o HL Hx Er Fd Ho He Hp Hs Hl Hz0 Hfuel).
  - intros [S1 S2]. pose proof (FR S2) as Fd. destruct (proj2 FG Fd) as [[off found] Hf]. exists (off, found). split; [exact Hf|].
    destruct (update_find_layout _ _ _ _ _ _ HL Ht Hf) as [Er _]. rewrite <- Er in SG. cbn [fst snd] in SG. destruct SG as [SG SR].
    apply SG in S1 as [y Hy]. rewrite Hy. cbn [bind]. destruct (SR y Hy) as (o & -> & Hbs).
    now apply (room_finish_t e infos w0 w asset payer sysp (x_type x) hd l tl (x_length x) None off found o HL Hx Er Fd Ho He Hp Hs Hl Hz0 Hfuel).
Qed.
Lemma buffer_ext_goes_t e infos w0 w asset auth payer sysp bk hb bb lb tb hd l tl : layout (data (w asset)) hd l tl -> layout (data (w bk)) hb (bb :: lb) tb ->
  bk <> asset -> writable infos bk -> acct_owner (w asset) = e_prog e ->
  ours e infos w asset -> env_ok e -> e_prog e <> pk_zero -> sized w -> lam_ok w -> zlen (data (w0 asset)) = zlen (data (w asset)) -> (length l < e_fuel e)%nat ->
  goes (update_ext e (passed infos) w0 w asset auth (Some bk) payer sysp None) <->
  acct_owner (w bk) = e_prog e /\ s_disc (data (w bk)) = x00 /\
  fits (bk_type bb) (lookup (bk_type bb) (ext_list l)) (sub (data (w bk)) 168 (length (bk_data bb))) /\
  room_cond e infos w asset payer sysp (data (w asset)) l tl (bk_type bb) (zlen (bk_data bb)).
Proof.
  intros HL HB Nb Wb Ow Ho He Hp Hs Hl Hz0 Hfuel. unfold update_ext, update_type.
  destruct (first_at _ _ _ _ _ HB) as [FE ZB]. set (bd := data (w bk)) in *. set (t := bk_type bb) in *. set (n := zlen (bk_data bb)) in *.
  assert (Ht : t <> XNone) by (destruct HB as (_ & _ & Hf & _); apply Forall_cons_iff in Hf as [(Q & _) _]; exact Q).
  assert (Bk : blk_ok bb) by (destruct HB as (_ & _ & Hf & _); now apply Forall_cons_iff in Hf as [Q _]).
  assert (Hn : 0 <= n <= 2000000000). { unfold n. pose proof (zlen_nonneg (bk_data bb)). pose proof (zlen_nonneg (bk_pad bb)). unfold blk_size in ZB. specialize (Hs bk). fold bd in Hs. lia. }
  assert (Hfit : 184 + n <= zlen bd) by (unfold n, blk_size in *; pose proof (zlen_nonneg (bk_pad bb)); lia).
  cbv zeta. fold bd. rewrite FE. cbn [bind h_type]. fold t. rewrite ext_of_code_code. cbn [ok_or].
  rewrite goes_bind. 
  assert (TY : forall t0, require (owned_by_prog e w bk) EIllegalOwner (require (negb (pk_eqb bk asset)) EAccountBorrowFailed
      (require (ASSET_LEN + EXT_LEN <=? zlen bd) EInvalidAccountLength (require (beqb (byte_at bd 0) DISC_UNINIT) EAlreadyInitialized (Ok t)))) = Ok t0 <->
      acct_owner (w bk) = e_prog e /\ s_disc bd = x00 /\ t0 = t).
  { intro t0. split.
    - intro H. apply require_ok in H as [H1 H]. apply require_ok in H as [_ H]. apply require_ok in H as [_ H]. apply require_ok in H as [H4 H]. apply Ok_inj in H. apply owned_spec in H1. apply beqb_eq in H4. auto.
    - intros (H1 & H2 & ->). apply owned_spec in H1. rewrite H1. replace (pk_eqb bk asset) with false by (symmetry; apply not_true_iff_false; intro Q; apply pk_eqb_eq in Q; contradiction).
      change (ASSET_LEN + EXT_LEN) with 184. replace (184 <=? zlen bd) with true by lia. change (byte_at bd 0) with (s_disc bd). rewrite H2. reflexivity. }
  pose proof (find_layout_t _ _ _ _ _ HL Ht) as FG.
  assert (FR : room_cond e infos w asset payer sysp (data (w asset)) l tl t n -> loc t 168 l = None -> tl = [] \/ 16 <= zlen tl).
  { intros [Q _] E. apply Q. now apply (absent_loc t l 168). }
  assert (FD : forall (P Q : Prop), (P -> (loc t 168 l = None -> tl = [] \/ 16 <= zlen tl)) -> (Q -> (loc t 168 l = None -> tl = [] \/ 16 <= zlen tl)) ->
     ((loc t 168 l = None -> tl = [] \/ 16 <= zlen tl) -> (P <-> Q)) -> (P <-> Q)) by (intros; tauto).
  apply FD; clear FD.
  { intros (t0 & Hty & H). apply TY in Hty as (_ & _ & ->). apply goes_bind in H as (f & Hf & _). apply FG. now exists f. }
  { intros (_ & _ & _ & Q). now apply FR. }
  intro Fd. clear FR. destruct (proj2 FG Fd) as [[off found] Hf].
  destruct (update_find_layout _ _ _ _ _ _ HL Ht Hf) as [Er _].
  destruct (find_cur_t _ _ _ _ t HL) as (q & Hq & Eq & Aq). rewrite <- Er in Hq. cbn [fst snd] in Hq.
  assert (SRC : acct_owner (w bk) = e_prog e -> (goes (update_source e (passed infos) w asset auth (Some bk) None t off found) <-> fits t (lookup t (ext_list l)) (sub bd 168 (length (bk_data bb)))) /\
     (forall y, update_source e (passed infos) w asset auth (Some bk) None t off found = Ok y -> exists w2 inp, y = (n, None, w2) /\ set_data e (passed infos) w bk (put bd 168 inp) = Ok w2 /\ zlen inp = n)).
  { intro Ob. unfold update_source. cbv zeta. fold bd. unfold EXT_LEN. rewrite FE, Hq. cbn [bind h_type h_bnd h_len]. fold t n.
    replace (ext_code t =? ext_code t) with true by lia. replace (168 + blk_size bb <=? zlen bd) with true by lia. cbn [require]. unfold ASSET_LEN.
    assert (Esl : slice bd 168 (168 + n) = Ok (sub bd 168 (length (bk_data bb)))).
    { unfold slice. replace ((0 <=? 168) && (168 <=? 168 + n) && (168 + n <=? zlen bd)) with true by lia. cbn [guard]. f_equal. rewrite sub_fld. f_equal. unfold n, zlen. lia. }
    rewrite Esl. cbn [bind]. pose proof (validate_goes t 168 (sub bd 168 (length (bk_data bb))) q (pk_bytes auth) eq_refl Aq) as V. rewrite Eq in V.
    assert (LI : forall inp, validate t 168 (sub bd 168 (length (bk_data bb))) q (pk_bytes auth) = Ok inp -> zlen inp = n).
    { intros inp Hv. apply validate_stored, stored_len in Hv. rewrite sub_fld in Hv. apply (f_equal Z.of_nat) in Hv. change (Z.of_nat (length inp)) with (zlen inp) in Hv. rewrite Hv.
      match goal with |- Z.of_nat (length ?x) = _ => change (zlen x = n) end. rewrite zlen_fld; unfold n, zlen in *; lia. }
    split.
    - rewrite goes_bind. split; [intros (inp & Hv & _); apply V; now exists inp|]. intro Q. apply V in Q as [inp Hv]. exists inp. split; [exact Hv|].
      specialize (LI inp Hv). destruct (goes_set e infos w bk (put bd 168 inp)) as [w2 H2]; [split; assumption|rewrite zlen_put by lia; apply Hs|]. rewrite H2. apply goes_ok.
    - intros y Hy. apply bind_ok in Hy as (inp & Hv & Hy). apply bind_ok in Hy as (w2 & H2 & Hy). apply Ok_inj in Hy. exists w2, inp. auto. }
  assert (AFTER : forall w2 inp, acct_owner (w bk) = e_prog e -> set_data e (passed infos) w bk (put bd 168 inp) = Ok w2 -> zlen inp = n ->
     goes (w3 <- update_room e (passed infos) w0 w2 asset payer sysp off found n ;; update_finish e (passed infos) w3 asset (Some bk) t off found n None) <->
     room_cond e infos w asset payer sysp (data (w asset)) l tl t n).
  { intros w2 inp Ob H2 Zi. pose proof H2 as S2. apply set_data_only in S2 as [(P1 & P2 & P3) D2].
    assert (Na : asset <> bk) by congruence. rewrite <- (P1 asset Na) in *.
    assert (L2 : forall k, lamports (w2 k) = lamports (w k)) by (intro k; destruct (pk_dec k bk) as [->|N]; [exact P2|now rewrite P1]).
    assert (S2 : sized w2) by (eapply psteps_sized; [eapply set_data_psteps; exact H2|assumption]).
    assert (Hl2 : lam_ok w2) by (intro k; rewrite L2; apply Hl).
    assert (Ho2 : ours e infos w2 asset) by (split; [exact Ow|apply Ho]).
    rewrite (room_finish_t e infos w0 w2 asset payer sysp t hd l tl n (Some bk) off found None HL Hn Er Fd Ho2 He Hp S2 Hl2 Hz0 Hfuel).
    2:{ intros _. split; [exact Nb|]. rewrite D2, zlen_put; lia. }
    assert (SS : forall size, can_size e infos w2 asset payer sysp size <-> can_size e infos w asset payer sysp size).
    { intro size. apply size_same; [exact L2|now rewrite P1|..].
      - intro p. destruct (pk_dec p bk) as [->|N]; [exact P3|now rewrite P1].
      - intros p Hz. rewrite P1; [reflexivity|]. intros ->. congruence. }
    unfold room_cond. rewrite SS. split; intros [Q1 Q2]; (split; [exact Q1|]); intros l1 b l2 E1 E2 E3; destruct (Q2 l1 b l2 E1 E2 E3) as [R1 R2]; (split; [|exact R2]); intro N; apply SS; auto. }
  split.
  - intros (t0 & Hty & H). apply TY in Hty as (Ob & Di & ->). rewrite Hf in H. cbn [bind] in H. split; [exact Ob|]. split; [exact Di|].
    destruct (SRC Ob) as [SG SR]. apply goes_bind in H as (y & Hy & H). destruct (SR y Hy) as (w2 & inp & -> & H2 & Zi). split; [apply SG; eexists; exact Hy|]. now apply (AFTER w2 inp).
  - intros (Ob & Di & Hfi & Hsz). exists t. split; [apply TY; auto|]. rewrite Hf. cbn [bind]. destruct (SRC Ob) as [SG SR]. apply SG in Hfi as [y Hy]. destruct (SR y Hy) as (w2 & inp & -> & H2 & Zi). rewrite Hy. cbn [bind]. now apply (AFTER w2 inp).
Qed.

Section UpdateT.
Variables (e : env) (infos : list ainfo) (w : world) (asset auth : pubkey) (ob og payer sysp : option pubkey) (hd : bytes) (l : list blk) (tl : bytes) (a : update_input).
Hypotheses (R : ready e infos w asset) (A1 : arg infos 1 auth) (O2 : optional e infos 2 ob) (O3 : optional e infos 3 og) (O4 : optional e infos 4 payer) (O5 : optional e infos 5 sysp)
  (HL : layout (data (w asset)) hd l tl) (Hl : lam_ok w) (He : env_ok e) (Hp : e_prog e <> pk_zero) (Hal : e_heap_al e mod 8 = 0) (Hfuel : (length l < e_fuel e)%nat).
Lemma head_len_t : zlen (upd_head a (data (w asset))) = zlen (data (w asset)).
Proof. pose proof (layout_len _ _ _ _ (upd_head_layout a _ _ _ _ HL)) as Z1. pose proof (layout_len _ _ _ _ HL) as Z2. lia. Qed.
Lemma update_start_t (P : Prop) :
  (forall w1, set_data e (passed infos) w asset (upd_head a (data (w asset))) = Ok w1 ->
     goes (match u_ext a, ob with
       | None, None => Ok w1
       | Some _, Some _ => Err EInvalidInstructionData
       | _, _ => update_ext e (passed infos) w w1 asset auth ob payer sysp (u_ext a)
       end) <-> P) ->
  (exists w', process e infos w (IUpdate a) = Ok w') <-> gate infos w asset /\ in_charge infos w asset auth /\ P.
Proof.
  intro H. rewrite (gate_exact _ _ _ _ _ R). pose proof R as (A0 & Ho & Hi & Hw & _ & Hs).
  change (blocked_when_locked (IUpdate a) = true -> none_locked e infos w) with (false = true -> none_locked e infos w).
  match goal with |- _ /\ _ /\ ?q <-> _ => change q with (goes (dispatch e (passed infos) w (IUpdate a))) end.
  cbn [dispatch]. unfold process_update. rewrite (optional_acct _ _ _ _ O2), (optional_acct _ _ _ _ O3), (optional_acct _ _ _ _ O4), (optional_acct _ _ _ _ O5). args. cbn [bind].
  rewrite !goes_require, signer_spec, owned_spec. cbv zeta. rewrite check_goes. fold (upd_head a (data (w asset))).
  destruct (goes_set e infos w asset (upd_head a (data (w asset)))) as [w1 H1]; [split; assumption|rewrite head_len_t; apply Hs|].
  rewrite H1. cbn [bind]. rewrite (H w1 H1). unfold in_charge. intuition discriminate.
Qed.
Lemma after_head_t w1 : set_data e (passed infos) w asset (upd_head a (data (w asset))) = Ok w1 ->
  layout (data (w1 asset)) (upd_head a hd) l tl /\ ours e infos w1 asset /\ sized w1 /\ lam_ok w1 /\ zlen (data (w1 asset)) = zlen (data (w asset)) /\
  (forall k, k <> asset -> w1 k = w k).
Proof.
  intro H1. pose proof R as (A0 & Ho & Hi & Hw & _ & Hs). pose proof H1 as S. apply set_data_only in S as [(P1 & P2 & P3) D].
  split; [rewrite D; now apply upd_head_layout|]. split; [split; [congruence|exact Hw]|]. split; [eapply psteps_sized; [eapply set_data_psteps; exact H1|assumption]|].
  split; [intro k; destruct (pk_dec k asset) as [->|N]; [rewrite P2; apply Hl|rewrite (P1 k N); apply Hl]|]. split; [rewrite D; apply head_len_t|exact P1].
Qed.

Lemma room_cond_retitled w1 t n : set_data e (passed infos) w asset (upd_head a (data (w asset))) = Ok w1 ->
  room_cond e infos w1 asset payer sysp (data (w1 asset)) l tl t n <-> room_ok e infos w asset payer sysp a l tl t n.
Proof.
  intro H1. pose proof R as (_ & Ho & _). pose proof H1 as S. apply set_data_only in S as [_ D]. rewrite D, head_retitled.
  assert (SS : forall size, can_size e infos w1 asset payer sysp size <-> can_size e infos w asset payer sysp size) by (intro size; apply (set_same_size _ _ _ _ _ _ payer sysp _ Hp Ho H1 head_len_t)).
  unfold room_cond, room_ok. rewrite SS. split; intros [Q1 Q2]; (split; [exact Q1|]); intros l1 b l2 E1 E2 E3; destruct (Q2 l1 b l2 E1 E2 E3) as [R1 R2]; (split; [|exact R2]); intro N; apply SS; auto.
Qed.
Lemma update_head_t : u_ext a = None -> ob = None ->
  (exists w', process e infos w (IUpdate a) = Ok w') <-> gate infos w asset /\ in_charge infos w asset auth.
Proof.
  intros Ex Eb. rewrite (update_start_t True); [tauto|]. intros w1 _. rewrite Ex, Eb. split; [auto|intros _; apply goes_ok].
Qed.
Lemma update_any x : u_ext a = Some x -> ob = None -> x_type x <> XNone -> 0 <= x_length x <= 2000000000 ->
  (exists w', process e infos w (IUpdate a) = Ok w') <->
  gate infos w asset /\ in_charge infos w asset auth /\
  match x_data x with
  | None => x_length x = 0
  | Some bs => zlen bs = x_length x /\ fits (x_type x) (lookup (x_type x) (ext_list l)) bs
  end /\
  room_ok e infos w asset payer sysp a l tl (x_type x) (x_length x).
Proof.
  intros Ex Eb Ht Hx. apply update_start_t. intros w1 H1. rewrite Ex, Eb.
  destruct (after_head_t w1 H1) as (L1 & Ow & S1 & La & Z1 & _).
  rewrite (update_ext_goes_t e infos w w1 asset auth payer sysp x (upd_head a hd) l tl L1 Ht Hx Ow He Hp S1 La (eq_sym Z1) Hal Hfuel).
  unfold source_ok. now rewrite (room_cond_retitled w1 _ _ H1).
Qed.
Lemma update_both_t x bk : u_ext a = Some x -> ob = Some bk -> ~ exists w', process e infos w (IUpdate a) = Ok w'.
Proof.
  intros Ex Eb. rewrite (update_start_t False); [tauto|]. intros w1 _. rewrite Ex, Eb. split; [intro Q; elim (goes_err _ Q)|intros []].
Qed.
Lemma update_buffer_any bk hb bb lb tb : u_ext a = None -> ob = Some bk -> bk <> asset -> writable infos bk -> layout (data (w bk)) hb (bb :: lb) tb ->
  (exists w', process e infos w (IUpdate a) = Ok w') <->
  gate infos w asset /\ in_charge infos w asset auth /\
  acct_owner (w bk) = e_prog e /\ s_disc (data (w bk)) = x00 /\
  fits (bk_type bb) (lookup (bk_type bb) (ext_list l)) (sub (data (w bk)) 168 (length (bk_data bb))) /\
  room_ok e infos w asset payer sysp a l tl (bk_type bb) (zlen (bk_data bb)).
Proof.
  intros Ex Eb Nb Wb HB. apply update_start_t. intros w1 H1. rewrite Ex, Eb.
  destruct (after_head_t w1 H1) as (L1 & Ow & S1 & La & Z1 & P1). pose proof (P1 bk Nb) as Eb1. rewrite <- Eb1 in HB |- *.
  rewrite (buffer_ext_goes_t e infos w w1 asset auth payer sysp bk hb bb lb tb (upd_head a hd) l tl L1 HB Nb Wb (proj1 Ow) Ow He Hp S1 La (eq_sym Z1) Hfuel).
  now rewrite (room_cond_retitled w1 _ _ H1).
Qed.
End UpdateT.

(** ** What the walk after the extensions reads *)
Lemma retitled_reads a d o : 168 <= zlen d -> 0 <= o -> o = 8 \/ 168 <= o -> zlen (retitled a d) = zlen d /\ le32 (retitled a d) o = le32 d o.
Proof.
  intros Hd Ho0 Ho. rewrite <- head_retitled. unfold upd_head. cbv zeta. rewrite !le32_fld.
  assert (P : forall d0 p bs, zlen d0 = zlen d -> 0 <= p -> p + zlen bs <= zlen d0 -> o + 4 <= p \/ p + zlen bs <= o -> zlen (put d0 p bs) = zlen d /\ fld (put d0 p bs) o 4 = fld d0 o 4).
  { intros d0 p bs E H1 H2 H3. split; [rewrite zlen_put; lia|]. apply fld_put_other; lia. }
  assert (N : forall n, zlen (pod_str35 n) = 35) by (intro n; apply zlen_pod).
  destruct (u_name a) as [nm|]; destruct (u_mutable a) as [mb|]; auto.
  - destruct (P d 133 (pod_str35 nm) eq_refl ltac:(lia) ltac:(rewrite N; lia) ltac:(rewrite N; lia)) as [Q1 Q2].
    destruct (P (put d 133 (pod_str35 nm)) 3 [bool_byte mb] Q1 ltac:(lia) ltac:(rewrite Q1; change (zlen [bool_byte mb]) with 1; lia) ltac:(change (zlen [bool_byte mb]) with 1; lia)) as [Q3 Q4].
    split; [exact Q3|]. now rewrite Q4, Q2.
  - destruct (P d 133 (pod_str35 nm) eq_refl ltac:(lia) ltac:(rewrite N; lia) ltac:(rewrite N; lia)) as [Q1 Q2]. split; [exact Q1|]. now rewrite Q2.
  - destruct (P d 3 [bool_byte mb] eq_refl ltac:(lia) ltac:(change (zlen [bool_byte mb]) with 1; lia) ltac:(change (zlen [bool_byte mb]) with 1; lia)) as [Q3 Q4]. split; [exact Q3|]. now rewrite Q4.
Qed.
Lemma tail_reads a d hd l1 b l2 tl n : layout d hd (l1 ++ b :: l2) tl ->
  let d' := over (retitled a d) (Z.to_nat (168 + sect_size l1 + 4)) (le_enc 4 n) in
  zlen d' = zlen d /\ le32 d' 8 = owner_word d /\ le32 d' (168 + sect_size (l1 ++ b :: l2) + 8) = le32 tl 8.
Proof.
  intros HL d'. pose proof (layout_len _ _ _ _ HL) as Z. pose proof (zlen_nonneg tl). pose proof (sect_size_nonneg l1). pose proof (sect_size_nonneg l2). pose proof (blk_size_pos b).
  assert (ES : sect_size (l1 ++ b :: l2) = sect_size l1 + blk_size b + sect_size l2) by (rewrite sect_size_app; cbn [sect_size]; lia). rewrite ES in *.
  change d' with (put (retitled a d) (168 + sect_size l1 + 4) (le_enc 4 n)).
  destruct (retitled_reads a d 8 ltac:(lia) ltac:(lia) ltac:(lia)) as [Z1 R1].
  destruct (retitled_reads a d (168 + (sect_size l1 + blk_size b + sect_size l2) + 8) ltac:(lia) ltac:(lia) ltac:(lia)) as [_ R2].
  split; [rewrite zlen_put; [exact Z1|lia|rewrite le_enc_zlen; lia]|]. split.
  - rewrite le32_fld, fld_put_other by (rewrite ?le_enc_zlen; lia). rewrite <- le32_fld, R1. unfold owner_word, s_owner. rewrite !sub_fld, fld_fld by lia. reflexivity.
  - rewrite le32_fld, fld_put_other by (rewrite ?le_enc_zlen; lia). rewrite <- le32_fld, R2. destruct (layout_prefix _ _ _ _ HL) as [E1 E2]. rewrite le32_fld. rewrite E1 at 1. rewrite ES in E2. rewrite fld_app_r by lia. rewrite le32_fld. f_equal. f_equal. lia.
Qed.
Lemma found_split t l cur : lookup t (ext_list l) = Some cur -> exists l1 b l2, l = l1 ++ b :: l2 /\ bk_type b = t /\ lookup t (ext_list l1) = None /\ bk_data b = cur.
Proof.
  intro H. rewrite (loc_lookup t l 0) in H. destruct (loc t 0 l) as [[c b]|] eqn:El; [|discriminate H]. cbn [option_map snd] in H. apply some_inj in H.
  apply loc_some in El as (l1 & l2 & -> & _ & Tb & Hfa). exists l1, b, l2. split; [reflexivity|]. split; [exact Tb|]. split; [|exact H].
  apply (absent_loc t l1 0). destruct (loc t 0 l1) as [[c' b']|] eqn:Q1; [|reflexivity]. exfalso.
  apply loc_some in Q1 as (y1 & y2 & -> & _ & Q1 & _). rewrite Forall_app, Forall_cons_iff in Hfa. tauto.
Qed.
(** one to fifteen bytes after the extensions *)
Lemma short_tail_no_room e infos w asset payer sysp a hd l tl t n : layout (data (w asset)) hd l tl -> 0 < zlen tl < 16 ->
  (forall cur, lookup t (ext_list l) = Some cur -> room_for (zlen cur) = room_for n) -> ~ room_ok e infos w asset payer sysp a l tl t n.
Proof.
  intros HL Hz Hr [H1 H2]. destruct (lookup t (ext_list l)) as [cur|] eqn:El.
  - destruct (found_split _ _ _ El) as (l1 & b & l2 & -> & Tb & Ab & Db). destruct (H2 l1 b l2 eq_refl Tb Ab) as [_ Q]. rewrite Db in Q. specialize (Q (Hr cur eq_refl)).
    destruct (tail_reads a _ _ _ _ _ _ n HL) as (Z1 & _ & _). pose proof (layout_len _ _ _ _ HL) as Z2. inversion Q as [? ? Q1|? ? Q1 Q2 Q3 Q4]; lia.
  - destruct (H1 eq_refl) as [[->|Q] _]; [change (zlen []) with 0 in Hz|]; lia.
Qed.
(** a zero boundary after the extensions leads to the account's first bytes *)
Lemma zero_tail_loops e infos w asset payer sysp a hd l tl t n cur : layout (data (w asset)) hd l tl -> 16 <= zlen tl -> le32 tl 8 = 0 ->
  lookup t (ext_list l) = Some cur -> room_for (zlen cur) = room_for n -> owner_word (data (w asset)) = 0 -> ~ room_ok e infos w asset payer sysp a l tl t n.
Proof.
  intros HL Hz Ht El Hr Hw [_ H2]. destruct (found_split _ _ _ El) as (l1 & b & l2 & -> & Tb & Ab & Db). destruct (H2 l1 b l2 eq_refl Tb Ab) as [_ Q]. rewrite Db in Q. specialize (Q Hr).
  destruct (tail_reads a _ _ _ _ _ _ n HL) as (Z1 & R1 & R2). pose proof (layout_len _ _ _ _ HL) as Z2. rewrite Hw in R1. rewrite Ht in R2.
  set (d' := over _ _ _) in *. pose proof (sect_size_nonneg (l1 ++ b :: l2)).
  assert (L : forall k, ~ ends d' k 0). { induction k as [|k IH]; intro Q0; inversion Q0 as [? ? Q1|? ? Q1 Q2 Q3 Q4]; subst; [lia|]. rewrite Z.add_0_l, R1 in Q4. now apply IH. }
  inversion Q as [? ? Q1|? ? Q1 Q2 Q3 Q4]; subst; [lia|]. rewrite R2 in Q4. now apply L in Q4.
Qed.
Lemma zero_tail_ends e infos w asset payer sysp a hd l tl t n cur : layout (data (w asset)) hd l tl -> 16 <= zlen tl -> le32 tl 8 = 0 ->
  lookup t (ext_list l) = Some cur -> room_for (zlen cur) = room_for n -> zlen (data (w asset)) <= owner_word (data (w asset)) -> (length l + 2 < e_fuel e)%nat ->
  room_ok e infos w asset payer sysp a l tl t n.
Proof.
  intros HL Hz Ht El Hr Hw Hfu. split; [congruence|]. intros l1 b l2 -> Tb Ab.
  assert (Db : bk_data b = cur).
  { destruct (found_split _ _ _ El) as (l1' & b' & l2' & E' & Tb' & Ab' & <-). apply (absent_loc t l1 0), loc_none in Ab. apply (absent_loc t l1' 0), loc_none in Ab'.
    now destruct (split_uniq t _ _ _ _ _ _ E' Ab Ab' Tb Tb') as (_ & -> & _). }
  rewrite Db. split; [contradiction|]. intros _.
  destruct (tail_reads a _ _ _ _ _ _ n HL) as (Z1 & R1 & R2). pose proof (layout_len _ _ _ _ HL) as Z2. rewrite Ht in R2. set (d' := over _ _ _) in *. pose proof (sect_size_nonneg (l1 ++ b :: l2)) as S0.
  assert (HM : sect_size (l1 ++ b :: l2) mod 8 = 0) by (destruct HL as (_ & _ & Hf & _); now apply sect_size_mod).
  rewrite app_length in Hfu. cbn [length] in Hfu. destruct (e_fuel e - length l2)%nat as [|[|[|k]]] eqn:Ek; try lia.
  apply ends_hop; [lia|lia|lia|]. rewrite R2. apply ends_hop; [lia|lia|reflexivity|]. change (0 + 8) with 8. rewrite R1. apply ends_out. lia.
Qed.

(** ** Updates that cannot succeed *)
Section NoUpdate.
Variables (e : env) (infos : list ainfo) (w : world) (asset auth : pubkey) (ob og payer sysp : option pubkey) (hd : bytes) (l : list blk) (tl : bytes) (a : update_input).
Hypotheses (R : ready e infos w asset) (A1 : arg infos 1 auth) (O2 : optional e infos 2 ob) (O3 : optional e infos 3 og) (O4 : optional e infos 4 payer) (O5 : optional e infos 5 sysp)
  (HL : layout (data (w asset)) hd l tl) (Hl : lam_ok w) (He : env_ok e) (Hp : e_prog e <> pk_zero) (Hal : e_heap_al e mod 8 = 0) (Hfuel : (length l < e_fuel e)%nat).
Lemma short_tail_stuck x : u_ext a = Some x -> ob = None -> x_type x <> XNone -> 0 <= x_length x <= 2000000000 -> 0 < zlen tl < 16 ->
  (forall cur, lookup (x_type x) (ext_list l) = Some cur -> room_for (zlen cur) = room_for (x_length x)) -> ~ exists w', process e infos w (IUpdate a) = Ok w'.
Proof.
  intros Ex Eb Ht Hx Hz Hr H. apply (update_any e infos w asset auth ob og payer sysp hd l tl a R A1 O2 O3 O4 O5 HL Hl He Hp Hal Hfuel x Ex Eb Ht Hx) in H as (_ & _ & _ & H).
  exact (short_tail_no_room _ _ _ _ _ _ _ _ _ _ _ _ HL Hz Hr H).
Qed.
Lemma zero_tail_stuck x cur : u_ext a = Some x -> ob = None -> x_type x <> XNone -> 0 <= x_length x <= 2000000000 -> 16 <= zlen tl -> le32 tl 8 = 0 ->
  lookup (x_type x) (ext_list l) = Some cur -> room_for (zlen cur) = room_for (x_length x) -> owner_word (data (w asset)) = 0 -> ~ exists w', process e infos w (IUpdate a) = Ok w'.
Proof.
  intros Ex Eb Ht Hx Hz Hr Hc Hs Hw H. apply (update_any e infos w asset auth ob og payer sysp hd l tl a R A1 O2 O3 O4 O5 HL Hl He Hp Hal Hfuel x Ex Eb Ht Hx) in H as (_ & _ & _ & H).
  exact (zero_tail_loops _ _ _ _ _ _ _ _ _ _ _ _ _ HL Hz Hr Hc Hs Hw H).
Qed.
Lemma zero_tail_fine x cur : u_ext a = Some x -> ob = None -> x_type x <> XNone -> 0 <= x_length x <= 2000000000 -> 16 <= zlen tl -> le32 tl 8 = 0 ->
  lookup (x_type x) (ext_list l) = Some cur -> room_for (zlen cur) = room_for (x_length x) -> zlen (data (w asset)) <= owner_word (data (w asset)) -> (length l + 2 < e_fuel e)%nat ->
  (exists w', process e infos w (IUpdate a) = Ok w') <->
  gate infos w asset /\ in_charge infos w asset auth /\
  match x_data x with
  | None => x_length x = 0
  | Some bs => zlen bs = x_length x /\ fits (x_type x) (Some cur) bs
  end.
Proof.
  intros Ex Eb Ht Hx Hz Hr Hc Hs Hw Hf. rewrite (update_any e infos w asset auth ob og payer sysp hd l tl a R A1 O2 O3 O4 O5 HL Hl He Hp Hal Hfuel x Ex Eb Ht Hx). rewrite Hc.
  pose proof (zero_tail_ends e infos w asset payer sysp a hd l tl _ _ cur HL Hz Hr Hc Hs Hw Hf). tauto.
Qed.
End NoUpdate.

(** Update: locating, resizing, moving the later extensions, fixing boundaries. *)
From Verif Require Import Base State Layout Constr Ext World Proc BaseL Spec SpecB WorldL ProcSteps LayoutL LayoutM LayoutE HeadL AllocL AllocM.
From Coq Require Import Strings.Byte.

(** [injection] would reduce the bytes *)
Lemma Ok_inj {A} (a b : A) : Ok a = Ok b -> a = b.
Proof. congruence. Qed.

(** ** The search *)
Lemma update_find_sect t tl (Htl : tail_ok tl) : t <> XNone -> forall l A fuel r, zlen A mod 8 = 0 -> Forall blk_ok l ->
  zlen A + sect_size l <= u32_max ->
  update_find fuel t (A ++ enc_sect (zlen A) l ++ tl) (zlen A) = Ok r ->
  r = match loc t (zlen A) l with
      | Some (c, b) => (c, Some (blk_hdr c b))
      | None => (zlen A + sect_size l, None)
      end /\ (loc t (zlen A) l = None -> tl = [] \/ 16 <= zlen tl).
Proof.
  intros Ht. induction l as [|b l IH]; intros A fuel r Hm Hl Hs H.
  - destruct fuel as [|f]; [discriminate H|]. cbn [enc_sect app update_find loc sect_size] in *. rewrite Z.add_0_r.
    rewrite zlen_app in H. destruct (zlen A <? zlen A + zlen tl) eqn:E.
    + apply bind_ok in H as (h & Hh & H). pose proof (load_hdr_ok _ _ _ Hh) as (_ & L2 & _). rewrite zlen_app in L2.
      destruct (tail_hdr A tl (zlen A) eq_refl Hm Htl) as [Q|[_ (h' & Q1 & Q2)]]; [unfold EXT_LEN in Q; rewrite zlen_app in Q; lia|].
      rewrite Q1 in Hh. injection Hh as <-. rewrite Q2 in H. rewrite Z.eqb_refl in H.
      destruct (0 =? ext_code t) eqn:E0; [exfalso; apply Ht; apply ext_code_0; lia|].
      injection H as <-. split; [reflexivity|]. intros _. right. lia.
    + injection H as <-. split; [reflexivity|]. intros _. left. apply zlen_0. pose proof (zlen_nonneg tl). lia.
  - apply Forall_cons_iff in Hl as [Hb Hl]. destruct fuel as [|f]; [discriminate H|]. cbn [sect_size] in *.
    cbn [enc_sect update_find loc] in *. rewrite <- app_assoc in H.
    pose proof (sect_size_nonneg l). pose proof (blk_size_mod b Hb). pose proof (blk_size_pos b).
    pose proof (zlen_nonneg tl).
    rewrite load_hdr_blk in H by (auto; lia).
    match type of H with (if ?q then _ else _) = _ => replace q with true in H
      by (rewrite !zlen_app, zlen_enc_blk, zlen_enc_sect by assumption; lia) end.
    cbn [bind h_type h_bnd] in H. unfold ext_type_eqb.
    destruct (ext_code (bk_type b) =? ext_code t) eqn:E; [injection H as <-; split; [reflexivity|discriminate]|].
    destruct (ext_code (bk_type b) =? 0) eqn:E0.
    { exfalso. apply (proj1 Hb). apply ext_code_0. lia. }
    assert (HA : zlen (A ++ enc_blk (zlen A) b) = zlen A + blk_size b)
      by (rewrite zlen_app, zlen_enc_blk by assumption; reflexivity).
    specialize (IH (A ++ enc_blk (zlen A) b) f). rewrite HA in IH.
    rewrite <- app_assoc in IH. apply IH in H; auto; try lia.
    rewrite Z.add_assoc. exact H.
Qed.
Lemma update_find_layout d hd l tl t r : layout d hd l tl -> t <> XNone ->
  update_find (walk_fuel d) t d ASSET_LEN = Ok r ->
  r = match loc t 168 l with
      | Some (c, b) => (c, Some (blk_hdr c b))
      | None => (168 + sect_size l, None)
      end /\ (loc t 168 l = None -> tl = [] \/ 16 <= zlen tl).
Proof.
  intros HL Ht H. pose proof (layout_u32 _ _ _ _ HL) as Hu. destruct HL as (-> & Hh & Hf & Htl & _).
  unfold ASSET_LEN in H. rewrite <- Hh in H, Hu |- *. eapply update_find_sect; eauto. rewrite Hh. reflexivity.
Qed.

(** ** The boundary loop *)
Lemma fix_zero : forall fuel d cur d', fix_boundaries fuel 0 d cur = Ok d' -> d' = d.
Proof.
  induction fuel as [|f IH]; intros d cur d' H; [discriminate|]. cbn [fix_boundaries] in H.
  destruct (cur <? zlen d); [|injection H as <-; reflexivity].
  apply bind_ok in H as (h & Hh & H). apply load_hdr_ok in Hh as (H1 & H2 & _ & ->). cbn [h_bnd] in H. cbv zeta in H.
  apply IH in H. rewrite H, le32_fld. pose proof (le_dec_range (fld d (cur + 8) 4)) as R. rewrite zlen_fld in R by lia.
  unfold sat_add_u32, u32_max. replace (Z.min _ _) with (le_dec (fld d (cur + 8) 4)) by (change (256 ^ 4) with 4294967296 in R; lia).
  assert (E : le_enc 4 (le_dec (fld d (cur + 8) 4)) = fld d (cur + 8) 4).
  { pose proof (le_enc_dec (fld d (cur + 8) 4)) as E. replace (length (fld d (cur + 8) 4)) with 4%nat in E; [exact E|].
    pose proof (zlen_fld d (cur + 8) 4 ltac:(lia) ltac:(lia) ltac:(lia)) as Q. unfold zlen in Q. lia. }
  rewrite E. apply put_same; lia.
Qed.

Lemma fix_sect delta tl : forall l A c fuel d', Forall blk_ok l -> 0 <= c -> zlen A = c + delta ->
  c + sect_size l <= u32_max -> zlen A + sect_size l <= u32_max ->
  fix_boundaries fuel delta (A ++ enc_sect c l ++ tl) (zlen A) = Ok d' ->
  exists fuel', fix_boundaries fuel' delta (A ++ enc_sect (zlen A) l ++ tl) (zlen A + sect_size l) = Ok d'.
Proof.
  induction l as [|b l IH]; intros A c fuel d' Hl Hc HA Hs1 Hs2 H.
  - exists fuel. cbn [enc_sect sect_size] in *. rewrite Z.add_0_r. exact H.
  - apply Forall_cons_iff in Hl as [Hb Hl]. destruct fuel as [|f]; [discriminate H|]. cbn [sect_size] in *.
    cbn [enc_sect fix_boundaries] in H. rewrite <- app_assoc in H.
    pose proof (sect_size_nonneg l). pose proof (blk_size_pos b). pose proof (zlen_nonneg tl). pose proof (zlen_nonneg A).
    match type of H with (if ?q then _ else _) = _ => replace q with true in H
      by (rewrite !zlen_app, zlen_enc_blk, zlen_enc_sect by assumption; lia) end.
    apply bind_ok in H as (h & Hh & H). apply load_hdr_ok in Hh as (_ & _ & _ & ->). cbn [h_bnd] in H. cbv zeta in H.
    assert (EB : le32 (A ++ enc_blk c b ++ enc_sect (c + blk_size b) l ++ tl) (zlen A + 8) = c + blk_size b).
    { rewrite le32_fld. unfold enc_blk. rewrite <- !app_assoc.
      rewrite (app_assoc A), (app_assoc (A ++ le_enc 4 (ext_code (bk_type b)))).
      rewrite fld_mid; [apply le_dec_enc4; lia| |].
      - rewrite !zlen_app, !le_enc_zlen. lia.
      - now rewrite le_enc_zlen. }
    rewrite EB in H. unfold sat_add_u32 in H. replace (Z.min u32_max (Z.max 0 (c + blk_size b + delta))) with (zlen A + blk_size b) in H by lia.
    assert (EP : put (A ++ enc_blk c b ++ enc_sect (c + blk_size b) l ++ tl) (zlen A + 8) (le_enc 4 (zlen A + blk_size b))
                 = (A ++ enc_blk (zlen A) b) ++ enc_sect (c + blk_size b) l ++ tl).
    { unfold enc_blk. rewrite <- !app_assoc.
      rewrite (app_assoc A), (app_assoc (A ++ le_enc 4 (ext_code (bk_type b)))).
      rewrite put_mid; [now rewrite <- !app_assoc| |].
      - rewrite !zlen_app, !le_enc_zlen. lia.
      - now rewrite !le_enc_zlen. }
    rewrite EP in H.
    assert (HA' : zlen (A ++ enc_blk (zlen A) b) = zlen A + blk_size b)
      by (rewrite zlen_app, zlen_enc_blk by assumption; reflexivity).
    rewrite <- HA' in H. apply IH in H; auto; try lia. destruct H as (f' & H). exists f'.
    rewrite HA' in H. cbn [enc_sect]. rewrite <- !app_assoc in *. rewrite Z.add_assoc. exact H.
Qed.

(** ** Making room *)
Lemma to_i32_small z : -2147483648 <= z < 2147483648 -> to_i32 z = z.
Proof. intro H. unfold to_i32, two32. rewrite Z.mod_small by lia. lia. Qed.

Lemma firstn_app_l {X} (A B : list X) n : 0 <= n <= zlen A -> firstn (Z.to_nat n) (A ++ B) = firstn (Z.to_nat n) A.
Proof.
  intro H. rewrite firstn_app. replace (Z.to_nat n - length A)%nat with 0%nat by (unfold zlen in H; lia).
  cbn [firstn]. apply app_nil_r.
Qed.
Lemma zlen_firstn {X} (A : list X) n : 0 <= n <= zlen A -> zlen (firstn (Z.to_nat n) A) = n.
Proof. intro. len. Qed.

(** shifting the bytes [S] towards the end *)
Lemma move_up P S X k : zlen X = k -> 0 < zlen S -> 
  exists M, zlen M = k /\ put (P ++ S ++ X) (zlen P + k) (fld (P ++ S ++ X) (zlen P) (zlen S)) = P ++ M ++ S.
Proof.
  intros HX HS. rewrite fld_mid by auto. exists (firstn (Z.to_nat k) (S ++ X)). pose proof (zlen_nonneg X).
  split; [apply zlen_firstn; rewrite zlen_app; lia|].
  rewrite put_end by (rewrite ?zlen_app; lia). rewrite put_as by (rewrite ?zlen_app; lia). do 2 f_equal.
  rewrite skipn_all2; [apply app_nil_r|]. len.
Qed.
(** ... and towards the front, cutting off what is left over *)
Lemma move_down A B S X k : 0 <= k <= zlen B ->
  firstn (Z.to_nat (zlen A + k + zlen S))
    (put (A ++ B ++ S ++ X) (zlen A + k) (fld (A ++ B ++ S ++ X) (zlen A + zlen B) (zlen S))) = A ++ firstn (Z.to_nat k) B ++ S.
Proof.
  intros Hk. pose proof (zlen_nonneg A). pose proof (zlen_nonneg S). pose proof (zlen_nonneg X). pose proof (zlen_nonneg B).
  rewrite (app_assoc A B). rewrite fld_mid by (rewrite ?zlen_app; lia). rewrite <- app_assoc.
  rewrite put_end by (rewrite ?zlen_app; lia). rewrite put_as by (rewrite ?zlen_app; lia).
  rewrite (firstn_app_l B) by lia.
  rewrite (app_assoc _ S), (app_assoc A).
  rewrite firstn_app_l by (rewrite !zlen_app, zlen_firstn by lia; lia).
  rewrite firstn_all2; [now rewrite <- ?app_assoc|]. len.
Qed.

Lemma update_room_found e infos w0 w asset payer sysp hd l1 b l2 tl n w' :
  layout (data (w asset)) hd (l1 ++ b :: l2) tl -> 0 <= n <= 2000000000 ->
  let c := 168 + sect_size l1 in
  let ub := pad8 (c + 16 + n) in
  update_room e infos w0 w asset payer sysp c (Some (blk_hdr c b)) n = Ok w' ->
  exists B0 tl', data (w' asset) = (hd ++ enc_sect 168 l1) ++ B0 ++ enc_sect (c + blk_size b) l2 ++ tl' /\
    zlen B0 = ub - c /\ (tl' = [] \/ (tl' = tl /\ ub = c + blk_size b)) /\
    (forall k, k <> asset -> data (w' k) = data (w k)) /\ (forall k, acct_owner (w' k) = acct_owner (w k)).
Proof.
  intros HL Hn c ub H.
  destruct (layout_at _ _ _ _ HL c l1 b l2 eq_refl eq_refl) as (A & Ed & HA & Hb & EA). rewrite <- EA.
  pose proof (layout_len _ _ _ _ HL) as Hlen. pose proof HL as (_ & Hh & Hf & Htl & Hz).
  apply Forall_app in Hf as [Hf1 Hf2]. apply Forall_cons_iff in Hf2 as [_ Hf2].
  rewrite sect_size_app in Hlen. cbn [sect_size] in Hlen.
  pose proof (sect_size_nonneg l1) as Hp1. pose proof (sect_size_nonneg l2) as Hp2. pose proof (blk_size_pos b) as Hpb. pose proof (zlen_nonneg tl) as Hpt.
  assert (Hcm : c mod 8 = 0) by (pose proof (sect_size_mod l1 Hf1); unfold c; lia).
  pose proof (zlen_enc_blk c b Hb) as Zb. pose proof (zlen_enc_sect l2 (c + blk_size b) Hf2) as Zs.
  unfold update_room in H. change EXT_LEN with 16 in H. fold ub in H. cbv zeta in H. cbn [blk_hdr h_len h_bnd] in H.
  pose proof (pad8_ge (c + 16 + n)) as Hpad. fold ub in Hpad.
  destruct (zlen (bk_data b) =? n) eqn:En.
  - injection H as <-. exists (enc_blk c b), tl. split; [exact Ed|].
    assert (U : ub = c + blk_size b) by (unfold ub; replace n with (zlen (bk_data b)) by lia; now apply blk_size_pad8).
    split; [lia|]. split; [right; auto|]. auto.
  - rewrite to_i32_small in H by (unfold blk_size, c in *; pose proof (zlen_nonneg (bk_data b)); pose proof (zlen_nonneg (bk_pad b)); lia).
    set (delta := ub - (c + blk_size b)) in *.
    apply bind_ok in H as (lo & Hlo & H). rewrite (layout_last _ _ _ _ HL) in Hlo. injection Hlo as Hlo.
    destruct lo as [[lh o]|]; [|discriminate H].
    assert (Eab : h_bnd lh = 168 + sect_size (l1 ++ b :: l2)).
    { destruct (list_last_case (l1 ++ b :: l2)) as [Q|(l' & b' & Q)]; [destruct l1; discriminate Q|].
      rewrite Q in *. rewrite last_blk_app in Hlo. unfold last_res, blk_hdr in Hlo. cbn [option_map fst snd] in Hlo.
      assert (E : h_bnd lh = 168 + sect_size l' + blk_size b') by (apply (f_equal (option_map (fun p => h_bnd (fst p)))) in Hlo; cbn [option_map fst h_bnd] in Hlo; congruence).
      rewrite E, sect_size_app. cbn [sect_size]. lia. }
    rewrite sect_size_app in Eab. cbn [sect_size] in Eab. rewrite Eab in H.
    replace (168 + (sect_size l1 + (blk_size b + sect_size l2)) - (c + blk_size b)) with (sect_size l2) in H by (unfold c; lia).
    replace (Z.max 0 (sect_size l2)) with (sect_size l2) in H by lia.
    set (RS := Z.max 0 (168 + (sect_size l1 + (blk_size b + sect_size l2)) + delta)) in *.
    assert (ERS : RS = ub + sect_size l2) by (unfold RS, delta, c in *; lia).
    apply bind_ok in H as (w1 & Hw1 & H). apply bind_ok in H as (d1 & Hd1 & H). apply bind_ok in H as (w2 & Hw2 & H).
    apply set_data_world in Hw2 as (D2 & F2 & O2).
    set (S2 := enc_sect (c + blk_size b) l2) in *.
    destruct (0 <? delta) eqn:Ed0.
    + (* growing *)
      replace (delta <? 0) with false in H by lia. injection H as <-.
      apply resize_data in Hw1 as (D1 & F1 & O1). rewrite D1 in Hd1. rewrite Ed in Hd1.
      assert (R : realloc_bytes (A ++ enc_blk c b ++ S2 ++ tl) RS = (A ++ enc_blk c b) ++ S2 ++ realloc_bytes tl delta).
      { rewrite !app_assoc. rewrite realloc_app by (rewrite !zlen_app; lia). rewrite <- !app_assoc. do 4 f_equal. rewrite !zlen_app. unfold delta in *. lia. }
      rewrite R in Hd1. assert (HX : zlen (realloc_bytes tl delta) = delta) by (apply zlen_realloc; lia).
      assert (HP : zlen (A ++ enc_blk c b) = c + blk_size b) by (rewrite zlen_app; lia).
      assert (EE : exists M, zlen M = delta /\ d1 = (A ++ enc_blk c b) ++ M ++ S2).
      { unfold memmove in Hd1. destruct (sect_size l2 =? 0) eqn:E0.
        - apply Ok_inj in Hd1; subst d1. exists (realloc_bytes tl delta). split; [assumption|].
          assert (Es : S2 = []) by (apply zlen_0; lia). rewrite Es. now rewrite app_nil_r.
        - match type of Hd1 with (if ?q then _ else _) = _ => destruct q; [|discriminate Hd1] end. apply Ok_inj in Hd1; subst d1.
          replace ub with (zlen (A ++ enc_blk c b) + delta) by (unfold delta in *; lia). rewrite <- HP.
          replace (sect_size l2) with (zlen S2) by lia. apply move_up; lia. }
      destruct EE as (M & HM & ->). exists (enc_blk c b ++ M), []. split; [rewrite D2; now rewrite app_nil_r, <- !app_assoc|].
      split; [rewrite zlen_app; unfold delta in *; lia|]. split; [now left|].
      split; [intros k Hk; rewrite F2, F1; auto|intro k; rewrite O2; apply O1].
    + injection Hw1 as <-. rewrite Ed in Hd1. destruct (delta <? 0) eqn:Ed1.
      * (* shrinking *)
        apply resize_data in H as (D3 & F3 & O3). rewrite D2 in D3.
        exists (firstn (Z.to_nat (ub - c)) (enc_blk c b)), []. 
        split.
        { rewrite D3. rewrite app_nil_r. assert (Hd : zlen d1 = zlen (data (w asset))).
          { unfold memmove in Hd1. destruct (sect_size l2 =? 0); [apply Ok_inj in Hd1; rewrite <- Hd1, Ed; reflexivity|].
            match type of Hd1 with (if ?q then _ else _) = _ => destruct q eqn:Q; [|discriminate Hd1] end. apply Ok_inj in Hd1; subst d1.
            bnorm. rewrite <- Ed in *. rewrite zlen_put; try lia. rewrite zlen_fld by lia. lia. }
          rewrite realloc_shrink by (unfold delta, c in *; lia). unfold memmove in Hd1.
          rewrite ERS. replace (ub + sect_size l2) with (zlen A + (ub - c) + zlen S2) by lia.
          destruct (sect_size l2 =? 0) eqn:E0.
          - apply Ok_inj in Hd1; subst d1. assert (Es : S2 = []) by (apply zlen_0; lia). rewrite Es. cbn [app].
            change (zlen []) with 0. rewrite Z.add_0_r, app_nil_r. rewrite app_assoc. rewrite firstn_app_l by (rewrite zlen_app; unfold delta, c in *; lia).
            rewrite firstn_app. rewrite firstn_all2 by (unfold zlen in *; lia). f_equal. f_equal. unfold zlen in *. lia.
          - match type of Hd1 with (if ?q then _ else _) = _ => destruct q eqn:Q; [|discriminate Hd1] end. apply Ok_inj in Hd1; subst d1.
            replace (sect_size l2) with (zlen S2) by lia. replace (c + blk_size b) with (zlen A + zlen (enc_blk c b)) by lia.
            replace ub with (zlen A + (ub - c)) at 2 by lia.
            apply move_down. unfold delta, c in *; lia. }
        split; [apply zlen_firstn; unfold delta, c in *; lia|]. split; [now left|].
        split; [intros k Hk; rewrite F3, F2; auto|intro k; rewrite O3; apply O2].
      * (* only the padding changes *)
        injection H as <-. assert (U : ub = c + blk_size b) by (unfold delta in *; lia).
        exists (enc_blk c b), tl. split.
        { rewrite D2. unfold memmove in Hd1. destruct (sect_size l2 =? 0); [congruence|].
          match type of Hd1 with (if ?q then _ else _) = _ => destruct q eqn:Q; [|discriminate Hd1] end. apply Ok_inj in Hd1; subst d1.
          bnorm. rewrite U. apply put_same; lia. }
        split; [lia|]. split; [right; auto|]. split; [intros k Hk; rewrite F2; auto|assumption].
Qed.

Lemma update_room_new e infos w0 w asset payer sysp hd l tl n w' :
  layout (data (w asset)) hd l tl -> 0 <= n ->
  let c := 168 + sect_size l in
  let ub := pad8 (c + 16 + n) in
  update_room e infos w0 w asset payer sysp c None n = Ok w' ->
  exists B0, data (w' asset) = (hd ++ enc_sect 168 l) ++ B0 /\ zlen B0 = ub - c /\
    (forall k, k <> asset -> data (w' k) = data (w k)) /\ (forall k, acct_owner (w' k) = acct_owner (w k)).
Proof.
  intros HL Hn c ub H. unfold update_room in H. change EXT_LEN with 16 in H. fold ub in H. cbv zeta in H.
  pose proof (pad8_ge (c + 16 + n)) as Hpad. fold ub in Hpad.
  apply resize_data in H as (D & F & O). destruct (layout_prefix _ _ _ _ HL) as [E1 E2]. rewrite E1 in D.
  rewrite realloc_app in D by (unfold c in *; lia). exists (realloc_bytes tl (ub - c)).
  split; [rewrite D; do 2 f_equal; unfold c; lia|]. split; [apply zlen_realloc; lia|]. auto.
Qed.

(** ** Header, boundaries, payload *)
Lemma put_block t n ub c B0 bs : 0 <= n -> zlen bs = n -> zlen B0 = ub - c -> ub = pad8 (c + 16 + n) -> c mod 8 = 0 -> t <> XNone ->
  let b' := mkBlk t bs (fld B0 12 4) (skipn (Z.to_nat (16 + n)) B0) in
  blk_ok b' /\ blk_size b' = ub - c /\
  put (put B0 0 (enc_hdr (ext_code t) n ub)) 16 bs = enc_blk c b'.
Proof.
  intros Hn Hb HB Hu Hc Ht b'. pose proof (pad8_ge (c + 16 + n)). pose proof (pad8_mod (c + 16 + n)). rewrite <- Hu in *.
  assert (Hp : zlen (skipn (Z.to_nat (16 + n)) B0) = ub - c - 16 - n) by len.
  assert (Hs : blk_size b' = ub - c) by (unfold blk_size, b'; cbn [bk_data bk_pad]; lia).
  assert (H4 : zlen (fld B0 12 4) = 4) by (apply zlen_fld; lia).
  split; [|split; [assumption|]].
  - unfold blk_ok, b'. cbn [bk_type bk_data bk_pad bk_unused]. split; [assumption|]. split; [unfold zlen in H4; lia|].
    rewrite Hp, Hb. split; [lia|]. lia.
  - unfold enc_blk. rewrite Hs. unfold b'. cbn [bk_type bk_data bk_pad bk_unused].
    assert (E : B0 = firstn 12 B0 ++ fld B0 12 4 ++ fld B0 16 n ++ skipn (Z.to_nat (16 + n)) B0).
    { rewrite (split3 B0 12 4) at 1 by lia. change (Z.to_nat 12) with 12%nat. do 2 f_equal.
      rewrite <- (firstn_skipn (Z.to_nat n) (skipn (Z.to_nat (12 + 4)) B0)) at 1. unfold fld.
      f_equal. rewrite skipn_skipn. f_equal. lia. }
    assert (F12 : zlen (firstn 12 B0) = 12) by len.
    assert (F16 : zlen (fld B0 16 n) = n) by (apply zlen_fld; lia).
    set (P12 := firstn 12 B0) in *. set (U := fld B0 12 4) in *. set (X := fld B0 16 n) in *. set (R := skipn _ B0) in *.
    assert (E1 : put B0 0 (enc_hdr (ext_code t) n ub) = (enc_hdr (ext_code t) n ub ++ U) ++ X ++ R).
    { rewrite E at 1. rewrite <- app_assoc. apply (put_mid [] P12 (U ++ X ++ R)); [reflexivity|rewrite F12; reflexivity]. }
    rewrite E1. rewrite put_mid; [|rewrite zlen_app, H4; reflexivity|lia].
    unfold enc_hdr. rewrite <- !app_assoc. rewrite Hb. repeat f_equal. lia.
Qed.

Lemma memcpy_inv d o bs d' : memcpy_at d o bs = Ok d' -> 0 <= o /\ o + zlen bs <= zlen d /\ d' = put d o bs.
Proof.
  intro Q. unfold memcpy_at in Q. apply guard_ok in Q as [Q1 Q].
  destruct (o + zlen bs <=? zlen d) eqn:Q0; [|discriminate]. apply Ok_inj in Q. repeat split; auto; lia.
Qed.
Lemma update_finish_layout e infos w3 asset buffer t hd l1 B0 c0 l2 tl' n src found w' bs :
  let c := 168 + sect_size l1 in
  let ub := pad8 (c + 16 + n) in
  t <> XNone -> zlen hd = 168 -> Forall blk_ok l1 -> Forall blk_ok l2 -> 0 <= n -> zlen bs = n ->
  data (w3 asset) = (hd ++ enc_sect 168 l1) ++ B0 ++ enc_sect c0 l2 ++ tl' -> zlen B0 = ub - c ->
  match found with Some h => h_bnd h | None => c end = c0 -> 0 <= c0 -> c0 + sect_size l2 < 2147483648 ->
  (tl' = [] \/ ub = c0) -> tail_ok tl' -> zlen (data (w' asset)) <= 10485760 ->
  (0 < n -> match buffer with
            | Some bk => bs = fld (data (w3 bk)) 184 n
            | None => src = Some bs
            end) ->
  update_finish e infos w3 asset buffer t c found n src = Ok w' ->
  exists b', bk_type b' = t /\ bk_data b' = bs /\ layout (data (w' asset)) hd (l1 ++ b' :: l2) tl' /\
    (forall k, k <> asset -> data (w' k) = data (w3 k)) /\ (forall k, acct_owner (w' k) = acct_owner (w3 k)).
Proof.
  intros c ub Ht Hh Hf1 Hf2 Hn Hbs D HB Hold Hc0 Hb0 Htl Htl' Hz Hsrc H.
  unfold update_finish in H. change EXT_LEN with 16 in H. fold ub in H. cbv zeta in H. rewrite Hold in H.
  apply bind_ok in H as (d4 & H4 & H). apply bind_ok in H as (d5 & H5 & H). apply bind_ok in H as (d6 & H6 & H).
  apply set_data_world in H as (D' & F' & O'). rewrite D' in Hz. 
  pose proof (pad8_ge (c + 16 + n)) as Hpad. fold ub in Hpad. pose proof (sect_size_nonneg l1) as Hp1.  pose proof (sect_size_nonneg l2) as Hp2.
  assert (Hcm : c mod 8 = 0) by (pose proof (sect_size_mod l1 Hf1); unfold c; lia).
  set (A := hd ++ enc_sect 168 l1) in *.
  assert (HA : zlen A = c) by (unfold A; rewrite zlen_app, zlen_enc_sect by assumption; unfold c; lia).
  destruct (put_block t n ub c B0 bs Hn Hbs HB eq_refl Hcm Ht) as (Bok & Bsz & Benc).
  set (b' := mkBlk t bs _ _) in *.
  set (B1 := put B0 0 (enc_hdr (ext_code t) n ub)) in *.
  assert (HB1 : zlen B1 = ub - c) by (unfold B1; rewrite zlen_put; [assumption|lia|change (zlen (enc_hdr (ext_code t) n ub)) with 12; lia]).
  unfold set_hdr in H4. apply guard_ok in H4 as [_ H4]. apply Ok_inj in H4.
  assert (E4 : d4 = (A ++ B1) ++ enc_sect c0 l2 ++ tl').
  { rewrite <- H4, D. replace c with (zlen A + 0) by lia. rewrite put_inside by (change (zlen (enc_hdr (ext_code t) n ub)) with 12; lia).
    now rewrite <- !app_assoc. }
  assert (HAB : zlen (A ++ B1) = ub) by (rewrite zlen_app; lia).
  pose proof (zlen_enc_sect l2 c0 Hf2) as Zs0. pose proof (zlen_enc_sect l2 ub Hf2) as Zs1. pose proof (zlen_nonneg tl') as Ztl.
  assert (H56 : zlen d6 = zlen d5).
  { destruct (0 <? n); [|congruence].
    assert (MC : forall bs0, memcpy_at d5 (c + 16) bs0 = Ok d6 -> zlen d6 = zlen d5).
    { intros bs0 Q. apply memcpy_inv in Q as (Q1 & Q2 & ->). apply zlen_put; lia. }
    destruct buffer as [bk|]; [apply bind_ok in H6 as (s & _ & H6); eauto|]. destruct src; [eauto|congruence]. }
  assert (H45 : forall f d cur r, fix_boundaries f (to_i32 (ub - c0)) d cur = Ok r -> 0 <= cur -> zlen r = zlen d).
  { clear. induction f as [|f IH]; intros d cur r H Hc; [discriminate|]. cbn [fix_boundaries] in H. destruct (cur <? zlen d); [|congruence].
    apply bind_ok in H as (h & Hh & H). apply load_hdr_ok in Hh as (_ & Q2 & _ & _). cbv zeta in H. apply IH in H.
    - rewrite H, zlen_put; [reflexivity|lia|]. rewrite le_enc_zlen. lia.
    - unfold sat_add_u32, u32_max. lia. }
  pose proof (H45 _ _ _ _ H5 ltac:(lia)) as Z5. rewrite E4 in Z5. rewrite !zlen_app, Zs0 in Z5. rewrite zlen_app in HAB.
  rewrite to_i32_small in H5 by (unfold u32_max in *; lia). rewrite E4 in H5.
  assert (E5 : d5 = A ++ B1 ++ enc_sect ub l2 ++ tl').
  { rewrite <- (zlen_app A B1) in HAB. rewrite <- HAB in H5 at 2. apply fix_sect in H5 as (f' & H5); try assumption; try (unfold u32_max; lia).
    rewrite HAB in H5. rewrite <- app_assoc in H5. destruct Htl as [->|Q].
    - destruct f' as [|f']; [discriminate H5|]. cbn [fix_boundaries] in H5.
      match type of H5 with (if ?q then _ else _) = _ => replace q with false in H5 end; [congruence|].
      rewrite !zlen_app, Zs1. change (zlen []) with 0. rewrite zlen_app in HAB. lia.
    - replace (ub - c0) with 0 in H5 by lia. now apply fix_zero in H5. }
  assert (E6 : d6 = A ++ enc_blk c b' ++ enc_sect ub l2 ++ tl').
  { rewrite <- Benc. destruct (0 <? n) eqn:En.
    - specialize (Hsrc ltac:(lia)).
      assert (Q : memcpy_at d5 (c + 16) bs = Ok d6).
      { destruct buffer as [bk|].
        - apply bind_ok in H6 as (s & Hs & H6). apply slice_ok in Hs as (_ & _ & _ & -> & _).
          change (ASSET_LEN + 16) with 184 in H6. replace (184 + n - 184) with n in H6 by lia. now rewrite Hsrc.
        - now rewrite Hsrc in H6. }
      apply memcpy_inv in Q as (_ & _ & ->). rewrite E5.
      replace (c + 16) with (zlen A + 16) by lia. rewrite put_inside by lia. reflexivity.
    - apply Ok_inj in H6. subst d6. assert (Eb : bs = []) by (apply zlen_0; lia). rewrite Eb. rewrite put_nil by lia. exact E5. }
  assert (Ec : enc_sect ub l2 = enc_sect (c + blk_size b') l2) by (f_equal; lia).
  exists b'. split; [reflexivity|]. split; [reflexivity|]. split; [|auto].
  split. { rewrite D', E6. unfold A. rewrite enc_sect_app. cbn [enc_sect]. rewrite Ec. unfold c. now rewrite <- !app_assoc. }
  split; [assumption|]. split; [apply Forall_app; split; [assumption|constructor; assumption]|]. split; [assumption|]. rewrite D'. lia.
Qed.

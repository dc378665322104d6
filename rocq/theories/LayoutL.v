(** The cursor loops on well-formed sections, and on arbitrary bytes. *)
From Verif Require Import Base State Layout Ext BaseL Spec.
From Coq Require Import Strings.Byte.

(** ** Spec accessors and model accessors *)
Lemma le32_fld d o : le32 d o = le_dec (fld d o 4).
Proof. reflexivity. Qed.
Lemma sub_fld d o n : sub d o n = fld d (Z.of_nat o) (Z.of_nat n).
Proof. unfold sub, fld. now rewrite !Nat2Z.id. Qed.
Lemma le32_range d o : 0 <= le32 d o < 4294967296.
Proof.
  unfold le32. pose proof (le_dec_range (sub d (Z.to_nat o) 4)).
  assert (zlen (sub d (Z.to_nat o) 4) <= 4) by (unfold sub; len).
  assert (0 <= zlen (sub d (Z.to_nat o) 4)) by len.
  assert (256 ^ zlen (sub d (Z.to_nat o) 4) <= 256 ^ 4) by (apply Z.pow_le_mono_r; lia).
  change (256 ^ 4) with 4294967296 in *. lia.
Qed.

Lemma ext_code_inj a b : ext_code a = ext_code b -> a = b.
Proof. destruct a, b; cbn; congruence || lia. Qed.
Lemma ext_type_eqb_eq a b : ext_type_eqb a b = true <-> a = b.
Proof.
  unfold ext_type_eqb. rewrite Z.eqb_eq. split; [apply ext_code_inj|now intros ->].
Qed.
Lemma ext_type_eqb_refl a : ext_type_eqb a a = true.
Proof. now apply ext_type_eqb_eq. Qed.
Lemma ext_code_range t : 0 <= ext_code t <= 11.
Proof. destruct t; cbn; lia. Qed.
Lemma ext_code_0 t : ext_code t = 0 <-> t = XNone.
Proof. destruct t; cbn; split; intro; congruence || lia. Qed.
Lemma ext_of_code_code t : ext_of_code (ext_code t) = Some t.
Proof. destruct t; reflexivity. Qed.
Lemma ext_of_code_some z t : ext_of_code z = Some t -> z = ext_code t.
Proof.
  unfold ext_of_code.
  repeat match goal with |- context[?a =? ?b] => destruct (Z.eqb_spec a b) end;
  intro H; inv H; cbn; auto.
Qed.

(** ** Arbitrary bytes *)
Lemma load_hdr_ok d cur h : load_hdr d cur = Ok h ->
  0 <= cur /\ cur + 16 <= zlen d /\ cur mod 4 = 0 /\
  h = mkHdr (le32 d cur) (le32 d (cur + 4)) (le32 d (cur + 8)).
Proof.
  unfold load_hdr. intro H. rinv H. unfold EXT_LEN in *. repeat split; lia.
Qed.

Lemma find_loop_some fuel t d : forall cur c h, find_loop fuel t d cur = Ok (Some (c, h)) ->
  locates d t cur c /\ h = mkHdr (le32 d c) (le32 d (c + 4)) (le32 d (c + 8)).
Proof.
  induction fuel as [|f IH]; intros cur c h H; cbn [find_loop] in H; [discriminate|].
  destruct (cur + EXT_LEN <=? zlen d) eqn:E; [|discriminate]. rinv H.
  apply load_hdr_ok in Hx as (H1 & H2 & H3 & ->). cbn [h_type h_bnd] in H.
  destruct (le32 d cur =? ext_code t) eqn:E1.
  - inv H. split; [|reflexivity]. apply loc_here; lia.
  - destruct (le32 d cur =? 0) eqn:E2; [discriminate|].
    apply IH in H as [H ->]. split; [|reflexivity]. apply loc_next; auto; lia.
Qed.
Lemma locates_det d t cur a b : locates d t cur a -> locates d t cur b -> a = b.
Proof.
  intro H; revert b; induction H; intros b Hb; inv Hb; auto; try contradiction.
Qed.
Lemma find_loop_none fuel t d : forall cur c, find_loop fuel t d cur = Ok None -> ~ locates d t cur c.
Proof.
  induction fuel as [|f IH]; intros cur c H Hl; cbn [find_loop] in H; [discriminate|].
  destruct (cur + EXT_LEN <=? zlen d) eqn:E; unfold EXT_LEN in *.
  - rinv H. apply load_hdr_ok in Hx as (H1 & H2 & H3 & ->). cbn [h_type h_bnd] in H.
    destruct (le32 d cur =? ext_code t) eqn:E1; [discriminate|].
    inv Hl; [lia|].
    destruct (le32 d cur =? 0) eqn:E2; [lia|]. eapply IH; eauto.
  - inv Hl; lia.
Qed.
Lemma asset_get_some t d off b : asset_get t d = Ok (Some (off, b)) -> has_ext d t off b.
Proof.
  unfold asset_get, find_ext. intro H. rinv H. destruct x as [[cur h]|]; rinv H.
  apply find_loop_some in Hx as [Hl ->]. cbn [h_len] in *.
  unfold EXT_LEN in *. apply slice_ok in Hx0 as (H1 & H2 & H3 & -> & H5).
  exists cur. split; [assumption|]. split; [reflexivity|]. split; [lia|]. split; [lia|].
  rewrite sub_fld. f_equal; [lia|]. unfold zlen in H5. lia.
Qed.
Lemma asset_get_none t d : asset_get t d = Ok None -> forall off b, ~ has_ext d t off b.
Proof.
  unfold asset_get, find_ext. intro H. rinv H. destruct x as [[cur h]|]; rinv H.
  intros off b (cur & Hl & _). exact (find_loop_none _ _ _ _ _ Hx Hl).
Qed.
Lemma has_ext_det d t o1 b1 o2 b2 : has_ext d t o1 b1 -> has_ext d t o2 b2 -> o1 = o2 /\ b1 = b2.
Proof.
  intros (c1 & L1 & -> & A1 & B1 & C1) (c2 & L2 & -> & A2 & B2 & C2).
  assert (c1 = c2) as -> by (eapply locates_det; eauto). split; [reflexivity|].
  rewrite C1, C2. f_equal. unfold zlen in *. lia.
Qed.

(** Extension::get: same location, as long as it finds something. *)
Lemma drop_len d : 168 <= zlen d -> zlen (drop ASSET_LEN d) = zlen d - 168.
Proof. intro. unfold drop, ASSET_LEN. len. Qed.
Lemma le32_drop d c : 0 <= c -> le32 (drop ASSET_LEN d) c = le32 d (168 + c).
Proof. intro. rewrite !le32_fld. unfold drop. now rewrite fld_skipn. Qed.
Lemma sect_loop_some fuel t d : 168 <= zlen d < two64 -> forall cur off b,
  sect_loop fuel t (drop ASSET_LEN d) cur = Ok (Some (off, b)) ->
  exists c, locates d t (168 + cur) c /\ 0 <= cur /\ 168 + off = c + 16 /\
    168 + off + zlen b <= zlen d /\ zlen b = le32 d (c + 4) /\ b = fld d (168 + off) (zlen b) /\ 16 <= off.
Proof.
  intro Hd. induction fuel as [|f IH]; intros cur off b H; cbn [sect_loop] in H; [discriminate|].
  destruct ((cur + EXT_LEN) mod two64 <=? zlen (drop ASSET_LEN d)) eqn:E; [|discriminate]. rinv H.
  apply load_hdr_ok in Hx as (H1 & H2 & H3 & ->). cbn [h_type h_bnd h_len] in H.
  rewrite drop_len in * by lia. rewrite !le32_drop in * by lia.
  destruct (le32 d (168 + cur) =? ext_code t) eqn:E1.
  - rinv H. unfold EXT_LEN in *. apply slice_ok in Hx as (A & B & C & -> & D).
    rewrite drop_len in * by lia.
    exists (168 + cur). split; [apply loc_here; lia|]. rewrite D. repeat split; try lia.
    + pose proof (le32_range d (168 + (cur + 4))). rewrite Z.add_assoc in *. lia.
    + unfold drop, ASSET_LEN. rewrite fld_skipn by lia. reflexivity.
  - destruct (le32 d (168 + cur) =? 0) eqn:E2; [discriminate|].
    apply IH in H as (c & Hl & Hc & R).
    pose proof (le32_range d (168 + (cur + 8))) as HR.
    destruct (Z_lt_le_dec (le32 d (168 + (cur + 8))) 168) as [Hlt|Hge].
    + (* wrapped: the cursor would be huge *)
      exfalso. inv Hl; unfold ASSET_LEN, two64 in *; lia.
    + unfold ASSET_LEN in *.
      replace ((le32 d (168 + (cur + 8)) - 168) mod two64) with (le32 d (168 + (cur + 8)) - 168) in *
        by (unfold two64; lia).
      exists c. split; [|split; [lia|exact R]].
      apply loc_next; try lia.
      replace (168 + (le32 d (168 + (cur + 8)) - 168)) with (le32 d (168 + (cur + 8))) in Hl by lia.
      now rewrite <- Z.add_assoc.
Qed.
Lemma sect_get_some t d off b : 168 <= zlen d < two64 ->
  sect_get t (drop ASSET_LEN d) = Ok (Some (off, b)) -> has_ext d t (168 + off) b /\ 16 <= off.
Proof.
  intros Hd H. unfold sect_get in H. apply sect_loop_some in H as (c & Hl & _ & H1 & H2 & H3 & H4 & H5); [|assumption].
  split; [|assumption]. exists c. split; [exact Hl|]. split; [lia|]. split; [lia|]. split; [lia|].
  rewrite H4 at 1. rewrite sub_fld. f_equal; unfold zlen in *; lia.
Qed.

(** ** Well-formed sections *)
Lemma blk_size_pos b : 16 <= blk_size b.
Proof. unfold blk_size. pose proof (zlen_nonneg (bk_data b)). pose proof (zlen_nonneg (bk_pad b)). lia. Qed.
Lemma blk_size_mod b : blk_ok b -> blk_size b mod 8 = 0.
Proof. intros (_ & _ & _ & H). unfold blk_size. lia. Qed.
Lemma blk_size_pad8 b cur : blk_ok b -> cur mod 8 = 0 ->
  pad8 (cur + 16 + zlen (bk_data b)) = cur + blk_size b.
Proof.
  intros (_ & _ & H1 & H2) Hc. unfold blk_size, pad8.
  pose proof (zlen_nonneg (bk_pad b)). lia.
Qed.
Lemma zlen_enc_blk cur b : blk_ok b -> zlen (enc_blk cur b) = blk_size b.
Proof.
  intros (_ & Hu & _). unfold enc_blk, blk_size. rewrite !zlen_app, !le_enc_zlen.
  unfold zlen at 1. rewrite Hu. lia.
Qed.
Lemma sect_size_nonneg l : 0 <= sect_size l.
Proof. induction l as [|b l IH]; cbn; [lia|]. pose proof (blk_size_pos b). lia. Qed.
Lemma sect_size_mod l : Forall blk_ok l -> sect_size l mod 8 = 0.
Proof. induction 1 as [|b l Hb Hl IH]; cbn [sect_size]; [reflexivity|]. pose proof (blk_size_mod b Hb). lia. Qed.
Lemma zlen_enc_sect l : forall cur, Forall blk_ok l -> zlen (enc_sect cur l) = sect_size l.
Proof.
  induction l as [|b l IH]; intros cur H; [reflexivity|]. inv H. cbn [enc_sect sect_size].
  rewrite zlen_app, zlen_enc_blk, IH by assumption. reflexivity.
Qed.
Lemma sect_size_app l1 l2 : sect_size (l1 ++ l2) = sect_size l1 + sect_size l2.
Proof. induction l1; cbn; lia. Qed.
Lemma enc_sect_app l1 : forall l2 cur,
  enc_sect cur (l1 ++ l2) = enc_sect cur l1 ++ enc_sect (cur + sect_size l1) l2.
Proof.
  induction l1 as [|b l1 IH]; intros l2 cur; cbn [app enc_sect sect_size].
  - now rewrite Z.add_0_r.
  - rewrite IH, <- app_assoc. do 3 f_equal. lia.
Qed.
Lemma sect_size_length l : 16 * Z.of_nat (length l) <= sect_size l.
Proof. induction l as [|b l IH]; cbn [sect_size length]; [lia|]. pose proof (blk_size_pos b). lia. Qed.

Lemma load_hdr_blk A C b cur : cur = zlen A -> blk_ok b -> cur mod 8 = 0 -> cur + blk_size b <= u32_max ->
  load_hdr (A ++ enc_blk cur b ++ C) cur =
  Ok (mkHdr (ext_code (bk_type b)) (zlen (bk_data b)) (cur + blk_size b)).
Proof.
  intros Hc Hb Hm Hle.
  pose proof (zlen_nonneg A). pose proof (zlen_nonneg C). pose proof (blk_size_pos b).
  pose proof (zlen_enc_blk cur b Hb) as Hz.
  unfold load_hdr.
  replace ((0 <=? cur) && (cur + EXT_LEN <=? zlen (A ++ enc_blk cur b ++ C)) && (cur mod 4 =? 0)) with true
    by (rewrite !zlen_app, Hz; unfold EXT_LEN; lia).
  cbn [guard]. unfold guard. f_equal.
  destruct Hb as (_ & Hu & Hp & _).
  pose proof (ext_code_range (bk_type b)). pose proof (zlen_nonneg (bk_data b)). pose proof (zlen_nonneg (bk_pad b)).
  unfold enc_blk. rewrite <- !app_assoc.
  set (T := le_enc 4 (ext_code (bk_type b))). set (L := le_enc 4 (zlen (bk_data b))).
  set (B := le_enc 4 (cur + blk_size b)).
  f_equal.
  - rewrite (fld_mid A T) by (auto; unfold T; now rewrite le_enc_zlen).
    unfold T. apply le_dec_enc4. unfold u32_max. lia.
  - rewrite (app_assoc A T). rewrite (fld_mid (A ++ T) L) by (unfold T, L; rewrite ?zlen_app, ?le_enc_zlen; lia).
    unfold L. apply le_dec_enc4. unfold blk_size in *. lia.
  - rewrite (app_assoc A T), (app_assoc (A ++ T) L).
    rewrite (fld_mid ((A ++ T) ++ L) B) by (unfold T, L, B; rewrite ?zlen_app, ?le_enc_zlen; lia).
    unfold B. apply le_dec_enc4. lia.
Qed.
Lemma fld_blk_data A C b cur : cur = zlen A -> blk_ok b ->
  fld (A ++ enc_blk cur b ++ C) (cur + 16) (zlen (bk_data b)) = bk_data b.
Proof.
  intros Hc (_ & Hu & _). unfold enc_blk. rewrite <- !app_assoc.
  set (T := le_enc 4 (ext_code (bk_type b))). set (L := le_enc 4 (zlen (bk_data b))).
  set (B := le_enc 4 (cur + blk_size b)).
  rewrite (app_assoc A T), (app_assoc (A ++ T) L), (app_assoc ((A ++ T) ++ L) B),
    (app_assoc (((A ++ T) ++ L) ++ B) (bk_unused b)).
  apply fld_mid; [|reflexivity]. unfold T, L, B. rewrite !zlen_app, !le_enc_zlen.
  unfold zlen at 2. rewrite Hu. lia.
Qed.

(** the first block of a type and its offset *)
Fixpoint loc (t : ext_type) (cur : Z) (l : list blk) : option (Z * blk) :=
  match l with
  | [] => None
  | b :: l' => if ext_type_eqb (bk_type b) t then Some (cur, b) else loc t (cur + blk_size b) l'
  end.
Lemma loc_lookup t l : forall cur,
  lookup t (ext_list l) = option_map (fun p => bk_data (snd p)) (loc t cur l).
Proof.
  induction l as [|b l IH]; intro cur; [reflexivity|]. cbn.
  destruct (ext_type_eqb (bk_type b) t); [reflexivity|]. apply IH.
Qed.
Lemma loc_some t l : forall cur c b, loc t cur l = Some (c, b) ->
  exists l1 l2, l = l1 ++ b :: l2 /\ c = cur + sect_size l1 /\ bk_type b = t /\
    Forall (fun b' => bk_type b' <> t) l1.
Proof.
  induction l as [|x l IH]; intros cur c b H; cbn in H; [discriminate|].
  destruct (ext_type_eqb (bk_type x) t) eqn:E.
  - inv H. apply ext_type_eqb_eq in E. exists [], l. cbn. repeat split; auto. lia.
  - apply IH in H as (l1 & l2 & -> & -> & H1 & H2).
    exists (x :: l1), l2. cbn. repeat split; auto; [lia|].
    constructor; [|assumption]. intro Hq. apply ext_type_eqb_eq in Hq. congruence.
Qed.
Lemma loc_none t l cur : loc t cur l = None -> Forall (fun b => bk_type b <> t) l.
Proof.
  revert cur; induction l as [|x l IH]; intros cur H; cbn in H; [constructor|].
  destruct (ext_type_eqb (bk_type x) t) eqn:E; [discriminate|].
  constructor; [|eauto]. intro Hq. apply ext_type_eqb_eq in Hq. congruence.
Qed.

Definition blk_hdr (cur : Z) (b : blk) : hdr :=
  mkHdr (ext_code (bk_type b)) (zlen (bk_data b)) (cur + blk_size b).

(** what a loop sees at the end of the section *)
Lemma tail_hdr A tl cur : cur = zlen A -> cur mod 8 = 0 -> tail_ok tl ->
  (cur + EXT_LEN <=? zlen (A ++ tl)) = false \/
  ((cur + EXT_LEN <=? zlen (A ++ tl)) = true /\
   exists h, load_hdr (A ++ tl) cur = Ok h /\ h_type h = 0).
Proof.
  intros Hc Hm Ht. unfold EXT_LEN. rewrite zlen_app.
  destruct (cur + 16 <=? zlen A + zlen tl) eqn:E; [right|now left]. split; [reflexivity|].
  destruct Ht as [Ht|Ht]; [lia|].
  unfold load_hdr. eexists. split.
  - unfold guard, EXT_LEN. rewrite zlen_app.
    pose proof (zlen_nonneg A).
    replace ((0 <=? cur) && (cur + 16 <=? zlen A + zlen tl) && (cur mod 4 =? 0)) with true by lia.
    reflexivity.
  - cbn [h_type]. rewrite le32_fld in Ht. rewrite fld_app_r by lia.
    now replace (cur - zlen A) with 0 by lia.
Qed.

Section Walk.
Variables (tl : bytes).
Hypothesis Htl : tail_ok tl.

Lemma find_loop_sect t : t <> XNone -> forall l A fuel, zlen A mod 8 = 0 -> Forall blk_ok l ->
  (length l < fuel)%nat -> zlen A + sect_size l <= u32_max ->
  find_loop fuel t (A ++ enc_sect (zlen A) l ++ tl) (zlen A) =
  Ok (option_map (fun p => (fst p, blk_hdr (fst p) (snd p))) (loc t (zlen A) l)).
Proof.
  intros Ht. induction l as [|b l IH]; intros A fuel Hm Hl Hf Hs.
  - destruct fuel as [|f]; [cbn in Hf; lia|]. cbn [enc_sect app find_loop loc option_map].
    destruct (tail_hdr A tl (zlen A) eq_refl Hm Htl) as [->|[-> (h & -> & Hh)]]; [reflexivity|].
    cbn [bind]. rewrite Hh. rewrite Z.eqb_refl.
    destruct (0 =? ext_code t) eqn:E; [|reflexivity].
    exfalso. apply Ht. apply ext_code_0. lia.
  - inv Hl. destruct fuel as [|f]; [cbn in Hf; lia|]. cbn [length sect_size] in *.
    cbn [enc_sect find_loop loc]. rewrite <- app_assoc.
    pose proof (sect_size_nonneg l). pose proof (blk_size_mod b H1). pose proof (blk_size_pos b).
    pose proof (zlen_nonneg tl).
    rewrite load_hdr_blk by (auto; lia).
    replace (zlen A + EXT_LEN <=? zlen (A ++ enc_blk (zlen A) b ++ enc_sect (zlen A + blk_size b) l ++ tl)) with true
      by (rewrite !zlen_app, zlen_enc_blk, zlen_enc_sect by assumption; unfold EXT_LEN; lia).
    cbn [bind h_type h_bnd]. unfold ext_type_eqb.
    destruct (ext_code (bk_type b) =? ext_code t) eqn:E; [reflexivity|].
    destruct (ext_code (bk_type b) =? 0) eqn:E0.
    { exfalso. apply (proj1 H1). apply ext_code_0. lia. }
    assert (HA : zlen (A ++ enc_blk (zlen A) b) = zlen A + blk_size b)
      by (rewrite zlen_app, zlen_enc_blk by assumption; reflexivity).
    specialize (IH (A ++ enc_blk (zlen A) b) f). rewrite HA in IH.
    rewrite <- app_assoc in IH. apply IH; auto; lia.
Qed.

Lemma sect_loop_sect t : t <> XNone -> forall l A fuel, zlen A mod 8 = 0 -> Forall blk_ok l ->
  (length l < fuel)%nat -> 168 + zlen A + sect_size l <= u32_max -> zlen (A ++ enc_sect (168 + zlen A) l ++ tl) < two64 - 16 ->
  sect_loop fuel t (A ++ enc_sect (168 + zlen A) l ++ tl) (zlen A) =
  Ok (option_map (fun p => (fst p - 168 + 16, bk_data (snd p))) (loc t (168 + zlen A) l)).
Proof.
  intros Ht. induction l as [|b l IH]; intros A fuel Hm Hl Hf Hs Hz; pose proof (zlen_nonneg A).
  - destruct fuel as [|f]; [cbn in Hf; lia|]. cbn [enc_sect app sect_loop loc option_map].
    assert (HzA : zlen A + EXT_LEN < two64) by (unfold EXT_LEN, u32_max, two64 in *; cbn [sect_size] in *; lia).
    rewrite Z.mod_small by (unfold EXT_LEN in *; lia).
    destruct (tail_hdr A tl (zlen A) eq_refl Hm Htl) as [->|[-> (h & -> & Hh)]]; [reflexivity|].
    cbn [bind]. rewrite Hh. rewrite Z.eqb_refl.
    destruct (0 =? ext_code t) eqn:E; [|reflexivity].
    exfalso. apply Ht. apply ext_code_0. lia.
  - inv Hl. destruct fuel as [|f]; [cbn in Hf; lia|]. cbn [length sect_size] in *.
    cbn [enc_sect sect_loop loc]. rewrite <- app_assoc.
    pose proof (sect_size_nonneg l). pose proof (blk_size_mod b H2). pose proof (blk_size_pos b).
    pose proof (zlen_nonneg tl).
    assert (Hlen : zlen (A ++ enc_blk (168 + zlen A) b ++ enc_sect (168 + zlen A + blk_size b) l ++ tl) =
       zlen A + blk_size b + sect_size l + zlen tl)
      by (rewrite !zlen_app, zlen_enc_blk, zlen_enc_sect by assumption; lia).
    rewrite Hlen.
    replace ((zlen A + EXT_LEN) mod two64) with (zlen A + EXT_LEN)
      by (symmetry; apply Z.mod_small; unfold EXT_LEN, u32_max, two64 in *; lia).
    replace (zlen A + EXT_LEN <=? zlen A + blk_size b + sect_size l + zlen tl) with true
      by (unfold EXT_LEN; lia).
    (* the header as seen from the section *)
    assert (Hh : load_hdr (A ++ enc_blk (168 + zlen A) b ++ enc_sect (168 + zlen A + blk_size b) l ++ tl) (zlen A)
              = Ok (blk_hdr (168 + zlen A) b)).
    { pose proof (load_hdr_blk (zeros 168 ++ A) (enc_sect (168 + zlen A + blk_size b) l ++ tl) b (168 + zlen A)) as L.
      rewrite zlen_app, zlen_zeros in L by lia. specialize (L eq_refl H2 ltac:(lia) ltac:(lia)).
      apply load_hdr_ok in L as (_ & _ & _ & L). unfold blk_hdr. rewrite L.
      unfold load_hdr. rewrite Hlen.
      replace ((0 <=? zlen A) && (zlen A + EXT_LEN <=? zlen A + blk_size b + sect_size l + zlen tl) && (zlen A mod 4 =? 0))
        with true by (unfold EXT_LEN; lia).
      unfold guard. rewrite <- !app_assoc.
      assert (HL : forall o n, 0 <= o -> fld (zeros 168 ++ A ++ enc_blk (168 + zlen A) b ++ enc_sect (168 + zlen A + blk_size b) l ++ tl) (168 + o) n
        = fld (A ++ enc_blk (168 + zlen A) b ++ enc_sect (168 + zlen A + blk_size b) l ++ tl) o n).
      { intros o n Ho. rewrite fld_app_r by (rewrite zlen_zeros; lia). rewrite zlen_zeros by lia. f_equal. lia. }
      rewrite !le32_fld. rewrite <- !HL by lia. repeat (f_equal; try lia). }
    rewrite Hh. cbn [bind blk_hdr h_type h_bnd h_len]. unfold ext_type_eqb.
    destruct (ext_code (bk_type b) =? ext_code t) eqn:E.
    + cbn [option_map fst snd]. rewrite slice_in.
      * unfold EXT_LEN. cbn [bind].
        replace (zlen A + 16 + zlen (bk_data b) - (zlen A + 16)) with (zlen (bk_data b)) by lia.
        assert (Hd : fld (A ++ enc_blk (168 + zlen A) b ++ enc_sect (168 + zlen A + blk_size b) l ++ tl) (zlen A + 16) (zlen (bk_data b)) = bk_data b).
        { pose proof (fld_blk_data (zeros 168 ++ A) (enc_sect (168 + zlen A + blk_size b) l ++ tl) b (168 + zlen A)) as L.
          rewrite zlen_app, zlen_zeros in L by lia. specialize (L eq_refl H2).
          rewrite <- L at 2. rewrite <- !app_assoc.
          rewrite (fld_app_r (zeros 168)) by (rewrite zlen_zeros; lia). rewrite zlen_zeros by lia. f_equal. lia. }
        rewrite Hd. do 3 f_equal. lia.
      * unfold EXT_LEN. lia.
      * pose proof (zlen_nonneg (bk_data b)). lia.
      * rewrite Hlen. unfold EXT_LEN, blk_size. pose proof (zlen_nonneg (bk_pad b)). lia.
    + destruct (ext_code (bk_type b) =? 0) eqn:E0.
      { exfalso. apply (proj1 H2). apply ext_code_0. lia. }
      assert (HA : zlen (A ++ enc_blk (168 + zlen A) b) = zlen A + blk_size b)
        by (rewrite zlen_app, zlen_enc_blk by assumption; reflexivity).
      specialize (IH (A ++ enc_blk (168 + zlen A) b) f). rewrite HA in IH.
      rewrite Z.add_assoc in IH. rewrite <- app_assoc in IH.
      replace ((168 + zlen A + blk_size b - ASSET_LEN) mod two64) with (zlen A + blk_size b).
      2:{ unfold ASSET_LEN. rewrite Z.mod_small; [lia|]. unfold u32_max, two64 in *. lia. }
      apply IH; auto; try lia.
      cbn [enc_sect] in Hz. rewrite <- app_assoc in Hz. exact Hz.
Qed.

Lemma list_loop_sect : forall l A fuel, zlen A mod 8 = 0 -> Forall blk_ok l ->
  (length l < fuel)%nat -> zlen A + sect_size l <= u32_max ->
  list_loop fuel (A ++ enc_sect (zlen A) l ++ tl) (zlen A) = Ok (map bk_type l).
Proof.
  induction l as [|b l IH]; intros A fuel Hm Hl Hf Hs.
  - destruct fuel as [|f]; [cbn in Hf; lia|]. cbn [enc_sect app list_loop map].
    destruct (tail_hdr A tl (zlen A) eq_refl Hm Htl) as [->|[-> (h & -> & Hh)]]; [reflexivity|].
    cbn [bind]. rewrite Hh. reflexivity.
  - inv Hl. destruct fuel as [|f]; [cbn in Hf; lia|]. cbn [length sect_size] in *.
    cbn [enc_sect list_loop map]. rewrite <- app_assoc.
    pose proof (sect_size_nonneg l). pose proof (blk_size_mod b H1). pose proof (blk_size_pos b).
    pose proof (zlen_nonneg tl).
    rewrite load_hdr_blk by (auto; lia).
    replace (zlen A + EXT_LEN <=? zlen (A ++ enc_blk (zlen A) b ++ enc_sect (zlen A + blk_size b) l ++ tl)) with true
      by (rewrite !zlen_app, zlen_enc_blk, zlen_enc_sect by assumption; unfold EXT_LEN; lia).
    cbn [bind h_type h_bnd]. rewrite ext_of_code_code.
    assert (HA : zlen (A ++ enc_blk (zlen A) b) = zlen A + blk_size b)
      by (rewrite zlen_app, zlen_enc_blk by assumption; reflexivity).
    specialize (IH (A ++ enc_blk (zlen A) b) f). rewrite HA in IH.
    rewrite <- app_assoc in IH. rewrite IH by (auto; lia).
    destruct H1 as [H1 _]. destruct (bk_type b); try reflexivity. contradiction.
Qed.

(** the last block and its offset *)
Fixpoint last_blk (cur : Z) (l : list blk) (acc : option (Z * blk)) : option (Z * blk) :=
  match l with
  | [] => acc
  | b :: l' => last_blk (cur + blk_size b) l' (Some (cur, b))
  end.
Definition last_res (o : option (Z * blk)) : option (hdr * Z) :=
  option_map (fun p => (blk_hdr (fst p) (snd p), fst p + 16)) o.
Lemma last_loop_sect : forall l A fuel acc, zlen A mod 8 = 0 -> Forall blk_ok l ->
  (length l < fuel)%nat -> zlen A + sect_size l <= u32_max ->
  last_loop fuel (A ++ enc_sect (zlen A) l ++ tl) (zlen A) (last_res acc) = Ok (last_res (last_blk (zlen A) l acc)).
Proof.
  induction l as [|b l IH]; intros A fuel acc Hm Hl Hf Hs.
  - destruct fuel as [|f]; [cbn in Hf; lia|]. cbn [enc_sect app last_loop last_blk].
    destruct (tail_hdr A tl (zlen A) eq_refl Hm Htl) as [->|[-> (h & -> & Hh)]]; [reflexivity|].
    cbn [bind]. rewrite Hh. reflexivity.
  - inv Hl. destruct fuel as [|f]; [cbn in Hf; lia|]. cbn [length sect_size] in *.
    cbn [enc_sect last_loop last_blk]. rewrite <- app_assoc.
    pose proof (sect_size_nonneg l). pose proof (blk_size_mod b H1). pose proof (blk_size_pos b).
    pose proof (zlen_nonneg tl).
    rewrite load_hdr_blk by (auto; lia).
    replace (zlen A + EXT_LEN <=? zlen (A ++ enc_blk (zlen A) b ++ enc_sect (zlen A + blk_size b) l ++ tl)) with true
      by (rewrite !zlen_app, zlen_enc_blk, zlen_enc_sect by assumption; unfold EXT_LEN; lia).
    cbn [bind h_type h_bnd]. rewrite ext_of_code_code.
    assert (HA : zlen (A ++ enc_blk (zlen A) b) = zlen A + blk_size b)
      by (rewrite zlen_app, zlen_enc_blk by assumption; reflexivity).
    specialize (IH (A ++ enc_blk (zlen A) b) f (Some (zlen A, b))). rewrite HA in IH.
    rewrite <- app_assoc in IH.
    change (last_res (Some (zlen A, b))) with (Some (blk_hdr (zlen A) b, zlen A + EXT_LEN)) in IH.
    unfold blk_hdr at 1 in IH. cbn [h_bnd] in IH.
    destruct H1 as [H1 H1']. destruct (bk_type b) eqn:Et; try (apply IH; auto; lia). contradiction.
Qed.
End Walk.

Lemma last_blk_app cur l b acc : last_blk cur (l ++ [b]) acc = Some (cur + sect_size l, b).
Proof.
  revert cur acc; induction l as [|x l IH]; intros cur acc; cbn; [do 2 f_equal; lia|].
  rewrite IH. do 2 f_equal. lia.
Qed.
Lemma list_last_case {A} (l : list A) : l = [] \/ exists l' b, l = l' ++ [b].
Proof. destruct l using rev_ind; [now left|right; eauto]. Qed.

(** ** Whole accounts *)
Section Account.
Variables (d hd : bytes) (l : list blk) (tl : bytes).
Hypothesis HL : layout d hd l tl.

Lemma layout_len : zlen d = 168 + sect_size l + zlen tl.
Proof. destruct HL as (-> & H & Hf & _). rewrite !zlen_app, zlen_enc_sect by assumption. lia. Qed.
Lemma layout_u32 : 168 + sect_size l <= u32_max.
Proof. pose proof layout_len. destruct HL as (_ & _ & _ & _ & H1). pose proof (zlen_nonneg tl). unfold u32_max. lia. Qed.
Lemma layout_fuel : (length l < walk_fuel d)%nat.
Proof.
  pose proof layout_len. pose proof (sect_size_length l). pose proof (zlen_nonneg tl).
  unfold walk_fuel, zlen in *. lia.
Qed.
Lemma layout_find t : t <> XNone ->
  find_ext t d = Ok (option_map (fun p => (fst p, blk_hdr (fst p) (snd p))) (loc t 168 l)).
Proof.
  intro Ht. pose proof layout_u32. pose proof layout_fuel as Hfu. unfold find_ext.
  destruct HL as (-> & H1 & Hf & Htl & _).
  unfold ASSET_LEN. rewrite <- H1. apply find_loop_sect; auto; rewrite H1; auto.
Qed.
Lemma layout_contains t : t <> XNone ->
  asset_contains t d = Ok (match lookup t (ext_list l) with Some _ => true | None => false end).
Proof.
  intro Ht. unfold asset_contains. rewrite layout_find by assumption.
  rewrite (loc_lookup t l 168). now destruct (loc t 168 l).
Qed.
Lemma layout_at c l1 b l2 : l = l1 ++ b :: l2 -> c = 168 + sect_size l1 ->
  exists A, d = A ++ enc_blk c b ++ (enc_sect (c + blk_size b) l2 ++ tl) /\ zlen A = c /\ blk_ok b /\
    A = hd ++ enc_sect 168 l1.
Proof.
  intros -> ->. destruct HL as (-> & H1 & Hf & Htl & _).
  apply Forall_app in Hf as [Hf1 Hf2]. inv Hf2.
  exists (hd ++ enc_sect 168 l1). rewrite enc_sect_app. cbn [enc_sect]. split; [|split; [|split]].
  - now rewrite <- !app_assoc.
  - rewrite zlen_app, zlen_enc_sect by assumption. lia.
  - assumption.
  - reflexivity.
Qed.
Lemma layout_slice c l1 b l2 : l = l1 ++ b :: l2 -> c = 168 + sect_size l1 ->
  slice d (c + 16) (c + 16 + zlen (bk_data b)) = Ok (bk_data b).
Proof.
  intros E1 E2. destruct (layout_at c l1 b l2 E1 E2) as (A & -> & HA & Hb & _).
  pose proof (sect_size_nonneg l1). pose proof (zlen_nonneg (bk_data b)). pose proof (zlen_nonneg (bk_pad b)).
  rewrite slice_in; try lia.
  - replace (c + 16 + zlen (bk_data b) - (c + 16)) with (zlen (bk_data b)) by lia.
    rewrite fld_blk_data; auto.
  - rewrite !zlen_app, zlen_enc_blk by assumption. unfold blk_size.
    pose proof (zlen_nonneg (enc_sect (c + (16 + zlen (bk_data b) + zlen (bk_pad b))) l2)).
    pose proof (zlen_nonneg tl). lia.
Qed.
Lemma layout_get t : t <> XNone ->
  asset_get t d = Ok (option_map (fun p => (fst p + 16, bk_data (snd p))) (loc t 168 l)).
Proof.
  intro Ht. unfold asset_get. rewrite layout_find by assumption. cbn [bind].
  destruct (loc t 168 l) as [[c b]|] eqn:E; cbn [option_map]; [|reflexivity].
  apply loc_some in E as (l1 & l2 & E & Ec & _ & _).
  cbn [fst snd blk_hdr h_len]. unfold EXT_LEN. now rewrite (layout_slice c l1 b l2).
Qed.
Lemma layout_extensions : get_extensions d = Ok (map bk_type l).
Proof.
  pose proof layout_u32. pose proof layout_fuel as Hfu. unfold get_extensions.
  destruct HL as (-> & H1 & Hf & Htl & _).
  unfold ASSET_LEN. rewrite <- H1. apply list_loop_sect; auto; rewrite H1; auto.
Qed.
Lemma layout_last : last_extension d = Ok (last_res (last_blk 168 l None)).
Proof.
  pose proof layout_u32. pose proof layout_fuel as Hfu. unfold last_extension.
  destruct HL as (-> & H1 & Hf & Htl & _).
  unfold ASSET_LEN. rewrite <- H1.
  change (@None (hdr * Z)) with (last_res None). apply last_loop_sect; auto; rewrite H1; auto.
Qed.
Lemma layout_drop : drop ASSET_LEN d = enc_sect 168 l ++ tl.
Proof.
  destruct HL as (-> & H1 & _). unfold drop, ASSET_LEN. rewrite skipn_app.
  replace (Z.to_nat 168 - length hd)%nat with 0%nat by len.
  rewrite skipn_all2 by len. reflexivity.
Qed.
Lemma layout_sect t : t <> XNone ->
  sect_get t (drop ASSET_LEN d) = Ok (option_map (fun p => (fst p - 168 + 16, bk_data (snd p))) (loc t 168 l)).
Proof.
  intro Ht. pose proof layout_u32. pose proof layout_len as Hlen. rewrite layout_drop.
  destruct HL as (_ & H1 & Hf & Htl & Hz).
  unfold sect_get. pose proof (sect_loop_sect tl Htl t Ht l [] (walk_fuel (enc_sect 168 l ++ tl))) as L.
  change (zlen []) with 0 in L. cbn [app] in L. rewrite Z.add_0_r in L. apply L; auto.
  - pose proof (sect_size_length l). unfold walk_fuel. rewrite app_length.
    pose proof (zlen_enc_sect l 168 Hf) as E. unfold zlen in E. lia.
  - rewrite zlen_app, zlen_enc_sect by assumption. unfold two64. lia.
Qed.
End Account.

(** C19 on well-formed accounts *)
Lemma lookups_agree d l t : well_formed d l -> t <> XNone ->
  exists r, asset_get t d = Ok r /\
    sect_get t (drop ASSET_LEN d) = Ok (option_map (fun p => (fst p - 168, snd p)) r).
Proof.
  intros (hd & tl & HL) Ht. eexists. split; [apply (layout_get _ _ _ _ HL t Ht)|].
  rewrite (layout_sect _ _ _ _ HL t Ht). destruct (loc t 168 l) as [[c b]|]; [|reflexivity].
  cbn. do 3 f_equal. lia.
Qed.

(** Lemmas: the readers on accounts with extensions of unknown types. *)
From Verif Require Import Base State Layout Constr Ext ExtLen World Proc Borsh Client Js BaseL Spec SpecB SpecC SpecI SpecF SpecJ SpecN WorldL LayoutL LayoutE BorshL JsN.
From Coq Require Import Strings.Byte.

Lemma type_of_code i : type_of i = if it_code i =? 0 then None else ext_of_code (it_code i).
Proof.
  unfold type_of, ext_of_code, all_types, find, ext_code. set (z := it_code i).
  repeat match goal with |- context[?a =? ?b] => destruct (Z.eqb_spec a b) end; try lia; reflexivity.
Qed.
Lemma js_type i : 0 <= it_code i -> it_code i <> 0 -> js_ext_of (it_code i) = type_of i.
Proof.
  intros H N. unfold js_ext_of. replace (0 <=? it_code i) with true by lia.
  destruct (Z_lt_le_dec (it_code i) 12) as [L|L].
  - assert (C : In (it_code i) [1;2;3;4;5;6;7;8;9;10;11]) by (cbn; lia). unfold type_of. cbn in C. repeat (destruct C as [<-|C]; [reflexivity|]). contradiction.
  - rewrite (proj2 (nth_error_None _ _)) by (cbn [length js_kinds]; lia). rewrite type_of_code. replace (it_code i =? 0) with false by lia.
    unfold ext_of_code. repeat match goal with |- context[?a =? ?b] => destruct (Z.eqb_spec a b) end; try lia; reflexivity.
Qed.
Lemma headers_pos d cur l stop : headers d cur l stop -> 0 <= cur -> cur + 16 * zlen l <= stop /\ (l <> [] -> stop <= zlen d) /\ stop mod 4 = 0 /\ (zlen d < stop + 16 \/ le32 d stop = 0).
Proof.
  induction 1 as [cur M E|cur code len bnd l stop M E1 E2 E3 N B H IH]; intro P.
  - unfold zlen at 1. cbn [length]. split; [lia|]. split; [intro Q; now elim Q|auto].
  - pose proof (le32_range d (cur + 4)). destruct IH as (I1 & I2 & I3); [lia|]. rewrite zlen_cons. split; [lia|]. split; [|exact I3]. intros _. destruct l; [|apply I2; discriminate].
    inversion H; subst; lia.
Qed.
Lemma item_sizes d cur code len bnd : 0 <= cur -> 0 <= len -> cur + 16 + len <= bnd <= zlen d ->
  zlen (sub d (Z.to_nat (cur + 16)) (Z.to_nat len)) = len /\
  zlen (sub d (Z.to_nat (cur + 16 + len)) (Z.to_nat (bnd - (cur + 16 + len)))) = bnd - (cur + 16 + len) /\
  item_header (mkItem code cur (sub d (Z.to_nat (cur + 16)) (Z.to_nat len)) (sub d (Z.to_nat (cur + 16 + len)) (Z.to_nat (bnd - (cur + 16 + len))))) = mkHdr code len bnd.
Proof.
  intros P L B. assert (S1 : zlen (sub d (Z.to_nat (cur + 16)) (Z.to_nat len)) = len).
  { unfold sub, zlen. rewrite firstn_length, skipn_length. unfold zlen in B. lia. }
  assert (S2 : zlen (sub d (Z.to_nat (cur + 16 + len)) (Z.to_nat (bnd - (cur + 16 + len)))) = bnd - (cur + 16 + len)).
  { unfold sub, zlen. rewrite firstn_length, skipn_length. unfold zlen in B. lia. }
  split; [assumption|]. split; [assumption|]. unfold item_header. cbn [it_code it_at it_data it_pad]. rewrite S1, S2. f_equal. lia.
Qed.
Lemma load_item d cur code len bnd : 0 <= cur -> cur mod 4 = 0 -> le32 d cur = code -> le32 d (cur + 4) = len -> le32 d (cur + 8) = bnd -> cur + 16 <= zlen d ->
  load_hdr d cur = Ok (mkHdr code len bnd).
Proof.
  intros P M <- <- <- B. unfold load_hdr. replace ((0 <=? cur) && (cur + EXT_LEN <=? zlen d) && (cur mod 4 =? 0)) with true by (unfold EXT_LEN; lia). reflexivity.
Qed.
Lemma load_end d cur : 0 <= cur -> cur mod 4 = 0 -> zlen d < cur + 16 \/ le32 d cur = 0 ->
  (cur + EXT_LEN <=? zlen d) = false \/ ((cur + EXT_LEN <=? zlen d) = true /\ exists h, load_hdr d cur = Ok h /\ h_type h = 0).
Proof.
  intros P M E. unfold EXT_LEN. destruct (Z.leb_spec (cur + 16) (zlen d)) as [L|L]; [right|now left]. split; [reflexivity|].
  destruct E as [E|E]; [lia|]. eexists. split; [apply load_item; auto|]. exact E.
Qed.

Definition found (i : item) : Z * hdr := (it_at i, item_header i).
Lemma find_items t d cur l stop : t <> XNone -> headers d cur l stop -> forall fuel, 0 <= cur -> (length l < fuel)%nat ->
  find_loop fuel t d cur = Ok (option_map found (first_of t l)).
Proof.
  intros Ht. induction 1 as [cur M E|cur code len bnd l stop M E1 E2 E3 N B H IH]; intros [|f] P F; try (cbn [length] in F; lia); cbn [find_loop first_of option_map].
  - destruct (load_end d cur P M E) as [->|[-> (h & -> & Hh)]]; [reflexivity|]. cbn [bind]. rewrite Hh. rewrite Z.eqb_refl.
    destruct (0 =? ext_code t) eqn:Q; [|reflexivity]. exfalso. apply Ht. apply ext_code_0. lia.
  - pose proof (le32_range d (cur + 4)) as R. rewrite E2 in R. destruct (item_sizes d cur code len bnd P ltac:(lia) B) as (_ & _ & S).
    replace (cur + EXT_LEN <=? zlen d) with true by (unfold EXT_LEN; lia).
    rewrite (load_item d cur code len bnd) by (assumption || lia). cbn [bind h_type h_bnd it_code].
    destruct (code =? ext_code t); [unfold found; cbn [option_map]; rewrite S; reflexivity|]. replace (code =? 0) with false by lia.
    apply IH; [lia|cbn [length] in F; lia].
Qed.
Lemma list_items d cur l stop : headers d cur l stop -> forall fuel, 0 <= cur -> (length l < fuel)%nat ->
  list_loop fuel d cur = Ok (map fst (known l)).
Proof.
  induction 1 as [cur M E|cur code len bnd l stop M E1 E2 E3 N B H IH]; intros [|f] P F; try (cbn [length] in F; lia); cbn [list_loop known].
  - destruct (load_end d cur P M E) as [->|[-> (h & -> & Hh)]]; [reflexivity|]. cbn [bind]. rewrite Hh. reflexivity.
  - pose proof (le32_range d (cur + 4)) as R. rewrite E2 in R.
    replace (cur + EXT_LEN <=? zlen d) with true by (unfold EXT_LEN; lia).
    rewrite (load_item d cur code len bnd) by (assumption || lia). cbn [bind h_type h_bnd it_code].
    rewrite type_of_code. cbn [it_code]. replace (code =? 0) with false by lia. rewrite (IH f) by (cbn [length] in F; lia). cbn [bind].
    destruct (ext_of_code code) as [t|] eqn:Q; [|reflexivity]. assert (t <> XNone) by (intros ->; apply ext_of_code_some in Q; cbn in Q; lia).
    destruct t; try reflexivity. contradiction.
Qed.
Lemma last_step {A} (x : A) r : forall d, last (x :: r) d = last r x.
Proof. revert x. induction r as [|y r IH]; intros x d; [reflexivity|]. transitivity (last (y :: r) d); [reflexivity|]. now rewrite !IH. Qed.
Definition found_at (i : item) : hdr * Z := (item_header i, it_at i + 16).
Lemma last_items d cur l stop : headers d cur l stop -> forall fuel acc, 0 <= cur -> (length l < fuel)%nat ->
  last_loop fuel d cur acc = Ok (last (map (fun i => Some (found_at i)) (known_prefix l)) acc).
Proof.
  induction 1 as [cur M E|cur code len bnd l stop M E1 E2 E3 N B H IH]; intros [|f] acc P F; try (cbn [length] in F; lia); cbn [last_loop known_prefix].
  - destruct (load_end d cur P M E) as [->|[-> (h & -> & Hh)]]; [reflexivity|]. cbn [bind]. rewrite Hh. reflexivity.
  - pose proof (le32_range d (cur + 4)) as R. rewrite E2 in R. destruct (item_sizes d cur code len bnd P ltac:(lia) B) as (_ & _ & S).
    replace (cur + EXT_LEN <=? zlen d) with true by (unfold EXT_LEN; lia).
    rewrite (load_item d cur code len bnd) by (assumption || lia). cbn [bind h_type h_bnd it_code].
    rewrite type_of_code. cbn [it_code]. replace (code =? 0) with false by lia.
    destruct (ext_of_code code) as [t|] eqn:Q; [|reflexivity]. assert (t <> XNone) by (intros ->; apply ext_of_code_some in Q; cbn in Q; lia).
    cbn [map]. rewrite last_step. rewrite <- (IH f) by (cbn [length] in F; lia). unfold found_at at 1. rewrite S. cbn [it_at]. unfold EXT_LEN. destruct t; try reflexivity. contradiction.
Qed.
Lemma sect_items t d cur l stop : t <> XNone -> zlen d < 2147483648 -> headers d cur l stop -> forall fuel, 168 <= cur -> cur <= 2147483648 -> (length l < fuel)%nat ->
  sect_loop fuel t (drop 168 d) (cur - 168) = Ok (option_map (fun i => (it_at i + 16 - 168, it_data i)) (first_of t l)).
Proof.
  intros Ht Zd.
  assert (FD : forall o n, 168 <= o -> fld (drop 168 d) (o - 168) n = fld d o n).
  { intros o n Ho. unfold drop, fld. rewrite skipn_skipn. do 2 f_equal. lia. }
  assert (FL : forall o, 168 <= o -> le32 (drop 168 d) (o - 168) = le32 d o) by (intros o Ho; rewrite !le32_fld, FD by lia; reflexivity).
  assert (LD : 168 <= zlen d -> zlen (drop 168 d) = zlen d - 168) by (intro Q; unfold drop, zlen; rewrite skipn_length; unfold zlen in Q; lia).
  assert (LD' : zlen d < 168 -> zlen (drop 168 d) = 0) by (intro Q; unfold drop, zlen; rewrite skipn_length; unfold zlen in Q; lia).
  assert (LH : forall cur, 168 <= cur -> cur mod 4 = 0 -> cur + 16 <= zlen d -> load_hdr (drop 168 d) (cur - 168) = Ok (mkHdr (le32 d cur) (le32 d (cur + 4)) (le32 d (cur + 8)))).
  { intros c C M Q. apply load_item; [lia|lia|apply FL; lia| | |rewrite LD by lia; lia].
    - rewrite <- FL by lia. f_equal. lia.
    - rewrite <- FL by lia. f_equal. lia. }
  induction 1 as [cur M E|cur code len bnd l stop M E1 E2 E3 N B H IH]; intros [|f] P P' F; try (cbn [length] in F; lia); cbn [sect_loop first_of option_map].
  - rewrite Z.mod_small by (unfold EXT_LEN, two64; lia). unfold EXT_LEN. destruct (Z_lt_le_dec (zlen d) (cur + 16)) as [C|C].
    + replace (cur - 168 + 16 <=? zlen (drop 168 d)) with false; [reflexivity|]. symmetry.
      destruct (Z_lt_le_dec (zlen d) 168); [rewrite LD' by lia; lia|rewrite LD by lia; lia].
    + destruct E as [E|E]; [lia|]. replace (cur - 168 + 16 <=? zlen (drop 168 d)) with true by (rewrite LD by lia; lia).
      rewrite LH by assumption. cbn [bind h_type]. rewrite E. destruct (0 =? ext_code t) eqn:Q; [|reflexivity]. exfalso. apply Ht. apply ext_code_0. lia.
  - pose proof (le32_range d (cur + 4)) as R. rewrite E2 in R. rewrite Z.mod_small by (unfold EXT_LEN, two64; lia). unfold EXT_LEN.
    replace (cur - 168 + 16 <=? zlen (drop 168 d)) with true by (rewrite LD by lia; lia).
    rewrite LH by (assumption || lia). rewrite E1, E2, E3. cbn [bind h_type h_bnd h_len it_code it_at it_data].
    destruct (code =? ext_code t).
    + cbn [option_map it_at it_data]. rewrite slice_in by (rewrite ?LD by lia; lia). cbn [bind]. replace (cur - 168 + 16) with (cur + 16 - 168) by lia. rewrite FD by lia. do 3 f_equal.
      rewrite sub_fld. f_equal; lia.
    + replace (code =? 0) with false by lia. replace ((bnd - ASSET_LEN) mod two64) with (bnd - 168) by (unfold ASSET_LEN, two64; rewrite Z.mod_small by lia; reflexivity).
      apply IH; [lia|lia|cbn [length] in F; lia].
Qed.

(** ** The JavaScript reader *)
Definition reads_item (p : ext_type * item) (x : jext) : Prop := js_reads (fst p) (whole (fst p) (it_data (snd p)) (it_pad (snd p))) x.
Lemma item_whole d cur len bnd t : 0 <= cur -> 0 <= len -> cur + 16 + len <= bnd <= zlen d ->
  subarray d (cur + 16) (match t with XMetadata => bnd | _ => cur + 16 + len end) =
  whole t (sub d (Z.to_nat (cur + 16)) (Z.to_nat len)) (sub d (Z.to_nat (cur + 16 + len)) (Z.to_nat (bnd - (cur + 16 + len)))).
Proof.
  intros P L B. rewrite subarray_fld.
  assert (D : fld d (cur + 16) (cur + 16 + len - (cur + 16)) = sub d (Z.to_nat (cur + 16)) (Z.to_nat len)) by (rewrite sub_fld; f_equal; lia).
  assert (M : fld d (cur + 16) (bnd - (cur + 16)) = sub d (Z.to_nat (cur + 16)) (Z.to_nat len) ++ sub d (Z.to_nat (cur + 16 + len)) (Z.to_nat (bnd - (cur + 16 + len)))).
  { unfold sub, fld. replace (Z.to_nat (cur + 16 + len)) with (Z.to_nat (cur + 16) + Z.to_nat len)%nat by lia. rewrite <- skipn_skipn.
    set (r := skipn (Z.to_nat (cur + 16)) d). replace (Z.to_nat (bnd - (cur + 16))) with (Z.to_nat len + Z.to_nat (bnd - (cur + 16 + len)))%nat by lia.
    assert (Lr : (Z.to_nat len <= length r)%nat) by (unfold r; rewrite skipn_length; unfold zlen in B; lia).
    rewrite <- (firstn_skipn (Z.to_nat len) r) at 1. rewrite firstn_app, firstn_length, Nat.min_l by exact Lr. rewrite firstn_all2 by (rewrite firstn_length; lia).
    do 2 f_equal. lia. }
  destruct t; assumption.
Qed.
Lemma js_items d cur l stop : headers d cur l stop -> forall fuel, 0 <= cur -> (length l < fuel)%nat ->
  js_loop fuel d cur <> JHang /\
  forall xs, js_loop fuel d cur = JDone xs <-> (zlen d <= stop \/ stop + 16 <= zlen d) /\ Forall2 reads_item (known l) xs.
Proof.
  induction 1 as [cur M E|cur code len bnd l stop M E1 E2 E3 N B H IH]; intros [|f] P F; try (cbn [length] in F; lia); cbn [js_loop known].
  - destruct (Z.leb_spec (zlen d) cur) as [C|C].
    + split; [discriminate|]. intro xs. split; [intro Q; assert (xs = []) as -> by congruence; split; [lia|constructor]|]. intros [_ Q]. inversion Q. reflexivity.
    + destruct (Z.ltb_spec (zlen d) (cur + 16)) as [C'|C'].
      * split; [discriminate|]. intro xs. split; [discriminate|lia].
      * destruct E as [E|E]; [lia|]. rewrite le32_fld in E. rewrite E. cbv zeta. rewrite Z.eqb_refl. split; [discriminate|].
        intro xs. split; [intro Q; assert (xs = []) as -> by congruence; split; [lia|constructor]|]. intros [_ Q]. inversion Q. reflexivity.
  - pose proof (le32_range d (cur + 4)) as R. rewrite E2 in R. pose proof (le32_range d cur) as R0. rewrite E1 in R0.
    replace (zlen d <=? cur) with false by lia. replace (zlen d <? cur + 16) with false by lia. cbv zeta.
    rewrite <- !le32_fld, E1, E2, E3. replace (code =? 0) with false by lia.
    set (i := mkItem code cur _ _). assert (JT : js_ext_of code = type_of i) by (apply (js_type i); cbn [it_code i]; lia). rewrite JT. clear JT.
    destruct (IH f) as [H1 H2]; [lia|cbn [length] in F; lia|].
    destruct (type_of i) as [t|]; [|split; [exact H1|exact H2]].
    rewrite (item_whole d cur len bnd t) by lia.
    change (sub d (Z.to_nat (cur + 16)) (Z.to_nat len)) with (it_data i). change (sub d (Z.to_nat (cur + 16 + len)) (Z.to_nat (bnd - (cur + 16 + len)))) with (it_pad i).
    destruct (js_read t (whole t (it_data i) (it_pad i))) as [[x r]|] eqn:Rd.
    + destruct (js_loop f d bnd) as [ys| |] eqn:Q; try (elim H1; reflexivity).
      * split; [discriminate|]. intro xs. destruct (proj1 (H2 ys) eq_refl) as [D1 D2]. split.
        -- intro H3. assert (xs = x :: ys) as -> by congruence. split; [exact D1|]. constructor; [now exists r|exact D2].
        -- intros [_ H3]. inversion H3 as [|? x' ? ys' [r' R'] Y]; subst. cbn [fst snd] in R'. assert (x' = x) as -> by congruence. assert (JDone ys = JDone ys') by (apply H2; auto). congruence.
      * split; [discriminate|]. intro xs. split; [discriminate|]. intros [D1 H3]. inversion H3 as [|? x' ? ys' [r' R'] Y]; subst. assert (@JThrow (list jext) = JDone ys') by (apply H2; auto). discriminate.
    + split; [discriminate|]. intro xs. split; [discriminate|]. intros [_ H3]. inversion H3 as [|? x' ? ys' [r' R'] Y]; subst. cbn [fst snd] in R'. congruence.
Qed.

(** ** Whole accounts *)
Section Newer.
Variables (d : bytes) (l : list item) (stop : Z).
Hypothesis HH : headers d 168 l stop.
Lemma newer_fuel : (length l < walk_fuel d)%nat.
Proof using HH.
  destruct (headers_pos _ _ _ _ HH) as (H1 & H2 & _); [lia|]. unfold walk_fuel. destruct l as [|i r]; [cbn [length]; lia|].
  specialize (H2 ltac:(discriminate)). unfold zlen in *. lia.
Qed.
Lemma newer_find t : t <> XNone -> find_ext t d = Ok (option_map found (first_of t l)).
Proof using HH. intro Ht. exact (find_items t d 168 l stop Ht HH _ ltac:(lia) newer_fuel). Qed.
Lemma newer_contains t : t <> XNone -> asset_contains t d = Ok (match first_of t l with Some _ => true | None => false end).
Proof using HH. intro Ht. unfold asset_contains. rewrite newer_find by assumption. now destruct (first_of t l). Qed.
Lemma newer_get_extension t : t <> XNone -> asset_get_extension t d = Ok (option_map (fun i => (item_header i, it_at i + 16)) (first_of t l)).
Proof using HH. intro Ht. unfold asset_get_extension. rewrite newer_find by assumption. now destruct (first_of t l). Qed.
Lemma first_in t i cur m s : headers d cur m s -> 0 <= cur -> first_of t m = Some i ->
  cur <= it_at i /\ it_at i + 16 + zlen (it_data i) <= zlen d /\ it_data i = sub d (Z.to_nat (it_at i + 16)) (length (it_data i)).
Proof using.
  clear HH. induction 1 as [c M E|c code len bnd m s M E1 E2 E3 N B H IH]; intros P Q; cbn [first_of it_code] in Q; [discriminate|].
  pose proof (le32_range d (c + 4)) as R. rewrite E2 in R.
  destruct (code =? ext_code t).
  - apply Some_inj in Q. subst i. cbn [it_at it_data]. destruct (item_sizes d c code len bnd P ltac:(lia) B) as (S1 & _). rewrite S1. split; [lia|]. split; [lia|].
    f_equal. unfold zlen in S1. lia.
  - destruct (IH ltac:(lia) Q) as (I1 & I2). split; [lia|exact I2].
Qed.
Lemma newer_get t : t <> XNone -> asset_get t d = Ok (option_map (fun i => (it_at i + 16, it_data i)) (first_of t l)).
Proof using HH.
  intro Ht. unfold asset_get. rewrite newer_find by assumption. cbn [bind]. destruct (first_of t l) as [i|] eqn:E; [|reflexivity]. cbn [option_map found].
  destruct (first_in t i 168 l stop HH ltac:(lia) E) as (I1 & I2 & I3). unfold item_header. cbn [h_len]. unfold EXT_LEN. pose proof (zlen_nonneg (it_data i)).
  rewrite slice_in by lia. cbn [bind]. do 3 f_equal. replace (it_at i + 16 + zlen (it_data i) - (it_at i + 16)) with (zlen (it_data i)) by lia.
  rewrite I3 at 2. rewrite sub_fld. f_equal; unfold zlen; lia.
Qed.
Lemma newer_sect t : t <> XNone -> zlen d < 2147483648 -> sect_get t (drop 168 d) = Ok (option_map (fun i => (it_at i + 16 - 168, it_data i)) (first_of t l)).
Proof using HH.
  intros Ht Zd. unfold sect_get. change 0 with (168 - 168). apply (sect_items t d 168 l stop); [assumption|assumption|assumption|lia|lia|].
  destruct (headers_pos _ _ _ _ HH) as (H1 & H2 & _); [lia|]. unfold walk_fuel, drop. rewrite skipn_length. destruct l as [|i r]; [cbn [length]; lia|].
  specialize (H2 ltac:(discriminate)). unfold zlen in *. lia.
Qed.
Lemma newer_list : get_extensions d = Ok (map fst (known l)).
Proof using HH. exact (list_items d 168 l stop HH _ ltac:(lia) newer_fuel). Qed.
Lemma newer_last : last_extension d = Ok (last (map (fun i => Some (item_header i, it_at i + 16)) (known_prefix l)) None).
Proof using HH. exact (last_items d 168 l stop HH _ None ltac:(lia) newer_fuel). Qed.
Lemma newer_first : first_extension d = Ok (match known_prefix l with i :: _ => Some (item_header i, 184) | [] => None end).
Proof using HH.
  unfold first_extension. inversion HH as [cur M E|cur code len bnd r s M E1 E2 E3 N B H]; subst.
  - cbn [known_prefix]. destruct (load_end d 168 ltac:(lia) M E) as [Q|[Q (h & Q' & Hh)]]; unfold ASSET_LEN; rewrite Q; [reflexivity|]. rewrite Q'. cbn [bind]. rewrite Hh. reflexivity.
  - pose proof (le32_range d (168 + 4)) as R. destruct (item_sizes d 168 (le32 d 168) (le32 d (168 + 4)) (le32 d (168 + 8)) ltac:(lia) ltac:(lia) B) as (_ & _ & S).
    unfold ASSET_LEN, EXT_LEN. replace (168 + 16 <=? zlen d) with true by lia.
    rewrite (load_item d 168 (le32 d 168) (le32 d (168 + 4)) (le32 d (168 + 8))) by (auto; lia). cbn [bind h_type known_prefix]. rewrite type_of_code. cbn [it_code].
    replace (le32 d 168 =? 0) with false by lia. destruct (ext_of_code (le32 d 168)) as [t|] eqn:Q; [|reflexivity]. rewrite S.
    assert (t <> XNone) by (intros ->; apply ext_of_code_some in Q; exact (N Q)). destruct t; try reflexivity. contradiction.
Qed.
Lemma newer_js a : valid_header d -> Forall (fun p => parses (fst p) (it_data (snd p))) (known l) ->
  (js_asset d = JDone a <-> (zlen d <= stop \/ stop + 16 <= zlen d) /\ shown_header d a /\
     Forall2 (fun p x => shown (fst p) (it_data (snd p)) (it_pad (snd p)) x) (known l) (ja_exts a)) /\ js_asset d <> JHang.
Proof using HH.
  intros (I1 & I2 & I3) PP.
  unfold js_asset. destruct I1 as [I1 I4]. destruct (header_read d I1) as (rest & H). rewrite H.
  replace (b2z (s_disc d) =? 1) with true by (rewrite I4; reflexivity). replace (b2z (s_state d) <? 2) with true by lia. replace (b2z (s_standard d) <? 4) with true by lia. cbn [andb].
  destruct (js_items d 168 l stop HH (S (length d)) ltac:(lia) newer_fuel) as [N P].
  cbn [ja_state ja_standard ja_mutable ja_owner ja_group ja_authority ja_delegate ja_name].
  assert (SH : forall xs, Forall2 reads_item (known l) xs <-> Forall2 (fun p x => shown (fst p) (it_data (snd p)) (it_pad (snd p)) x) (known l) xs).
  { intro xs. clear - PP. revert xs. induction PP as [|p r Hp Hr IH]; intro xs; split; intro F; inversion F; subst; constructor; try (now apply IH); now apply (read_shown _ _ _ _ Hp). }
  destruct (js_loop (S (length d)) d 168) as [xs| |]; [| |now elim N].
  - split; [|discriminate]. destruct (proj1 (P xs) eq_refl) as [P1 P2]. split.
    + intro Q. assert (Q' : a = mkJasset (b2z (s_state d)) (b2z (s_standard d)) (beqb (s_mutable d) x01) (s_owner d) (seen_key (s_group d)) (s_authority d)
                 (match seen_key (s_delegate d) with Some k => Some (k, seen_roles (s_roles d)) | None => None end) (seen_text (s_name d)) xs) by congruence. subst a.
      split; [exact P1|]. split; [|apply SH; exact P2]. unfold shown_header. cbn [ja_state ja_standard ja_mutable ja_owner ja_group ja_authority ja_delegate ja_name]. auto 10.
    + intros (_ & (A1 & A2 & A3 & A4 & A5 & A6 & A7 & A8) & F). apply SH in F. assert (JDone xs = JDone (ja_exts a)) as X by (apply P; auto). f_equal. destruct a. cbn in *. congruence.
  - split; [|discriminate]. split; [discriminate|]. intros (E1 & _ & F). apply SH in F. assert (@JThrow (list jext) = JDone (ja_exts a)) by (apply P; auto). discriminate.
Qed.
End Newer.

(** accounts as this version writes them are a special case *)
Definition item_of (c : Z) (k : blk) : item := mkItem (ext_code (bk_type k)) c (bk_data k) (bk_pad k).
Fixpoint items_of (c : Z) (l : list blk) : list item := match l with [] => [] | k :: r => item_of c k :: items_of (c + blk_size k) r end.
Lemma sect_headers tl : tail_ok tl -> forall l A, zlen A mod 8 = 0 -> Forall blk_ok l -> zlen A + sect_size l <= u32_max ->
  headers (A ++ enc_sect (zlen A) l ++ tl) (zlen A) (items_of (zlen A) l) (zlen A + sect_size l).
Proof.
  intro T. induction l as [|k l IH]; intros A M K U; cbn [enc_sect items_of sect_size].
  - rewrite Z.add_0_r. cbn [app]. constructor; [lia|]. destruct T as [T|T]; [left; rewrite zlen_app; lia|]. right. rewrite le32_fld in *. rewrite fld_app_r by lia. now rewrite Z.sub_diag.
  - apply Forall_cons_iff in K as [Kk Kl]. pose proof (sect_size_nonneg l). pose proof (blk_size_mod k Kk). pose proof (blk_size_pos k). cbn [sect_size] in U. pose proof (zlen_nonneg A). pose proof (zlen_nonneg tl).
    assert (Z1 : zlen (A ++ enc_blk (zlen A) k) = zlen A + blk_size k) by (rewrite zlen_app, zlen_enc_blk by assumption; reflexivity).
    specialize (IH (A ++ enc_blk (zlen A) k)). rewrite Z1 in IH. specialize (IH ltac:(lia) Kl ltac:(lia)). rewrite <- !app_assoc in *.
    pose proof (load_hdr_blk A (enc_sect (zlen A + blk_size k) l ++ tl) k (zlen A) eq_refl Kk M ltac:(lia)) as LH.
    pose proof (fld_blk_data A (enc_sect (zlen A + blk_size k) l ++ tl) k (zlen A) eq_refl Kk) as FD.
    assert (FP : fld (A ++ enc_blk (zlen A) k ++ enc_sect (zlen A + blk_size k) l ++ tl) (zlen A + 16 + zlen (bk_data k)) (zlen (bk_pad k)) = bk_pad k).
    { rewrite enc_blk_head. rewrite <- !app_assoc. rewrite (app_assoc A), (app_assoc (A ++ _)). apply fld_mid; [rewrite !zlen_app, zlen_blk_head by assumption; lia|reflexivity]. }
    set (d := A ++ enc_blk (zlen A) k ++ enc_sect (zlen A + blk_size k) l ++ tl) in *.
    assert (DL : zlen d = zlen A + blk_size k + sect_size l + zlen tl) by (unfold d; rewrite !zlen_app, zlen_enc_blk, zlen_enc_sect by assumption; lia).
    apply load_hdr_ok in LH as (_ & _ & _ & LH). pose proof (f_equal h_type LH) as Q1. pose proof (f_equal h_len LH) as Q2. pose proof (f_equal h_bnd LH) as Q3. cbn [h_type h_len h_bnd] in Q1, Q2, Q3.
    pose proof (zlen_nonneg (bk_data k)). pose proof (zlen_nonneg (bk_pad k)).
    assert (IT : item_of (zlen A) k = mkItem (ext_code (bk_type k)) (zlen A) (sub d (Z.to_nat (zlen A + 16)) (Z.to_nat (zlen (bk_data k)))) (sub d (Z.to_nat (zlen A + 16 + zlen (bk_data k))) (Z.to_nat (zlen A + blk_size k - (zlen A + 16 + zlen (bk_data k)))))).
    { unfold item_of. rewrite !sub_fld. rewrite !Z2Nat.id by (unfold blk_size; lia). rewrite FD. f_equal. rewrite <- FP at 1. f_equal. unfold blk_size. lia. }
    rewrite IT, Z.add_assoc. eapply hs_item; [lia|now symmetry|now symmetry|now symmetry| |unfold blk_size in *; lia|exact IH].
    intro Q. apply (proj1 Kk). now apply ext_code_0.
Qed.
Lemma layout_headers d hd l tl : layout d hd l tl -> headers d 168 (items_of 168 l) (168 + sect_size l) /\ map (fun i => (it_code i, it_data i)) (items_of 168 l) = map (fun k => (ext_code (bk_type k), bk_data k)) l.
Proof.
  intro HL. pose proof (layout_u32 _ _ _ _ HL) as U. destruct HL as (-> & H1 & Hf & Htl & _). split.
  - pose proof (sect_headers tl Htl l hd) as S. rewrite H1 in S. apply S; auto.
  - clear. generalize 168. induction l as [|k l IH]; intro c; [reflexivity|]. cbn [items_of map]. now rewrite IH.
Qed.

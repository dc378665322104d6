(** Editing well-formed sections: replacing payload bytes, appending, cutting. *)
From Verif Require Import Base State Layout Constr Ext World Proc BaseL Spec WorldL LayoutL HeadL.
From Coq Require Import Strings.Byte.

Lemma put_inside A M C o bs : 0 <= o -> o + zlen bs <= zlen M ->
  put (A ++ M ++ C) (zlen A + o) bs = A ++ put M o bs ++ C.
Proof.
  intros Ho Hb. rewrite (put_as M) by lia.
  rewrite (split3 M o (zlen bs)) at 1 by (pose proof (zlen_nonneg bs); lia).
  rewrite <- !app_assoc. rewrite (app_assoc A). rewrite put_mid.
  - now rewrite <- !app_assoc.
  - rewrite zlen_app. len.
  - rewrite zlen_fld; pose proof (zlen_nonneg bs); lia.
Qed.
Lemma put_end A M o bs : 0 <= o -> o + zlen bs <= zlen M ->
  put (A ++ M) (zlen A + o) bs = A ++ put M o bs.
Proof. intros. pose proof (put_inside A M [] o bs). rewrite !app_nil_r in *. auto. Qed.
Lemma put_front M C o bs : 0 <= o -> o + zlen bs <= zlen M ->
  put (M ++ C) o bs = put M o bs ++ C.
Proof. intros. exact (put_inside [] M C o bs ltac:(assumption) ltac:(assumption)). Qed.
Lemma put_whole M bs : zlen bs = zlen M -> put M 0 bs = bs.
Proof.
  intro H. unfold put. cbn. rewrite skipn_all2; [apply app_nil_r|]. len.
Qed.
Lemma zeros_app a b : 0 <= a -> 0 <= b -> zeros a ++ zeros b = zeros (a + b).
Proof. intros. unfold zeros. rewrite <- repeat_app. f_equal. lia. Qed.
Lemma firstn_zeros a n : 0 <= a <= n -> firstn (Z.to_nat a) (zeros n) = zeros a.
Proof.
  intros. replace n with (a + (n - a)) by lia. rewrite <- zeros_app by lia.
  rewrite firstn_app. replace (Z.to_nat a - length (zeros a))%nat with 0%nat by len.
  cbn. rewrite app_nil_r. apply firstn_all2. len.
Qed.
Lemma skipn_zeros a n : 0 <= a <= n -> skipn (Z.to_nat a) (zeros n) = zeros (n - a).
Proof.
  intros. replace n with (a + (n - a)) at 1 by lia. rewrite <- zeros_app by lia.
  rewrite skipn_app. rewrite skipn_all2 by len.
  replace (Z.to_nat a - length (zeros a))%nat with 0%nat by len. reflexivity.
Qed.
Lemma fld_zeros o n m : 0 <= o -> 0 <= n -> o + n <= m -> fld (zeros m) o n = zeros n.
Proof. intros. unfold fld. rewrite skipn_zeros by lia. apply firstn_zeros. lia. Qed.

(** ** Realloc *)
Lemma realloc_shrink d n : 0 <= n <= zlen d -> realloc_bytes d n = firstn (Z.to_nat n) d.
Proof. intro. unfold realloc_bytes. now replace (n <=? zlen d) with true by lia. Qed.
Lemma realloc_grow d n : zlen d <= n -> realloc_bytes d n = d ++ zeros (n - zlen d).
Proof.
  intro. unfold realloc_bytes. destruct (n <=? zlen d) eqn:E; [|reflexivity].
  replace n with (zlen d) by lia. rewrite Z.sub_diag. cbn. rewrite app_nil_r.
  unfold zlen. rewrite Nat2Z.id. apply firstn_all.
Qed.
Lemma realloc_app P tl n : zlen P <= n -> realloc_bytes (P ++ tl) n = P ++ realloc_bytes tl (n - zlen P).
Proof.
  intro. unfold realloc_bytes. rewrite zlen_app.
  destruct (n <=? zlen P + zlen tl) eqn:E.
  - replace (n - zlen P <=? zlen tl) with true by lia. rewrite firstn_app.
    rewrite firstn_all2 by len. do 2 f_equal. len.
  - replace (n - zlen P <=? zlen tl) with false by lia. rewrite <- app_assoc. do 3 f_equal. lia.
Qed.
Lemma realloc_zeros m n : 0 <= m -> 0 <= n -> realloc_bytes (zeros m) n = zeros n.
Proof.
  intros. unfold realloc_bytes. rewrite zlen_zeros by lia. destruct (n <=? m) eqn:E.
  - apply firstn_zeros. lia.
  - rewrite zeros_app by lia. f_equal. lia.
Qed.

(** ** Blocks *)
Definition blk_head (cur : Z) (b : blk) : bytes :=
  le_enc 4 (ext_code (bk_type b)) ++ le_enc 4 (zlen (bk_data b)) ++ le_enc 4 (cur + blk_size b) ++ bk_unused b.
Lemma enc_blk_head cur b : enc_blk cur b = blk_head cur b ++ bk_data b ++ bk_pad b.
Proof. unfold enc_blk, blk_head. now rewrite <- !app_assoc. Qed.
Lemma zlen_blk_head cur b : blk_ok b -> zlen (blk_head cur b) = 16.
Proof.
  intros (_ & Hu & _). unfold blk_head. rewrite !zlen_app, !le_enc_zlen. unfold zlen. rewrite Hu. reflexivity.
Qed.
Lemma zlen_repeat {A} (x : A) n : zlen (repeat x n) = Z.of_nat n.
Proof. unfold zlen. now rewrite repeat_length. Qed.
Lemma blk_of_ok t bs : t <> XNone -> blk_ok (blk_of t bs).
Proof.
  intro. unfold blk_ok, blk_of. cbn [bk_type bk_unused bk_pad bk_data]. split; [assumption|].
  split; [reflexivity|]. rewrite zlen_repeat. lia.
Qed.
Lemma blk_of_size t bs : blk_size (blk_of t bs) = pad8 (16 + zlen bs).
Proof. unfold blk_size, blk_of, pad8. cbn [bk_data bk_pad]. rewrite zlen_repeat. lia. Qed.

(** replacing a block by one of the same size *)
Lemma layout_swap d hd l1 b l2 tl b' : layout d hd (l1 ++ b :: l2) tl -> blk_ok b' -> blk_size b' = blk_size b ->
  layout (hd ++ enc_sect 168 (l1 ++ b' :: l2) ++ tl) hd (l1 ++ b' :: l2) tl.
Proof.
  intros (-> & Hh & Hf & Ht & Hz) Hb Hs. apply Forall_app in Hf as [Hf1 Hf2]. inv Hf2.
  split; [reflexivity|]. split; [assumption|]. split; [apply Forall_app; auto|]. split; [assumption|].
  rewrite !zlen_app in *. rewrite !zlen_enc_sect in *; try (apply Forall_app; auto).
  rewrite sect_size_app in *. cbn [sect_size] in *. lia.
Qed.
Definition with_data (b : blk) (bs : bytes) : blk := mkBlk (bk_type b) bs (bk_unused b) (bk_pad b).
Lemma layout_put d hd l1 b l2 tl o bs : layout d hd (l1 ++ b :: l2) tl ->
  0 <= o -> o + zlen bs <= zlen (bk_data b) ->
  layout (put d (168 + sect_size l1 + 16 + o) bs) hd (l1 ++ with_data b (put (bk_data b) o bs) :: l2) tl.
Proof.
  intros HL Ho Hb.
  assert (Hz : zlen (put (bk_data b) o bs) = zlen (bk_data b)) by (apply zlen_put; lia).
  assert (Hs : blk_size (with_data b (put (bk_data b) o bs)) = blk_size b)
    by (unfold blk_size, with_data; cbn [bk_data bk_pad]; lia).
  destruct (layout_at _ _ _ _ HL _ l1 b l2 eq_refl eq_refl) as (A & Ed & HA & Hbk & EA).
  assert (Hbk' : blk_ok (with_data b (put (bk_data b) o bs))).
  { destruct Hbk as (B1 & B2 & B3 & B4). unfold blk_ok, with_data. cbn [bk_type bk_data bk_pad bk_unused].
    rewrite Hz. auto. }
  pose proof (layout_swap _ _ _ _ _ _ _ HL Hbk' Hs) as L.
  match type of L with layout ?x _ _ _ => enough (put d (168 + sect_size l1 + 16 + o) bs = x) as -> by exact L end.
  rewrite Ed. rewrite enc_blk_head. rewrite <- !app_assoc. rewrite (app_assoc A).
  replace (168 + sect_size l1 + 16 + o) with (zlen (A ++ blk_head (168 + sect_size l1) b) + o)
    by (rewrite zlen_app, zlen_blk_head by assumption; lia).
  rewrite put_inside by lia. rewrite EA, enc_sect_app. cbn [enc_sect]. rewrite enc_blk_head.
  rewrite <- !app_assoc. unfold blk_head. cbn [with_data bk_type bk_data bk_unused bk_pad].
  rewrite Hz, Hs. now rewrite <- !app_assoc.
Qed.

(** appending to an account whose section is followed by zeros *)
Lemma tail_zeros n : tail_ok (zeros n).
Proof.
  destruct (Z_lt_le_dec n 16) as [H|H].
  - left. destruct (Z_lt_le_dec n 0); [unfold zeros, zlen; rewrite repeat_length; lia|]. rewrite zlen_zeros; lia.
  - right. rewrite le32_fld. rewrite fld_zeros by lia. reflexivity.
Qed.
Lemma layout_append hd l b tl tl' d d' : layout d hd l tl -> blk_ok b -> tail_ok tl' ->
  d' = hd ++ enc_sect 168 l ++ enc_blk (168 + sect_size l) b ++ tl' -> zlen d' < 2147483648 ->
  layout d' hd (l ++ [b]) tl'.
Proof.
  intros (-> & Hh & Hf & Ht & Hz) Hb Ht' -> Hz'. split.
  - rewrite enc_sect_app. cbn [enc_sect]. now rewrite app_nil_r, <- !app_assoc.
  - split; [assumption|]. split; [apply Forall_app; auto|]. auto.
Qed.
Lemma layout_tail hd l tl tl' d : layout d hd l tl -> tail_ok tl' -> 168 + sect_size l + zlen tl' < 2147483648 ->
  layout (hd ++ enc_sect 168 l ++ tl') hd l tl'.
Proof.
  intros (-> & Hh & Hf & Ht & Hz) Ht' Hz'. split; [reflexivity|]. split; [assumption|]. split; [assumption|].
  split; [assumption|]. rewrite !zlen_app, zlen_enc_sect by assumption. lia.
Qed.
Lemma layout_prefix d hd l tl : layout d hd l tl ->
  d = (hd ++ enc_sect 168 l) ++ tl /\ zlen (hd ++ enc_sect 168 l) = 168 + sect_size l.
Proof.
  intros (-> & Hh & Hf & _). split; [now rewrite app_assoc|]. rewrite zlen_app, zlen_enc_sect by assumption. lia.
Qed.

(** Allocate followed by Writes against one Allocate (C20, C21). *)
From Verif Require Import Base State Layout Constr Ext World Proc BaseL Spec SpecB WorldL ProcSteps LayoutL LayoutE HeadL CreatorsL AuthL AllocL AllocM ValidL.
From Coq Require Import Strings.Byte.

Lemma allocate_effect e infos w x w' asset hd l n :
  arg infos 0 asset -> open_account (data (w asset)) hd l n -> zlen (data (w asset)) <= 10485760 -> x_type x <> XNone ->
  0 <= x_length x <= u32_max -> zlen (given x) < two32 ->
  process e infos w (IAllocate x) = Ok w' ->
  signed infos asset /\
  lookup (x_type x) (ext_list l) = None /\ zlen (given x) <= x_length x /\
  (x_length x = zlen (given x) ->
     data (w' asset) = hd ++ enc_sect 168 l ++ enc_blk (168 + sect_size l) (blk_of (x_type x) (given x)) ++
        zeros (n - blk_size (blk_of (x_type x) (given x))) /\
     open_account (data (w' asset)) hd (l ++ [blk_of (x_type x) (given x)])
       (Z.max 0 (n - blk_size (blk_of (x_type x) (given x))))) /\
  (zlen (given x) < x_length x ->
     data (w' asset) = hd ++ enc_sect 168 l ++ enc_hdr (ext_code (x_type x)) (x_length x) (pad8 (168 + sect_size l + 16 + x_length x)) ++
       zeros 4 ++ given x) /\
  (forall k, k <> asset -> data (w' k) = data (w k) /\ acct_owner (w' k) = acct_owner (w k)) /\
  acct_owner (w' asset) = e_prog e.
Proof.
  intros A0 HO Hs Ht Hx Hbs H. apply process_dispatch in H. cbn [dispatch] in H. unfold process_allocate in H.
  apply bind_ok in H as (asset' & B0 & H). apply acct_arg in B0. rewrite <- (arg_det _ _ _ _ A0 B0) in *. clear asset' B0.
  apply bind_ok in H as (payer & B1 & H). apply bind_ok in H as (sysp & B2 & H).
  eapply do_allocate_effect in H; eauto. destruct H as (H1 & H2 & H3 & H4 & H5 & H6 & H7 & H8).
  split; [now apply signed_acct|]. repeat (split; [assumption|]).
  split; [intro Q; destruct (H4 Q) as (Q1 & Q2 & Q3); split; assumption|].
  split; [assumption|]. split; [assumption|].
  destruct (data (w asset)) eqn:E; [apply H7; reflexivity|]. apply H8. discriminate.
Qed.

Lemma chunk_pos (P : env * list ainfo * bytes -> Prop) cs : Forall (fun c => P c /\ snd c <> []) cs -> cs <> [] -> 0 < zlen (chunk_bytes cs).
Proof.
  intros H Hne. destruct cs as [|[p ch] cs]; [contradiction|]. apply Forall_cons_iff in H as [[_ H] _]. cbn [snd] in H.
  unfold chunk_bytes. cbn [map concat snd]. rewrite zlen_app.
  match goal with |- 0 < _ + ?r => assert (0 <= r) by apply zlen_nonneg end.
  destruct ch as [|z ch]; [contradiction|]. unfold zlen at 1. cbn [length]. lia.
Qed.
Lemma writes_effect asset hd l t len : forall cs w w' bs,
  Forall (fun c => arg (snd (fst c)) 0 asset /\ snd c <> []) cs ->
  partial_account (data (w asset)) hd l t len bs -> zlen bs < len -> zlen bs + zlen (chunk_bytes cs) = len ->
  steps (map write_of cs) w = Ok w' ->
  exists b', fresh_payload t None (bs ++ chunk_bytes cs) b' /\ valid_new t b' /\
    data (w' asset) = hd ++ enc_sect 168 l ++ enc_blk (168 + sect_size l) (blk_of t b') /\
    layout (data (w' asset)) hd (l ++ [blk_of t b']) [] /\
    (forall k, k <> asset -> data (w' k) = data (w k)).
Proof.
  induction cs as [|c cs IH]; intros w w' bs HF HP Hlt Heq H.
  - change (zlen (chunk_bytes [])) with 0 in Heq. lia.
  - apply Forall_cons_iff in HF as [[Harg Hne] H3]. cbn [map steps] in H.
    unfold write_of in H at 1. destruct c as [[e infos] ch]. cbn [fst snd] in *.
    apply bind_ok in H as (w1 & Hw & H).
    assert (Ec : chunk_bytes ((e, infos, ch) :: cs) = ch ++ chunk_bytes cs) by reflexivity.
    rewrite Ec in *. rewrite zlen_app in Heq. pose proof (zlen_nonneg (chunk_bytes cs)) as Hn.
    destruct (write_effect e infos w (mkDataInput false ch) w1 asset hd l t len bs Harg HP Hlt eq_refl) as (_ & _ & W1 & W2 & W3 & _);
      [cbn [w_bytes]; lia|exact Hw|]. cbn [w_bytes] in *.
    destruct cs as [|c2 cs2].
    + change (zlen (chunk_bytes [])) with 0 in Heq. destruct W2 as (b' & F & (al & V) & D & L); [lia|].
      cbn [map steps] in H. injection H as <-. apply on_create_valid in V. exists b'. change (chunk_bytes []) with (@nil byte). rewrite app_nil_r. auto.
    + assert (Hpos : 0 < zlen (chunk_bytes (c2 :: cs2))).
      { eapply chunk_pos; [exact H3|discriminate]. }
      destruct (IH w1 w' (bs ++ ch) H3) as (b' & F & V & D & L & Fr); auto.
      * apply W1. lia.
      * rewrite zlen_app. lia.
      * rewrite zlen_app. lia.
      * exists b'. rewrite <- app_assoc in F. split; [exact F|]. split; [exact V|]. split; [exact D|]. split; [exact L|].
        intros k Hk. rewrite Fr, W3; auto.
Qed.

Lemma list_ext {A} : forall l1 l2 : list A, (forall i, nth_error l1 i = nth_error l2 i) -> l1 = l2.
Proof.
  induction l1 as [|x l1 IH]; intros [|y l2] H; auto; try (specialize (H 0%nat); discriminate H).
  pose proof (H 0%nat) as H0. injection H0 as <-. f_equal. apply IH. intro i. exact (H (S i)).
Qed.
(** payloads without set flags are left alone by the hook of Write *)
Lemma creators_ext b b' : length b = (34 * cr_count b)%nat -> length b' = length b ->
  (forall i, (i < cr_count b)%nat -> cr_addr_at b' i = cr_addr_at b i /\ cr_flag_at b' i = cr_flag_at b i /\ cr_share_at b' i = cr_share_at b i) ->
  b' = b.
Proof.
  intros H1 H2 H. assert (Ec : cr_count b' = cr_count b) by (unfold cr_count; now rewrite H2).
  rewrite <- (enc_dec (cr_count b) b) by assumption. rewrite <- (enc_dec (cr_count b) b') by lia. f_equal.
  apply list_ext. intro i. destruct (Nat.lt_ge_cases i (cr_count b)) as [Hi|Hi].
  - rewrite !dec_nth by assumption. destruct (H i Hi) as (-> & -> & ->). reflexivity.
  - rewrite !(proj2 (nth_error_None _ _)); rewrite ?dec_length; auto.
Qed.

Lemma fresh_unflagged t b b' : fresh_payload t None b b' -> unflagged t b ->
  (t = XCreators -> length b = (34 * cr_count b)%nat) -> b' = b.
Proof.
  intros (H1 & H2 & H3) Hu Hc.
  assert (Ht : {t = XCreators} + {t <> XCreators}) by (destruct t; ((left; reflexivity) || (right; discriminate))).
  destruct Ht as [->|Ht]; [|now apply H2]. apply creators_ext; auto. intros i Hi.
  destruct (H3 eq_refl i Hi) as (A & B & _ & D). split; [exact A|]. split; [|exact B].
  rewrite (Hu eq_refl i Hi). apply D. discriminate.
Qed.

(** C20 *)
Lemma allocate_appends e infos w w' asset t bs hd l n :
  arg infos 0 asset -> open_account (data (w asset)) hd l n -> sized w -> t <> XNone -> zlen bs <= u32_max ->
  process e infos w (IAllocate (mkExtInput t (zlen bs) (Some bs))) = Ok w' ->
  lookup t (ext_list l) = None /\
  data (w' asset) = hd ++ enc_sect 168 (l ++ [blk_of t bs]) ++ repeat x00 (Z.to_nat (n - blk_size (blk_of t bs))) /\
  well_formed (data (w' asset)) (l ++ [blk_of t bs]) /\
  (n <= blk_size (blk_of t bs) -> tight (data (w' asset)) (l ++ [blk_of t bs]) /\ zlen (data (w' asset)) mod 8 = 0) /\
  (forall k, k <> asset -> data (w' k) = data (w k)).
Proof.
  intros A0 HO Hs Ht Hb H.
  eapply allocate_effect in H; [|exact A0|exact HO|apply Hs|exact Ht|cbn [x_length]; pose proof (zlen_nonneg bs); lia|].
  2:{ cbn [given x_data]. unfold u32_max, two32 in *. lia. }
  cbn [given x_data x_length x_type] in H. destruct H as (_ & H1 & _ & H2 & _ & H3 & _).
  destruct (H2 eq_refl) as (D & O). split; [assumption|].
  assert (ED : data (w' asset) = hd ++ enc_sect 168 (l ++ [blk_of t bs]) ++ repeat x00 (Z.to_nat (n - blk_size (blk_of t bs)))).
  { rewrite D. rewrite enc_sect_app. cbn [enc_sect]. now rewrite app_nil_r, <- !app_assoc. }
  split; [exact ED|].
  destruct O as [(_ & _ & Q & _)|(_ & HL)]; [destruct l; discriminate Q|].
  split; [exists hd; eexists; exact HL|]. split; [|intros k Hk; apply H3; assumption].
  intro Hn. replace (Z.max 0 (n - blk_size (blk_of t bs))) with 0 in HL by lia. change (repeat x00 (Z.to_nat 0)) with (@nil byte) in HL.
  split; [exists hd; exact HL|]. rewrite (layout_len _ _ _ _ HL). change (zlen []) with 0.
  destruct HL as (_ & _ & Hf & _). pose proof (sect_size_mod _ Hf). lia.
Qed.

(** C21 *)
Lemma chunked_content e infos w w1 asset x cs hd l n :
  arg infos 0 asset -> Forall (fun c => arg (snd (fst c)) 0 asset /\ snd c <> []) cs -> cs <> [] ->
  open_account (data (w asset)) hd l n -> sized w -> x_type x <> XNone ->
  x_length x = zlen (given x ++ chunk_bytes cs) -> 168 + sect_size l + 16 + x_length x <= 10485760 ->
  steps ((e, infos, IAllocate x) :: map write_of cs) w = Ok w1 ->
  exists b', fresh_payload (x_type x) None (given x ++ chunk_bytes cs) b' /\ valid_new (x_type x) b' /\
    data (w1 asset) = hd ++ enc_sect 168 (l ++ [blk_of (x_type x) b']) /\
    tight (data (w1 asset)) (l ++ [blk_of (x_type x) b']) /\
    (forall k, k <> asset -> data (w1 k) = data (w k)).
Proof.
  intros A0 HF Hne HO Hs Ht Hlen Hmax H. cbn [steps] in H. apply bind_ok in H as (wa & Ha & H).
  rewrite zlen_app in Hlen. pose proof (zlen_nonneg (given x)) as Hg. pose proof (zlen_nonneg (chunk_bytes cs)) as Hc.
  assert (Hpos : 0 < zlen (chunk_bytes cs)).
  { eapply chunk_pos; [exact HF|assumption]. }
  destruct (open_room _ _ _ _ HO) as (_ & _ & _ & Hf & Hh). pose proof (sect_size_nonneg l) as Hsn.
  eapply allocate_effect in Ha; [|exact A0|exact HO|apply Hs|exact Ht|unfold u32_max; lia|unfold two32; lia].
  destruct Ha as (_ & _ & Hle & _ & Hp & Hfr & _).
  assert (HP : partial_account (data (wa asset)) hd l (x_type x) (x_length x) (given x)).
  { split; [rewrite Hp by lia; rewrite bnd_pad8 by assumption; unfold enc_hdr; now rewrite <- !app_assoc|]. repeat split; auto; lia. }
  destruct (writes_effect asset hd l (x_type x) (x_length x) cs wa w1 (given x) HF HP) as (b' & F & V & D & L & Fr); auto; try lia.
  exists b'. split; [exact F|]. split; [exact V|]. split; [rewrite D, enc_sect_app; cbn [enc_sect]; now rewrite app_nil_r|].
  split; [exists hd; exact L|]. intros k Hk. rewrite Fr by assumption. now apply Hfr.
Qed.

Lemma chunked_equals_oneshot e infos w w1 asset x cs hd l n e2 infos2 w2 :
  arg infos 0 asset -> Forall (fun c => arg (snd (fst c)) 0 asset /\ snd c <> []) cs -> cs <> [] ->
  open_account (data (w asset)) hd l n -> sized w -> x_type x <> XNone ->
  x_length x = zlen (given x ++ chunk_bytes cs) -> 168 + sect_size l + 16 + x_length x <= 10485760 ->
  n <= 16 + x_length x -> unflagged (x_type x) (given x ++ chunk_bytes cs) ->
  (x_type x = XCreators -> length (given x ++ chunk_bytes cs) = (34 * cr_count (given x ++ chunk_bytes cs))%nat) ->
  steps ((e, infos, IAllocate x) :: map write_of cs) w = Ok w1 ->
  arg infos2 0 asset ->
  process e2 infos2 w (IAllocate (mkExtInput (x_type x) (x_length x) (Some (given x ++ chunk_bytes cs)))) = Ok w2 ->
  forall k, data (w1 k) = data (w2 k).
Proof.
  intros A0 HF Hne HO Hs Ht Hlen Hmax Hn Hu Hcr H A2 H2 k.
  destruct (chunked_content _ _ _ _ _ _ _ _ _ _ A0 HF Hne HO Hs Ht Hlen Hmax H) as (b' & F & _ & D & _ & Fr).
  apply fresh_unflagged in F; auto. subst b'. rewrite Hlen in H2.
  pose proof (sect_size_nonneg l) as Hsn.
  eapply allocate_appends in H2; eauto; [|unfold u32_max; lia].
  destruct H2 as (_ & D2 & _ & _ & Fr2).
  destruct (pk_eqb k asset) eqn:E; [apply pk_eqb_eq in E; subst k|apply pk_eqb_neq in E; rewrite Fr, Fr2; auto].
  rewrite D, D2. rewrite blk_of_size. pose proof (pad8_ge (16 + zlen (given x ++ chunk_bytes cs))).
  replace (Z.to_nat (n - pad8 (16 + zlen (given x ++ chunk_bytes cs)))) with 0%nat by lia.
  cbn [repeat]. now rewrite app_nil_r.
Qed.

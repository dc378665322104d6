(** Create: the validation loop and the header (C22, C23). *)
From Verif Require Import Base State Layout Constr Ext World Proc BaseL Spec SpecB WorldL ProcSteps LayoutL LayoutE HeadL CreatorsL AuthL AllocL AllocM AllocC AuthM GroupL.
From Coq Require Import Strings.Byte.

(** a block whose payload went through the hook of Create *)
Definition created (auth : bytes) (b b' : blk) : Prop :=
  b' = with_data b (bk_data b') /\
  exists al, al mod 8 = 0 /\ on_create (bk_type b) al (Some auth) (bk_data b) = Ok (bk_data b').
Lemma created_fresh auth b b' : created auth b b' ->
  bk_type b' = bk_type b /\ fresh_payload (bk_type b) (Some auth) (bk_data b) (bk_data b').
Proof. intros (-> & al & _ & H). split; [reflexivity|]. cbn [bk_data with_data] in *. eapply on_create_fresh; eauto. Qed.
Lemma with_data_size b bs : zlen bs = zlen (bk_data b) -> blk_size (with_data b bs) = blk_size b.
Proof. intro H. unfold blk_size, with_data. cbn [bk_data bk_pad]. lia. Qed.
Lemma with_data_ok b bs : blk_ok b -> zlen bs = zlen (bk_data b) -> blk_ok (with_data b bs).
Proof.
  intros (B1 & B2 & B3 & B4) Hz. unfold blk_ok, with_data. cbn [bk_type bk_data bk_pad bk_unused]. rewrite Hz. auto.
Qed.
Lemma created_size auth b b' : created auth b b' -> blk_size b' = blk_size b /\ (blk_ok b -> blk_ok b').
Proof.
  intro H. pose proof (created_fresh _ _ _ H) as (_ & Hl & _). destruct H as (E & _).
  assert (Hz : zlen (bk_data b') = zlen (bk_data b)) by (unfold zlen; now rewrite Hl).
  rewrite E. split; [now apply with_data_size|intro; now apply with_data_ok].
Qed.
Lemma created_sect auth l l' : Forall2 (created auth) l l' ->
  sect_size l' = sect_size l /\ (Forall blk_ok l -> Forall blk_ok l') /\ map bk_type l' = map bk_type l.
Proof.
  induction 1 as [|b b' l l' Hb Hl (IH1 & IH2 & IH3)]; [auto|]. destruct (created_size _ _ _ Hb) as [S1 S2].
  destruct (created_fresh _ _ _ Hb) as [Ty _].
  cbn [sect_size map]. split; [lia|]. split; [|congruence]. intro H. inv H. constructor; auto.
Qed.

Lemma put_blk A C b cur bs : cur = zlen A -> blk_ok b -> zlen bs = zlen (bk_data b) ->
  put (A ++ enc_blk cur b ++ C) (cur + 16) bs = A ++ enc_blk cur (with_data b bs) ++ C.
Proof.
  intros Hc Hb Hz. rewrite !enc_blk_head. rewrite <- !app_assoc.
  rewrite (app_assoc A). replace (cur + 16) with (zlen (A ++ blk_head cur b) + 0) by (rewrite zlen_app, zlen_blk_head by assumption; lia).
  rewrite put_inside by lia. rewrite put_whole by assumption. rewrite <- app_assoc.
  unfold blk_head. rewrite (with_data_size b bs) by assumption. cbn [with_data bk_type bk_data bk_unused bk_pad]. now rewrite Hz.
Qed.

Lemma create_loop_skip auth : forall l A f seen R r, zlen A mod 8 = 0 -> Forall blk_ok l -> zlen A + sect_size l + zlen R < 2147483648 ->
  create_loop (length l + f) auth (A ++ enc_sect (zlen A) l ++ R) (zlen A) seen = Ok r ->
  exists l', Forall2 (created auth) l l' /\
    create_loop f auth (A ++ enc_sect (zlen A) l' ++ R) (zlen A + sect_size l) (rev (map bk_type l) ++ seen) = Ok r.
Proof.
  induction l as [|b l IH]; intros A f seen R r Hm Hl Hs H.
  - exists []. split; [constructor|]. cbn [length Nat.add sect_size map rev app enc_sect] in *. now rewrite Z.add_0_r.
  - apply Forall_cons_iff in Hl as [Hb Hl]. cbn [length sect_size] in *.
    pose proof (sect_size_nonneg l). pose proof (blk_size_mod b Hb). pose proof (blk_size_pos b) as Hbp.
    pose proof (zlen_nonneg R). pose proof (zlen_nonneg A). pose proof (zlen_nonneg (bk_data b)). pose proof (zlen_nonneg (bk_pad b)).
    cbn [enc_sect create_loop Nat.add] in H. rewrite <- app_assoc in H.
    set (C := enc_sect (zlen A + blk_size b) l ++ R) in *.
    assert (HC : zlen C = sect_size l + zlen R) by (unfold C; rewrite zlen_app, zlen_enc_sect by assumption; reflexivity).
    assert (Hlen : zlen (A ++ enc_blk (zlen A) b ++ C) = zlen A + blk_size b + zlen C) by (rewrite !zlen_app, zlen_enc_blk by assumption; lia).
    rewrite Hlen in H.
    replace (EXT_LEN <=? zlen A + blk_size b + zlen C - zlen A) with true in H by (unfold EXT_LEN; lia).
    rewrite load_hdr_blk in H by (auto; unfold u32_max; lia). cbn [bind h_type h_len h_bnd] in H.
    rewrite ext_of_code_code in H.
    assert (Ha : (zlen A + blk_size b - (EXT_LEN + zlen A)) mod two64 = blk_size b - 16).
    { rewrite Z.mod_small; unfold EXT_LEN, two64; lia. }
    rewrite Ha in H.
    assert (H' : exists b', on_create (bk_type b) (zlen A + 16) (Some auth) (bk_data b) = Ok b' /\
       create_loop (length l + f) auth (put (A ++ enc_blk (zlen A) b ++ C) (zlen A + 16) b') (zlen A + blk_size b) (bk_type b :: seen) = Ok r).
    { pose proof (proj1 Hb) as Hb1. revert H. destruct (bk_type b) eqn:Et; intro H; [congruence|..];
      (apply require_ok in H as [_ H]; apply guard_ok in H as [_ H]; apply bind_ok in H as (b' & Hb' & H);
       apply map_err_ok in Hb'; unfold EXT_LEN in Hb', H; rewrite fld_blk_data in Hb' by (reflexivity || assumption);
       exists b'; split; assumption). }
    clear H. destruct H' as (b' & Hb' & H).
    assert (Hc : created auth b (with_data b b')).
    { split; [reflexivity|]. exists (zlen A + 16). split; [lia|exact Hb']. }
    pose proof (on_create_fresh _ _ _ _ _ Hb') as (Hl' & _).
    assert (Hz : zlen b' = zlen (bk_data b)) by (unfold zlen; now rewrite Hl').
    rewrite put_blk in H by auto. unfold C in H.
    rewrite (app_assoc A) in H.
    assert (HA : zlen (A ++ enc_blk (zlen A) (with_data b b')) = zlen A + blk_size b)
      by (rewrite zlen_app, zlen_enc_blk by (now apply with_data_ok); rewrite with_data_size by assumption; reflexivity).
    rewrite <- HA in H. apply IH in H; auto; [|rewrite HA; lia|rewrite HA; lia].
    destruct H as (l' & F & H). exists (with_data b b' :: l'). split; [constructor; assumption|].
    cbn [enc_sect map rev]. rewrite HA in H. rewrite with_data_size by assumption. rewrite <- !app_assoc in *.
    cbn [app]. rewrite Z.add_assoc. exact H.
Qed.

Lemma create_loop_layout auth d hd l tl r : layout d hd l tl ->
  create_loop (walk_fuel d) auth d ASSET_LEN [] = Ok r ->
  exists l', Forall2 (created auth) l l' /\ fst r = hd ++ enc_sect 168 l' ++ tl /\ snd r = map bk_type l /\
    layout (fst r) hd l' tl.
Proof.
  intros HL H. pose proof (layout_fuel _ _ _ _ HL) as Hfu. pose proof (layout_len _ _ _ _ HL) as Hlen.
  pose proof HL as (Ed & Hh & Hf & Ht & Hz).
  assert (Ef : walk_fuel d = (length l + S (walk_fuel d - length l - 1))%nat) by lia.
  rewrite Ef in H. rewrite Ed in H at 2. unfold ASSET_LEN in H.
  pose proof (create_loop_skip auth l hd (S (walk_fuel d - length l - 1)) [] tl r) as CS.
  rewrite Hh in CS. destruct (CS eq_refl Hf ltac:(lia) H) as (l' & F & H'). clear CS H.
  destruct (created_sect _ _ _ F) as (S1 & S2 & S3). specialize (S2 Hf).
  exists l'. split; [exact F|].
  assert (HP : zlen (hd ++ enc_sect 168 l') = 168 + sect_size l) by (rewrite zlen_app, zlen_enc_sect by assumption; lia).
  rewrite app_assoc in H'. rewrite app_nil_r in H'.
  assert (Hr : r = (hd ++ enc_sect 168 l' ++ tl, map bk_type l)).
  { cbn [create_loop] in H'.
    destruct (tail_hdr (hd ++ enc_sect 168 l') tl (168 + sect_size l) (eq_sym HP)) as [E|(E & h & Hh1 & Hh2)]; auto.
    - pose proof (sect_size_mod l Hf). lia.
    - replace (EXT_LEN <=? zlen ((hd ++ enc_sect 168 l') ++ tl) - (168 + sect_size l)) with false in H' by lia.
      injection H' as <-. now rewrite rev_involutive, <- app_assoc.
    - replace (EXT_LEN <=? zlen ((hd ++ enc_sect 168 l') ++ tl) - (168 + sect_size l)) with true in H' by lia.
      rewrite Hh1 in H'. cbn [bind] in H'. rewrite Hh2 in H'. change (ext_of_code 0) with (Some XNone) in H'. cbv iota in H'.
      injection H' as <-. now rewrite rev_involutive, <- app_assoc. }
  subst r. cbn [fst snd]. split; [reflexivity|]. split; [reflexivity|].
  split; [reflexivity|]. split; [assumption|]. split; [assumption|]. split; [assumption|].
  rewrite !zlen_app, zlen_enc_sect by assumption. rewrite S1. lia.
Qed.

(** the loop refuses an incomplete last extension *)
Lemma create_loop_partial auth d hd l t len bs r : partial_account d hd l t len bs -> zlen bs < len ->
  create_loop (walk_fuel d) auth d ASSET_LEN [] <> Ok r.
Proof.
  intros HP Hlt H. pose proof (partial_eq _ _ _ _ _ _ HP) as Ed. pose proof (partial_len _ _ _ _ _ _ HP) as Hlen.
  destruct HP as (_ & Hh & Hf & Ht & Hb & Hz).
  pose proof (sect_size_mod l Hf) as Hm. pose proof (sect_size_nonneg l) as Hs. pose proof (zlen_nonneg bs) as Hb0.
  set (bnd := pad8 (168 + sect_size l + 16 + len)) in *.
  assert (Hbnd : 168 + sect_size l + 16 + len <= bnd < 168 + sect_size l + 16 + len + 8) by apply pad8_ge.
  pose proof (sect_size_length l) as Hsl.
  assert (Ef : walk_fuel d = (length l + S (walk_fuel d - length l - 1))%nat) by (unfold walk_fuel, zlen in *; lia).
  rewrite Ef in H. set (f := (walk_fuel d - length l - 1)%nat) in *. clearbody f. rewrite Ed, <- app_assoc in H. unfold ASSET_LEN in H.
  set (R := enc_hdr (ext_code t) len bnd ++ zeros 4 ++ bs) in *.
  assert (HR : zlen R = 16 + zlen bs) by (unfold R; rewrite !zlen_app; change (zlen (enc_hdr _ _ _)) with 12; rewrite zlen_zeros by lia; lia).
  pose proof (create_loop_skip auth l hd (S f) [] R r) as CS. rewrite Hh in CS.
  destruct (CS eq_refl Hf ltac:(lia) H) as (l' & F & H'). clear CS H.
  destruct (created_sect _ _ _ F) as (S1 & S2 & S3). specialize (S2 Hf).
  assert (HP : zlen (hd ++ enc_sect 168 l') = 168 + sect_size l) by (rewrite zlen_app, zlen_enc_sect by assumption; lia).
  cbn [create_loop] in H'. rewrite app_assoc in H'. rewrite (zlen_app _ R), HP, HR in H'.
  replace (EXT_LEN <=? 168 + sect_size l + (16 + zlen bs) - (168 + sect_size l)) with true in H' by (unfold EXT_LEN; lia).
  pose proof (ext_code_range t) as Hc.
  assert (Hld : load_hdr ((hd ++ enc_sect 168 l') ++ R) (168 + sect_size l) = Ok (mkHdr (ext_code t) len bnd)).
  { rewrite <- HP. unfold R. apply load_hdr_raw; try (unfold u32_max in *; lia). rewrite zlen_app, zlen_zeros by lia. lia. }
  rewrite Hld in H'. cbn [bind h_type h_len h_bnd] in H'. rewrite ext_of_code_code in H'.
  assert (Ha : (bnd - (EXT_LEN + (168 + sect_size l))) mod two64 = bnd - 16 - 168 - sect_size l)
    by (rewrite Z.mod_small; unfold EXT_LEN, two64; lia).
  rewrite Ha in H'.
  replace (bnd - 16 - 168 - sect_size l <=? 168 + sect_size l + (16 + zlen bs) - (168 + sect_size l) - EXT_LEN) with false in H'
    by (unfold EXT_LEN; lia).
  destruct t; try contradiction; discriminate H'.
Qed.

(** ** Inline extensions *)
Definition room_left (n : Z) (xs : list ext_input) : Z :=
  fold_left (fun n x => Z.max 0 (n - pad8 (16 + x_length x))) xs n.
Lemma partial_refused e infos w0 w asset payer sysp x w' hd l t len bs :
  partial_account (data (w asset)) hd l t len bs -> zlen bs < len ->
  do_allocate e infos w0 w asset payer sysp x <> Ok w'.
Proof.
  intros HP Hlt H. pose proof (partial_len _ _ _ _ _ _ HP) as Hd. pose proof (partial_last _ _ _ _ _ _ HP) as HL.
  destruct HP as (_ & _ & _ & _ & Hb & _). pose proof (sect_size_nonneg l). pose proof (zlen_nonneg bs).
  unfold do_allocate in H. apply require_ok in H as [_ H]. cbv zeta in H. apply bind_ok in H as (st & H & _).
  replace (zlen (data (w asset)) =? 0) with false in H by lia.
  apply require_ok in H as [_ H]. apply require_ok in H as [_ H]. apply require_ok in H as [_ H].
  apply bind_ok in H as (c & _ & H). apply require_ok in H as [_ H]. rewrite HL in H. cbn [bind h_len] in H.
  apply require_ok in H as [H _]. lia.
Qed.

Section Inline.
Variables (e : env) (He : env_ok e) (Hp : e_prog e <> pk_zero).
Lemma allocate_all_effect infos w0 asset payer sysp hd : forall xs w w' l n,
  open_account (data (w asset)) hd l n -> sized w -> Forall ext_arg xs ->
  allocate_all e infos w0 w asset payer sysp xs = Ok w' ->
  (forall k, k <> asset -> data (w' k) = data (w k) /\ acct_owner (w' k) = acct_owner (w k)) /\ sized w' /\
  (acct_owner (w asset) = e_prog e -> acct_owner (w' asset) = e_prog e) /\
  ((open_account (data (w' asset)) hd (l ++ inline_blks xs) (room_left n xs) /\
    Forall (fun x => x_length x = zlen (given x)) xs /\ 
    (NoDup (map bk_type l) -> NoDup (map bk_type (l ++ inline_blks xs)))) \/
   (exists l' t len bs, partial_account (data (w' asset)) hd l' t len bs /\ zlen bs < len)).
Proof.
  induction xs as [|x xs IH]; intros w w' l n HO Hs HF H.
  - cbn [allocate_all] in H. injection H as <-. split; [auto|]. split; [assumption|]. split; [auto|]. left. cbn [inline_blks map room_left fold_left].
    rewrite app_nil_r. auto.
  - cbn [allocate_all] in H. apply bind_ok in H as (w1 & H1 & H).
    apply Forall_cons_iff in HF as [(X1 & X2 & X3) HF].
    assert (Hs1 : sized w1) by (eapply psteps_sized; [eapply do_allocate_psteps; eauto|assumption]).
    destruct (open_room _ _ _ _ HO) as (_ & _ & Hn0 & Hf & Hh).
    pose proof H1 as D. eapply do_allocate_effect in D; [|exact HO|apply Hs|exact X1|unfold u32_max; lia|unfold two32; lia].
    destruct D as (D1 & D2 & D3 & D4 & D5 & D6 & D7 & D8).
    assert (Down : acct_owner (w asset) = e_prog e -> acct_owner (w1 asset) = e_prog e).
    { intro. destruct (data (w asset)) eqn:E; [apply D7; reflexivity|apply D8; discriminate]. }
    destruct (Z.eq_dec (x_length x) (zlen (given x))) as [Q|Q].
    + destruct (D4 Q) as (_ & O1 & _). destruct (IH _ _ _ _ O1 Hs1 HF H) as (I1 & I2 & I3 & I4).
      split. { intros k Hk. destruct (I1 k Hk), (D6 k Hk). split; congruence. }
      split; [assumption|]. split; [auto|]. destruct I4 as [(I5 & I6 & I7)|I4]; [left|right; exact I4].
      rewrite <- app_assoc in I5, I7. cbn [app] in I5, I7. split; [|split; [constructor; assumption|]].
      * cbn [room_left fold_left]. rewrite blk_of_size, <- Q in I5. exact I5.
      * intro ND. change (l ++ inline_blks (x :: xs)) with (l ++ blk_of (x_type x) (given x) :: inline_blks xs).
        apply I7. rewrite map_app. cbn [map blk_of bk_type].
        assert (Hni : ~ In (x_type x) (map bk_type l)).
        { intro Hin. clear - D2 Hin. induction l as [|b l IH]; [elim Hin|]. cbn [ext_list map lookup] in D2.
          destruct (ext_type_eqb (bk_type b) (x_type x)) eqn:E; [discriminate D2|]. destruct Hin as [Hin|Hin]; [|now apply IH].
          rewrite Hin in E. rewrite ext_type_eqb_refl in E. discriminate E. }
        clear - ND Hni. induction (map bk_type l) as [|y m IH]; [repeat constructor; intros []|].
        cbn [app]. inv ND. constructor; [|apply IH; auto; intro; apply Hni; now right].
        rewrite in_app_iff. intros [Q|[Q|[]]]; [contradiction|]. subst y. apply Hni. now left.
    + assert (HP : partial_account (data (w1 asset)) hd l (x_type x) (x_length x) (given x)).
      { split; [rewrite D5 by lia; rewrite bnd_pad8 by assumption; unfold enc_hdr; now rewrite <- !app_assoc|].
        split; [assumption|]. split; [assumption|]. split; [assumption|]. split; [lia|].
        assert (HO2 : 168 + sect_size l <= 10485760 + 168); [|lia].
        destruct HO as [(_ & _ & -> & _)|[_ HL]]; [cbn [sect_size]; lia|].
        pose proof (layout_len _ _ _ _ HL). pose proof (zlen_nonneg (repeat x00 (Z.to_nat n))). specialize (Hs asset). lia. }
      destruct xs as [|x2 xs].
      * cbn [allocate_all] in H. injection H as <-. split; [exact D6|]. split; [assumption|]. split; [assumption|].
        right. exists l, (x_type x), (x_length x), (given x). split; [exact HP|lia].
      * cbn [allocate_all] in H. apply bind_ok in H as (w2 & H2 & _). exfalso.
        revert H2. eapply partial_refused; [exact HP|lia].
Qed.
End Inline.

(** ** The header *)
Lemma zlen_pod s : zlen (pod_str35 s) = 35.
Proof. unfold pod_str35, zlen. rewrite app_length, repeat_length, firstn_length. lia. Qed.
Lemma pod_name s : pod_str35 s = name_field s.
Proof.
  unfold pod_str35, name_field. rewrite firstn_app. f_equal. rewrite firstn_length.
  assert (F : forall a b : nat, (a <= b)%nat -> firstn a (repeat x00 b) = repeat x00 a).
  { induction a as [|a IH]; intros b Hb; [reflexivity|]. destruct b; [lia|]. cbn [repeat firstn]. f_equal. apply IH. lia. }
  rewrite F by lia. f_equal. lia.
Qed.
Lemma nth_put_one d o b : 0 <= o -> o < zlen d -> nth (Z.to_nat o) (put d o [b]) x00 = b.
Proof.
  intros H1 H2. rewrite nth_put by (change (zlen [b]) with 1; lia).
  rewrite Nat.leb_refl. cbn [andb length]. replace (_ <? _)%nat with true by (symmetry; apply Nat.ltb_lt; lia).
  now rewrite Nat.sub_diag.
Qed.
Lemma init_header_fields d m owner auth : 168 <= zlen d ->
  zlen (init_header d m owner auth) = zlen d /\
  s_disc (init_header d m owner auth) = x01 /\
  s_state (init_header d m owner auth) = s_state d /\
  s_standard (init_header d m owner auth) = standard_code (m_standard m) /\
  s_mutable (init_header d m owner auth) = bool_byte (m_mutable m) /\
  s_owner (init_header d m owner auth) = pk_bytes owner /\
  s_group (init_header d m owner auth) = s_group d /\
  s_authority (init_header d m owner auth) = pk_bytes auth /\
  s_delegate (init_header d m owner auth) = s_delegate d /\
  s_roles (init_header d m owner auth) = s_roles d /\
  s_name (init_header d m owner auth) = name_field (m_name m).
Proof.
  intro Hd. unfold init_header. cbv zeta.
  pose proof (pk_zlen owner) as P1. pose proof (pk_zlen auth) as P2. pose proof (zlen_pod (m_name m)) as P3.
  set (d1 := put d 0 [DISC_ASSET]).
  assert (L1 : zlen d1 = zlen d) by (apply zlen_put; change (zlen [DISC_ASSET]) with 1; lia).
  set (d2 := put d1 2 [standard_code (m_standard m)]).
  assert (L2 : zlen d2 = zlen d) by (unfold d2; rewrite zlen_put; change (zlen [standard_code (m_standard m)]) with 1; lia).
  set (d3 := put d2 3 [bool_byte (m_mutable m)]).
  assert (L3 : zlen d3 = zlen d) by (unfold d3; rewrite zlen_put; change (zlen [bool_byte (m_mutable m)]) with 1; lia).
  set (d4 := put d3 4 (pk_bytes owner)).
  assert (L4 : zlen d4 = zlen d) by (unfold d4; rewrite zlen_put; lia).
  set (d5 := put d4 68 (pk_bytes auth)).
  assert (L5 : zlen d5 = zlen d) by (unfold d5; rewrite zlen_put; lia).
  set (d6 := put d5 133 (pod_str35 (m_name m))).
  assert (L6 : zlen d6 = zlen d) by (unfold d6; rewrite zlen_put; lia).
  assert (S6 : forall o n, (o + n <= 133)%nat -> sub d6 o n = sub d5 o n) by (intros; apply sub_put_other; lia).
  assert (S5 : forall o n, (o + n <= 68 \/ 100 <= o)%nat -> sub d5 o n = sub d4 o n) by (intros; apply sub_put_other; lia).
  assert (S4 : forall o n, (36 <= o)%nat -> sub d4 o n = sub d3 o n) by (intros; apply sub_put_other; lia).
  assert (S3 : forall o n, (36 <= o)%nat -> sub d3 o n = sub d2 o n)
    by (intros; apply sub_put_other; change (zlen [bool_byte (m_mutable m)]) with 1; lia).
  assert (S2 : forall o n, (36 <= o)%nat -> sub d2 o n = sub d1 o n)
    by (intros; apply sub_put_other; change (zlen [standard_code (m_standard m)]) with 1; lia).
  assert (S1 : forall o n, (36 <= o)%nat -> sub d1 o n = sub d o n)
    by (intros; apply sub_put_other; change (zlen [DISC_ASSET]) with 1; lia).
  assert (N6 : forall i, (i < 133)%nat -> nth i d6 x00 = nth i d5 x00) by (intros; apply nth_put_other; lia).
  assert (N5 : forall i, (i < 68 \/ 100 <= i)%nat -> nth i d5 x00 = nth i d4 x00) by (intros; apply nth_put_other; lia).
  assert (N4 : forall i, (i < 4 \/ 36 <= i)%nat -> nth i d4 x00 = nth i d3 x00) by (intros; apply nth_put_other; lia).
  assert (N3 : forall i, (i <> 3)%nat -> nth i d3 x00 = nth i d2 x00)
    by (intros; apply nth_put_other; change (zlen [bool_byte (m_mutable m)]) with 1; lia).
  assert (N2 : forall i, (i <> 2)%nat -> nth i d2 x00 = nth i d1 x00)
    by (intros; apply nth_put_other; change (zlen [standard_code (m_standard m)]) with 1; lia).
  assert (N1 : forall i, (i <> 0)%nat -> nth i d1 x00 = nth i d x00)
    by (intros; apply nth_put_other; change (zlen [DISC_ASSET]) with 1; lia).
  unfold s_disc, s_state, s_standard, s_mutable, s_owner, s_group, s_authority, s_delegate, s_roles, s_name.
  split; [exact L6|].
  split. { rewrite N6, N5, N4, N3, N2 by lia. exact (nth_put_one d 0 DISC_ASSET ltac:(lia) ltac:(lia)). }
  split. { rewrite N6, N5, N4, N3, N2, N1 by lia. reflexivity. }
  split. { rewrite N6, N5, N4, N3 by lia. exact (nth_put_one d1 2 _ ltac:(lia) ltac:(lia)). }
  split. { rewrite N6, N5, N4 by lia. exact (nth_put_one d2 3 _ ltac:(lia) ltac:(lia)). }
  split. { rewrite S6, S5 by lia. pose proof (sub_put_same d3 ltac:(lia) 4 (pk_bytes owner) ltac:(lia) ltac:(lia)) as L.
           rewrite pk_length in L. exact L. }
  split. { rewrite S6, S5, S4, S3, S2, S1 by lia. reflexivity. }
  split. { rewrite S6 by lia. pose proof (sub_put_same d4 ltac:(lia) 68 (pk_bytes auth) ltac:(lia) ltac:(lia)) as L.
           rewrite pk_length in L. exact L. }
  split. { rewrite S6, S5, S4, S3, S2, S1 by lia. reflexivity. }
  split. { rewrite N6, N5, N4, N3, N2, N1 by lia. reflexivity. }
  pose proof (sub_put_same d5 ltac:(lia) 133 (pod_str35 (m_name m)) ltac:(lia) ltac:(lia)) as L.
  replace (length (pod_str35 (m_name m))) with 35%nat in L by (unfold zlen in P3; lia).
  rewrite <- pod_name. exact L.
Qed.
Lemma init_header_layout d hd l tl m owner auth : layout d hd l tl ->
  layout (init_header d m owner auth) (init_header hd m owner auth) l tl.
Proof.
  intro HL. unfold init_header. cbv zeta.
  repeat (apply layout_head; [|lia|]); try exact HL; rewrite ?pk_zlen, ?zlen_pod; try (unfold zlen; cbn [length]); lia.
Qed.
Lemma nth_hd d hd l tl i : layout d hd l tl -> (i < 168)%nat -> nth i d x00 = nth i hd x00.
Proof. intros (-> & Hh & _) Hi. apply app_nth1. unfold zlen in Hh. lia. Qed.
Lemma sub_hd d hd l tl o n : layout d hd l tl -> (o + n <= 168)%nat -> sub d o n = sub hd o n.
Proof.
  intros (-> & Hh & _) Hi. rewrite !sub_fld. apply fld_app_l; unfold zlen in *; lia.
Qed.
Lemma hd_fields d hd l tl : layout d hd l tl ->
  s_disc d = s_disc hd /\ s_state d = s_state hd /\ s_standard d = s_standard hd /\ s_mutable d = s_mutable hd /\
  s_owner d = s_owner hd /\ s_group d = s_group hd /\ s_authority d = s_authority hd /\ s_delegate d = s_delegate hd /\
  s_roles d = s_roles hd /\ s_name d = s_name hd.
Proof.
  intro HL. unfold s_disc, s_state, s_standard, s_mutable, s_owner, s_group, s_authority, s_delegate, s_roles, s_name.
  rewrite !(nth_hd _ _ _ _ _ HL), !(sub_hd _ _ _ _ _ _ HL) by lia. repeat split.
Qed.
Lemma room_left_zero xs : forall n, n <= fold_left (fun t x => t + pad8 (x_length x + EXT_LEN)) xs 0 -> 0 <= n -> Forall ext_arg xs -> room_left n xs = 0.
Proof.
  assert (F : forall xs t, fold_left (fun t x => t + pad8 (x_length x + EXT_LEN)) xs t = t + fold_left (fun t x => t + pad8 (x_length x + EXT_LEN)) xs 0).
  { clear. induction xs as [|x xs IH]; intro t; cbn [fold_left]; [lia|]. rewrite IH, (IH (0 + _)). lia. }
  assert (P : forall xs, Forall ext_arg xs -> 0 <= fold_left (fun t x => t + pad8 (x_length x + EXT_LEN)) xs 0).
  { clear - F. induction xs as [|x xs IH]; intro H; cbn [fold_left]; [lia|]. apply Forall_cons_iff in H as [(_ & Hx & _) H]. specialize (IH H).
    rewrite F. pose proof (pad8_ge (x_length x + EXT_LEN)). unfold EXT_LEN in *. lia. }
  induction xs as [|x xs IH]; intros n Hn H0 HF; cbn [fold_left room_left] in *; [lia|].
  apply Forall_cons_iff in HF as [(_ & Hx & _) HF]. rewrite F in Hn. unfold room_left in IH. apply IH; auto.
  - replace (16 + x_length x) with (x_length x + EXT_LEN) by (unfold EXT_LEN; lia). specialize (P xs HF). lia.
  - lia.
Qed.
Lemma room_left_nonneg xs : forall n, 0 <= n -> 0 <= room_left n xs.
Proof. induction xs as [|x xs IH]; intros n H; cbn [fold_left room_left]; [assumption|]. apply IH. lia. Qed.
Lemma sum_rev xs : fold_left (fun t x => t + pad8 (x_length x + EXT_LEN)) (rev xs) 0 = fold_left (fun t x => t + pad8 (x_length x + EXT_LEN)) xs 0.
Proof.
  assert (F : forall xs t, fold_left (fun t x => t + pad8 (x_length x + EXT_LEN)) xs t = t + fold_left (fun t x => t + pad8 (x_length x + EXT_LEN)) xs 0).
  { clear. induction xs as [|x xs IH]; intro t; cbn [fold_left]; [lia|]. rewrite IH, (IH (0 + _)). lia. }
  induction xs as [|x xs IH]; [reflexivity|]. cbn [rev fold_left]. rewrite fold_left_app. cbn [fold_left]. rewrite IH, (F _ (0 + _)). lia.
Qed.
Lemma create_space_inline m : create_space (m_exts m) = 168 + fold_left (fun t x => t + pad8 (x_length x + EXT_LEN)) (inline m) 0.
Proof.
  unfold create_space, inline, ASSET_LEN. destruct (m_exts m) as [xs|]; [|reflexivity]. f_equal.
  destruct xs as [|x xs]; [reflexivity|]. cbn [inline_order fold_left].
  assert (F : forall xs t, fold_left (fun t x => t + pad8 (x_length x + EXT_LEN)) xs t = t + fold_left (fun t x => t + pad8 (x_length x + EXT_LEN)) xs 0).
  { clear. induction xs as [|x xs IH]; intro t; cbn [fold_left]; [lia|]. rewrite IH, (IH (0 + _)). lia. }
  rewrite F, (F (rev xs)), sum_rev. reflexivity.
Qed.
Lemma sum_inline_nonneg xs : Forall ext_arg xs -> 0 <= fold_left (fun t x => t + pad8 (x_length x + EXT_LEN)) xs 0.
Proof.
  assert (F : forall xs t, fold_left (fun t x => t + pad8 (x_length x + EXT_LEN)) xs t = t + fold_left (fun t x => t + pad8 (x_length x + EXT_LEN)) xs 0).
  { clear. induction xs as [|x xs IH]; intro t; cbn [fold_left]; [lia|]. rewrite IH, (IH (0 + _)). lia. }
  induction xs as [|x xs IH]; intro H; cbn [fold_left]; [lia|]. apply Forall_cons_iff in H as [(_ & Hx & _) H]. specialize (IH H).
  rewrite F. pose proof (pad8_ge (x_length x + EXT_LEN)). unfold EXT_LEN in *. lia.
Qed.

Lemma proxy_ok b q : proxy_from_bytes b = Ok q -> length b = 97%nat /\
  q = mkProxy (sub b 0 32) (sub b 32 32) (nth 64 b x00) (sub b 65 32).
Proof.
  unfold proxy_from_bytes. intro H. apply guard_ok in H as [Hc H]. injection H as <-. split; [unfold zlen in Hc; lia|].
  rewrite !sub_fld. reflexivity.
Qed.

Lemma existsb_ext_in t l : existsb (ext_type_eqb t) l = true <-> In t l.
Proof.
  rewrite existsb_exists. split.
  - intros (x & Hx & E). apply ext_type_eqb_eq in E. now subst.
  - intro H. exists t. split; [assumption|]. apply ext_type_eqb_refl.
Qed.
(** what Create leaves of the rest of the account *)
Definition create_room (d : bytes) (n : Z) (m : metadata_input) : Z :=
  match d with [] => 0 | _ => room_left n (inline m) end.

Lemma create_effect e infos w m w' asset hd l n : env_ok e -> e_prog e <> pk_zero ->
  arg infos 0 asset -> open_account (data (w asset)) hd l n -> sized w -> Forall ext_arg (inline m) ->
  process e infos w (ICreate m) = Ok w' ->
  exists auth owner l' hd', arg infos 1 auth /\ arg infos 2 owner /\ signed infos asset /\
    layout (data (w' asset)) hd' l' (repeat x00 (Z.to_nat (create_room (data (w asset)) n m))) /\
    Forall2 (created (pk_bytes auth)) (l ++ inline_blks (inline m)) l' /\
    Forall (fun x => x_length x = zlen (given x)) (inline m) /\
    acct_owner (w' asset) = e_prog e /\
    s_disc hd' = x01 /\ s_standard hd' = standard_code (m_standard m) /\ s_mutable hd' = bool_byte (m_mutable m) /\
    s_owner hd' = pk_bytes owner /\ s_authority hd' = pk_bytes auth /\ s_name hd' = name_field (m_name m) /\
    s_state hd' = s_state hd /\ s_delegate hd' = s_delegate hd /\ s_roles hd' = s_roles hd /\
    (m_standard m = Managed <-> In XManager (map bk_type l')) /\
    (m_standard m = Proxied -> exists b, lookup XProxy (ext_list l') = Some b /\ proxy_derives e b asset) /\
    (m_standard m <> Proxied -> lookup XProxy (ext_list l') = None) /\
    ((arg infos 3 (e_prog e) /\ s_group hd' = s_group hd /\ (forall k, k <> asset -> data (w' k) = data (w k))) \/
     (exists g a off b, arg infos 3 g /\ g <> e_prog e /\ g <> asset /\ s_group hd = no_key /\ s_group hd' = pk_bytes g /\
        ((arg infos 4 (e_prog e) /\ a = auth) \/ (arg infos 4 a /\ a <> e_prog e)) /\ signed infos a /\
        acct_owner (w g) = e_prog e /\ initialized (data (w g)) /\ s_authority (data (w g)) = pk_bytes auth /\
        has_ext (data (w g)) XGrouping off b /\ (16 <= length b <= 48)%nat /\ group_signer (data (w g)) b a /\
        (gr_max b = 0 \/ gr_size b < gr_max b) /\
        data (w' g) = put (data (w g)) off (le_enc 8 ((gr_size b + 1) mod two64)) /\
        (forall k, k <> asset -> k <> g -> data (w' k) = data (w k)))) /\
    (forall k, k <> asset -> acct_owner (w' k) = acct_owner (w k)).
Proof.
  intros He Hp A0 HO Hs HF H. apply process_dispatch in H. cbn [dispatch] in H. unfold process_create in H.
  apply bind_ok in H as (asset' & B0 & H). apply bind_ok in H as (auth & A1 & H). apply bind_ok in H as (owner & A2 & H).
  apply bind_ok in H as (group & A3 & H). apply bind_ok in H as (gauth & A4 & H).
  apply bind_ok in H as (payer & A5 & H). apply bind_ok in H as (sysp & A6 & H).
  apply acct_arg in B0, A1, A2. rewrite (arg_det _ _ _ _ B0 A0) in *. clear B0 asset'.
  apply require_ok in H as [Hsg H]. apply bind_ok in H as (w1 & H1 & H). apply bind_ok in H as (w2 & H2 & H).
  apply bind_ok in H as (r & H3 & H). apply guard_ok in H3 as [_ H3]. cbv zeta in H. apply require_ok in H as [HM H].
  apply bind_ok in H as (p & Hpx & H). apply bind_ok in H as (px & Hq & H). apply bind_ok in H as (u & Hu & H).
  apply bind_ok in H as (w3 & H4 & H).
  set (n1 := match data (w asset) with [] => create_space (m_exts m) - 168 | _ => n end).
  (* after the account exists *)
  assert (W1 : open_account (data (w1 asset)) hd l n1 /\ 168 <= zlen (data (w1 asset)) /\ acct_owner (w1 asset) = e_prog e /\ sized w1 /\
               (forall k, k <> asset -> data (w1 k) = data (w k) /\ acct_owner (w1 k) = acct_owner (w k))).
  { destruct (zlen (data (w asset)) =? 0) eqn:E.
    - assert (E0 : data (w asset) = []) by (apply zlen_0; lia). unfold n1. rewrite E0 in *.
      destruct HO as [(_ & -> & -> & ->)|[_ HL]]; [|apply layout_len in HL; change (zlen []) with 0 in HL; pose proof (sect_size_nonneg l); pose proof (zlen_nonneg (repeat x00 (Z.to_nat n))); lia].
      assert (Hs1 : sized w1) by (eapply psteps_sized; [eapply alloc_create_psteps; eauto|assumption]).
      unfold alloc_create_account in H1. apply bind_ok in H1 as (pp & _ & H1). apply require_ok in H1 as [_ H1].
      apply bind_ok in H1 as (ss & _ & H1). apply require_ok in H1 as [_ H1].
      apply sys_create_data in H1 as (D1 & D2 & _ & D3). rewrite D1 in *.
      specialize (Hs1 asset) as Z1. rewrite D1 in Z1. pose proof (create_space_inline m) as Ci. pose proof (sum_inline_nonneg _ HF).
      rewrite zlen_zeros in Z1 by lia.
      split. { right. split; [lia|]. split; [|split; [reflexivity|split; [constructor|split; [apply (tail_zeros (create_space (m_exts m) - 168))|]]]].
               - cbn [enc_sect app]. change (repeat x00 168) with (zeros 168). change (repeat x00 (Z.to_nat (create_space (m_exts m) - 168))) with (zeros (create_space (m_exts m) - 168)).
                 rewrite zeros_app by lia. f_equal. lia.
               - rewrite zlen_zeros; lia. }
      split. { rewrite zlen_zeros; lia. }
      auto.
    - apply require_ok in H1 as [O1 H1]. apply require_ok in H1 as [L1 H1]. apply require_ok in H1 as [_ H1]. injection H1 as <-.
      unfold n1. unfold owned_by_prog in O1. apply pk_eqb_eq in O1. unfold ASSET_LEN in L1.
      destruct (data (w asset)) eqn:Ed; [discriminate L1|]. rewrite <- Ed in *. split; [assumption|]. split; [lia|]. auto. }
  destruct W1 as (O1 & L1 & Ow1 & S1 & F1).
  (* inline extensions *)
  assert (W2 : (forall k, k <> asset -> data (w2 k) = data (w1 k) /\ acct_owner (w2 k) = acct_owner (w1 k)) /\ sized w2 /\ acct_owner (w2 asset) = e_prog e /\
     ((open_account (data (w2 asset)) hd (l ++ inline_blks (inline m)) (room_left n1 (inline m)) /\ Forall (fun x => x_length x = zlen (given x)) (inline m)) \/
      exists l' t len bs, partial_account (data (w2 asset)) hd l' t len bs /\ zlen bs < len)).
  { unfold inline in *. destruct (m_exts m) as [xs|].
    - change (swap_order xs) with (inline_order xs) in H2.
      destruct (allocate_all_effect e He Hp _ _ _ _ _ hd _ _ _ _ _ O1 S1 HF H2) as (G1 & G2 & G3 & G4).
      split; [assumption|]. split; [assumption|]. split; [auto|]. destruct G4 as [(G4 & G5 & _)|G4]; [left|right]; auto.
    - injection H2 as <-. split; [auto|]. split; [assumption|]. split; [assumption|]. left.
      cbn [inline_blks map room_left fold_left]. rewrite app_nil_r. auto. }
  destruct W2 as (F2 & S2 & Ow2 & W2).
  destruct W2 as [[O2 Full]|(lp & t & len & bs & HP & Hlt)].
  2:{ exfalso. eapply create_loop_partial; eauto. }
  assert (L2 : layout (data (w2 asset)) hd (l ++ inline_blks (inline m)) (repeat x00 (Z.to_nat (room_left n1 (inline m))))).
  { destruct O2 as [(E & _ & E2 & _)|[_ O2]]; [|exact O2]. exfalso.
    assert (E3 : inline m = []) by (apply app_eq_nil in E2 as [_ E2]; unfold inline_blks in E2; now apply map_eq_nil in E2).
    assert (w2 = w1) as ->; [|rewrite E in L1; change (zlen []) with 0 in L1; lia].
    unfold inline in E3. destruct (m_exts m) as [xs|]; [|congruence].
    change (swap_order xs) with (inline_order xs) in H2. rewrite E3 in H2. cbn [allocate_all] in H2. congruence. }
  assert (Hroom : room_left n1 (inline m) = create_room (data (w asset)) n m).
  { unfold n1, create_room. destruct (data (w asset)); [|reflexivity]. pose proof (sum_inline_nonneg _ HF).
    rewrite create_space_inline. apply room_left_zero; auto; lia. }
  rewrite Hroom in L2.
  destruct (create_loop_layout _ _ _ _ _ _ L2 H3) as (l' & HC & _ & Hseen & L3).
  pose proof (created_sect _ _ _ HC) as (_ & _ & Hty).
  set (hd1 := init_header hd m owner auth).
  pose proof (init_header_layout _ _ _ _ m owner auth L3) as L4. fold hd1 in L4.
  assert (Hhd : zlen hd = 168) by (destruct L3 as (_ & ? & _); assumption).
  destruct (init_header_fields hd m owner auth ltac:(lia)) as (I0 & I1 & I2 & I3 & I4 & I5 & I6 & I7 & I8 & I9 & I10). fold hd1 in I0, I1, I2, I3, I4, I5, I6, I7, I8, I9, I10.
  assert (Hman : m_standard m = Managed <-> In XManager (map bk_type l')).
  { rewrite Hty, <- Hseen. apply eqb_prop in HM. rewrite <- (existsb_ext_in XManager), <- HM. unfold is_std. rewrite beqb_eq.
    split; [intros ->; reflexivity|]. destruct (m_standard m); cbn [standard_code]; congruence. }
  pose proof (layout_get _ _ _ _ L4 XProxy ltac:(discriminate)) as G. rewrite G in Hpx. injection Hpx as <-.
  pose proof (loc_lookup XProxy l' 168) as LK.
  assert (Hpr : (m_standard m = Proxied -> exists b, lookup XProxy (ext_list l') = Some b /\ proxy_derives e b asset) /\
                (m_standard m <> Proxied -> lookup XProxy (ext_list l') = None)).
  { rewrite LK. clear LK G. destruct (loc XProxy 168 l') as [[c k]|]; cbn [option_map fst snd] in *.
    - apply bind_ok in Hq as (q & Hq & Hq2). injection Hq2 as <-. apply proxy_ok in Hq as [Q1 ->].
      destruct (is_std (m_standard m) Proxied) eqn:E.
      + unfold is_std in E. apply beqb_eq in E. split; [intros _|intro X; exfalso; apply X; destruct (m_standard m); cbn [standard_code] in E; congruence].
        exists (bk_data k). split; [reflexivity|]. split; [assumption|]. cbn [p_seeds p_bump p_program] in Hu.
        apply bind_ok in Hu as (kk & Hk & Hu). apply ok_or_ok in Hk. apply require_ok in Hu as [Hkk _]. apply pk_eqb_eq in Hkk. now subst kk.
      + apply require_ok in Hu as [Hu _]. discriminate Hu.
    - injection Hq as <-. split; [|reflexivity]. intro X. rewrite X in Hu. cbn [is_std standard_code beqb] in Hu. discriminate Hu. }
  pose proof H4 as Hset. apply set_data_only in Hset as [(P1 & P2 & P3) D3].
  assert (S3 : sized w3) by (eapply psteps_sized; [eapply set_data_psteps; exact H4|assumption]).
  apply signed_acct in Hsg.
  destruct group as [g|].
  - apply opt_acct_some in A3 as [A3 Hgp].
    apply do_group_inv in H as (Sa & Oa & Og & Ia & Ig & Hne & Hgn & Hau & off & b & HE & Hb & Hoff & Gs & Hmx & (T1 & T2) & Da & Dg); [|assumption].
    rewrite D3 in Hgn, Hau, Da. destruct (hd_fields _ _ _ _ L4) as (_ & _ & _ & _ & _ & Q6 & Q7 & _).
    rewrite Q6, I6 in Hgn. rewrite Q7, I7 in Hau.
    assert (Ew : w3 g = w2 g) by (apply P1; assumption).
    assert (Dw : data (w3 g) = data (w g) /\ acct_owner (w3 g) = acct_owner (w g)).
    { rewrite Ew. destruct (F2 g Hne) as [X1 X2], (F1 g Hne) as [Y1 Y2]. split; congruence. }
    destruct Dw as [Dw1 Dw2]. rewrite Dw1 in *. rewrite Dw2 in *.
    pose proof (layout_head _ _ _ _ 36 (pk_bytes g) L4 ltac:(lia) ltac:(rewrite pk_zlen; lia)) as L5. rewrite <- Da in L5.
    pose proof (put_group_field hd1 g ltac:(lia)) as [[_ Se] Sg].
    assert (Hn : forall i, (i < 36 \/ 68 <= i)%nat -> nth i (put hd1 36 (pk_bytes g)) x00 = nth i hd1 x00) by (intros i Hi; apply Se; lia).
    assert (Hsb : forall o k, (o + k <= 36 \/ 68 <= o)%nat -> sub (put hd1 36 (pk_bytes g)) o k = sub hd1 o k).
    { intros o k Hok. apply sub_put_other; rewrite ?pk_zlen; lia. }
    exists auth, owner, l', (put hd1 36 (pk_bytes g)).
    split; [assumption|]. split; [assumption|]. split; [assumption|]. split; [assumption|]. split; [assumption|]. split; [assumption|].
    split. { rewrite (proj2 (T2 asset)). congruence. }
    split. { unfold s_disc in *. rewrite Hn by lia. exact I1. }
    split. { unfold s_standard in *. rewrite Hn by lia. exact I3. }
    split. { unfold s_mutable in *. rewrite Hn by lia. exact I4. }
    split. { unfold s_owner in *. rewrite Hsb by lia. exact I5. }
    split. { unfold s_authority in *. rewrite Hsb by lia. exact I7. }
    split. { unfold s_name in *. rewrite Hsb by lia. exact I10. }
    split. { unfold s_state in *. rewrite Hn by lia. exact I2. }
    split. { unfold s_delegate in *. rewrite Hsb by lia. exact I8. }
    split. { unfold s_roles in *. rewrite Hn by lia. exact I9. }
    split; [assumption|]. split; [apply Hpr|]. split; [apply Hpr|]. split.
    + right. exists g, (match gauth with Some a => a | None => auth end), off, b.
      split; [assumption|]. split; [assumption|]. split; [assumption|]. split; [assumption|]. split; [assumption|].
      split. { destruct gauth as [a|]; [right; now apply opt_acct_some in A4|left; now apply opt_acct_none in A4]. }
      split. { now apply signed_acct. }
      split; [assumption|]. split; [assumption|]. split; [assumption|]. split; [assumption|]. split; [assumption|]. split; [assumption|]. split; [assumption|].
      split; [assumption|]. intros k K1 K2. rewrite T1 by assumption. rewrite P1 by assumption.
      destruct (F2 k K1) as [X1 _], (F1 k K1) as [Y1 _]. congruence.
    + intros k K1. rewrite (proj2 (T2 k)). rewrite P1 by assumption. destruct (F2 k K1) as [_ X1], (F1 k K1) as [_ Y1]. congruence.
  - injection H as <-. apply opt_acct_none in A3. rewrite <- D3 in L4. exists auth, owner, l', hd1.
    split; [assumption|]. split; [assumption|]. split; [assumption|]. split; [assumption|]. split; [assumption|]. split; [assumption|].
    split; [congruence|]. repeat (split; [assumption|]). split; [apply Hpr|]. split; [apply Hpr|]. split.
    + left. split; [assumption|]. split; [assumption|]. intros k K1. rewrite P1 by assumption. destruct (F2 k K1) as [X1 _], (F1 k K1) as [Y1 _]. congruence.
    + intros k K1. rewrite P1 by assumption. destruct (F2 k K1) as [_ X1], (F1 k K1) as [_ Y1]. congruence.
Qed.

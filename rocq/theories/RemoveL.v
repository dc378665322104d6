(** Remove (C26). *)
From Verif Require Import Base State Layout Constr Ext World Proc BaseL Spec SpecB SpecH WorldL ProcSteps LayoutL LayoutE HeadL AuthL AuthM GroupL ResizeL UpdateL UpdateM AllocL.
From Coq Require Import Strings.Byte.

Lemma remove_find_sect t tl (Htl : tail_ok tl) : t <> XNone -> forall l A fuel r, zlen A mod 8 = 0 -> Forall blk_ok l ->
  zlen A + sect_size l <= u32_max ->
  remove_find fuel t (A ++ enc_sect (zlen A) l ++ tl) (zlen A) = Ok r ->
  r = None \/ exists c b, loc t (zlen A) l = Some (c, b) /\ r = Some (c, c + blk_size b).
Proof.
  intro Ht. induction l as [|b l IH]; intros A fuel r HA HF Hu H; (destruct fuel as [|fuel]; [discriminate|]); cbn [remove_find enc_sect app sect_size loc] in *.
  - match type of H with (if ?q then _ else _) = _ => destruct q eqn:E end; [|left; apply Ok_inj in H; congruence].
    destruct (tail_hdr A tl (zlen A) eq_refl HA Htl) as [E'|[E' (h & Hh & Hz)]]; [lia|].
    rewrite Hh in H. cbn [bind] in H. rewrite Hz in H.
    destruct (0 =? ext_code t) eqn:Eq; [exfalso; apply Ht, ext_code_0; lia|]. change (0 =? 0) with true in H. cbv iota in H.
    left. apply Ok_inj in H. congruence.
  - apply Forall_cons_iff in HF as [Hb HF]. pose proof (blk_size_pos b). pose proof (sect_size_nonneg l).
    match type of H with (if ?q then _ else _) = _ => destruct q eqn:E end; [|left; apply Ok_inj in H; congruence].
    rewrite <- !app_assoc in H. rewrite load_hdr_blk in H by (auto; lia). cbn [bind h_type h_bnd] in H.
    destruct (ext_code (bk_type b) =? ext_code t) eqn:Eq.
    + apply Z.eqb_eq, ext_code_inj in Eq. subst t. rewrite ext_type_eqb_refl. right. exists (zlen A), b. split; [reflexivity|]. apply Ok_inj in H. congruence.
    + assert (Hne : bk_type b <> t) by (intro Q; subst t; lia).
      destruct (ext_type_eqb (bk_type b) t) eqn:Eb; [apply ext_type_eqb_eq in Eb; contradiction|].
      destruct (ext_code (bk_type b) =? 0) eqn:Ez; [exfalso; destruct Hb as [Hb _]; apply Hb, ext_code_0; lia|].
      assert (HL : zlen (A ++ enc_blk (zlen A) b) = zlen A + blk_size b) by (rewrite zlen_app, zlen_enc_blk by assumption; reflexivity).
      specialize (IH (A ++ enc_blk (zlen A) b) fuel r). rewrite HL in IH.
      rewrite <- app_assoc in IH. apply IH; auto; [|lia].
      pose proof (blk_size_mod b Hb). lia.
Qed.
Lemma remove_find_layout d hd l tl t r : layout d hd l tl -> t <> XNone ->
  remove_find (walk_fuel d) t d ASSET_LEN = Ok (Some r) ->
  exists l1 b l2, l = l1 ++ b :: l2 /\ bk_type b = t /\ Forall (fun x => bk_type x <> t) l1 /\
    r = (168 + sect_size l1, 168 + sect_size l1 + blk_size b).
Proof.
  intros HL Ht H. pose proof (layout_u32 _ _ _ _ HL) as Hu. destruct HL as (-> & Hh & HF & Htl & _). change ASSET_LEN with 168 in H. rewrite <- Hh in H.
  apply remove_find_sect in H as [H|(c & b & E & H)]; auto; try discriminate; [| rewrite Hh; reflexivity|lia].
  apply loc_some in E as (l1 & l2 & -> & -> & Hb & Hf). exists l1, b, l2. rewrite Hh in H.
  repeat (split; [auto|]). congruence.
Qed.

Lemma memmove_down A B S d1 : memmove (A ++ B ++ S) (zlen A) (zlen A + zlen B) (zlen S) = Ok d1 ->
  zlen d1 = zlen A + zlen B + zlen S /\ firstn (Z.to_nat (zlen A + zlen S)) d1 = A ++ S.
Proof.
  intros H. pose proof (zlen_nonneg A). pose proof (zlen_nonneg B). pose proof (zlen_nonneg S). unfold memmove in H.
  pose proof (move_down A B S [] 0 ltac:(lia)) as M. rewrite app_nil_r, !Z.add_0_r in M. cbn [Z.to_nat firstn app] in M.
  assert (Z3 : zlen (A ++ B ++ S) = zlen A + zlen B + zlen S) by (rewrite !zlen_app; lia).
  match type of H with (if ?q then _ else _) = _ => destruct q eqn:E end.
  - apply Ok_inj in H. subst d1. split; [exact Z3|]. destruct S as [|s S]; [|rewrite zlen_cons in *; pose proof (zlen_nonneg S); lia].
    rewrite app_nil_r. replace (zlen A + zlen []) with (zlen A) by (unfold zlen; cbn [length]; lia).
    unfold zlen. rewrite Nat2Z.id, firstn_app, Nat.sub_diag, firstn_all. cbn [firstn]. reflexivity.
  - match type of H with (if ?q then _ else _) = _ => destruct q eqn:E2 end; [|discriminate].
    apply Ok_inj in H. subst d1. split; [|exact M]. rewrite zlen_put; [exact Z3|lia|]. rewrite zlen_fld; lia.
Qed.

(** Remove takes the block's bytes out and leaves the rest untouched — including
    the now wrong end offsets of the blocks after it *)
Lemma remove_effect e infos w t w' asset hd l tl : arg infos 0 asset -> layout (data (w asset)) hd l tl -> t <> XNone ->
  process e infos w (IRemove t) = Ok w' ->
  exists auth l1 b l2, arg infos 1 auth /\ signed infos auth /\ s_authority (data (w asset)) = pk_bytes auth /\ mutable (data (w asset)) /\
    t <> XManager /\ t <> XProxy /\ (t = XGrouping -> gr_size (bk_data b) = 0) /\
    l = l1 ++ b :: l2 /\ bk_type b = t /\ Forall (fun x => bk_type x <> t) l1 /\
    data (w' asset) = hd ++ enc_sect 168 l1 ++ enc_sect (168 + sect_size l1 + blk_size b) l2 ++ tl /\
    (forall k, k <> asset -> data (w' k) = data (w k)) /\ (forall k, acct_owner (w' k) = acct_owner (w k)).
Proof.
  intros A0 HL Ht H. apply process_dispatch in H. cbn [dispatch] in H. unfold process_remove in H.
  apply bind_ok in H as (asset' & B0 & H). apply bind_ok in H as (auth & A1 & H). apply bind_ok in H as (g & _ & H). apply bind_ok in H as (r & _ & H).
  apply acct_arg in B0, A1. rewrite (arg_det _ _ _ _ B0 A0) in *. clear B0 asset'.
  apply require_ok in H as [S1 H]. apply require_ok in H as [_ H]. cbv zeta in H. apply check_authority_ok in H as (_ & Ha & Hm & H).
  apply bind_ok in H as (o & Hf & H). destruct o as [[off bnd]|]; [|discriminate]. apply bind_ok in H as (u & Hu & H).
  apply bind_ok in H as (d1 & Hd1 & H). apply bind_ok in H as (w1 & H1 & H).
  apply set_data_world in H1 as (D1 & F1 & O1). apply resize_world in H as (D2 & F2 & O2). apply signed_acct in S1.
  destruct (remove_find_layout _ _ _ _ _ _ HL Ht Hf) as (l1 & b & l2 & El & Eb & Hfa & Er). 
  assert (Eo : off = 168 + sect_size l1) by congruence. assert (En : bnd = 168 + sect_size l1 + blk_size b) by congruence. clear Er. subst off bnd.
  exists auth, l1, b, l2. do 4 (split; [assumption|]).
  assert (HG : t <> XManager /\ t <> XProxy /\ (t = XGrouping -> gr_size (bk_data b) = 0)).
  { split; [intros ->; discriminate|]. split; [intros ->; discriminate|]. intros ->.
    apply bind_ok in Hu as (g' & Hg & Hu). destruct g' as [[o' b']|]; [|discriminate]. apply bind_ok in Hu as (gr & Hgr & Hu).
    apply require_ok in Hu as [Hz _]. apply asset_get_some in Hg.
    rewrite El in HL. rewrite <- Eb in Hfa. pose proof (block_has_ext _ _ _ _ _ _ HL Hfa) as HB. rewrite Eb in HB.
    destruct (has_ext_det _ _ _ _ _ _ Hg HB) as [_ ->]. apply grouping_ok in Hgr as (_ & -> & _). cbn [g_size] in Hz. lia. }
  destruct HG as (G1 & G2 & G3). do 6 (split; [assumption|]).
  split; [|split; [intros k N; rewrite F2, F1 by assumption; reflexivity|intro k; now rewrite O2, O1]].
  pose proof (layout_len _ _ _ _ HL) as Hlen. pose proof HL as HL'. destruct HL as (Ed & Hh & HF & Htl & _).
  rewrite El in HF. apply Forall_app in HF as [HF1 HF2]. apply Forall_cons_iff in HF2 as [HFb HF2].
  rewrite El in *. rewrite sect_size_app in Hlen. cbn [sect_size] in Hlen.
  pose proof (sect_size_nonneg l1). pose proof (sect_size_nonneg l2). pose proof (blk_size_pos b). pose proof (zlen_nonneg tl).
  set (c := 168 + sect_size l1) in *.
  assert (ZA : zlen (hd ++ enc_sect 168 l1) = c) by (rewrite zlen_app, zlen_enc_sect by assumption; subst c; lia).
  assert (ZB : zlen (enc_blk c b) = blk_size b) by now apply zlen_enc_blk.
  assert (ZS : zlen (enc_sect (c + blk_size b) l2 ++ tl) = sect_size l2 + zlen tl) by (rewrite zlen_app, zlen_enc_sect by assumption; lia).
  assert (Ed' : data (w asset) = (hd ++ enc_sect 168 l1) ++ enc_blk c b ++ (enc_sect (c + blk_size b) l2 ++ tl)).
  { rewrite Ed, enc_sect_app. cbn [enc_sect]. fold c. now rewrite <- !app_assoc. }
  assert (M : memmove ((hd ++ enc_sect 168 l1) ++ enc_blk c b ++ (enc_sect (c + blk_size b) l2 ++ tl)) (zlen (hd ++ enc_sect 168 l1))
    (zlen (hd ++ enc_sect 168 l1) + zlen (enc_blk c b)) (zlen (enc_sect (c + blk_size b) l2 ++ tl)) = Ok d1).
  { rewrite <- Ed', ZA, ZB, ZS, <- Hd1. f_equal. lia. }
  apply memmove_down in M as [Z1 M].
  rewrite D2, D1. unfold realloc_bytes. destruct (_ <=? zlen d1) eqn:El1; [|lia].
  replace (Z.max 0 (zlen (data (w asset)) - Z.max 0 (c + blk_size b - c))) with (zlen (hd ++ enc_sect 168 l1) + zlen (enc_sect (c + blk_size b) l2 ++ tl)) by lia.
  rewrite M. now rewrite <- app_assoc.
Qed.

(** removing the last extension gives the asset without it *)
Lemma remove_last e infos w t w' asset hd l1 b tl : arg infos 0 asset -> layout (data (w asset)) hd (l1 ++ [b]) tl -> bk_type b = t ->
  Forall (fun x => bk_type x <> t) l1 -> t <> XNone ->
  process e infos w (IRemove t) = Ok w' -> layout (data (w' asset)) hd l1 tl.
Proof.
  intros A0 HL Eb Hf Ht H. destruct (remove_effect _ _ _ _ _ _ _ _ _ A0 HL Ht H) as (auth & m1 & c & m2 & _ & _ & _ & _ & _ & _ & _ & El & Ec & Hm & Hd & _).
  assert (E : m1 = l1 /\ m2 = [] /\ c = b).
  { clear - El Eb Hf Ec Hm. revert m1 El Hm. induction l1 as [|x l1 IH]; intros [|y m1] El Hm; cbn [app] in El.
    - injection El as -> ->. auto.
    - injection El as -> El. destruct m1; discriminate.
    - injection El as <- _. apply Forall_cons_iff in Hf as [Hf _]. contradiction.
    - injection El as -> El. apply Forall_cons_iff in Hf as [_ Hf]. apply Forall_cons_iff in Hm as [_ Hm]. destruct (IH Hf m1 El Hm) as (-> & -> & ->). auto. }
  destruct E as (-> & -> & ->). pose proof (layout_len _ _ _ _ HL) as Hu. pose proof (blk_size_pos b). destruct HL as (_ & Hh & HF & Htl & Hl).
  rewrite sect_size_app in *. cbn [sect_size] in *. apply Forall_app in HF as [HF _].
  rewrite Hd. cbn [enc_sect app]. repeat split; auto. rewrite !zlen_app in *. rewrite zlen_enc_sect by assumption. lia.
Qed.

(** Lemmas: Remove after an earlier Remove (C81). *)
From Verif Require Import Base State Layout Constr Ext World Proc BaseL Spec SpecB SpecH SpecG WorldL ProcSteps LayoutL LayoutE HeadL AuthL AuthM GroupL ResizeL UpdateL UpdateM AllocL AllocM RemoveL FrameL CreateL StepL StepH ViewL.
From Verif Require LiveL.
From Coq Require Import Strings.Byte.

Lemma remove_walk t X : t <> XNone -> forall l A fuel r, zlen A mod 8 = 0 -> Forall blk_ok l -> Forall (fun x => bk_type x <> t) l ->
  zlen A + sect_size l <= u32_max ->
  remove_find fuel t (A ++ enc_sect (zlen A) l ++ X) (zlen A) = Ok (Some r) ->
  exists f, remove_find f t (A ++ enc_sect (zlen A) l ++ X) (zlen A + sect_size l) = Ok (Some r).
Proof.
  intro Ht. induction l as [|b l IH]; intros A fuel r HA HF HN Hu H.
  - cbn [sect_size]. rewrite Z.add_0_r. eauto.
  - apply Forall_cons_iff in HF as [Hb HF]. apply Forall_cons_iff in HN as [Nb HN]. pose proof (blk_size_pos b). pose proof (sect_size_nonneg l). cbn [sect_size] in *.
    destruct fuel as [|fuel]; [discriminate|]. cbn [remove_find enc_sect] in H. rewrite <- !app_assoc in H.
    match type of H with (if ?q then _ else _) = _ => destruct q eqn:E end; [|discriminate].
    rewrite load_hdr_blk in H by (auto; lia). cbn [bind h_type h_bnd] in H.
    destruct (ext_code (bk_type b) =? ext_code t) eqn:Eq; [apply Z.eqb_eq, ext_code_inj in Eq; contradiction|].
    destruct (ext_code (bk_type b) =? 0) eqn:Ez; [discriminate|].
    assert (HL : zlen (A ++ enc_blk (zlen A) b) = zlen A + blk_size b) by (rewrite zlen_app, zlen_enc_blk by assumption; reflexivity).
    specialize (IH (A ++ enc_blk (zlen A) b) fuel r). rewrite HL in IH. rewrite <- app_assoc in IH.
    cbn [enc_sect]. rewrite <- !app_assoc. rewrite Z.add_assoc. apply IH; auto; [|lia]. pose proof (blk_size_mod b Hb). lia.
Qed.

Lemma split_first a t (l1 r m1 m2 : list blk) c : l1 ++ a :: r = m1 ++ c :: m2 -> bk_type a = t -> bk_type c = t ->
  Forall (fun x => bk_type x <> t) l1 -> Forall (fun x => bk_type x <> t) m1 -> m1 = l1 /\ c = a /\ m2 = r.
Proof.
  intros E Ha Hc F1 F2. revert m1 E F2. induction F1 as [|x l1 Hx F1 IH]; intros m1 E F2; destruct m1 as [|y m1]; cbn [app] in E.
  - injection E as -> ->. auto.
  - injection E as -> E. apply Forall_cons_iff in F2 as [F2 _]. contradiction.
  - injection E as -> E. contradiction.
  - injection E as -> E. apply Forall_cons_iff in F2 as [_ F2]. destruct (IH m1 E F2) as (-> & -> & ->). auto.
Qed.

Lemma firstn_min (A B : bytes) n : n <= zlen A -> firstn (Z.to_nat n) (A ++ B) = firstn (Z.to_nat n) A.
Proof. intro H. rewrite firstn_app. replace (Z.to_nat n - length A)%nat with 0%nat by (unfold zlen in H; lia). cbn [firstn]. apply app_nil_r. Qed.

(** Remove of an extension whose end offset is [sa] too large *)
Lemma remove_stale e infos w w' k hd l1 b sa S : arg infos 0 k -> 0 <= sa -> zlen hd = 168 -> Forall blk_ok l1 -> blk_ok b ->
  sa mod 8 = 0 -> Forall (fun x => bk_type x <> bk_type b) l1 ->
  data (w k) = hd ++ enc_sect 168 l1 ++ enc_blk (168 + sect_size l1 + sa) b ++ S -> 168 + sect_size l1 + sa + blk_size b <= u32_max ->
  process e infos w (IRemove (bk_type b)) = Ok w' ->
  data (w' k) = firstn (Z.to_nat (168 + sect_size l1 + zlen S - sa)) ((hd ++ enc_sect 168 l1) ++ skipn (Z.to_nat sa) S) /\
  (forall j, j <> k -> data (w' j) = data (w j)) /\ (forall j, acct_owner (w' j) = acct_owner (w j)) /\
  (lam_ok w -> forall r, arg infos 3 r -> r <> k -> 168 + sect_size l1 + zlen S <= sa -> lamports (w' k) = 0 /\ lamports (w' r) = lamports (w r) + lamports (w k)).
Proof.
  intros A0 Hsa Hh HF Hb Hs8 HN Hd Hu H. apply process_dispatch in H. cbn [dispatch] in H. unfold process_remove in H.
  apply bind_ok in H as (k' & B0 & H). apply bind_ok in H as (auth & A1 & H). apply bind_ok in H as (g & _ & H). apply bind_ok in H as (r & A3 & H).
  apply acct_arg in B0, A3. rewrite (arg_det _ _ _ _ B0 A0) in *. clear B0 k'.
  apply require_ok in H as [_ H]. apply require_ok in H as [_ H]. cbv zeta in H. apply check_authority_ok in H as (_ & _ & _ & H).
  apply bind_ok in H as (o & Hf & H). destruct o as [[off bnd]|]; [|discriminate]. apply bind_ok in H as (u & _ & H).
  apply bind_ok in H as (d1 & Hd1 & H). apply bind_ok in H as (w1 & H1 & H).
  pose proof (fun j => set_data_lam _ _ _ _ _ _ j H1) as L1.
  apply set_data_world in H1 as (D1 & F1 & O1). pose proof (resize_world _ _ _ _ _ _ _ _ _ H) as (D2 & F2 & O2).
  pose proof (sect_size_nonneg l1). pose proof (blk_size_pos b). pose proof (zlen_nonneg S).
  set (P := hd ++ enc_sect 168 l1) in *. assert (ZP : zlen P = 168 + sect_size l1) by (subst P; rewrite zlen_app, zlen_enc_sect by assumption; lia).
  assert (M1 : sect_size l1 mod 8 = 0) by now apply sect_size_mod.
  rewrite <- ZP in *. rewrite app_assoc in Hd. fold P in Hd. assert (ZB : zlen (enc_blk (zlen P + sa) b) = blk_size b) by now apply zlen_enc_blk.
  assert (ZD : zlen (data (w k)) = zlen P + blk_size b + zlen S) by (rewrite Hd, !zlen_app, ZB; lia).
  assert (Tb : bk_type b <> XNone) by apply Hb.
  assert (Q : off = zlen P /\ bnd = zlen P + sa + blk_size b).
  { set (X := enc_blk (zlen P + sa) b ++ S) in *.
    pose proof (fun f r => remove_walk (bk_type b) X Tb l1 hd f r) as RW. rewrite Hh in RW. rewrite app_assoc in RW. fold P in RW. rewrite <- ZP, <- Hd in RW.
    apply RW in Hf as [f Hf]; [|reflexivity|assumption|assumption|lia]. clear RW. rewrite Hd in Hf.
    destruct f as [|f]; [discriminate|]. cbn [remove_find] in Hf.
    match type of Hf with (if ?q then _ else _) = _ => destruct q end; [|discriminate].
    assert (HH : load_hdr (P ++ enc_blk (zlen P + sa) b ++ S) (zlen P) = Ok (mkHdr (ext_code (bk_type b)) (zlen (bk_data b)) (zlen P + sa + blk_size b))).
    { unfold enc_blk. rewrite <- !app_assoc. destruct Hb as (_ & Hb2 & _). pose proof (ext_code_range (bk_type b)). pose proof (zlen_nonneg (bk_data b)). pose proof (zlen_nonneg (bk_pad b)).
      unfold u32_max, blk_size in *. apply load_hdr_raw; unfold u32_max; try lia. rewrite zlen_app. unfold zlen at 1. rewrite Hb2. pose proof (zlen_nonneg (bk_data b ++ bk_pad b ++ S)). lia. }
    fold X in HH. rewrite HH in Hf. cbn [bind h_type h_bnd] in Hf. rewrite Z.eqb_refl in Hf. injection Hf as <- <-. auto. }
  destruct Q as [-> ->]. rewrite D2, D1.
  assert (LD : forall j, j <> k -> data (w' j) = data (w j)) by (intros j N; rewrite F2, F1 by assumption; reflexivity).
  assert (LO : forall j, acct_owner (w' j) = acct_owner (w j)) by (intro j; now rewrite O2, O1).
  assert (SZ : Z.max 0 (zlen (data (w k)) - Z.max 0 (zlen P + sa + blk_size b - zlen P)) = Z.max 0 (zlen P + zlen S - sa)) by lia. rewrite SZ in *. clear SZ.
  split.
  - destruct (Z.le_gt_cases (zlen S) sa) as [C|C].
    + assert (d1 = data (w k)) as ->. { unfold memmove in Hd1. replace (Z.max 0 _ =? 0) with true in Hd1 by lia. now apply Ok_inj in Hd1. }
      rewrite (skipn_all2 S) by (unfold zlen in C; lia). rewrite app_nil_r. unfold realloc_bytes. replace (_ <=? zlen (data (w k))) with true by lia.
      rewrite Hd. replace (Z.to_nat (Z.max 0 (zlen P + zlen S - sa))) with (Z.to_nat (zlen P + zlen S - sa)) by lia. apply firstn_min. lia.
    + set (S2 := skipn (Z.to_nat sa) S). assert (Z2 : zlen S2 = zlen S - sa) by (subst S2; unfold zlen in *; rewrite skipn_length; lia).
      assert (ES : data (w k) = P ++ (enc_blk (zlen P + sa) b ++ firstn (Z.to_nat sa) S) ++ S2) by (rewrite Hd, <- app_assoc; subst S2; now rewrite firstn_skipn).
      assert (ZB2 : zlen (enc_blk (zlen P + sa) b ++ firstn (Z.to_nat sa) S) = blk_size b + sa) by (rewrite zlen_app, ZB; unfold zlen in *; rewrite firstn_length; lia).
      rewrite ES in Hd1 at 1. replace (Z.max 0 (zlen (data (w k)) - (zlen P + sa + blk_size b))) with (zlen S2) in Hd1 by lia.
      replace (zlen P + sa + blk_size b) with (zlen P + zlen (enc_blk (zlen P + sa) b ++ firstn (Z.to_nat sa) S)) in Hd1 by lia.
      apply memmove_down in Hd1 as [Z1 M]. unfold realloc_bytes. replace (_ <=? zlen d1) with true by lia.
      replace (Z.max 0 (zlen P + zlen S - sa)) with (zlen P + zlen S2) by lia. rewrite M. replace (zlen P + zlen S - sa) with (zlen (P ++ S2)) by (rewrite zlen_app; lia).
      symmetry. apply firstn_all2. unfold zlen. lia.
  - split; [exact LD|]. split; [exact LO|]. intros LO' r' A3' N C. rewrite (arg_det _ _ _ _ A3' A3) in *. clear A3' r'.
    unfold resize in H. cbv zeta in H. apply bind_ok in H as (w2 & Hmv & H). pose proof (fun j => LiveL.realloc_money _ _ _ _ _ _ _ j H) as L2.
    assert (Zd : zlen d1 = zlen (data (w k))).
    { unfold memmove in Hd1. replace (Z.max 0 _ =? 0) with true in Hd1 by lia. apply Ok_inj in Hd1. now subst. }
    replace (_ <? zlen (data (w1 k))) with true in Hmv by (rewrite D1; lia). cbn [ok_or bind] in Hmv.
    replace (Z.max 0 (zlen P + zlen S - sa) =? 0) with true in Hmv by lia. pose proof (LO' k) as Lk. rewrite Z.sub_0_r, Z.max_r in Hmv by (rewrite L1; exact Lk).
    apply LiveL.move_money in Hmv as [E1 E2]; [|assumption]. rewrite !L2, !L1 in *. lia.
Qed.

(** Two Removes, the second taking the extension stored after the first one's *)
Lemma remove_twice e1 e2 infos1 infos2 w w1 w2 w3 k hd l1 a b l2 tl : arg infos1 0 k -> arg infos2 0 k ->
  layout (data (w k)) hd (l1 ++ a :: b :: l2) tl ->
  Forall (fun x => bk_type x <> bk_type a) l1 -> Forall (fun x => bk_type x <> bk_type b) l1 ->
  process e1 infos1 w (IRemove (bk_type a)) = Ok w1 -> data (w2 k) = data (w1 k) ->
  process e2 infos2 w2 (IRemove (bk_type b)) = Ok w3 ->
  let behind := enc_sect (168 + sect_size l1 + blk_size a + blk_size b) l2 ++ tl in
  data (w3 k) = firstn (Z.to_nat (168 + sect_size l1 + zlen behind - blk_size a)) (hd ++ enc_sect 168 l1 ++ skipn (Z.to_nat (blk_size a)) behind) /\
  (lam_ok w2 -> forall r, arg infos2 3 r -> r <> k -> 168 + sect_size l1 + zlen behind <= blk_size a ->
     lamports (w3 k) = 0 /\ lamports (w3 r) = lamports (w2 r) + lamports (w2 k)).
Proof.
  intros A1 A2 HL Fa Fb H1 E H2. cbv zeta. pose proof (layout_u32 _ _ _ _ HL) as Hu. pose proof HL as (_ & Hh & HF & _).
  apply Forall_app in HF as [HF1 HF]. apply Forall_cons_iff in HF as [Ha HF]. apply Forall_cons_iff in HF as [Hb HF].
  destruct (remove_effect _ _ _ _ _ _ _ _ _ A1 HL (proj1 Ha) H1) as (_ & m1 & c & m2 & _ & _ & _ & _ & _ & _ & _ & El & Ec & Hm & D & _).
  destruct (split_first a (bk_type a) l1 (b :: l2) m1 m2 c El eq_refl Ec Fa Hm) as (-> & -> & ->).
  rewrite <- E in D. cbn [enc_sect] in D. rewrite <- !app_assoc in D.
  rewrite sect_size_app in Hu. cbn [sect_size] in Hu. pose proof (sect_size_nonneg l2). pose proof (blk_size_pos a).
  assert (Q : 168 + sect_size l1 + blk_size a + blk_size b <= u32_max) by lia.
  destruct (remove_stale e2 infos2 w2 w3 k hd l1 b (blk_size a) _ A2 ltac:(lia) Hh HF1 Hb (blk_size_mod _ Ha) Fb D Q H2) as (R1 & _ & _ & R2).
  split; [|exact R2]. rewrite R1. now rewrite <- app_assoc.
Qed.
(** ... the only two extensions of an asset: the header is cut *)
Lemma remove_both e1 e2 infos1 infos2 w w1 w2 w3 k a b : arg infos1 0 k -> arg infos2 0 k ->
  tight (data (w k)) [a; b] -> process e1 infos1 w (IRemove (bk_type a)) = Ok w1 -> data (w2 k) = data (w1 k) ->
  process e2 infos2 w2 (IRemove (bk_type b)) = Ok w3 ->
  data (w3 k) = firstn (Z.to_nat (168 - blk_size a)) (data (w k)) /\ ~ initialized (data (w3 k)) /\
  (lam_ok w2 -> forall r, arg infos2 3 r -> r <> k -> 168 <= blk_size a -> lamports (w3 k) = 0 /\ lamports (w3 r) = lamports (w2 r) + lamports (w2 k)).
Proof.
  intros A1 A2 [hd HL] H1 E H2. change [a; b] with ([] ++ a :: b :: []) in HL.
  destruct (remove_twice _ _ _ _ _ _ _ _ _ _ _ _ _ _ _ A1 A2 HL (Forall_nil _) (Forall_nil _) H1 E H2) as [D R].
  cbn [sect_size enc_sect app] in D, R. change (zlen (@nil byte)) with 0 in D, R. rewrite skipn_nil, app_nil_r, !Z.add_0_r in *. pose proof (blk_size_pos a).
  destruct HL as (Ed & Hh & _).
  assert (D' : data (w3 k) = firstn (Z.to_nat (168 - blk_size a)) (data (w k))) by (rewrite D, Ed; symmetry; apply firstn_min; lia).
  split; [exact D'|]. split; [|exact R]. intros [L _]. rewrite D', firstn_length in L. lia.
Qed.

(** ** An asset stays one unless it is burned *)
Lemma survives_step e infos w i w' k l : env_ok e -> e_prog e <> pk_zero -> sized w -> lam_ok w -> plain_request i ->
  asset_of (e_prog e) w k -> well_formed (data (w k)) l -> process e infos w i = Ok w' ->
  (burns infos i k /\ w' k = mkAcct 0 pk_zero []) \/ asset_of (e_prog e) w' k.
Proof.
  intros He Hp Hs Hl Hr [Ho Hi] HW H.
  destruct (header_changes _ _ _ _ _ _ _ He Hp Hs Hl Hr Ho Hi HW H) as [B|[O' HH]]; [left; exact B|]. right. split; [exact O'|].
  destruct HH as (H1 & _). split; [|destruct Hi as [_ Hi]; congruence].
  assert (Z' : 168 <= zlen (data (w' k))); [|unfold zlen in Z'; lia].
  destruct HW as (hd & tl & HL). destruct (changes e infos w w' k He Hp Hs Hl Ho Hi i H) as [(_ & _ & Hg)|[_ Hc]].
  { exfalso. rewrite Hg in O'. cbn [acct_owner] in O'. congruence. }
  destruct (step_layout e infos w w' k i hd l tl HL Hc) as [(hd' & l' & L' & _)|(A0 & _ & [[x ->]|[[t ->]|[[|v] ->]]])]; cbn [plain_request] in Hr.
  - eapply layout_zlen_ge; eauto.
  - destruct (update_effect _ _ _ _ _ _ _ _ _ He Hp Hs A0 HL ltac:(intros y Hy; destruct (Hr y Hy) as (R1 & R2 & _); split; assumption) H)
      as (a' & hd' & l' & tl' & _ & _ & _ & _ & _ & _ & _ & L' & _). eapply layout_zlen_ge; eauto.
  - destruct (remove_effect _ _ _ _ _ _ _ _ _ A0 HL Hr H) as (a' & l1 & b & l2 & _ & _ & _ & _ & _ & _ & _ & _ & _ & _ & D & _).
    destruct HL as (_ & Hh & _). rewrite D, zlen_app. match goal with |- _ <= _ + zlen ?x => pose proof (zlen_nonneg x) end. lia.
  - destruct (ResizeL.trim_effect _ _ _ _ _ _ _ _ A0 HL H) as (_ & _ & L' & _). eapply layout_zlen_ge; eauto.
  - rewrite (ResizeL.extend_bytes _ _ _ _ _ _ A0 (proj1 Hr) H), zlen_app. pose proof (layout_zlen_ge _ _ _ _ HL). match goal with |- _ <= _ + zlen ?x => pose proof (zlen_nonneg x) end. lia.
Qed.
Lemma survives_history p w w' k l : p <> pk_zero -> history_of (careful k) p w w' -> sized w -> lam_ok w -> asset_of p w k -> tidy (data (w k)) l ->
  burned_in p w w' k \/ asset_of p w' k.
Proof.
  intros Hp H Hs Hl HA HT. enough (Q : (sized w' /\ lam_ok w') /\ (burned_in p w w' k \/ (asset_of p w' k /\ exists l', tidy (data (w' k)) l'))) by tauto.
  induction H as [w|w w1 e infos i w2 H IH E He HPi HI|w w1 w2 H IH HO].
  - split; [auto|]. right. eauto.
  - destruct (IH Hs Hl HA HT) as ([Hs1 Hl1] & [B|[[F1 F2] [l1 F3]]]); clear IH; assert (Hp' : e_prog e <> pk_zero) by congruence;
      (split; [split; [eapply sized_preserved; eauto|eapply lam_ok_preserved; eauto]|]).
    + left. destruct B as (u1 & e1 & in1 & u2 & B1 & B2 & B3 & B4 & B5 & B6). exists u1, e1, in1, u2. repeat (split; [assumption|]). exact (hist_instr p u2 w1 e infos i w2 B6 E He HI).
    + rewrite <- E in F1. destruct (tidy_step _ _ _ _ _ _ _ He Hp' Hs1 Hl1 HPi F1 F2 F3 HI) as [[[-> B] _]|(G1 & G2 & _ & l2 & G4 & _)].
      * left. exists w1, e, infos, w2. split; [eapply forget; eauto|]. repeat (split; [assumption|]). constructor.
      * right. split; [split; [congruence|assumption]|eauto].
  - destruct (IH Hs Hl HA HT) as ([Hs1 Hl1] & [B|[[F1 F2] [l1 F3]]]); pose proof HO as (O1 & O2 & O3 & O4); (split; [auto|]).
    + left. destruct B as (u1 & e1 & in1 & u2 & B1 & B2 & B3 & B4 & B5 & B6). exists u1, e1, in1, u2. repeat (split; [assumption|]). eapply hist_outside; eauto.
    + right. destruct (O1 k F1) as [P1 P2]. unfold asset_of. rewrite P2. eauto.
Qed.

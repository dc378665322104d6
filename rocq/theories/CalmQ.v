(** Update gets an answer (C90). *)
From Verif Require Import Base State Layout Constr Ext World Proc BaseL Spec SpecB SpecF SpecE SpecJ SpecSafe SpecCalm WorldL FrameL LayoutL LayoutE LayoutM ConstrL HeadL AcceptL AllocL AllocM AuthL AuthM UpdateL UpdateM TopL ExactL ExactM ExactN ExactP TailL SafeL SafeM SafeN SafeO CalmL CalmO CalmP.
From Coq Require Import Strings.Byte.

Lemma p_memmove d a b n : 0 <= a -> 0 <= b -> a + n <= zlen d -> b + n <= zlen d -> answered (memmove d a b n).
Proof. intros. unfold memmove. destruct (n =? 0); [exact I|]. replace (_ && _) with true by lia. exact I. Qed.
Lemma p_kept o : forall l, answered (check_kept o l).
Proof. induction o as [|c o IH]; intro l; cbn [check_kept]; [exact I|]. destruct (pod_true _); [|apply IH]. destruct (creators_get _ _) as [u|]; [|exact I]. destruct (pod_true _); [apply IH|exact I]. Qed.
Lemma p_onupdate t al1 cur al b auth : al1 mod 8 = 0 -> al mod 8 = 0 -> parses t cur -> parses t b -> answered (on_update t al1 cur al b auth).
Proof.
  intros Ha1 Ha P1 P2. destruct t; cbn [on_update]; try exact I.
  - apply p_parse; [exact (proj2 (AcceptL.pairs_goes cur) P1)|]. intro. apply p_parse; [exact (proj2 (AcceptL.pairs_goes b) P2)|]. intro. exact I.
  - apply p_parse; [exact (proj2 (AcceptL.blob_goes cur) P1)|]. intro. apply p_parse; [exact (proj2 (AcceptL.blob_goes b) P2)|]. intro. exact I.
  - apply p_parse; [exact (proj2 (AcceptL.creators_goes cur) P1)|]. intro. apply p_parse; [exact (proj2 (AcceptL.creators_goes b) P2)|]. intro.
    apply p_bind; [|intros; exact I]. unfold creators_on_update. cbv zeta. destruct (_ =? 100); [|exact I]. apply p_bind; [apply p_kept|intros; exact I].
  - apply p_parse; [exact (proj2 (AcceptL.pairs_goes cur) P1)|]. intro. apply p_parse; [exact (proj2 (AcceptL.pairs_goes b) P2)|]. intro. exact I.
  - apply p_parse; [exact (proj2 (AcceptL.metadata_goes cur) P1)|]. intro. apply p_parse; [exact (proj2 (AcceptL.metadata_goes b) P2)|]. intro. exact I.
  - apply p_parse; [exact (proj2 (AcceptL.grouping_goes al1 cur Ha1) P1)|]. intro. apply p_parse; [exact (proj2 (AcceptL.grouping_goes al b Ha) P2)|]. intro. destruct (_ && _); exact I.
  - apply p_parse; [exact (proj2 (AcceptL.royalties_goes al1 cur Ha1) P1)|]. intro. apply p_parse; [exact (proj2 (AcceptL.royalties_goes al b Ha) P2)|]. intro. destruct (10000 <? _); exact I.
  - apply p_parse; [exact (proj2 (AcceptL.manager_goes cur) P1)|]. intro. apply p_parse; [exact (proj2 (AcceptL.manager_goes b) P2)|]. intro. exact I.
  - apply p_parse; [exact (proj2 (AcceptL.proxy_goes cur) P1)|]. intro. apply p_parse; [exact (proj2 (AcceptL.proxy_goes b) P2)|]. intro. destruct (_ || _); exact I.
  - apply p_parse; [exact (proj2 (AcceptL.props_goes cur) P1)|]. intro. apply p_parse; [exact (proj2 (AcceptL.props_goes b) P2)|]. intro. exact I.
Qed.
Lemma p_validate t al inp cur auth : al mod 8 = 0 -> parses t inp -> (forall q c, cur = Some (q, c) -> q mod 8 = 0 /\ parses t c) -> answered (validate t al inp cur auth).
Proof.
  intros Ha R C. unfold validate. destruct cur as [[q c]|]; [destruct (C q c eq_refl); apply p_map, p_onupdate; assumption|].
  destruct t; try exact I; apply p_map, p_oncreate; assumption.
Qed.
Lemma readable_lookup l t b : readable l -> lookup t (ext_list l) = Some b -> parses t b.
Proof.
  intros R H. rewrite (loc_lookup t l 168) in H. destruct (loc t 168 l) as [[c k]|] eqn:E; [|discriminate H]. cbn [option_map snd] in H. injection H as <-.
  apply loc_some in E as (l1 & l2 & -> & _ & <- & _). apply Forall_app in R as [_ R]. apply Forall_cons_iff in R as [R _]. exact R.
Qed.

Lemma room_p e infos w0 w asset payer sysp hd l t n : layout (data (w asset)) hd l [] -> 0 <= n <= 2000000000 ->
  let r := match loc t 168 l with Some (c, b) => (c, Some (blk_hdr c b)) | None => (168 + sect_size l, None) end in
  answered (update_room e infos w0 w asset payer sysp (fst r) (snd r) n).
Proof.
  intros HL Hn r. unfold r. clear r. destruct (loc t 168 l) as [[c b]|] eqn:El; cbn [fst snd]; [|apply p_resize].
  apply loc_some in El as (l1 & l2 & -> & -> & _ & _). set (c := 168 + sect_size l1).
  destruct (layout_at _ _ _ _ HL c l1 b l2 eq_refl eq_refl) as (A & Ed & HA & Hb & EA).
  pose proof (layout_len _ _ _ _ HL) as Hlen. pose proof HL as (_ & Hh & Hf & Htl & Hz).
  apply Forall_app in Hf as [Hf1 Hf2]. apply Forall_cons_iff in Hf2 as [_ Hf2].
  rewrite sect_size_app in Hlen. cbn [sect_size] in Hlen. change (zlen []) with 0 in Hlen.
  pose proof (sect_size_nonneg l1) as Hp1. pose proof (sect_size_nonneg l2) as Hp2. pose proof (blk_size_pos b) as Hpb.
  unfold update_room. change EXT_LEN with 16. set (ub := pad8 (c + 16 + n)). cbv zeta. cbn [blk_hdr h_len h_bnd].
  pose proof (pad8_ge (c + 16 + n)) as Hpad. fold ub in Hpad.
  destruct (zlen (bk_data b) =? n) eqn:En; [exact I|].
  rewrite to_i32_small by (unfold blk_size, c in *; pose proof (zlen_nonneg (bk_data b)); pose proof (zlen_nonneg (bk_pad b)); lia).
  set (delta := ub - (c + blk_size b)) in *.
  rewrite (layout_last _ _ _ _ HL). cbn [bind]. destruct (last_res _) as [[lh o]|] eqn:Hlo; [|exact I].
  assert (Eab : h_bnd lh = zlen (data (w asset))).
  { destruct (list_last_case (l1 ++ b :: l2)) as [Q|(l' & b' & Q)]; [destruct l1; discriminate Q|].
    pose proof Q as Q'. rewrite Q in Hlo. rewrite last_blk_app in Hlo. unfold last_res, blk_hdr in Hlo. cbn [option_map fst snd] in Hlo.
    assert (E : h_bnd lh = 168 + sect_size l' + blk_size b') by (apply (f_equal (option_map (fun p => h_bnd (fst p)))) in Hlo; cbn [option_map fst h_bnd] in Hlo; congruence).
    apply (f_equal sect_size) in Q'. rewrite !sect_size_app in Q'. cbn [sect_size] in Q'. lia. }
  rewrite Eab. replace (Z.max 0 (zlen (data (w asset)) - (c + blk_size b))) with (sect_size l2) by lia.
  apply p_bind; [destruct (0 <? delta); [apply p_resize|exact I]|]. intros w1 W1.
  apply p_bind.
  { destruct (0 <? delta) eqn:D0.
    - apply resize_data in W1 as (D1 & _). assert (Z1 : zlen (data (w1 asset)) = zlen (data (w asset)) + delta) by (rewrite D1, zlen_realloc by lia; lia).
      apply p_memmove; unfold delta in *; lia.
    - apply Ok_inj in W1. subst w1. apply p_memmove; unfold delta in *; lia. }
  intros d1 _. apply p_bind; [apply p_set|]. intros w2 _. destruct (delta <? 0); [apply p_resize|exact I].
Qed.

Lemma finish_p e infos w3 asset t hd l1 B0 c0 l2 n src found :
  let c := 168 + sect_size l1 in
  let ub := pad8 (c + 16 + n) in
  zlen hd = 168 -> Forall blk_ok l1 -> Forall blk_ok l2 -> 0 <= n ->
  data (w3 asset) = (hd ++ enc_sect 168 l1) ++ B0 ++ enc_sect c0 l2 -> zlen B0 = ub - c ->
  match found with Some h => h_bnd h | None => c end = c0 -> 0 <= c0 -> c0 + sect_size l2 < 2147483648 ->
  zlen (data (w3 asset)) <= 4000000000 -> ub - c0 <= 2147483647 -> (length l2 < e_fuel e)%nat ->
  (forall bs, src = Some bs -> zlen bs = n) ->
  answered (update_finish e infos w3 asset None t c found n src).
Proof.
  intros c ub Hh Hf1 Hf2 Hn D HB Hold Hc0 Hb0 Hz Hub Hfuel Hsrc.
  unfold update_finish. change EXT_LEN with 16. fold ub. cbv zeta. rewrite Hold.
  pose proof (pad8_ge (c + 16 + n)) as Hpad. fold ub in Hpad. pose proof (sect_size_nonneg l1) as Hp1. pose proof (sect_size_nonneg l2) as Hp2.
  assert (Hcm : c mod 8 = 0) by (pose proof (sect_size_mod l1 Hf1); unfold c; lia).
  assert (Hum : ub mod 8 = 0) by apply pad8_mod.
  set (A := hd ++ enc_sect 168 l1) in *.
  assert (HA : zlen A = c) by (unfold A; rewrite zlen_app, zlen_enc_sect by assumption; unfold c; lia).
  set (B1 := put B0 0 (enc_hdr (ext_code t) n ub)) in *.
  assert (HB1 : zlen B1 = ub - c) by (unfold B1; rewrite zlen_put; [assumption|lia|change (zlen (enc_hdr (ext_code t) n ub)) with 12; lia]).
  pose proof (zlen_enc_sect l2 c0 Hf2) as Zs0.
  assert (ZD : zlen (data (w3 asset)) = ub + sect_size l2) by (rewrite D, !zlen_app; lia).
  assert (E4 : set_hdr (data (w3 asset)) c (ext_code t) n ub = Ok ((A ++ B1) ++ enc_sect c0 l2)).
  { unfold set_hdr. match goal with |- guard ?q _ = _ => replace q with true by (unfold EXT_LEN; lia) end. cbn [guard]. f_equal.
    rewrite D. replace c with (zlen A + 0) by lia. rewrite put_inside by (change (zlen (enc_hdr (ext_code t) n ub)) with 12; lia).
    now rewrite <- !app_assoc. }
  rewrite E4. cbn [bind].
  assert (HAB : zlen (A ++ B1) = ub) by (rewrite zlen_app; lia).
  rewrite to_i32_small by lia.
  assert (F : goes (fix_boundaries (e_fuel e) (ub - c0) ((A ++ B1) ++ enc_sect c0 l2) ub)).
  { rewrite <- HAB at 2. apply fix_goes; auto; try (unfold u32_max; lia). }
  destruct F as [d5 H5]. rewrite H5. cbn [bind].
  assert (H45 : forall f d cur r, fix_boundaries f (ub - c0) d cur = Ok r -> 0 <= cur -> zlen r = zlen d).
  { clear. induction f as [|f IH]; intros d cur r H Hc; [discriminate|]. cbn [fix_boundaries] in H. destruct (cur <? zlen d); [|congruence].
    apply bind_ok in H as (h & Hh & H). apply load_hdr_ok in Hh as (_ & Q2 & _ & _). cbv zeta in H. apply IH in H.
    - rewrite H, zlen_put; [reflexivity|lia|]. rewrite le_enc_zlen. lia.
    - unfold sat_add_u32, u32_max. lia. }
  pose proof (H45 _ _ _ _ H5 ltac:(lia)) as Z5. rewrite zlen_app, HAB, Zs0 in Z5.
  assert (MC : forall bs, zlen bs = n -> answered (memcpy_at d5 (c + 16) bs)).
  { intros bs Hb. unfold memcpy_at. apply p_guard; [pose proof (zlen_nonneg bs); lia|]. replace (c + 16 + zlen bs <=? zlen d5) with true by lia. exact I. }
  apply p_bind; [|intros; apply p_set]. destruct (0 <? n); [|exact I]. destruct src as [bs|]; [|exact I]. apply MC. now apply Hsrc.
Qed.

Section Upd.
Variables (e : env) (infos : list ainfo) (w0 : world) (asset auth : pubkey) (payer sysp : option pubkey) (y : ext_input).
Hypothesis (Hy : x_type y <> XNone /\ x_length y <= 2000000000 /\ (x_data y <> None -> parses (x_type y) (given y))) (Hal : e_heap_al e mod 8 = 0).

Lemma update_ext_p w hd l : layout (data (w asset)) hd l [] -> (length l < e_fuel e)%nat -> zlen (data (w asset)) <= 1000000000 -> readable l ->
  answered (update_ext e infos w0 w asset auth None payer sysp (Some y)).
Proof.
  intros HL Hfu Hsz HR. destruct Hy as (Ht & Hlen & Hp). unfold update_ext. cbn [update_type bind]. set (t := x_type y) in *.
  apply p_bind; [apply goes_a; exact (find_layout_goes _ _ _ _ HL Ht)|].
  intros r F. destruct (update_find_layout _ _ _ _ _ _ HL Ht F) as [Er _]. destruct r as [off found].
  pose proof (find_cur_t _ _ _ _ t HL) as FC. cbv zeta in FC. rewrite <- Er in FC. cbn [fst snd] in FC. destruct FC as (q & Q1 & Q2 & Q3).
  assert (RC : forall z c, q = Some (z, c) -> z mod 8 = 0 /\ parses t c).
  { intros z c ->. split; [eapply Q3; reflexivity|]. cbn [option_map snd] in Q2. eapply readable_lookup; eauto. }
  apply p_bind.
  { unfold update_source. cbv zeta. change EXT_LEN with 16. apply p_bind.
    - destruct (x_data y) as [bs|] eqn:Y; [|exact I]. rewrite Q1. cbn [bind]. apply p_bind; [|intros; exact I].
      apply p_validate; [exact Hal| |exact RC]. specialize (Hp ltac:(discriminate)). unfold given in Hp. now rewrite Y in Hp.
    - intros [n o] _. destruct (n <? x_length y); [exact I|]. destruct (x_length y <? n); exact I. }
  intros [[n src] w2] S.
  assert (HS : w2 = w /\ 0 <= n <= 2000000000 /\ (forall bs, src = Some bs -> zlen bs = n)).
  { unfold update_source in S. cbv zeta in S. apply bind_ok in S as ([n' o] & S1 & S). destruct (n' <? x_length y) eqn:C1; [discriminate S|]. destruct (x_length y <? n') eqn:C2; [discriminate S|].
    apply Ok_inj in S. injection S as <- <- <-. split; [reflexivity|].
    destruct (x_data y) as [bs|]; [|injection S1 as <- <-; split; [lia|discriminate]].
    apply bind_ok in S1 as (cur & _ & S1). apply bind_ok in S1 as (bs' & _ & S1). injection S1 as <- <-. pose proof (zlen_nonneg bs'). split; [lia|]. intros b0 Q. injection Q as <-. reflexivity. }
  destruct HS as (-> & Hn & Hsrc).
  pose proof (room_p e infos w0 w asset payer sysp hd l t n HL Hn) as RM. cbv zeta in RM. rewrite <- Er in RM. cbn [fst snd] in RM.
  apply p_bind; [exact RM|]. intros w3 W3. clear RM.
  pose proof (layout_len _ _ _ _ HL) as ZL. change (zlen []) with 0 in ZL. pose proof HL as (_ & Hh & HF & _).
  destruct (loc t 168 l) as [[c b]|] eqn:El; injection Er as -> ->.
  - apply loc_some in El as (l1 & l2 & -> & -> & _ & _). pose proof HF as HF'. apply Forall_app in HF as [HF1 HF2]. apply Forall_cons_iff in HF2 as [Hb HF2].
    rewrite sect_size_app in ZL. cbn [sect_size] in ZL. pose proof (sect_size_nonneg l1). pose proof (sect_size_nonneg l2). pose proof (blk_size_pos b).
    pose proof (pad8_ge (168 + sect_size l1 + 16 + n)).
    destruct (update_room_found _ _ _ _ _ _ _ _ _ _ _ _ _ _ HL Hn W3) as (B0 & tl' & D3 & ZB & TL & _).
    assert (tl' = []) as -> by (destruct TL as [?|[? _]]; assumption). rewrite app_nil_r in D3.
    assert (Z3 : zlen (data (w3 asset)) <= 4000000000) by (rewrite D3, !zlen_app, ZB, !zlen_enc_sect by assumption; lia).
    assert (F2 : (length l2 < e_fuel e)%nat) by (rewrite app_length in Hfu; cbn [length] in Hfu; lia).
    apply (finish_p e infos w3 asset t hd l1 B0 (168 + sect_size l1 + blk_size b) l2 n src (Some (blk_hdr (168 + sect_size l1) b))); auto; lia.
  - pose proof (sect_size_nonneg l). pose proof (pad8_ge (168 + sect_size l + 16 + n)). assert (Hn0 : 0 <= n) by lia.
    destruct (update_room_new _ _ _ _ _ _ _ _ _ _ _ _ HL Hn0 W3) as (B0 & D3 & ZB & _).
    apply (finish_p e infos w3 asset t hd l B0 (168 + sect_size l) [] n src None); auto; cbn [enc_sect sect_size length]; rewrite ?app_nil_r; auto; try lia.
    rewrite D3, !zlen_app, ZB, !zlen_enc_sect by assumption. lia.
Qed.
End Upd.

Lemma update_p e infos w a asset hd l : sound_accounts e infos w -> arg infos 0 asset -> arg infos 2 (e_prog e) -> layout (data (w asset)) hd l [] -> readable l ->
  (length l < e_fuel e)%nat -> sized w -> e_heap_al e mod 8 = 0 ->
  (forall x, u_ext a = Some x -> x_type x <> XNone /\ x_length x <= 2000000000 /\ (x_data x <> None -> parses (x_type x) (given x))) ->
  answered (process e infos w (IUpdate a)).
Proof.
  intros HSA A0 A2 HL HR Hf Hs Hal Hx. apply p_process; [exact HSA|]. cbn [dispatch]. unfold process_update. pf.
  apply acct_arg in K. rewrite (arg_det _ _ _ _ K A0) in *. fold (upd_head a (data (w asset))).
  apply opt_acct_none in A2. rewrite A2 in K1. apply Ok_inj in K1. subst k1.
  match goal with Hw : set_data _ _ _ _ _ = Ok ?v |- _ => pose proof (set_data_data _ _ _ _ _ _ Hw) as D1 end.
  pose proof (upd_head_layout a _ _ _ _ HL) as HL1. fold (upd_head a (data (w asset))) in D1. rewrite <- D1 in HL1.
  destruct (u_ext a) as [y|]; [|exact I].
  eapply update_ext_p; eauto.
  rewrite D1. pose proof (layout_len _ _ _ _ HL) as Q1. pose proof (layout_len _ _ _ _ (upd_head_layout a _ _ _ _ HL)) as Q2. specialize (Hs asset). lia.
Qed.

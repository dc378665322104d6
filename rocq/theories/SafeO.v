(** Update stays contained (C89). *)
From Verif Require Import Base State Layout Constr Ext World Proc BaseL Spec SpecB SpecF SpecE SpecSafe WorldL FrameL LayoutL LayoutE LayoutM ConstrL HeadL AcceptL AllocL AllocM AuthL AuthM UpdateL UpdateM TopL ExactL ExactM ExactN ExactP TailL SafeL SafeM SafeN.
From Coq Require Import Strings.Byte.

Lemma s_ufind t d : forall fuel cur, ahead d cur -> (0 < fuel)%nat -> zlen d < cur + Z.of_nat fuel -> contained (update_find fuel t d cur).
Proof.
  induction fuel as [|f IH]; intros cur H Hf Hz; [lia|]. cbn [update_find]. destruct (cur <? zlen d) eqn:E; [|exact I].
  apply s_bind; [apply s_load|]. intros h L. destruct (h_type h =? ext_code t); [exact I|]. destruct (h_type h =? 0) eqn:N; [exact I|].
  destruct (ahead_step _ _ _ H L N). apply load_hdr_ok in L as (_ & L & _). apply IH; [assumption|lia|lia].
Qed.
Lemma s_validate t al inp cur auth : royal_ok t inp -> (forall q c, cur = Some (q, c) -> royal_ok t c) -> contained (validate t al inp cur auth).
Proof.
  intros R C. unfold validate. destruct cur as [[q c]|]; [apply s_map, s_onupdate; [eapply C; reflexivity|assumption]|].
  destruct t; try exact I; apply s_map, s_oncreate; assumption.
Qed.

Lemma room_c e infos w0 w asset payer sysp hd l t n : layout (data (w asset)) hd l [] -> 0 <= n <= 2000000000 ->
  let r := match loc t 168 l with Some (c, b) => (c, Some (blk_hdr c b)) | None => (168 + sect_size l, None) end in
  contained (update_room e infos w0 w asset payer sysp (fst r) (snd r) n).
Proof.
  intros HL Hn r. unfold r. clear r. destruct (loc t 168 l) as [[c b]|] eqn:El; cbn [fst snd]; [|apply s_resize].
  apply loc_some in El as (l1 & l2 & -> & -> & _ & _). set (c := 168 + sect_size l1).
  destruct (layout_at _ _ _ _ HL c l1 b l2 eq_refl eq_refl) as (A & Ed & HA & Hb & EA).
  pose proof (layout_len _ _ _ _ HL) as Hlen. pose proof HL as (_ & Hh & Hf & Htl & Hz).
  apply Forall_app in Hf as [Hf1 Hf2]. apply Forall_cons_iff in Hf2 as [_ Hf2].
  rewrite sect_size_app in Hlen. cbn [sect_size] in Hlen. change (zlen []) with 0 in Hlen.
  pose proof (sect_size_nonneg l1) as Hp1. pose proof (sect_size_nonneg l2) as Hp2. pose proof (blk_size_pos b) as Hpb.
  unfold update_room. change EXT_LEN with 16. set (ub := pad8 (c + 16 + n)). cbv zeta. cbn [blk_hdr h_len h_bnd].
  pose proof (pad8_ge (c + 16 + n)) as Hpad. fold ub in Hpad.
  destruct (zlen (bk_data b) =? n) eqn:En; [exact I|].
  rewrite to_i32_small by (unfold blk_size, c in *; pose proof (zlen_nonneg (bk_data b)); pose proof (zlen_nonneg (bk_pad b)); lia).
  set (delta := ub - (c + blk_size b)) in *.
  rewrite (layout_last _ _ _ _ HL). cbn [bind]. destruct (last_res _) as [[lh o]|] eqn:Hlo; [|exact I].
  assert (Eab : h_bnd lh = zlen (data (w asset))).
  { destruct (list_last_case (l1 ++ b :: l2)) as [Q|(l' & b' & Q)]; [destruct l1; discriminate Q|].
    pose proof Q as Q'. rewrite Q in Hlo. rewrite last_blk_app in Hlo. unfold last_res, blk_hdr in Hlo. cbn [option_map fst snd] in Hlo.
    assert (E : h_bnd lh = 168 + sect_size l' + blk_size b') by (apply (f_equal (option_map (fun p => h_bnd (fst p)))) in Hlo; cbn [option_map fst h_bnd] in Hlo; congruence).
    apply (f_equal sect_size) in Q'. rewrite !sect_size_app in Q'. cbn [sect_size] in Q'. lia. }
  rewrite Eab. replace (Z.max 0 (zlen (data (w asset)) - (c + blk_size b))) with (sect_size l2) by lia.
  apply s_bind; [destruct (0 <? delta); [apply s_resize|exact I]|]. intros w1 W1.
  apply s_bind.
  { destruct (0 <? delta) eqn:D0.
    - apply resize_data in W1 as (D1 & _). assert (Z1 : zlen (data (w1 asset)) = zlen (data (w asset)) + delta) by (rewrite D1, zlen_realloc by lia; lia).
      apply s_memmove; unfold delta in *; lia.
    - apply Ok_inj in W1. subst w1. apply s_memmove; unfold delta in *; lia. }
  intros d1 _. apply s_bind; [apply s_set|]. intros w2 _. destruct (delta <? 0); [apply s_resize|exact I].
Qed.

Lemma finish_c e infos w3 asset buffer t hd l1 B0 c0 l2 n src found :
  let c := 168 + sect_size l1 in
  let ub := pad8 (c + 16 + n) in
  zlen hd = 168 -> Forall blk_ok l1 -> Forall blk_ok l2 -> 0 <= n ->
  data (w3 asset) = (hd ++ enc_sect 168 l1) ++ B0 ++ enc_sect c0 l2 -> zlen B0 = ub - c ->
  match found with Some h => h_bnd h | None => c end = c0 -> 0 <= c0 -> c0 + sect_size l2 < 2147483648 ->
  zlen (data (w3 asset)) <= 4000000000 -> ub - c0 <= 2147483647 -> (length l2 < e_fuel e)%nat ->
  (forall bs, src = Some bs -> zlen bs = n) ->
  contained (update_finish e infos w3 asset buffer t c found n src).
Proof.
  intros c ub Hh Hf1 Hf2 Hn D HB Hold Hc0 Hb0 Hz Hub Hfuel Hsrc.
  unfold update_finish. change EXT_LEN with 16. fold ub. cbv zeta. rewrite Hold.
  pose proof (pad8_ge (c + 16 + n)) as Hpad. fold ub in Hpad. pose proof (sect_size_nonneg l1) as Hp1. pose proof (sect_size_nonneg l2) as Hp2.
  assert (Hcm : c mod 8 = 0) by (pose proof (sect_size_mod l1 Hf1); unfold c; lia).
  assert (Hum : ub mod 8 = 0) by apply pad8_mod.
  set (A := hd ++ enc_sect 168 l1) in *.
  assert (HA : zlen A = c) by (unfold A; rewrite zlen_app, zlen_enc_sect by assumption; unfold c; lia).
  set (B1 := put B0 0 (enc_hdr (ext_code t) n ub)) in *.
  assert (HB1 : zlen B1 = ub - c) by (unfold B1; rewrite zlen_put; [assumption|lia|change (zlen (enc_hdr (ext_code t) n ub)) with 12; lia]).
  pose proof (zlen_enc_sect l2 c0 Hf2) as Zs0.
  assert (ZD : zlen (data (w3 asset)) = ub + sect_size l2) by (rewrite D, !zlen_app; lia).
  assert (E4 : set_hdr (data (w3 asset)) c (ext_code t) n ub = Ok ((A ++ B1) ++ enc_sect c0 l2)).
  { unfold set_hdr. match goal with |- guard ?q _ = _ => replace q with true by (unfold EXT_LEN; lia) end. cbn [guard]. f_equal.
    rewrite D. replace c with (zlen A + 0) by lia. rewrite put_inside by (change (zlen (enc_hdr (ext_code t) n ub)) with 12; lia).
    now rewrite <- !app_assoc. }
  rewrite E4. cbn [bind].
  assert (HAB : zlen (A ++ B1) = ub) by (rewrite zlen_app; lia).
  rewrite to_i32_small by lia.
  assert (F : goes (fix_boundaries (e_fuel e) (ub - c0) ((A ++ B1) ++ enc_sect c0 l2) ub)).
  { rewrite <- HAB at 2. apply fix_goes; auto; try (unfold u32_max; lia). }
  destruct F as [d5 H5]. rewrite H5. cbn [bind].
  assert (H45 : forall f d cur r, fix_boundaries f (ub - c0) d cur = Ok r -> 0 <= cur -> zlen r = zlen d).
  { clear. induction f as [|f IH]; intros d cur r H Hc; [discriminate|]. cbn [fix_boundaries] in H. destruct (cur <? zlen d); [|congruence].
    apply bind_ok in H as (h & Hh & H). apply load_hdr_ok in Hh as (_ & Q2 & _ & _). cbv zeta in H. apply IH in H.
    - rewrite H, zlen_put; [reflexivity|lia|]. rewrite le_enc_zlen. lia.
    - unfold sat_add_u32, u32_max. lia. }
  pose proof (H45 _ _ _ _ H5 ltac:(lia)) as Z5. rewrite zlen_app, HAB, Zs0 in Z5.
  assert (MC : forall bs, zlen bs = n -> contained (memcpy_at d5 (c + 16) bs)).
  { intros bs Hb. unfold memcpy_at. apply s_guard. intros _. replace (c + 16 + zlen bs <=? zlen d5) with true by lia. exact I. }
  apply s_bind; [|intros; apply s_set]. destruct (0 <? n); [|exact I]. destruct buffer as [bk|].
  - apply s_bind; [apply s_slice|]. intros bs Q. apply slice_ok in Q as (_ & _ & _ & _ & Q). apply MC. lia.
  - destruct src as [bs|]; [|exact I]. apply MC. now apply Hsrc.
Qed.

Section Upd.
Variables (e : env) (infos : list ainfo) (w0 : world) (asset auth : pubkey) (buffer payer sysp : option pubkey) (x : option ext_input).
Hypothesis (Hx : forall y, x = Some y -> x_type y <> XNone /\ x_length y <= 2000000000 /\ royal_ok (x_type y) (given y)).

Lemma first_type d h o : first_extension d = Ok (Some (h, o)) -> h_type h = le32 d 168 /\ ext_of_code (h_type h) <> Some XNone.
Proof.
  unfold first_extension. destruct (ASSET_LEN + EXT_LEN <=? zlen d); [|discriminate]. intro H. apply bind_ok in H as (h' & L & H).
  apply load_hdr_ok in L as (_ & _ & _ & ->). cbn [h_type] in *. destruct (ext_of_code (le32 d ASSET_LEN)) as [t|] eqn:E; [|discriminate H].
  destruct t; try discriminate H; (apply Ok_inj in H; injection H as <- <-; cbn [h_type]; split; [reflexivity|change 168 with ASSET_LEN; rewrite E; discriminate]).
Qed.
Lemma update_ext_c w hd l : layout (data (w asset)) hd l [] -> (length l < e_fuel e)%nat -> zlen (data (w asset)) <= 1000000000 ->
  (forall b, lookup XRoyalties (ext_list l) = Some b -> parses XRoyalties b) ->
  (forall bk, buffer = Some bk -> zlen (data (w bk)) <= 2000000000 /\ le32 (data (w bk)) 168 <> ext_code XRoyalties) ->
  contained (update_ext e infos w0 w asset auth buffer payer sysp x).
Proof.
  intros HL Hfu Hsz HR HB. unfold update_ext. apply s_bind.
  { unfold update_type. destruct buffer as [bk|]; [|destruct x; exact I]. sf. apply s_bind.
    - unfold first_extension. destruct (_ <=? _); [|exact I]. apply s_bind; [apply s_load|]. intros h _. destruct (ext_of_code (h_type h)) as [[]|]; exact I.
    - intros [[h o]|] _; [apply s_oo|exact I]. }
  intros t T.
  assert (HT : t <> XNone /\ (forall bk, buffer = Some bk -> bk <> asset /\ t <> XRoyalties) /\ (buffer = None -> exists y, x = Some y /\ x_type y = t)).
  { unfold update_type in T. destruct buffer as [bk|].
    - rinv T. destruct x0 as [[h o]|]; [|discriminate T]. apply ok_or_ok in T. destruct (first_type _ _ _ Hx0) as [E1 E2].
      split; [congruence|]. split; [|discriminate]. intros bk' Q. injection Q as <-. bnorm. split; [assumption|]. intros ->.
      apply ext_of_code_some in T. destruct (HB bk eq_refl) as [_ N]. congruence.
    - destruct x as [y|]; [|discriminate T]. apply Ok_inj in T. split; [subst t; now apply (Hx y)|]. split; [discriminate|]. intros _. eauto. }
  destruct HT as (Ht & HTb & HTx).
  apply s_bind; [apply s_ufind; [eapply wf_ahead; exact HL|unfold walk_fuel; lia|unfold walk_fuel, zlen, ASSET_LEN; lia]|].
  intros r F. destruct (update_find_layout _ _ _ _ _ _ HL Ht F) as [Er _]. destruct r as [off found].
  pose proof (find_cur_t _ _ _ _ t HL) as FC. cbv zeta in FC. rewrite <- Er in FC. cbn [fst snd] in FC. destruct FC as (q & Q1 & Q2 & Q3).
  assert (RC : forall z c, q = Some (z, c) -> royal_ok t c) by (intros z c ->; cbn [option_map snd] in Q2; intro Et; subst t; now apply HR).
  apply s_bind.
  { unfold update_source. cbv zeta. change EXT_LEN with 16. destruct buffer as [bk|].
    - apply s_bind.
      { unfold first_extension. destruct (_ <=? _); [|exact I]. apply s_bind; [apply s_load|]. intros h _. destruct (ext_of_code (h_type h)) as [[]|]; exact I. }
      intros [[h o]|] _; [|exact I]. sf. apply s_bind; [apply s_slice|]. intros inp _. rewrite Q1. cbn [bind].
      apply s_bind; [apply s_validate; [intro Et; destruct (HTb bk eq_refl) as [_ N]; contradiction|exact RC]|]. intros. apply s_bind; [apply s_set|]. intros. exact I.
    - destruct x as [y|]; [|exact I]. apply s_bind.
      + destruct (x_data y) as [bs|] eqn:Y; [|exact I]. rewrite Q1. cbn [bind]. apply s_bind; [|intros; exact I].
        apply s_validate; [|exact RC]. destruct (Hx y eq_refl) as (_ & _ & RY). destruct (HTx eq_refl) as (y' & Ey & <-). injection Ey as <-. unfold given in RY. now rewrite Y in RY.
      + intros [n o] _. destruct (n <? x_length y); [exact I|]. destruct (x_length y <? n); exact I. }
  intros [[n src] w2] S.
  assert (HS : data (w2 asset) = data (w asset) /\ 0 <= n <= 2000000000 /\ (forall bs, src = Some bs -> zlen bs = n)).
  { unfold update_source in S. cbv zeta in S. destruct buffer as [bk|].
    - apply bind_ok in S as ([[h o]|] & _ & S); [|discriminate S]. apply require_ok in S as [_ S]. apply require_ok in S as [_ S].
      apply bind_ok in S as (inp & I1 & S). apply bind_ok in S as (cur & _ & S). apply bind_ok in S as (inp' & _ & S). apply bind_ok in S as (w' & W' & S).
      apply Ok_inj in S. injection S as <- <- <-. apply slice_ok in I1 as (_ & I2 & I3 & _). destruct (HB bk eq_refl) as [Z _]. destruct (HTb bk eq_refl) as [N _].
      split; [now rewrite (set_data_other _ _ _ _ _ _ asset W') by auto|]. split; [unfold ASSET_LEN in *; lia|discriminate].
    - destruct x as [y|]; [|discriminate S]. apply bind_ok in S as ([n' o] & S1 & S). destruct (n' <? x_length y) eqn:C1; [discriminate S|]. destruct (x_length y <? n') eqn:C2; [discriminate S|].
      apply Ok_inj in S. injection S as <- <- <-. split; [reflexivity|]. destruct (Hx y eq_refl) as (_ & L & _).
      destruct (x_data y) as [bs|]; [|injection S1 as <- <-; split; [lia|discriminate]].
      apply bind_ok in S1 as (cur & _ & S1). apply bind_ok in S1 as (bs' & _ & S1). injection S1 as <- <-. pose proof (zlen_nonneg bs'). split; [lia|]. intros b0 Q. injection Q as <-. reflexivity. }
  destruct HS as (D2 & Hn & Hsrc). pose proof HL as HL2. rewrite <- D2 in HL2.
  pose proof (room_c e infos w0 w2 asset payer sysp hd l t n HL2 Hn) as RM. cbv zeta in RM. rewrite <- Er in RM. cbn [fst snd] in RM.
  apply s_bind; [exact RM|]. intros w3 W3. clear RM.
  pose proof (layout_len _ _ _ _ HL) as ZL. change (zlen []) with 0 in ZL. pose proof HL as (_ & Hh & HF & _).
  destruct (loc t 168 l) as [[c b]|] eqn:El; injection Er as -> ->.
  - apply loc_some in El as (l1 & l2 & -> & -> & _ & _). pose proof HF as HF'. apply Forall_app in HF as [HF1 HF2]. apply Forall_cons_iff in HF2 as [Hb HF2].
    rewrite sect_size_app in ZL. cbn [sect_size] in ZL. pose proof (sect_size_nonneg l1). pose proof (sect_size_nonneg l2). pose proof (blk_size_pos b).
    pose proof (pad8_ge (168 + sect_size l1 + 16 + n)).
    destruct (update_room_found _ _ _ _ _ _ _ _ _ _ _ _ _ _ HL2 Hn W3) as (B0 & tl' & D3 & ZB & TL & _).
    assert (tl' = []) as -> by (destruct TL as [?|[? _]]; assumption). rewrite app_nil_r in D3.
    assert (Z3 : zlen (data (w3 asset)) <= 4000000000) by (rewrite D3, !zlen_app, ZB, !zlen_enc_sect by assumption; lia).
    assert (F2 : (length l2 < e_fuel e)%nat) by (rewrite app_length in Hfu; cbn [length] in Hfu; lia).
    apply (finish_c e infos w3 asset buffer t hd l1 B0 (168 + sect_size l1 + blk_size b) l2 n src (Some (blk_hdr (168 + sect_size l1) b))); auto; lia.
  - pose proof (sect_size_nonneg l). pose proof (pad8_ge (168 + sect_size l + 16 + n)). assert (Hn0 : 0 <= n) by lia.
    destruct (update_room_new _ _ _ _ _ _ _ _ _ _ _ _ HL2 Hn0 W3) as (B0 & D3 & ZB & _).
    apply (finish_c e infos w3 asset buffer t hd l B0 (168 + sect_size l) [] n src None); auto; cbn [enc_sect sect_size length]; rewrite ?app_nil_r; auto; try lia.
    rewrite D3, !zlen_app, ZB, !zlen_enc_sect by assumption. lia.
Qed.
End Upd.

Lemma update_c e infos w a asset hd l : arg infos 0 asset -> layout (data (w asset)) hd l [] -> (length l < e_fuel e)%nat -> sized w ->
  (forall b, lookup XRoyalties (ext_list l) = Some b -> parses XRoyalties b) ->
  (forall x, u_ext a = Some x -> x_type x <> XNone /\ x_length x <= 2000000000 /\ royal_ok (x_type x) (given x)) ->
  (forall bk, arg infos 2 bk -> le32 (data (w bk)) 168 <> ext_code XRoyalties) ->
  contained (process e infos w (IUpdate a)).
Proof.
  intros A0 HL Hf Hs HR Hx HB. apply s_process. cbn [dispatch]. unfold process_update. sf.
  apply acct_arg in K. rewrite (arg_det _ _ _ _ K A0) in *. fold (upd_head a (data (w asset))).
  match goal with |- contained (match u_ext a with _ => _ end) => idtac | _ => sf end.
  match goal with Hw : set_data _ _ _ _ _ = Ok ?v |- _ => pose proof (set_data_data _ _ _ _ _ _ Hw) as D1; pose proof (fun k N => set_data_other _ _ _ _ _ _ k Hw N) as D2 end.
  pose proof (upd_head_layout a _ _ _ _ HL) as HL1. fold (upd_head a (data (w asset))) in D1. rewrite <- D1 in HL1.
  assert (X : contained (update_ext e (passed infos) w a0 asset k0 k1 k3 k4 (u_ext a))).
  { eapply update_ext_c; eauto.
    - destruct HL1 as (_ & _ & _ & _ & Z). rewrite D1. pose proof (layout_len _ _ _ _ HL) as Q1. rewrite D1 in *.
      pose proof (layout_len _ _ _ _ (upd_head_layout a _ _ _ _ HL)) as Q2. specialize (Hs asset). lia.
    - intros bk ->. assert (AB : arg infos 2 bk).
      { unfold opt_acct in K1. apply bind_ok in K1 as (k9 & K9 & Q). destruct (pk_eqb k9 (e_prog e)); apply Ok_inj in Q; [discriminate Q|]. injection Q as <-. now apply acct_arg. }
      specialize (HB bk AB). specialize (Hs bk). destruct (pk_dec bk asset) as [->|N].
      + assert (Z0 : 168 <= zlen (data (w asset))) by (pose proof (layout_len _ _ _ _ HL) as Q1; change (zlen []) with 0 in Q1; pose proof (sect_size_nonneg l); lia).
        rewrite D1, head_retitled. destruct (retitled_reads a (data (w asset)) 168 Z0) as [Z1 Z2]; [lia|lia|].
        rewrite Z1, Z2. split; [lia|exact HB].
      + rewrite (D2 bk N). split; [lia|exact HB]. }
  destruct (u_ext a), k1; try exact I; exact X.
Qed.

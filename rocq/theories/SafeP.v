(** Create stays contained (C89). *)
From Verif Require Import Base State Layout Constr Ext World Proc BaseL Spec SpecB SpecF SpecE SpecSafe WorldL ProcSteps LayoutL LayoutE ConstrL HeadL AcceptL AllocL AllocM AllocC AuthL AuthM GroupL UpdateL TopL CreateL SafeL SafeM SafeN.
From Coq Require Import Strings.Byte.

Definition roy (b : blk) : Prop := royal_ok (bk_type b) (bk_data b).
Definition raw_ok (d : bytes) : Prop := exists hd l, Forall roy l /\
  ((exists n, open_account d hd l n) \/ exists t len bs, partial_account d hd l t len bs /\ zlen bs < len).
Lemma raw_ahead d : raw_ok d -> ahead d 168.
Proof. intros (hd & l & _ & [(n & H)|(t & len & bs & H & _)]); [eapply open_ahead; eauto|eapply partial_ahead; eauto]. Qed.

Section Inline.
Variables (e : env) (He : env_ok e) (Hp : e_prog e <> pk_zero).
Lemma alloc_all_inv infos w0 asset payer sysp : forall xs w,
  raw_ok (data (w asset)) -> sized w -> Forall ext_arg xs -> Forall (fun x => royal_ok (x_type x) (given x)) xs ->
  contained (allocate_all e (passed infos) w0 w asset payer sysp xs) /\
  forall w', allocate_all e (passed infos) w0 w asset payer sysp xs = Ok w' ->
    raw_ok (data (w' asset)) /\ forall k, k <> asset -> data (w' k) = data (w k).
Proof.
  induction xs as [|x xs IH]; intros w HI Hs HF HR.
  { cbn [allocate_all]. split; [exact I|]. intros w' E. injection E as <-. auto. }
  cbn [allocate_all]. apply Forall_cons_iff in HF as [(X1 & X2 & X3) HF]. apply Forall_cons_iff in HR as [R1 HR].
  assert (N : forall w1, do_allocate e (passed infos) w0 w asset payer sysp x = Ok w1 ->
            raw_ok (data (w1 asset)) /\ sized w1 /\ forall k, k <> asset -> data (w1 k) = data (w k)).
  { intros w1 H1. assert (Hs1 : sized w1) by (eapply psteps_sized; [eapply do_allocate_psteps; eauto|assumption]).
    destruct HI as (hd & l & Rl & [(n & HO)|(t & len & bs & HP & Hlt)]); [|exfalso; eapply partial_refused; eauto].
    destruct (open_room _ _ _ _ HO) as (_ & _ & Hn0 & Hf & Hh).
    pose proof H1 as D. eapply do_allocate_effect in D; [|exact HO|apply Hs|exact X1|unfold u32_max; lia|unfold two32; lia].
    destruct D as (D1 & D2 & D3 & D4 & D5 & D6 & _). split; [|split; [assumption|intros k Hk; apply D6; exact Hk]].
    destruct (Z.eq_dec (x_length x) (zlen (given x))) as [Q|Q].
    - destruct (D4 Q) as (_ & O1 & _). eexists _, _. split; [|left; eexists; exact O1]. apply Forall_app. split; [assumption|]. constructor; [exact R1|constructor].
    - exists hd, l. split; [assumption|]. right. exists (x_type x), (x_length x), (given x). split; [|lia].
      split; [rewrite D5 by lia; rewrite bnd_pad8 by assumption; unfold enc_hdr; now rewrite <- !app_assoc|].
      split; [assumption|]. split; [assumption|]. split; [assumption|]. split; [lia|].
      assert (HO2 : 168 + sect_size l <= 10485760 + 168); [|lia].
      destruct HO as [(_ & _ & -> & _)|[_ HL]]; [cbn [sect_size]; lia|].
      pose proof (layout_len _ _ _ _ HL). pose proof (zlen_nonneg (repeat x00 (Z.to_nat n))). specialize (Hs asset). lia. }
  split.
  - apply s_bind; [apply do_alloc_c; [now apply raw_ahead|lia|lia]|]. intros w1 H1. destruct (N _ H1) as (N1 & N2 & _). apply IH; assumption.
  - intros w' H. apply bind_ok in H as (w1 & H1 & H). destruct (N _ H1) as (N1 & N2 & N3). destruct (IH w1 N1 N2 HF HR) as [_ I2].
    destruct (I2 _ H) as [I3 I4]. split; [assumption|]. intros k Hk. rewrite I4, N3 by assumption. reflexivity.
Qed.
End Inline.

Lemma s_createskip auth : forall l A f seen R, zlen A mod 8 = 0 -> Forall blk_ok l -> Forall roy l -> zlen A + sect_size l + zlen R < 2147483648 ->
  (forall l', Forall2 (created auth) l l' -> contained (create_loop f auth (A ++ enc_sect (zlen A) l' ++ R) (zlen A + sect_size l) (rev (map bk_type l) ++ seen))) ->
  contained (create_loop (length l + f) auth (A ++ enc_sect (zlen A) l ++ R) (zlen A) seen).
Proof.
  induction l as [|b l IH]; intros A f seen R Hm Hl HR Hs H.
  - specialize (H [] (Forall2_nil _)). cbn [length Nat.add sect_size map rev app enc_sect] in *. now rewrite Z.add_0_r in H.
  - apply Forall_cons_iff in Hl as [Hb Hl]. apply Forall_cons_iff in HR as [Rb HR]. cbn [length sect_size] in *.
    pose proof (sect_size_nonneg l). pose proof (blk_size_mod b Hb). pose proof (blk_size_pos b) as Hbp.
    pose proof (zlen_nonneg R). pose proof (zlen_nonneg A). pose proof (zlen_nonneg (bk_data b)). pose proof (zlen_nonneg (bk_pad b)).
    cbn [enc_sect create_loop Nat.add]. rewrite <- app_assoc.
    set (C := enc_sect (zlen A + blk_size b) l ++ R) in *.
    assert (HC : zlen C = sect_size l + zlen R) by (unfold C; rewrite zlen_app, zlen_enc_sect by assumption; reflexivity).
    assert (Hlen : zlen (A ++ enc_blk (zlen A) b ++ C) = zlen A + blk_size b + zlen C) by (rewrite !zlen_app, zlen_enc_blk by assumption; lia).
    rewrite Hlen.
    replace (EXT_LEN <=? zlen A + blk_size b + zlen C - zlen A) with true by (unfold EXT_LEN; lia).
    rewrite load_hdr_blk by (auto; unfold u32_max; lia). cbn [bind h_type h_len h_bnd].
    rewrite ext_of_code_code.
    assert (Ha : (zlen A + blk_size b - (EXT_LEN + zlen A)) mod two64 = blk_size b - 16).
    { rewrite Z.mod_small; unfold EXT_LEN, two64; lia. }
    rewrite Ha.
    assert (K : contained (require (blk_size b - 16 <=? zlen A + blk_size b + zlen C - zlen A - EXT_LEN) EExtensionDataInvalid
       (guard (zlen (bk_data b) <=? blk_size b - 16)
        (b' <- map_err (on_create (bk_type b) (zlen A + EXT_LEN) (Some auth) (fld (A ++ enc_blk (zlen A) b ++ C) (zlen A + EXT_LEN) (zlen (bk_data b)))) EExtensionDataInvalid ;;
         create_loop (length l + f) auth (put (A ++ enc_blk (zlen A) b ++ C) (zlen A + EXT_LEN) b') (zlen A + blk_size b) (bk_type b :: seen))))).
    2:{ pose proof (proj1 Hb) as Hb1. destruct (bk_type b) eqn:Et; [congruence|..]; exact K. }
    apply s_req. intros _. apply s_guard. intros _. unfold EXT_LEN. rewrite fld_blk_data by (reflexivity || assumption).
    apply s_bind; [apply s_map, s_oncreate; exact Rb|]. intros b' Hb'. apply map_err_ok in Hb'.
    assert (Hc : created auth b (with_data b b')).
    { split; [reflexivity|]. exists (zlen A + 16). split; [lia|exact Hb']. }
    pose proof (on_create_fresh _ _ _ _ _ Hb') as (Hl' & _).
    assert (Hz : zlen b' = zlen (bk_data b)) by (unfold zlen; now rewrite Hl').
    rewrite put_blk by auto. unfold C. rewrite (app_assoc A).
    assert (HA : zlen (A ++ enc_blk (zlen A) (with_data b b')) = zlen A + blk_size b)
      by (rewrite zlen_app, zlen_enc_blk by (now apply with_data_ok); rewrite with_data_size by assumption; reflexivity).
    rewrite <- HA. apply IH; auto; [rewrite HA; lia|rewrite HA; lia|].
    intros l' F. specialize (H (with_data b b' :: l') (Forall2_cons _ _ Hc F)).
    cbn [enc_sect map rev] in H. rewrite HA. rewrite with_data_size in H by assumption. rewrite <- !app_assoc in *.
    cbn [app] in H. rewrite Z.add_assoc in H. exact H.
Qed.

Lemma s_createloop auth d : raw_ok d -> 168 <= zlen d -> contained (create_loop (walk_fuel d) auth d ASSET_LEN []).
Proof.
  intros (hd & l & Rl & HI) H168. unfold ASSET_LEN.
  destruct HI as [(n & [(-> & _)|(Hn & HL)])|(t & len & bs & HP & Hlt)].
  - change (zlen []) with 0 in H168. lia.
  - pose proof (layout_fuel _ _ _ _ HL) as Hfu. pose proof (layout_len _ _ _ _ HL) as Hlen. destruct HL as (Ed & Hh & Hf & Ht & Hz).
    assert (Ef : walk_fuel d = (length l + S (walk_fuel d - length l - 1))%nat) by lia. rewrite Ef. set (f := (walk_fuel d - length l - 1)%nat) in *. clearbody f.
    rewrite Ed. rewrite <- Hh at 1 2. apply s_createskip; auto; [rewrite Hh; reflexivity|rewrite Hh; lia|].
    intros l' F. rewrite Hh. destruct (created_sect _ _ _ F) as (S1 & S2 & _). specialize (S2 Hf). set (R := repeat x00 (Z.to_nat n)) in *.
    assert (HP : zlen (hd ++ enc_sect 168 l') = 168 + sect_size l) by (rewrite zlen_app, zlen_enc_sect by assumption; lia).
    cbn [create_loop]. rewrite app_assoc.
    destruct (tail_hdr (hd ++ enc_sect 168 l') R (168 + sect_size l) (eq_sym HP)) as [E|(E & h & Hh1 & Hh2)]; auto.
    + pose proof (sect_size_mod l Hf). lia.
    + replace (EXT_LEN <=? zlen ((hd ++ enc_sect 168 l') ++ R) - (168 + sect_size l)) with false by lia. exact I.
    + replace (EXT_LEN <=? zlen ((hd ++ enc_sect 168 l') ++ R) - (168 + sect_size l)) with true by lia.
      rewrite Hh1. cbn [bind]. rewrite Hh2. exact I.
  - pose proof (partial_eq _ _ _ _ _ _ HP) as Ed. pose proof (partial_len _ _ _ _ _ _ HP) as Hlen.
    destruct HP as (_ & Hh & Hf & Ht & Hb & Hz).
    pose proof (sect_size_mod l Hf) as Hm. pose proof (sect_size_nonneg l) as Hs. pose proof (zlen_nonneg bs) as Hb0.
    set (bnd := pad8 (168 + sect_size l + 16 + len)) in *.
    assert (Hbnd : 168 + sect_size l + 16 + len <= bnd < 168 + sect_size l + 16 + len + 8) by apply pad8_ge.
    pose proof (sect_size_length l) as Hsl.
    assert (Ef : walk_fuel d = (length l + S (walk_fuel d - length l - 1))%nat) by (unfold walk_fuel, zlen in *; lia).
    rewrite Ef. set (f := (walk_fuel d - length l - 1)%nat) in *. clearbody f. rewrite Ed, <- app_assoc.
    set (R := enc_hdr (ext_code t) len bnd ++ zeros 4 ++ bs) in *.
    assert (HR : zlen R = 16 + zlen bs) by (unfold R; rewrite !zlen_app; change (zlen (enc_hdr _ _ _)) with 12; rewrite zlen_zeros by lia; lia).
    rewrite <- Hh at 1 2. apply s_createskip; auto; [rewrite Hh; reflexivity|rewrite Hh; lia|].
    intros l' F. rewrite Hh. destruct (created_sect _ _ _ F) as (S1 & S2 & S3). specialize (S2 Hf).
    assert (HP : zlen (hd ++ enc_sect 168 l') = 168 + sect_size l) by (rewrite zlen_app, zlen_enc_sect by assumption; lia).
    cbn [create_loop]. rewrite app_assoc. rewrite (zlen_app _ R), HP, HR.
    replace (EXT_LEN <=? 168 + sect_size l + (16 + zlen bs) - (168 + sect_size l)) with true by (unfold EXT_LEN; lia).
    pose proof (ext_code_range t) as Hc.
    assert (Hld : load_hdr ((hd ++ enc_sect 168 l') ++ R) (168 + sect_size l) = Ok (mkHdr (ext_code t) len bnd)).
    { rewrite <- HP. unfold R. apply load_hdr_raw; try (unfold u32_max in *; lia). rewrite zlen_app, zlen_zeros by lia. lia. }
    rewrite Hld. cbn [bind h_type h_len h_bnd]. rewrite ext_of_code_code.
    assert (Ha : (bnd - (EXT_LEN + (168 + sect_size l))) mod two64 = bnd - 16 - 168 - sect_size l)
      by (rewrite Z.mod_small; unfold EXT_LEN, two64; lia).
    rewrite Ha.
    replace (bnd - 16 - 168 - sect_size l <=? 168 + sect_size l + (16 + zlen bs) - (168 + sect_size l) - EXT_LEN) with false
      by (unfold EXT_LEN; lia).
    destruct t; exact I.
Qed.

Lemma create_c e infos w m asset hd l : env_ok e -> e_prog e <> pk_zero -> arg infos 0 asset -> sized w ->
  (exists n, open_account (data (w asset)) hd l n) \/ (exists t len bs, partial_account (data (w asset)) hd l t len bs /\ zlen bs < len) ->
  Forall (fun b => royal_ok (bk_type b) (bk_data b)) l ->
  Forall (fun x => ext_arg x /\ royal_ok (x_type x) (given x)) (inline m) ->
  (forall g, arg infos 3 g -> ahead (data (w g)) 168) ->
  contained (process e infos w (ICreate m)).
Proof.
  intros He Hp A0 Hs HI Rl HX HG. apply s_process. cbn [dispatch]. unfold process_create. sf.
  apply acct_arg in K. rewrite (arg_det _ _ _ _ K A0) in *. clear K.
  assert (HF : Forall ext_arg (inline m)) by (eapply Forall_impl; [|exact HX]; intros x [Q _]; exact Q).
  assert (HR : Forall (fun x => royal_ok (x_type x) (given x)) (inline m)) by (eapply Forall_impl; [|exact HX]; intros x [_ Q]; exact Q).
  assert (H0 : raw_ok (data (w asset))) by (exists hd, l; split; assumption).
  apply s_bind. { destruct (_ =? 0); [apply s_newacc|]. sf. }
  intros w1 H1.
  assert (W1 : raw_ok (data (w1 asset)) /\ sized w1 /\ forall k, k <> asset -> data (w1 k) = data (w k)).
  { destruct (zlen (data (w asset)) =? 0) eqn:E.
    - assert (Hs1 : sized w1) by (eapply psteps_sized; [eapply alloc_create_psteps; eauto|assumption]).
      unfold alloc_create_account in H1. apply bind_ok in H1 as (pp & _ & H1). apply require_ok in H1 as [_ H1].
      apply bind_ok in H1 as (ss & _ & H1). apply require_ok in H1 as [_ H1].
      apply sys_create_data in H1 as (D1 & D2 & _ & D3).
      specialize (Hs1 asset) as Z1. rewrite D1 in Z1. pose proof (create_space_inline m) as Ci. pose proof (sum_inline_nonneg _ HF).
      rewrite zlen_zeros in Z1 by lia.
      split; [|split; [assumption|intros kk Hk; apply D3; exact Hk]]. exists (repeat x00 168), []. split; [constructor|]. left. exists (create_space (m_exts m) - 168).
      rewrite D1. right. split; [lia|]. split; [|split; [reflexivity|split; [constructor|split; [apply (tail_zeros (create_space (m_exts m) - 168))|]]]].
      + cbn [enc_sect app]. change (repeat x00 168) with (zeros 168). change (repeat x00 (Z.to_nat (create_space (m_exts m) - 168))) with (zeros (create_space (m_exts m) - 168)).
        rewrite zeros_app by lia. f_equal. lia.
      + rewrite zlen_zeros; lia.
    - rinv H1. auto. }
  destruct W1 as (I1 & S1 & F1).
  assert (A : contained (match m_exts m with None => Ok w1 | Some l => allocate_all e (passed infos) w w1 asset k4 k5 (swap_order l) end) /\
     forall w2, match m_exts m with None => Ok w1 | Some l => allocate_all e (passed infos) w w1 asset k4 k5 (swap_order l) end = Ok w2 ->
       raw_ok (data (w2 asset)) /\ forall k, k <> asset -> data (w2 k) = data (w1 k)).
  { unfold inline in *. destruct (m_exts m) as [xs|]; [|split; [exact I|intros w2 Q; apply Ok_inj in Q; subst; auto]].
    change (swap_order xs) with (inline_order xs). apply alloc_all_inv; auto. }
  destruct A as [A1 A2]. apply s_bind; [exact A1|]. intros w2 H2. destruct (A2 _ H2) as [I2 F2].
  apply s_bind; [apply s_guard; intro Q; apply s_createloop; [exact I2|unfold ASSET_LEN in Q; lia]|]. intros r H3. apply guard_ok in H3 as [Q H3].
  assert (HA : ahead (init_header (fst r) m k1 k0) 168).
  { destruct I2 as (h2 & l2 & _ & [(n & [(E & _)|(_ & HL)])|(t & len & bs & HP & Hlt)]).
    - rewrite E in Q. discriminate Q.
    - destruct (create_loop_layout _ _ _ _ _ _ HL H3) as (l' & _ & _ & _ & HL'). eapply wf_ahead, init_header_layout, HL'.
    - exfalso. eapply create_loop_partial; eauto. }
  sf. apply s_bind; [now apply s_get|]. intros p _. apply s_bind.
  { destruct p as [[off b]|]; [|exact I]. apply s_bind; [apply s_proxy|]. intros. exact I. }
  intros px _. apply s_bind. { destruct (is_std (m_standard m) Proxied); [|sf]. destruct px; [|exact I]. sf. }
  intros u _. apply s_bind; [apply s_set|]. intros w3 H4. destruct k2 as [g|]; [|exact I]. apply do_group_c.
  destruct (pk_dec g asset) as [->|N].
  - rewrite (set_data_data _ _ _ _ _ _ H4). exact HA.
  - rewrite (set_data_other _ _ _ _ _ _ g H4 N), F2, F1 by assumption. apply HG. 
    apply opt_acct_some in K2. exact (proj1 K2).
Qed.

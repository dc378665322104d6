(** Well-formed accounts lead forward; Write and Remove stay contained (C89). *)
From Verif Require Import Base State Layout Constr Ext World Proc BaseL Spec SpecF SpecE SpecSafe WorldL LayoutL LayoutE ConstrL HeadL AcceptL AllocL AllocM AuthL UpdateL TopL RemoveL GroupL OverL ExactP SafeL SafeM.
From Coq Require Import Strings.Byte.

Lemma ahead_hdr d cur h : load_hdr d cur = Ok h -> cur + 16 <= h_bnd h -> ahead d (h_bnd h) -> ahead d cur.
Proof. intros L H A. apply load_hdr_ok in L as (_ & _ & _ & ->). cbn [h_bnd] in *. now apply ahead_next. Qed.
Lemma ahead_sect R : forall l A, zlen A mod 8 = 0 -> Forall blk_ok l -> zlen A + sect_size l <= u32_max ->
  ahead (A ++ enc_sect (zlen A) l ++ R) (zlen A + sect_size l) -> ahead (A ++ enc_sect (zlen A) l ++ R) (zlen A).
Proof.
  induction l as [|b l IH]; intros A HA HF Hu H; cbn [enc_sect sect_size app] in *; [now rewrite Z.add_0_r in H|].
  apply Forall_cons_iff in HF as [Hb HF]. pose proof (blk_size_pos b). pose proof (blk_size_mod b Hb). pose proof (sect_size_nonneg l).
  rewrite <- app_assoc in *. assert (ZA : zlen (A ++ enc_blk (zlen A) b) = zlen A + blk_size b) by (rewrite zlen_app, zlen_enc_blk by assumption; reflexivity).
  eapply ahead_hdr; [apply load_hdr_blk; auto; lia| |]; cbn [h_bnd]; [unfold blk_size in *; pose proof (zlen_nonneg (bk_data b)); pose proof (zlen_nonneg (bk_pad b)); lia|].
  rewrite Z.add_assoc, <- ZA in H. rewrite <- ZA. rewrite app_assoc in *. apply IH; [rewrite ZA; lia|assumption|lia|assumption].
Qed.
Lemma wf_ahead d hd l tl : layout d hd l tl -> ahead d 168.
Proof.
  intro HL. pose proof (layout_u32 _ _ _ _ HL) as Hu. pose proof (layout_len _ _ _ _ HL) as Hz. destruct HL as (E & Hh & HF & Ht & _).
  rewrite E. rewrite <- Hh at 1 2. apply ahead_sect; auto; try (rewrite Hh; auto; reflexivity). rewrite !Hh, <- E. destruct Ht as [Ht|Ht].
  - apply ahead_end. lia.
  - apply ahead_none. rewrite E, app_assoc. rewrite le32_fld in *. rewrite <- Ht.
    assert (ZA : zlen (hd ++ enc_sect 168 l) = 168 + sect_size l) by (rewrite zlen_app, zlen_enc_sect by assumption; lia).
    rewrite <- ZA. unfold fld. f_equal. f_equal. unfold zlen. rewrite Nat2Z.id, skipn_app, skipn_all, Nat.sub_diag. reflexivity.
Qed.
Lemma well_ahead d l : well_formed d l -> ahead d 168.
Proof. intros (hd & tl & H). eapply wf_ahead; eauto. Qed.
Lemma wf_settled d hd l tl : layout d hd l tl -> (forall b, lookup XRoyalties (ext_list l) = Some b -> parses XRoyalties b) -> settled d.
Proof. intros H R. split; [eapply wf_ahead; eauto|]. intros off b G. apply R. eapply has_ext_lookup; eauto. discriminate. Qed.
Lemma nil_settled : settled [].
Proof. split; [apply ahead_end; reflexivity|]. intros off b (c & L & _). inversion L; subst; cbn in *; lia. Qed.
Lemma partial_ahead d hd l t len bs : partial_account d hd l t len bs -> ahead d 168.
Proof.
  intro H. pose proof (partial_eq _ _ _ _ _ _ H) as E. pose proof (partial_len _ _ _ _ _ _ H) as Hlen. destruct H as (_ & Hh & Hf & Ht & Hb & Hz).
  pose proof (sect_size_mod l Hf) as Hm. pose proof (sect_size_nonneg l) as Hs. pose proof (zlen_nonneg bs) as Hb0.
  pose proof (pad8_ge (168 + sect_size l + 16 + len)) as HP. set (bnd := pad8 (168 + sect_size l + 16 + len)) in *. pose proof (ext_code_range t) as Hc.
  assert (ZA : zlen (hd ++ enc_sect 168 l) = 168 + sect_size l) by (rewrite zlen_app, zlen_enc_sect by assumption; lia).
  rewrite E, <- app_assoc. rewrite <- Hh at 1 2. apply ahead_sect; [rewrite Hh; reflexivity|assumption|rewrite Hh; unfold u32_max; lia|].
  rewrite !Hh, app_assoc. rewrite <- E. eapply ahead_hdr; [rewrite E, <- ZA; apply load_hdr_raw; try (unfold u32_max; lia)| |]; cbn [h_bnd].
  - rewrite zlen_app, zlen_zeros by lia. lia.
  - lia.
  - apply ahead_end. lia.
Qed.
Lemma open_ahead d hd l n : open_account d hd l n -> ahead d 168.
Proof. intros [(-> & _)|(_ & H)]; [apply nil_settled|eapply wf_ahead; eauto]. Qed.

(** ** Remove *)
Lemma s_removefind t d : forall fuel cur, ahead d cur -> (0 < fuel)%nat -> zlen d < cur + Z.of_nat fuel -> contained (remove_find fuel t d cur).
Proof.
  induction fuel as [|f IH]; intros cur H Hf Hz; [lia|]. cbn [remove_find]. destruct (cur + EXT_LEN <? zlen d) eqn:E; [|exact I]. unfold EXT_LEN in E.
  apply s_bind; [apply s_load|]. intros h L. destruct (h_type h =? ext_code t); [exact I|]. destruct (h_type h =? 0) eqn:N; [exact I|].
  destruct (ahead_step _ _ _ H L N). apply IH; [assumption|lia|lia].
Qed.
Lemma s_memmove d a b n : 0 <= a -> 0 <= b -> a + n <= zlen d -> b + n <= zlen d -> contained (memmove d a b n).
Proof. intros. unfold memmove. destruct (n =? 0); [exact I|]. replace (_ && _) with true by lia. exact I. Qed.
Lemma remove_c e infos w asset t l : arg infos 0 asset -> well_formed (data (w asset)) l -> t <> XNone -> contained (process e infos w (IRemove t)).
Proof.
  intros A0 HW Ht. apply s_process. cbn [dispatch]. unfold process_remove. sf.
  apply acct_arg in K. rewrite (arg_det _ _ _ _ K A0) in *. pose proof (well_ahead _ _ HW) as HA.
  apply s_bind; [apply s_removefind; [exact HA|unfold walk_fuel; lia|unfold walk_fuel, zlen, ASSET_LEN; lia]|]. intros [[off bnd]|] F; [|exact I].
  apply s_bind.
  { destruct t; try exact I. apply s_bind; [now apply s_get|]. intros [[o b]|] _; sf. }
  intros _ _. destruct HW as (hd & tl & HL). destruct (remove_find_layout _ _ _ _ _ _ HL Ht F) as (l1 & b & l2 & -> & Eb & _ & E).
  pose proof (f_equal fst E) as E1. pose proof (f_equal snd E) as E2. cbn [fst snd] in E1, E2. pose proof (layout_len _ _ _ _ HL) as Z. rewrite sect_size_app in Z. cbn [sect_size] in Z.
  pose proof (sect_size_nonneg l1). pose proof (sect_size_nonneg l2). pose proof (blk_size_pos b). pose proof (zlen_nonneg tl).
  apply s_bind; [apply s_memmove; lia|]. intros. sf.
Qed.

(** ** Write *)
Lemma write_c e infos w a asset hd l t len bs : arg infos 0 asset -> partial_account (data (w asset)) hd l t len bs ->
  let p := if w_overwrite a then w_bytes a else bs ++ w_bytes a in
  zlen p <= len -> (zlen p = len -> royal_ok t p) -> contained (process e infos w (IWrite a)).
Proof.
  intros A0 HP p Hle HR. apply s_process. cbn [dispatch]. unfold process_write. sf.
  apply acct_arg in K. rewrite (arg_det _ _ _ _ K A0) in *.
  rewrite (partial_last _ _ _ _ _ _ HP). cbn [bind h_len h_bnd]. sf.
  set (off := 168 + sect_size l + 16) in *. set (bnd := pad8 (off + len)) in *.
  pose proof (partial_len _ _ _ _ _ _ HP) as Hd. fold off in Hd.
  pose proof (partial_eq _ _ _ _ _ _ HP) as Ed. fold off bnd in Ed. rewrite !app_assoc in Ed. set (Q := ((hd ++ enc_sect 168 l) ++ enc_hdr (ext_code t) len bnd) ++ zeros 4) in *.
  destruct HP as (_ & Hh & Hf & Ht & Hb & Hz). pose proof (zlen_nonneg bs) as Hb0. pose proof (zlen_nonneg (w_bytes a)) as Hc0.
  pose proof (sect_size_mod l Hf) as Hm. pose proof (sect_size_nonneg l) as Hs. pose proof (pad8_ge (off + len)) as HG. fold bnd in HG.
  assert (ZQ : zlen Q = off) by (rewrite Ed, zlen_app in Hd; lia).
  match goal with |- contained (bind (resize _ _ _ _ ?s _ _ _) _) => set (size := s) in * end.
  set (start := if w_overwrite a then off else zlen (data (w asset))).
  apply s_bind; [apply s_resize|]. intros w1 W1. apply resize_world in W1 as (D1 & _).
  assert (SZ : exists k, 0 <= k /\ size = off + zlen p + k /\ (k = 0 \/ zlen p = len /\ k = bnd - off - len)).
  { subst size p. destruct (w_overwrite a); [exists 0; lia|]. rewrite zlen_app. destruct (_ =? off + len) eqn:Q1; [exists (bnd - off - len); lia|exists 0; lia]. }
  destruct SZ as (j & Hj & Es & Hj2). pose proof (zlen_nonneg p) as Hp0.
  assert (Ej0 : w_overwrite a = true -> j = 0) by (intro O; subst size p; rewrite O in Es; lia). clearbody size.
  assert (MC : memcpy_at (data (w1 asset)) start (w_bytes a) = Ok (Q ++ p ++ zeros j)).
  { unfold memcpy_at. rewrite D1, zlen_realloc by lia.
    assert (start + zlen (w_bytes a) <= size) by (subst start p; destruct (w_overwrite a); rewrite ?zlen_app in *; lia).
    assert (0 <= start) by (subst start; destruct (w_overwrite a); lia).
    replace ((0 <=? start) && (start <=? size)) with true by lia. cbn [guard].
    replace (start + zlen (w_bytes a) <=? size) with true by lia. f_equal.
    rewrite Ed. subst start p. destruct (w_overwrite a).
    - rewrite (Ej0 eq_refl) in *. change (zeros 0) with (@nil byte). rewrite app_nil_r. rewrite realloc_app by lia. rewrite <- ZQ. 
      assert (ZZ : zlen (realloc_bytes bs (size - zlen Q)) = zlen (w_bytes a)) by (rewrite zlen_realloc by lia; lia).
      rewrite <- (app_nil_r (realloc_bytes bs (size - zlen Q))). rewrite put_mid by auto. now rewrite app_nil_r.
    - rewrite zlen_app in Es. rewrite realloc_grow by (rewrite zlen_app; lia).
      replace (size - zlen (Q ++ bs)) with (zlen (w_bytes a) + j) by (rewrite zlen_app; lia). rewrite <- zeros_app by lia.
      rewrite put_mid by (rewrite ?zlen_app, ?zlen_zeros; lia). now rewrite <- !app_assoc. }
  fold start. rewrite MC. cbn [bind]. apply s_bind; [apply s_set|]. intros w2 W2.
  destruct (zlen (Q ++ p ++ zeros j) <? off + len) eqn:EZ; [exact I|].
  rewrite !zlen_app, zlen_zeros in EZ by lia. assert (Hp : zlen p = len) by lia.
  assert (HPA : partial_account (Q ++ p) hd l t len p).
  { split; [|repeat split; auto; try lia; subst off; lia]. rewrite bnd_pad8 by assumption. fold off bnd. subst Q. unfold enc_hdr. now rewrite <- !app_assoc. }
  assert (LX : last_extension (Q ++ p ++ zeros j) = Ok (Some (mkHdr (ext_code t) len bnd, off))).
  { destruct Hj2 as [->|[_ Ej]].
    - change (zeros 0) with (@nil byte). rewrite app_nil_r. rewrite (partial_last _ _ _ _ _ _ HPA). reflexivity.
    - assert (HL0 : layout (Q ++ p ++ zeros j) hd (l ++ [blk_of t p]) []).
      { split; [|split; [assumption|split; [apply Forall_app; split; [assumption|]; constructor; [now apply blk_of_ok|constructor]|split; [left; reflexivity|]]]].
        - rewrite enc_sect_app. cbn [enc_sect]. rewrite !app_nil_r. pose proof (full_block (168 + sect_size l) t p 0) as FB. rewrite Hp in FB. fold off in FB. fold bnd in FB.
          change (zeros 0) with (@nil byte) in FB. rewrite app_nil_r in FB. rewrite <- FB by lia. subst Q. rewrite <- !app_assoc. do 5 f_equal. rewrite Ej. subst bnd off. unfold pad8. f_equal. clear - Hm. lia.
        - rewrite !zlen_app, ZQ, zlen_zeros by lia. lia. }
      rewrite (layout_last _ _ _ _ HL0), last_blk_app. cbn [last_res option_map fst snd blk_hdr blk_of bk_type bk_data]. fold off. unfold EXT_LEN. fold off.
      do 3 f_equal. unfold blk_hdr. cbn [blk_of bk_type bk_data]. rewrite Hp. f_equal. rewrite blk_of_size by assumption. rewrite Hp. subst bnd off. unfold pad8. lia. }
  rewrite LX. cbn [bind h_type h_len]. rewrite ext_of_code_code. cbn [ok_or bind].
  assert (SL : slice (Q ++ p ++ zeros j) off (off + len) = Ok p).
  { rewrite slice_in by (rewrite ?zlen_app, ?zlen_zeros; lia). f_equal. replace (off + len - off) with (zlen p) by lia. apply fld_mid; auto. }
  rewrite SL. cbn [bind]. apply s_bind; [apply s_map; apply s_oncreate; auto|]. intros. sf.
Qed.

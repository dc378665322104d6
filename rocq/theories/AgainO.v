(** Lemmas: an Update from a buffer once more (C88). *)
From Verif Require Import Base State Layout Constr Ext World Proc BaseL Spec SpecB SpecH SpecTake WorldL ProcSteps FrameL LayoutL LayoutE HeadL AuthL ValidL GroupL CreateL UpdateL UpdateM TakeL AgainL AgainM.
From Verif Require AuthM VerifyL ViewM AllocC UpdateT HasL.
From Coq Require Import Strings.Byte.

Lemma buffer_same e infos w0 w asset auth payer sysp bk w' hd l1 b l2 tl :
  layout (data (w asset)) hd (l1 ++ b :: l2) tl -> Forall (fun k => bk_type k <> bk_type b) l1 -> bk_type b <> XNone -> bk_type b <> XCreators -> bk_type b <> XGrouping -> bk <> asset ->
  le32 (data (w bk)) 168 = ext_code (bk_type b) -> le32 (data (w bk)) 172 = zlen (bk_data b) -> sub (data (w bk)) 184 (length (bk_data b)) = bk_data b ->
  update_ext e infos w0 w asset auth (Some bk) payer sysp None = Ok w' -> unchanged w w'.
Proof.
  intros HL HF Ht Nc Ng Nb Bt Bl Bd H. unfold update_ext in H. apply bind_ok in H as (t & T & H).
  assert (Et : t = bk_type b).
  { cbn [update_type] in T. apply require_ok in T as [_ T]. apply require_ok in T as [_ T]. cbv zeta in T. apply require_ok in T as [_ T]. apply require_ok in T as [_ T].
    apply bind_ok in T as (fe & Hfe & T). destruct fe as [[h o]|]; [|discriminate T]. apply ok_or_ok in T. unfold first_extension in Hfe. destruct (_ <=? _); [|discriminate Hfe].
    apply bind_ok in Hfe as (h' & Lh & Hfe). apply load_hdr_ok in Lh as (_ & _ & _ & Lh). destruct (ext_of_code (h_type h')) as [t'|] eqn:E; [|discriminate Hfe].
    assert (h = h') by (destruct t'; try discriminate Hfe; injection Hfe as <- _; reflexivity). subst h.
    rewrite Lh in T. cbn [h_type] in T. change ASSET_LEN with 168 in T. rewrite Bt, ext_of_code_code in T. now injection T as <-. }
  subst t. clear T.
  apply bind_ok in H as (f & Hf & H). destruct (update_find_layout _ _ _ _ _ _ HL Ht Hf) as [Er _]. clear Hf.
  assert (LC : loc (bk_type b) 168 (l1 ++ b :: l2) = Some (168 + sect_size l1, b)) by (now apply loc_here).
  rewrite LC in Er. subst f. destruct (block_parts _ _ _ _ _ _ HL) as (C0 & C8 & CL & FH & FD). set (c := 168 + sect_size l1) in *.
  assert (Bok : blk_ok b) by (destruct HL as (_ & _ & Q & _); apply Forall_app in Q as [_ Q]; now inversion Q).
  apply bind_ok in H as (s & Hs & H). destruct s as [[n src] w2]. apply bind_ok in H as (w3 & Hr & H).
  assert (S : n = zlen (bk_data b) /\ unchanged w w2).
  { cbn [update_source] in Hs. cbv zeta in Hs. apply bind_ok in Hs as (fe & Hfe & Hs). destruct fe as [[h o]|]; [|discriminate Hs].
    apply require_ok in Hs as [_ Hs]. apply require_ok in Hs as [_ Hs]. apply bind_ok in Hs as (inp & Hi & Hs). apply bind_ok in Hs as (cur & _ & Hs).
    apply bind_ok in Hs as (inp' & V & Hs). apply bind_ok in Hs as (v & Hv & Hs). apply Ok_inj in Hs. injection Hs as <- <- <-.
    unfold first_extension in Hfe. destruct (_ <=? _) eqn:EL; [|discriminate Hfe]. apply Z.leb_le in EL. change (ASSET_LEN + EXT_LEN) with 184 in EL.
    apply bind_ok in Hfe as (h' & Lh & Hfe). apply load_hdr_ok in Lh as (_ & _ & _ & Lh). destruct (ext_of_code (h_type h')) as [t'|] eqn:E; [|discriminate Hfe].
    assert (h = h') by (destruct t'; try discriminate Hfe; injection Hfe as <- _; reflexivity). subst h.
    split; [rewrite Lh; cbn [h_len]; change (ASSET_LEN + 4) with 172; exact Bl|].
    apply validate_stored in V. apply (HasL.stored_plain _ _ _ _ _ Nc Ng) in V. subst inp'. apply slice_ok in Hi as (I1 & I2 & I3 & Hi & _).
    eapply same_set; [exact Hv|]. rewrite Hi. apply put_noop; [lia| |].
    - unfold fld, zlen. rewrite firstn_length, skipn_length. unfold zlen in *. lia.
    - f_equal. unfold fld, zlen. rewrite firstn_length, skipn_length. unfold zlen in *. lia. }
  destruct S as (-> & U2). unfold update_room in Hr. cbv zeta in Hr. cbn [blk_hdr h_len] in Hr. rewrite Z.eqb_refl in Hr. apply Ok_inj in Hr. subst w3.
  unfold update_finish in H. cbv zeta in H. change EXT_LEN with 16 in H. rewrite (blk_size_pad8 b c Bok C8) in H. cbn [blk_hdr h_bnd] in H. rewrite Z.sub_diag in H. change (to_i32 0) with 0 in H.
  rewrite !U2 in H.
  apply bind_ok in H as (d4 & H4 & H). apply bind_ok in H as (d5 & H5 & H). apply bind_ok in H as (d6 & H6 & H).
  unfold set_hdr in H4. apply guard_ok in H4 as [_ H4]. apply Ok_inj in H4.
  pose proof (zlen_nonneg (bk_data b)). rewrite put_noop in H4 by (rewrite ?enc_hdr_len; try lia; exact FH). subst d4. apply fix_zero in H5. subst d5.
  assert (X : unchanged w2 w').
  { eapply same_set; [exact H|]. rewrite U2. destruct (0 <? zlen (bk_data b)) eqn:E; [|now apply Ok_inj in H6].
    apply bind_ok in H6 as (bs & Hb & H6). apply slice_ok in Hb as (_ & _ & _ & Hb & _). change (ASSET_LEN + 16) with 184 in Hb. replace (184 + zlen (bk_data b) - 184) with (zlen (bk_data b)) in Hb by lia.
    assert (Eb : bs = bk_data b) by (rewrite Hb; rewrite sub_fld in Bd; exact Bd). rewrite Eb in H6.
    apply memcpy_inv in H6 as (_ & _ & ->). apply put_noop; [lia|lia|exact FD]. }
  intro y. rewrite X. apply U2.
Qed.

Lemma buffer_again e infos w w1 k bk l u : env_ok e -> e_prog e <> pk_zero -> sized w -> arg infos 0 k -> arg infos 2 bk -> bk <> e_prog e -> well_formed (data (w k)) l -> u_ext u = None ->
  le32 (data (w bk)) 168 <> ext_code XCreators -> le32 (data (w bk)) 168 <> ext_code XGrouping ->
  process e infos w (IUpdate u) = Ok w1 -> settled e infos w1 (IUpdate u).
Proof.
  intros He Hp Hs A B Nb (hd & tl & HL) U Nc Ng H w2 H2.
  destruct (update_effect _ _ _ _ _ _ _ _ _ He Hp Hs A HL ltac:(intros x0 E; rewrite U in E; discriminate E) H) as (auth & hd' & l' & tl' & A1 & _ & _ & _ & _ & _ & HU & L' & _ & _ & [(_ & Q & _)|(bf & t & b & Bf & Ht & EL & SS)]);
    [elim Nb; exact (arg_det _ _ _ _ B Q)|].
  destruct Bf as [[_ Q]|(bk' & -> & Bk & _)]; [elim Nb; exact (arg_det _ _ _ _ B Q)|]. pose proof (arg_det _ _ _ _ Bk B). subst bk'. cbn [source_spec] in SS.
  destruct SS as (N & _ & _ & Z1 & _ & T & inp & S & Zb & W & Eb & _).
  assert (N1 : t <> XCreators) by (intros ->; contradiction). assert (N2 : t <> XGrouping) by (intros ->; contradiction).
  rewrite (HasL.stored_plain _ _ _ _ _ N1 N2 S) in W. change 168 with (Z.of_nat 168) in W. rewrite HasL.put_sub_same in W by (unfold zlen in Z1; lia).
  assert (LK : lookup t (ext_list l') = Some b) by (rewrite EL; apply UpdateT.lookup_put_ext).
  rewrite (loc_lookup _ l' 168) in LK. destruct (loc t 168 l') as [[c b']|] eqn:LC; [|discriminate LK]. cbn [option_map snd] in LK. injection LK as LK.
  destruct (loc_some _ _ _ _ _ LC) as (l1 & l2 & -> & _ & Tb & HF).
  apply process_dispatch in H2. cbn [dispatch] in H2. unfold process_update, check_authority in H2.
  apply bind_ok in H2 as (a & A2 & Q). apply acct_arg in A2. pose proof (arg_det _ _ _ _ A2 A). subst a.
  apply bind_ok in Q as (s & S2 & Q). apply acct_arg in S2. pose proof (arg_det _ _ _ _ S2 A1). subst s. apply bind_ok in Q as (bf & Bf & Q). pose proof (proj2 (opt_acct_some e infos 2 bk) (conj B Nb)) as Bo. change (passed infos) with (firstn MAX_ACCOUNTS infos) in Bo. rewrite Bo in Bf. apply Ok_inj in Bf. subst bf.
  apply bind_ok in Q as (? & _ & Q). apply bind_ok in Q as (? & _ & Q). apply bind_ok in Q as (? & _ & Q).
  apply require_ok in Q as [_ Q]. apply require_ok in Q as [_ Q]. cbv zeta in Q. apply require_ok in Q as [_ Q]. apply require_ok in Q as [_ Q]. apply require_ok in Q as [_ Q].
  fold (upd_head u (data (w1 k))) in Q. pose proof (layout_len _ _ _ _ L') as LL. pose proof (sect_size_nonneg (l1 ++ b' :: l2)). pose proof (zlen_nonneg tl').
  assert (L8 : 168 <= zlen (data (w1 k))) by lia. rewrite (upd_head_done u _ _ L8 HU) in Q. apply bind_ok in Q as (v & Hv & Q). pose proof (same_set _ _ _ _ _ _ Hv eq_refl) as V. rewrite U in Q.
  assert (R : unchanged v w2).
  { subst b t. eapply buffer_same; [rewrite V; exact L'|exact HF|exact Ht|exact N1|exact N2|exact N| | | |exact Q]; rewrite V, W; congruence. }
  intro y. rewrite R. apply V.
Qed.

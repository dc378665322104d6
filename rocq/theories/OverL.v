(** Lemmas: Write with the overwrite flag. *)
From Verif Require Import Base State Layout Constr Ext World Proc BaseL Spec SpecB SpecC SpecE SpecF WorldL ProcSteps LayoutL LayoutM LayoutE HeadL CreatorsL AuthL AuthM AllocL AllocM GroupL AllocC CreateL ConstrL RoyalL ValidL ReadsL CodecL UpdateL ExactL ExactM AcceptL ExactN.
From Coq Require Import Strings.Byte.

Lemma put_over (A bs c : bytes) : put (realloc_bytes (A ++ bs) (zlen A + zlen c)) (zlen A) c = A ++ c.
Proof.
  assert (P : forall X, zlen X = zlen c -> put (A ++ X) (zlen A) c = A ++ c).
  { intros X HX. pose proof (put_mid A X [] (zlen A) c eq_refl (eq_sym HX)) as Q. now rewrite !app_nil_r in Q. }
  unfold realloc_bytes. pose proof (zlen_nonneg A) as A0. pose proof (zlen_nonneg c) as C0. pose proof (zlen_nonneg bs) as B0.
  destruct (Z.leb_spec (zlen A + zlen c) (zlen (A ++ bs))) as [C|C]; rewrite zlen_app in C.
  - unfold zlen at 1 2. rewrite <- Nat2Z.inj_add, Nat2Z.id, firstn_app_2. apply P. unfold zlen in *. rewrite firstn_length. lia.
  - rewrite <- app_assoc. apply P. rewrite zlen_app, zlen_zeros by (rewrite zlen_app; lia). rewrite zlen_app. lia.
Qed.
Lemma partial_over d hd l t len bs c : partial_account d hd l t len bs -> zlen c <= len ->
  exists A, d = A ++ bs /\ zlen A = 168 + sect_size l + 16 /\ partial_account (A ++ c) hd l t len c.
Proof.
  intros HP Hc. pose proof (partial_len _ _ _ _ _ _ HP) as L. pose proof HP as (E & Hh & Hf & Ht & Hb & Hz).
  exists (hd ++ enc_sect 168 l ++ le_enc 4 (ext_code t) ++ le_enc 4 len ++ le_enc 4 (168 + sect_size l + 16 + (len + 7) / 8 * 8) ++ repeat x00 4).
  assert (D : d = (hd ++ enc_sect 168 l ++ le_enc 4 (ext_code t) ++ le_enc 4 len ++ le_enc 4 (168 + sect_size l + 16 + (len + 7) / 8 * 8) ++ repeat x00 4) ++ bs) by (rewrite <- !app_assoc; exact E).
  split; [exact D|]. split; [apply (f_equal zlen) in D; rewrite zlen_app in D; lia|].
  split; [rewrite <- !app_assoc; reflexivity|]. auto.
Qed.
Lemma partial_slice d hd l t len bs : partial_account d hd l t len bs -> zlen bs = len -> slice d (168 + sect_size l + 16) (168 + sect_size l + 16 + len) = Ok bs.
Proof.
  intros HP E. destruct (partial_over _ _ _ _ _ _ bs HP ltac:(lia)) as (A & -> & LA & _). pose proof (zlen_nonneg bs). pose proof (zlen_nonneg A). unfold slice, guard. rewrite zlen_app.
  replace (_ && _) with true by lia. f_equal. replace (168 + sect_size l + 16 + len - (168 + sect_size l + 16)) with len by lia.
  rewrite <- (app_nil_r bs) at 1. apply fld_mid; lia.
Qed.
Lemma put_end (A bs c : bytes) : zlen c = zlen bs -> put (A ++ bs) (zlen A) c = A ++ c.
Proof. intro H. pose proof (put_mid A bs [] (zlen A) c eq_refl H) as Q. now rewrite !app_nil_r in Q. Qed.

(** the body after the checks *)
Lemma over_rest e infos w a asset payer hd l t len bs : partial_account (data (w asset)) hd l t len bs -> zlen (w_bytes a) <= len ->
  forall A, data (w asset) = A ++ bs -> zlen A = 168 + sect_size l + 16 -> partial_account (A ++ w_bytes a) hd l t len (w_bytes a) ->
  forall w1, resize e infos w w (168 + sect_size l + 16 + zlen (w_bytes a)) asset (Some payer) (Some pk_zero) = Ok w1 ->
  (d1 <- memcpy_at (data (w1 asset)) (168 + sect_size l + 16) (w_bytes a) ;; w2 <- set_data e infos w1 asset d1 ;;
         if zlen d1 <? 168 + sect_size l + 16 + len then Ok w2 else
                  l2 <- last_extension d1 ;;
                  match l2 with
                  | None => Err EExtensionNotFound
                  | Some (h2, off2) =>
                      t <- ok_or (ext_of_code (h_type h2)) EExtensionDataInvalid ;;
                      b <- slice d1 off2 (off2 + h_len h2) ;;
                      b' <- map_err (on_create t off2 None b) EExtensionDataInvalid ;;
                      set_data e infos w2 asset (put d1 off2 b')
                  end) =
  (w2 <- set_data e infos w1 asset (A ++ w_bytes a) ;;
   if zlen (w_bytes a) <? len then Ok w2 else
     b' <- map_err (on_create t (168 + sect_size l + 16) None (w_bytes a)) EExtensionDataInvalid ;; set_data e infos w2 asset (A ++ b')).
Proof.
  intros HP Hc A EA LA HP1 w1 Hr. apply resize_world in Hr as (R1 & _ & _). rewrite EA in R1. rewrite <- LA in *.
  set (c := w_bytes a) in *. pose proof (zlen_nonneg c) as C0. pose proof (zlen_nonneg A) as A0.
  assert (M : memcpy_at (data (w1 asset)) (zlen A) c = Ok (A ++ c)).
  { unfold memcpy_at, guard. rewrite R1. rewrite zlen_realloc by lia. replace (_ && _) with true by lia. rewrite put_over. replace (_ <=? _) with true by lia. reflexivity. }
  rewrite M. cbn [bind]. rewrite zlen_app. destruct (set_data e infos w1 asset (A ++ c)) as [w2| | | |]; try reflexivity. cbn [bind].
  destruct (Z.ltb_spec (zlen c) len) as [L|L]; [replace (zlen A + zlen c <? zlen A + len) with true by lia; reflexivity|]. replace (zlen A + zlen c <? zlen A + len) with false by lia.
  pose proof (partial_last _ _ _ _ _ _ HP1) as PL. rewrite <- LA in PL. rewrite PL. cbn [bind h_type h_len]. rewrite ext_of_code_code. cbn [ok_or bind].
  pose proof (partial_slice _ _ _ _ _ _ HP1 ltac:(lia)) as PS. rewrite <- LA in PS. rewrite PS. cbn [bind].
  destruct (on_create t (zlen A) None c) as [b'| | | |] eqn:E; try reflexivity. cbn [map_err bind]. rewrite put_end; [reflexivity|]. apply on_create_fresh in E as (Hl & _). unfold zlen. now rewrite Hl.
Qed.

Lemma over_goes e infos w a asset payer hd l t len bs : arg infos 0 asset -> arg infos 1 payer -> arg infos 2 pk_zero ->
  partial_account (data (w asset)) hd l t len bs -> w_overwrite a = true -> zlen (w_bytes a) <= len ->
  writable infos asset -> plain_accounts e infos w -> sized w -> lam_ok w -> env_ok e -> e_prog e <> pk_zero ->
  (exists w', process e infos w (IWrite a) = Ok w') <->
  signed infos payer /\ signed infos asset /\ acct_owner (w asset) = e_prog e /\ s_disc (data (w asset)) = x00 /\
  can_size e infos w asset (Some payer) (Some pk_zero) (168 + sect_size l + 16 + zlen (w_bytes a)) /\
  (zlen (w_bytes a) = len -> acceptable t (w_bytes a)).
Proof.
  intros A0 A1 A2 HP Ho Hle Hwr Hp Hs Hl He Hz.
  pose proof (signed_gate e infos w asset (IWrite a) A0 Hp eq_refl) as G.
  destruct (partial_over _ _ _ _ _ _ (w_bytes a) HP Hle) as (A & EA & LA & HP1).
  pose proof (partial_len _ _ _ _ _ _ HP) as Hd. pose proof (partial_len _ _ _ _ _ _ HP1) as Hd1.
  pose proof HP as (_ & Hh & Hf & Ht & Hb & Hzz).
  pose proof (zlen_nonneg (w_bytes a)) as Hc0. pose proof (zlen_nonneg bs) as Hb0.
  pose proof (sect_size_mod l Hf) as Hm. pose proof (sect_size_nonneg l) as Hsn.
  set (p := 168 + sect_size l) in *.
  assert (K : goes (process_write e (passed infos) w a) <-> signed infos payer /\ signed infos asset /\ acct_owner (w asset) = e_prog e /\ s_disc (data (w asset)) = x00 /\
     can_size e infos w asset (Some payer) (Some pk_zero) (p + 16 + zlen (w_bytes a)) /\ (zlen (w_bytes a) = len -> acceptable t (w_bytes a))).
  { unfold process_write. args. rewrite !goes_require, !signer_spec. cbv zeta. unfold owned_by_prog. rewrite !pk_eqb_eq.
    change (byte_at (data (w asset)) 0) with (s_disc (data (w asset))). rewrite beqb_eq. change DISC_UNINIT with x00.
    rewrite (partial_last _ _ _ _ _ _ HP). cbn [bind h_len h_bnd]. fold p. rewrite goes_require, Ho.
    assert (E0 : (ASSET_LEN <=? zlen (data (w asset))) = true) by (unfold ASSET_LEN, p in *; lia). rewrite E0.
    assert (E1 : (zlen (data (w asset)) <=? p + 16 + len) = true) by lia. rewrite E1.
    assert (SZ : acct_owner (w asset) = e_prog e -> goes (resize e (passed infos) w w (p + 16 + zlen (w_bytes a)) asset (Some payer) (Some pk_zero)) <-> can_size e infos w asset (Some payer) (Some pk_zero) (p + 16 + zlen (w_bytes a))).
    { intro Q. apply size_goes; auto; [split; assumption|unfold p; lia]. }
    assert (REST : acct_owner (w asset) = e_prog e -> forall w1, resize e (passed infos) w w (p + 16 + zlen (w_bytes a)) asset (Some payer) (Some pk_zero) = Ok w1 ->
       goes (w2 <- set_data e (passed infos) w1 asset (A ++ w_bytes a) ;;
         if zlen (w_bytes a) <? len then Ok w2 else
         b' <- map_err (on_create t (p + 16) None (w_bytes a)) EExtensionDataInvalid ;; set_data e (passed infos) w2 asset (A ++ b')) <-> (zlen (w_bytes a) = len -> acceptable t (w_bytes a))).
    { intros Hown w1 Hr. pose proof (resize_max _ _ _ _ _ _ _ _ _ Hs Hr) as Hmax. apply resize_world in Hr as (R1 & R2 & R3).
      rewrite R1, zlen_realloc in Hmax by (unfold p; lia).
      assert (SD : forall w d, acct_owner (w asset) = e_prog e -> zlen d <= 10485760 -> exists w2, set_data e (passed infos) w asset d = Ok w2 /\ acct_owner (w2 asset) = e_prog e).
      { intros w' d Q1 Q2. destruct (goes_set e infos w' asset d) as [w2 Q]; [split; assumption|assumption|]. exists w2. split; [assumption|]. now apply set_data_world in Q as (_ & _ & ->). }
      destruct (SD w1 (A ++ w_bytes a)) as (w2 & Ew2 & Ow2); [rewrite R3; assumption|lia|]. rewrite Ew2. cbn [bind].
      destruct (Z.ltb_spec (zlen (w_bytes a)) len) as [C|C]; [split; [intros _ Q; lia|intros _; apply goes_ok]|]. rewrite goes_bind.
      rewrite <- (on_create_goes t (p + 16) None (w_bytes a)) by (unfold p; lia). split.
      - intros (b' & Hb' & _) _. apply map_err_ok in Hb'. now exists b'.
      - intro Q. destruct (Q ltac:(lia)) as [b' Hb']. exists b'. split; [rewrite Hb'; reflexivity|]. apply on_create_fresh in Hb' as (Hlen & _).
        destruct (SD w2 (A ++ b')) as (w3 & E3 & _); [assumption| |now exists w3]. rewrite zlen_app in *. unfold zlen in *. rewrite Hlen. lia. }
    split.
    - intros (_ & H1 & H2 & H3 & _ & H4 & _ & H5). repeat (split; [assumption|]). apply goes_bind in H5 as (w1 & Hr & H5).
      split; [apply (SZ H3); now exists w1|]. apply (REST H3 w1 Hr). pose proof (over_rest e (passed infos) w a asset payer hd l t len bs HP Hle A EA LA HP1 w1 Hr) as OR. fold p in OR. rewrite OR in H5. exact H5.
    - intros (H1 & H2 & H3 & H4 & H5 & H6). repeat (split; [assumption || reflexivity|]).
      apply (SZ H3) in H5 as [w1 Hr]. apply goes_bind. exists w1. split; [exact Hr|]. pose proof (over_rest e (passed infos) w a asset payer hd l t len bs HP Hle A EA LA HP1 w1 Hr) as OR. fold p in OR. rewrite OR. now apply (REST H3 w1 Hr). }
  rewrite <- K. split; [intros [w' H]; apply process_dispatch in H; exists w'; exact H|].
  intro H. apply G; [|exact H]. apply K in H. tauto.
Qed.

Lemma over_effect e infos w a w' asset hd l t len bs : arg infos 0 asset -> partial_account (data (w asset)) hd l t len bs -> w_overwrite a = true -> zlen (w_bytes a) <= len ->
  process e infos w (IWrite a) = Ok w' ->
  signed infos asset /\ acct_owner (w asset) = e_prog e /\
  (exists b', partial_account (data (w' asset)) hd l t len b' /\
     (zlen (w_bytes a) < len -> b' = w_bytes a) /\ (zlen (w_bytes a) = len -> fresh_payload t None (w_bytes a) b' /\ acceptable t (w_bytes a))) /\
  (forall k, k <> asset -> data (w' k) = data (w k)) /\ (forall k, acct_owner (w' k) = acct_owner (w k)).
Proof.
  intros A0 HP Ho Hle H. apply process_dispatch in H. cbn [dispatch] in H. unfold process_write in H.
  apply bind_ok in H as (asset' & B0 & H). apply acct_arg in B0. rewrite <- (arg_det _ _ _ _ A0 B0) in *. clear asset' B0.
  apply bind_ok in H as (payer & B1 & H). apply bind_ok in H as (sysp & B2 & H).
  apply require_ok in H as [C1 H]. apply require_ok in H as [C2 H]. apply require_ok in H as [C3 H].
  apply require_ok in H as [C4 H]. cbv zeta in H. apply require_ok in H as [C5 H]. apply require_ok in H as [C6 H].
  rewrite (partial_last _ _ _ _ _ _ HP) in H. cbn [bind h_len h_bnd] in H. apply require_ok in H as [C7 H]. rewrite Ho in H.
  apply pk_eqb_eq in C1. subst sysp. apply owned_spec in C4.
  destruct (partial_over _ _ _ _ _ _ (w_bytes a) HP Hle) as (A & EA & LA & HP1).
  apply bind_ok in H as (w1 & Hr & H). rewrite (over_rest e (firstn MAX_ACCOUNTS infos) w a asset payer hd l t len bs HP Hle A EA LA HP1 w1 Hr) in H.
  apply resize_world in Hr as (R1 & R2 & R3). apply bind_ok in H as (w2 & Hw2 & H). destruct (set_data_world _ _ _ _ _ _ Hw2) as (S1 & S2 & S3).
  split; [now apply signed_acct|]. split; [exact C4|].
  assert (Hfr : forall k, k <> asset -> data (w2 k) = data (w k)) by (intros k Hk; rewrite S2, R2; auto).
  assert (Hfo : forall k, acct_owner (w2 k) = acct_owner (w k)) by (intros k; rewrite S3, R3; auto).
  destruct (Z.ltb_spec (zlen (w_bytes a)) len) as [C|C].
  - apply Ok_inj in H. subst w'. split; [|split; assumption]. exists (w_bytes a). rewrite S1. split; [exact HP1|]. split; [auto|lia].
  - apply bind_ok in H as (b' & Hb' & H). apply map_err_ok in Hb'. destruct (set_data_world _ _ _ _ _ _ H) as (T1 & T2 & T3).
    split; [|split; [intros k Hk; rewrite T2; auto|intro k; rewrite T3; auto]]. exists b'.
    pose proof (on_create_fresh _ _ _ _ _ Hb') as FP. pose proof FP as (Hlen & _).
    assert (ZB : zlen b' = zlen (w_bytes a)) by (unfold zlen; now rewrite Hlen).
    split; [|split; [lia|]].
    + rewrite T1. destruct (partial_over _ _ _ _ _ _ b' HP ltac:(lia)) as (A' & EA' & LA' & HP'). assert (A' = A) as <-; [|exact HP'].
      rewrite EA in EA'. apply (f_equal (firstn (length A))) in EA'. rewrite firstn_app, Nat.sub_diag, firstn_all, firstn_O, app_nil_r in EA'.
      assert (QL : length A = length A') by (unfold zlen in *; lia). rewrite QL, firstn_app, Nat.sub_diag, firstn_all, firstn_O, app_nil_r in EA'. congruence.
    + intros _. split; [exact FP|]. destruct HP as (_ & _ & Hf & _). pose proof (sect_size_mod l Hf). apply (on_create_goes t (168 + sect_size l + 16) None (w_bytes a) ltac:(lia)). now exists b'.
Qed.

(** ** An extension without its padding *)
Lemma create_loop_unpadded auth d hd l t len bs r : partial_account d hd l t len bs -> zlen bs = len -> len mod 8 <> 0 ->
  create_loop (walk_fuel d) auth d ASSET_LEN [] <> Ok r.
Proof.
  intros HP Hlt Hmod H. pose proof (partial_eq _ _ _ _ _ _ HP) as Ed. pose proof (partial_len _ _ _ _ _ _ HP) as Hlen.
  destruct HP as (_ & Hh & Hf & Ht & Hb & Hz).
  pose proof (sect_size_mod l Hf) as Hm. pose proof (sect_size_nonneg l) as Hs. pose proof (zlen_nonneg bs) as Hb0.
  set (bnd := pad8 (168 + sect_size l + 16 + len)) in *.
  assert (Hbnd : 168 + sect_size l + 16 + len <= bnd < 168 + sect_size l + 16 + len + 8) by apply pad8_ge.
  assert (Hbn : 168 + sect_size l + 16 + len < bnd) by (unfold bnd, pad8; lia).
  pose proof (sect_size_length l) as Hsl.
  assert (Ef : walk_fuel d = (length l + S (walk_fuel d - length l - 1))%nat) by (unfold walk_fuel, zlen in *; lia).
  rewrite Ef in H. set (f := (walk_fuel d - length l - 1)%nat) in *. clearbody f. rewrite Ed, <- app_assoc in H. unfold ASSET_LEN in H.
  set (R := enc_hdr (ext_code t) len bnd ++ zeros 4 ++ bs) in *.
  assert (HR : zlen R = 16 + zlen bs) by (unfold R; rewrite !zlen_app; change (zlen (enc_hdr _ _ _)) with 12; rewrite zlen_zeros by lia; lia).
  pose proof (create_loop_skip auth l hd (S f) [] R r) as CS. rewrite Hh in CS.
  destruct (CS eq_refl Hf ltac:(lia) H) as (l' & F & H'). clear CS H.
  destruct (created_sect _ _ _ F) as (S1 & S2 & S3). specialize (S2 Hf).
  assert (HP : zlen (hd ++ enc_sect 168 l') = 168 + sect_size l) by (rewrite zlen_app, zlen_enc_sect by assumption; lia).
  cbn [create_loop] in H'. rewrite app_assoc in H'. rewrite (zlen_app _ R), HP, HR in H'.
  replace (EXT_LEN <=? 168 + sect_size l + (16 + zlen bs) - (168 + sect_size l)) with true in H' by (unfold EXT_LEN; lia).
  pose proof (ext_code_range t) as Hc.
  assert (Hld : load_hdr ((hd ++ enc_sect 168 l') ++ R) (168 + sect_size l) = Ok (mkHdr (ext_code t) len bnd)).
  { rewrite <- HP. unfold R. apply load_hdr_raw; try (unfold u32_max in *; lia). rewrite zlen_app, zlen_zeros by lia. lia. }
  rewrite Hld in H'. cbn [bind h_type h_len h_bnd] in H'. rewrite ext_of_code_code in H'.
  assert (Ha : (bnd - (EXT_LEN + (168 + sect_size l))) mod two64 = bnd - 16 - 168 - sect_size l)
    by (rewrite Z.mod_small; unfold EXT_LEN, two64; lia).
  rewrite Ha in H'.
  replace (bnd - 16 - 168 - sect_size l <=? 168 + sect_size l + (16 + zlen bs) - (168 + sect_size l) - EXT_LEN) with false in H'
    by (unfold EXT_LEN; lia).
  destruct t; try contradiction; discriminate H'.
Qed.

Lemma unpadded_stuck e infos w m asset hd l t len bs : arg infos 0 asset -> partial_account (data (w asset)) hd l t len bs -> zlen bs = len -> len mod 8 <> 0 -> inline m = [] ->
  ~ exists w', process e infos w (ICreate m) = Ok w'.
Proof.
  intros A0 HP Hl Hm Hi [w' H]. apply process_dispatch in H. cbn [dispatch] in H. unfold process_create in H.
  apply bind_ok in H as (asset' & B0 & H). apply acct_arg in B0. rewrite <- (arg_det _ _ _ _ A0 B0) in *. clear asset' B0.
  apply bind_ok in H as (auth & _ & H). apply bind_ok in H as (owner & _ & H). apply bind_ok in H as (og & _ & H). apply bind_ok in H as (oga & _ & H).
  apply bind_ok in H as (payer & _ & H). apply bind_ok in H as (sysp & _ & H). apply require_ok in H as [_ H].
  pose proof (partial_len _ _ _ _ _ _ HP) as Z. pose proof (sect_size_nonneg l) as Z1. pose proof (zlen_nonneg bs) as Z2.
  replace (zlen (data (w asset)) =? 0) with false in H by lia.
  apply bind_ok in H as (w1 & H1 & H). apply require_ok in H1 as [_ H1]. apply require_ok in H1 as [_ H1]. apply require_ok in H1 as [_ H1]. apply Ok_inj in H1. subst w1.
  apply bind_ok in H as (w2 & H2 & H).
  assert (w2 = w) as ->.
  { unfold inline in Hi. destruct (m_exts m) as [xs|]; [|now apply Ok_inj in H2]. change (swap_order xs) with (inline_order xs) in H2. rewrite Hi in H2. cbn [allocate_all] in H2. now apply Ok_inj in H2. }
  apply bind_ok in H as (r & H3 & _). apply guard_ok in H3 as [_ H3]. exact (create_loop_unpadded _ _ _ _ _ _ _ _ HP Hl Hm H3).
Qed.

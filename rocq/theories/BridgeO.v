(** Lemmas: exactly when the bridge's Create goes through. *)
From Verif Require Import Base State Layout Constr Ext World Proc Borsh Proxy Bridge Client BaseL Spec SpecB SpecC SpecE SpecF SpecH SpecI SpecK SpecL SpecP SpecV SpecX SpecY WorldL ProcSteps FrameL LayoutL LayoutM LayoutE HeadL AuthL AuthM AllocL AllocM GroupL ValidL AllocC CreateL BuildL UpdateL StepL StepH HistL TheftL CodecL BorshL ProxyL ProxyM BridgeL BridgeM ExactL ExactM AcceptL ExactN ExactO ClientL LiveL BridgeN.
From Coq Require Import Strings.Byte.

Lemma find_iff e seeds me k bump : find_address e seeds me 255 = Some (k, bump) <-> canonical (e_cpa e) me seeds k bump.
Proof.
  split.
  - intro H. pose proof (find_address_ok _ _ _ _ _ _ H) as E. destruct (find_max _ _ _ 255%nat _ _ (le_n _) H) as [B1 B2]. change (Z.of_nat 255) with 255 in *.
    split; [exact E|]. split; [lia|exact B2].
  - intros (E & B & N). destruct (find_address e seeds me 255) as [[k' b']|] eqn:F.
    + pose proof (find_canonical _ _ _ _ _ _ _ E N B F) as ->. pose proof (find_address_ok _ _ _ _ _ _ F) as E'. destruct (find_max _ _ _ 255%nat _ _ (le_n _) F) as [B1 B2]. change (Z.of_nat 255) with 255 in *.
      do 2 f_equal. pose proof (b2z_range bump). destruct (Z.lt_trichotomy (b2z bump) (b2z b')) as [Q|[Q|Q]].
      * specialize (N (b2z b') ltac:(lia)). rewrite z2b_b2z in N. congruence.
      * rewrite <- (z2b_b2z bump), <- (z2b_b2z b'). congruence.
      * specialize (B2 (b2z bump) ltac:(lia)). rewrite z2b_b2z in B2. congruence.
    + exfalso. assert (G : forall n, (n <= 255)%nat -> find_address e seeds me n = None -> b2z bump <= Z.of_nat n -> False).
      { induction n as [|n IH]; intros Hn Hf Hb; [lia|]. cbn [find_address] in Hf. destruct (e_cpa e seeds (z2b (Z.of_nat (S n))) (pk_bytes me)) eqn:Q; [discriminate|].
        destruct (Z.eq_dec (b2z bump) (Z.of_nat (S n))) as [R|R]; [rewrite <- R, z2b_b2z in Q; congruence|]. apply IH; [lia|assumption|lia]. }
      pose proof (b2z_range bump). apply (G 255%nat (le_n _) F). lia.
Qed.

(** ** The payloads are acceptable *)
Lemma enc_creators_count l : Forall (fun c => length (cr_addr c) = 32%nat) l ->
  length (concat (map (fun c => cr_addr c ++ [cr_verified c; cr_share c]) l)) = (34 * length l)%nat /\
  shares (length l) (concat (map (fun c => cr_addr c ++ [cr_verified c; cr_share c]) l)) = sum_shares l.
Proof.
  induction 1 as [|c l Hc F [IH1 IH2]]; [split; reflexivity|]. cbn [map concat length]. split; [rewrite !app_length, IH1, Hc; cbn [length]; lia|].
  rewrite shares_S. cbn [sum_shares fold_right]. f_equal.
  - f_equal. unfold cr_share_at. rewrite <- app_assoc. rewrite app_nth2 by lia. rewrite Hc. reflexivity.
  - rewrite skipn_app. assert (L : length (cr_addr c ++ [cr_verified c; cr_share c]) = 34%nat) by (rewrite app_length, Hc; reflexivity).
    rewrite L. rewrite skipn_all2 by lia. exact IH2.
Qed.
Lemma bridged_acceptable b p me d m c : tm_ok b p me -> be_meta b d = Some m ->
  Forall (fun x => acceptable (fst x) (snd x)) (bridged_payloads c m) <-> sound_terms c m.
Proof.
  intros [_ TM] H. destruct (TM _ _ H) as (_ & _ & T1 & T2 & T3 & T4). unfold bridged_payloads, sound_terms. rewrite !Forall_app.
  assert (A1 : Forall (fun x => acceptable (fst x) (snd x)) [(XMetadata, text8 (mt_symbol m) ++ [x00] ++ text8 (mt_uri m) ++ [x00])]).
  { constructor; [|constructor]. cbn [fst snd]. split; [|repeat split; discriminate]. unfold parses, metadata_in.
    exists (mt_symbol m), [], (mt_uri m), (text8 (mt_symbol m)), [x00], (text8 (mt_uri m)), [x00].
    split; [split; [lia|reflexivity]|]. split; [split; [discriminate|reflexivity]|]. split; [split; [lia|reflexivity]|]. split; [reflexivity|].
    right. exists [], [x00], []. split; [split; [discriminate|reflexivity]|reflexivity]. }
  assert (A2 : Forall (fun x => acceptable (fst x) (snd x)) (match mt_creators m with
      | Some l => [(XCreators, concat (map (fun c => cr_addr c ++ [cr_verified c; cr_share c]) l))] | None => [] end) <->
    forall l, mt_creators m = Some l -> sum_shares l mod 256 = 100).
  { destruct (mt_creators m) as [l|]; [|split; [intros _ l Q; discriminate|constructor]]. destruct (T3 l eq_refl) as [_ T6]. destruct (enc_creators_count l T6) as [E1 E2].
    set (bs := concat _) in *. assert (N : cr_count bs = length l) by (unfold cr_count; rewrite E1; replace (34 * length l)%nat with (length l * 34)%nat by lia; now apply Nat.div_mul).
    split.
    - intros F l' Q. apply Some_inj in Q. subst l'. apply Forall_inv in F. destruct F as (_ & F & _). specialize (F eq_refl). cbn [snd] in F. rewrite N, E2 in F. exact F.
    - intro F. specialize (F l eq_refl). constructor; [|constructor]. cbn [fst snd]. split; [unfold parses; rewrite N; exact E1|]. split; [intros _; rewrite N, E2; exact F|split; discriminate]. }
  assert (A3 : Forall (fun x => acceptable (fst x) (snd x)) (if c || mt_details m then
     (XGrouping, repeat x00 48) :: match mt_standard m with
       | Some TmProgrammable => [(XRoyalties, le_enc 8 (mt_fee m) ++ [x05; x00; x00; x00; x00; x00; x00; x00])] | _ => [] end else []) <->
    (c = true \/ mt_details m = true -> mt_standard m = Some TmProgrammable -> mt_fee m <= 10000)).
  { assert (G : acceptable XGrouping (repeat x00 48)).
    { split; [cbn [parses]; rewrite repeat_length; lia|]. split; [discriminate|]. split; [reflexivity|discriminate]. }
    assert (RY : acceptable XRoyalties (le_enc 8 (mt_fee m) ++ [x05; x00; x00; x00; x00; x00; x00; x00]) <-> mt_fee m <= 10000).
    { assert (RP : royalty_points (le_enc 8 (mt_fee m) ++ [x05; x00; x00; x00; x00; x00; x00; x00]) = mt_fee m).
      { unfold royalty_points. replace (sub (le_enc 8 (mt_fee m) ++ [x05; x00; x00; x00; x00; x00; x00; x00]) 0 8) with (le_enc 8 (mt_fee m)).
        - rewrite le_dec_enc. change (2 ^ (8 * Z.of_nat 8)) with 18446744073709551616. apply Z.mod_small. lia.
        - unfold sub. cbn [skipn]. rewrite firstn_app, le_enc_length, firstn_all2 by (rewrite le_enc_length; lia). change (8 - 8)%nat with 0%nat. cbn [firstn]. now rewrite app_nil_r. }
      unfold acceptable. rewrite RP. split; [intros (_ & _ & _ & Q); now apply Q|]. intro Q. split; [|split; [discriminate|split; [discriminate|auto]]].
      split; [rewrite app_length, le_enc_length; cbn [length]; lia|]. exists RTrue, [].
      assert (SK : skipn 8 (le_enc 8 (mt_fee m) ++ [x05; x00; x00; x00; x00; x00; x00; x00]) = [x05; x00; x00; x00; x00; x00; x00; x00]).
      { rewrite skipn_app, le_enc_length, skipn_all2 by (rewrite le_enc_length; lia). reflexivity. }
      rewrite SK. apply sits_true with (body := []); [reflexivity|]. split; [reflexivity|]. vm_compute. reflexivity. }
    destruct c; cbn [orb].
    - rewrite Forall_cons_iff. cbn [fst snd]. destruct (mt_standard m) as [[| |]|]; rewrite ?Forall_cons_iff; cbn [fst snd]; rewrite ?RY; (split; [intros Q ? ?; try discriminate; tauto|]); intro Q; (split; [exact G|]); try constructor; auto.
    - destruct (mt_details m).
      + rewrite Forall_cons_iff. cbn [fst snd]. destruct (mt_standard m) as [[| |]|]; rewrite ?Forall_cons_iff; cbn [fst snd]; rewrite ?RY; (split; [intros Q ? ?; try discriminate; tauto|]); intro Q; (split; [exact G|]); try constructor; auto.
      + split; [intros _ [Q|Q]; discriminate|constructor]. }
  tauto.
Qed.
Lemma bridged_space b p me d m c : tm_ok b p me -> be_meta b d = Some m -> 168 + space (bridged_payloads c m) <= 10240.
Proof.
  intros [_ TM] H. destruct (TM _ _ H) as (_ & _ & T1 & T2 & T3 & T4). unfold bridged_payloads.
  assert (SA : forall a a', space (a ++ a') = space a + space a') by (induction a as [|[t x] a IH]; intro a'; cbn [app space]; [lia|rewrite IH; lia]).
  rewrite !SA.
  assert (S1 : space [(XMetadata, text8 (mt_symbol m) ++ [x00] ++ text8 (mt_uri m) ++ [x00])] <= 424).
  { cbn [space]. rewrite !zlen_app. change (zlen [x00]) with 1. pose proof (text8_len _ T1). pose proof (text8_len _ T2). lia. }
  assert (S2 : space (match mt_creators m with Some l => [(XCreators, concat (map (fun c => cr_addr c ++ [cr_verified c; cr_share c]) l))] | None => [] end) <= 8688).
  { destruct (mt_creators m) as [l|]; [|cbn [space]; lia]. destruct (T3 l eq_refl) as [T5 T6]. destruct (enc_creators_count l T6) as [E1 _]. cbn [space]. unfold zlen in *. rewrite E1. lia. }
  assert (S3 : space (if c || mt_details m then
     (XGrouping, repeat x00 48) :: match mt_standard m with
       | Some TmProgrammable => [(XRoyalties, le_enc 8 (mt_fee m) ++ [x05; x00; x00; x00; x00; x00; x00; x00])] | _ => [] end else []) <= 96).
  { assert (SR : space [(XRoyalties, le_enc 8 (mt_fee m) ++ [x05; x00; x00; x00; x00; x00; x00; x00])] = 32).
    { cbn [space]. unfold zlen. rewrite app_length, le_enc_length. reflexivity. }
    assert (SG : forall r, space ((XGrouping, repeat x00 48) :: r) = 64 + space r) by reflexivity.
    destruct (c || mt_details m); [|cbn [space]; lia]. rewrite SG. destruct (mt_standard m) as [[| |]|]; rewrite ?SR; cbn [space]; lia. }
  pose proof (Z.add_le_mono _ _ _ _ S1 (Z.add_le_mono _ _ _ _ S2 S3)) as Q. etransitivity; [apply Z.add_le_mono_l; exact Q|]. discriminate.
Qed.
Lemma bridged_nodup c m : NoDup (map fst (bridged_payloads c m)).
Proof.
  unfold bridged_payloads. destruct (mt_creators m); destruct (c || mt_details m); destruct (mt_standard m) as [[| |]|]; cbn [app map fst];
    repeat constructor; cbn [In]; intuition discriminate.
Qed.

(** ** The vault is made *)
Lemma vault_made e me w payer vault : payer <> vault -> wallet w payer -> env_ok e ->
  goes (sys_create (as_prog e me) [mkInfo payer true true; mkInfo vault true true] w payer vault (e_rent e 36) 36) <->
  vacant w vault /\ e_rent e 36 <= lamports (w payer).
Proof.
  intros N (P1 & P2 & P3) He. unfold sys_create, sys_transfer, vacant, is_signer, is_writable. cbn [existsb ai_key ai_signer ai_writable as_prog e_prog]. rewrite !pk_eqb_refl.
  rewrite !orb_true_r, !orb_true_l. cbn [andb require]. cbv zeta. change (36 <=? MAX_INCREASE) with true. cbn [andb require].
  rewrite !(upd_other _ vault) by assumption. rewrite P1, P2, pk_eqb_refl. change (zlen [] =? 0) with true. cbn [andb require].
  rewrite !goes_require, !andb_true_iff, Z.eqb_eq, Z.eqb_eq, pk_eqb_eq. rewrite !upd_other by congruence. rewrite !upd_same. cbn [lamports].
  assert (Z0 : zlen (data (w vault)) = 0 <-> data (w vault) = []) by (split; [apply zlen_0|intros ->; reflexivity]). rewrite Z0. specialize (He 36). unfold two64. split.
  - intros ([[E1 E2] E3] & E4 & _). split; [auto|lia].
  - intros ((E1 & E2 & E3) & E4). split; [auto|]. split; [lia|]. split; [lia|]. apply goes_ok.
Qed.

(** ** The extensions are added one by one *)
Section Feed.
Variables (e : env) (me : pubkey) (infos : list ainfo) (w0 wv : world) (asset p auth owner : pubkey) (seeds : bytes) (bump : byte) (T : Z).
Notation E := (in_cpi e).
Notation metas := (alloc_metas asset p pk_zero).
Notation big := (birth_metas e asset auth owner p pk_zero).
Hypotheses (He : env_ok e) (Hz : e_prog e <> pk_zero) (M : rent_mono e) (HT : T < 18446744073709551616) (Np : p <> e_prog e) (Npa : p <> asset).
Hypotheses (CP : e_cpa e seeds bump (pk_bytes me) = Some asset) (D0 : data (w0 asset) = []).
Hypotheses (Hgr : forall k, k <> asset -> zlen (data (wv k)) <= zlen (data (w0 k)) + 10240).
Definition backing : Prop := mentions infos (e_prog e) /\ writes infos asset /\ signs infos p /\ writes infos p /\ mentions infos pk_zero.

Lemma feed_crew : crew E metas asset p.
Proof using Np.
  split; [eexists; split; reflexivity|]. split; [eexists; split; reflexivity|]. split; [eexists; split; reflexivity|]. split; [exact Np|].
  split; [|split; [|split]]; first [exists (mkInfo asset true true); split; [left; reflexivity|split; reflexivity]|exists (mkInfo p true true); split; [right; left; reflexivity|split; reflexivity]].
Qed.
Lemma feed_incl : incl (passed metas) (passed big).
Proof using. intros i Hi. change (passed big) with big. change (passed metas) with metas in Hi. unfold alloc_metas, birth_metas in *. cbn [In] in *. tauto. Qed.
Lemma feed_granted : backing -> Forall (fun m => granted infos asset m = true) metas.
Proof using.
  intros (_ & W & S & WP & Z). assert (mentions infos asset) by (destruct W as (i & ? & ? & _); exists i; auto). assert (mentions infos p) by (destruct S as (i & ? & ? & _); exists i; auto).
  repeat constructor; apply granted_iff; cbn [ai_key ai_signer ai_writable]; (split; [assumption|split; [intros _; auto; discriminate|intros _; auto; discriminate]]) || (split; [assumption|split; discriminate]).
Qed.
Lemma feed_bounded w l : stage E big wv asset p T w -> open_account (data (w asset)) (repeat x00 168) l 0 -> 168 + sect_size l <= 10240 -> bounded_growth infos w0 w.
Proof using D0 Hgr.
  intros (_ & _ & _ & _ & SB) HO L i _. destruct (pk_dec (ai_key i) asset) as [->|N].
  - rewrite D0. change (zlen []) with 0. destruct (data (w asset)) as [|y d] eqn:Q; [change (zlen []) with 0; lia|]. rewrite <- Q in *.
    assert (NE : data (w asset) <> []) by (rewrite Q; discriminate). destruct (open_zeros _ _ HO NE) as [_ Z]. lia.
  - destruct (SB _ N) as [-> _]. now apply Hgr.
Qed.
Lemma feed_one t b w w' l : stage E big wv asset p T w -> t <> XNone -> open_account (data (w asset)) (repeat x00 168) l 0 -> full l (zlen b) <= 10240 ->
  process E metas w (IAllocate (ext_of t b)) = Ok w' ->
  stage E big wv asset p T w' /\ open_account (data (w' asset)) (repeat x00 168) (l ++ [blk_of t b]) 0 /\ data (w' asset) <> [] /\ e_rent e (full l (zlen b)) <= T.
Proof using He Hz M Np.
  clear HT CP D0 Hgr Npa.
  intros HS Ht HO HF H. pose proof feed_crew as C. pose proof HS as (P & Hs & Hl & _). pose proof C as (A0 & _).
  pose proof (sect_size_nonneg l) as S0. pose proof (zlen_nonneg b) as Zb. unfold full in HF.
  destruct (allocate_effect E metas w (ext_of t b) w' asset _ _ 0 A0 HO (Hs asset) Ht ltac:(cbn [ext_of x_length]; unfold u32_max; lia) ltac:(unfold ext_of, given; cbn [x_data]; unfold two32; lia) H) as (_ & _ & _ & E1 & _).
  unfold ext_of, given in E1. cbn [x_length x_type x_data] in E1. destruct (E1 eq_refl) as [_ O1].
  replace (Z.max 0 (0 - blk_size (blk_of t b))) with 0 in O1 by (pose proof (blk_size_pos (blk_of t b)); lia).
  assert (NE : data (w' asset) <> []). { destruct O1 as [(_ & _ & Q & _)|(_ & HL)]; [destruct l; discriminate|]. intro Q. apply layout_len in HL. rewrite Q in HL. change (zlen []) with 0 in HL. pose proof (sect_size_nonneg (l ++ [blk_of t b])). pose proof (zlen_nonneg (repeat x00 (Z.to_nat 0))). lia. }
  destruct (open_zeros _ _ O1 NE) as [_ Z].
  assert (HS' : stage E big wv asset p T w').
  { apply (alloc_stage E wv big metas asset p T (in_cpi_ok _ He) Hz M C w (ext_of t b) w' _ l HS HO Ht); [cbn [ext_of x_length]; unfold u32_max; lia|unfold ext_of, given; cbn [x_data]; unfold two32; lia|exact H|].
    pose proof (sect_size_nonneg (l ++ [blk_of t b])). lia. }
  split; [exact HS'|]. split; [exact O1|]. split; [exact NE|].
  destruct HS' as ((_ & _ & _ & S & _ & Pn) & _ & Hl' & _). destruct (Pn NE) as [_ R]. specialize (Hl' p).
  rewrite sect_size_app in Z. cbn [sect_size fold_right] in Z. rewrite blk_of_size in Z. unfold pad8 in Z. rewrite Z in R. cbn [in_cpi e_rent] in R. unfold full.
  replace (168 + sect_size l + (16 + zlen b + 7) / 8 * 8) with (168 + (sect_size l + ((16 + zlen b + 7) / 8 * 8 + 0))) by lia. lia.
Qed.
Lemma feed_effect : forall xs w w' l, stage E big wv asset p T w -> Forall (fun x => fst x <> XNone /\ zlen (snd x) <= 100000) xs ->
  open_account (data (w asset)) (repeat x00 168) l 0 -> 168 + sect_size l + space xs <= 10240 ->
  allocate_each e me infos w0 w asset p pk_zero seeds bump (map (fun x => ext_of (fst x) (snd x)) xs) = Ok w' ->
  stage E big wv asset p T w' /\ open_account (data (w' asset)) (repeat x00 168) (l ++ map of_ext xs) 0 /\
  (xs <> [] -> data (w' asset) <> [] /\ e_rent e (168 + sect_size l + space xs) <= T).
Proof using He Hz M Np.
  clear HT CP D0 Hgr Npa.
  induction xs as [|[t b] xs IH]; intros w w' l HS HX HO Hsz H; cbn [map allocate_each] in H.
  - apply Ok_inj in H. subst w'. cbn [map]. rewrite app_nil_r. split; [assumption|]. split; [assumption|]. intro Q. now elim Q.
  - apply bind_ok in H as (w1 & H1 & H). apply Forall_cons_iff in HX as [[Ht Hb] HX]. cbn [fst snd] in *. cbn [space] in Hsz. pose proof (space_nonneg xs) as Hsp.
    apply invoke_iff in H1 as (pda & i & _ & _ & _ & I4 & I5 & I6 & _).
    assert (X2 : instr_ok (IAllocate (ext_of t b))) by (apply ext_ok_of; assumption).
    apply instr_unambiguous in I5; [subst i|assumption|assumption].
    assert (HF : full l (zlen b) <= 10240) by (rewrite full_space; lia).
    destruct (feed_one t b w w1 l HS Ht HO HF I6) as (HS1 & O1 & NE1 & R1).
    assert (Sz : 168 + sect_size (l ++ [blk_of t b]) = 168 + sect_size l + (16 + (zlen b + 7) / 8 * 8)). { rewrite <- full_space. rewrite sect_size_app. cbn [sect_size fold_right]. rewrite blk_of_size. unfold full, pad8. lia. }
    destruct (IH w1 w' (l ++ [blk_of t b]) HS1 HX O1 ltac:(lia) H) as (HS2 & O2 & R2). split; [assumption|]. cbn [map]. rewrite <- app_assoc in O2. split; [exact O2|].
    intros _. cbn [space]. destruct xs as [|x xs].
    + cbn [map allocate_each] in H. apply Ok_inj in H. subst w'. split; [assumption|]. rewrite full_space in R1. cbn [space]. replace (168 + sect_size l + (16 + (zlen b + 7) / 8 * 8 + 0)) with (168 + sect_size l + (16 + (zlen b + 7) / 8 * 8)) by lia. assumption.
    + destruct (R2 ltac:(discriminate)) as [R3 R4]. split; [assumption|]. replace (168 + sect_size l + (16 + (zlen b + 7) / 8 * 8 + space (x :: xs))) with (168 + sect_size (l ++ [blk_of t b]) + space (x :: xs)) by lia. assumption.
Qed.
Lemma feed_goes : backing -> forall xs w l, stage E big wv asset p T w -> Forall (fun x => fst x <> XNone /\ zlen (snd x) <= 100000) xs ->
  open_account (data (w asset)) (repeat x00 168) l 0 -> 168 + sect_size l + space xs <= 10240 ->
  (forall x, In x xs -> lookup (fst x) (ext_list l) = None) -> NoDup (map fst xs) -> e_rent e (168 + sect_size l + space xs) <= T ->
  goes (allocate_each e me infos w0 w asset p pk_zero seeds bump (map (fun x => ext_of (fst x) (snd x)) xs)).
Proof.
  intro BK. induction xs as [|[t b] xs IH]; intros w l HS HX HO Hsz HL HN HR; cbn [map allocate_each]; [apply goes_ok|].
  rewrite goes_bind. apply Forall_cons_iff in HX as [[Ht Hb] HX]. cbn [fst snd] in *. cbn [map] in HN. apply NoDup_cons_iff in HN as [HN1 HN]. cbn [space] in Hsz, HR.
  pose proof (space_nonneg xs) as Hsp. pose proof (sect_size_nonneg l) as S0. pose proof (zlen_nonneg b) as Zb.
  assert (HF : full l (zlen b) <= 10240) by (rewrite full_space; lia).
  assert (HR1 : e_rent e (full l (zlen b)) <= T) by (etransitivity; [|exact HR]; apply M; rewrite full_space; lia).
  pose proof HS as (P & Hs & Hl & Hp & Hf0). pose proof P as (_ & P1 & P2 & S & Pe & Pn). pose proof feed_crew as (A0 & A1 & A2 & _ & C1 & C2 & C3 & C4).
  assert (NN : new_end l (ext_of t b) = full l (zlen b)) by (unfold new_end, full, ext_of, given; cbn [x_length x_data]; rewrite Z.eqb_refl; reflexivity).
  assert (G : exists w1, process E metas w (IAllocate (ext_of t b)) = Ok w1).
  { apply (allocate_goes E metas w asset (Some p) (Some pk_zero) (ext_of t b) (repeat x00 168) l 0 A0 (conj A1 Np)); try assumption; [split; [assumption|intro Q; apply Hz; symmetry; exact Q]|exact (plain_incl _ _ _ _ feed_incl Hp)| |].
    - split; [assumption|]. unfold ext_of, given. cbn [x_length x_data]. unfold full in HF. lia.
    - split; [assumption|]. split; [exact (HL (t, b) (or_introl eq_refl))|]. split; [unfold ext_of, given; cbn [x_length x_data]; lia|]. rewrite NN. split.
      + intro Q. destruct (Pe Q) as [Q1 Q2]. split; [assumption|]. split; [assumption|]. split; [assumption|]. split; [cbn [in_cpi e_rent]; lia|]. split; [reflexivity|]. exists p. split; [reflexivity|]. split; [assumption|].
        repeat (split; [assumption|]). cbn [in_cpi e_rent]. lia.
      + intro NE. destruct (Pn NE) as [Q1 Q2]. destruct (open_zeros _ _ HO NE) as [D Z]. split; [assumption|]. split; [assumption|]. intros _. split; [|unfold full; lia]. intros _.
        unfold full in *; apply (stage_grow E wv big metas asset p T feed_crew HT w _ HS NE); cbn [in_cpi e_rent]; try assumption; lia. }
  destruct G as [w1 H1]. exists w1.
  destruct (feed_one t b w w1 l HS Ht HO HF H1) as (HS1 & O1 & NE1 & _).
  assert (Sz : 168 + sect_size (l ++ [blk_of t b]) = 168 + sect_size l + (16 + (zlen b + 7) / 8 * 8)). { rewrite <- full_space. rewrite sect_size_app. cbn [sect_size fold_right]. rewrite blk_of_size. unfold full, pad8. lia. }
  split.
  - apply invoke_iff. exists asset, (IAllocate (ext_of t b)). split; [assumption|]. split; [apply BK|]. split; [now apply feed_granted|].
    split; [apply ext_ok_of; assumption|]. split; [reflexivity|]. split; [assumption|]. apply (feed_bounded w1 _ HS1 O1). lia.
  - apply (IH w1 (l ++ [blk_of t b])); try assumption; [lia| |].
    + intros x Hx. apply lookup_none. unfold ext_list. rewrite map_map. cbn [fst]. rewrite map_app, in_app_iff. cbn [map In bk_type blk_of].
      specialize (HL x (or_intror Hx)). apply lookup_none in HL. unfold ext_list in HL. rewrite map_map in HL. cbn [fst] in HL. intros [Q|[Q|[]]]; [contradiction|]. apply HN1. cbn [fst]. rewrite Q. now apply in_map.
    + replace (168 + sect_size (l ++ [blk_of t b]) + space xs) with (168 + sect_size l + (16 + (zlen b + 7) / 8 * 8 + space xs)) by lia. assumption.
Qed.
(** the last call turns the buffer into an asset *)
Lemma birth_granted : backing -> mentions infos auth -> mentions infos owner -> Forall (fun m => granted infos asset m = true) big.
Proof using.
  intros (K & W & S & WP & Z) MA MO. assert (mentions infos asset) by (destruct W as (i & ? & ? & _); exists i; auto). assert (mentions infos p) by (destruct S as (i & ? & ? & _); exists i; auto).
  unfold birth_metas, absent. repeat apply Forall_cons; try apply Forall_nil; apply granted_iff; cbn [ai_key ai_signer ai_writable];
    (split; [assumption|split; [intros _; auto; discriminate|intros _; auto; discriminate]]) || (split; [assumption|split; discriminate]).
Qed.
Lemma birth_goes0 xs w name : backing -> mentions infos auth -> mentions infos owner -> text_ok name ->
  stage E big wv asset p T w -> open_account (data (w asset)) (repeat x00 168) (map of_ext xs) 0 -> data (w asset) <> [] ->
  168 + space xs <= 10240 -> ~ In XManager (map fst xs) -> ~ In XProxy (map fst xs) ->
  goes (invoke e me infos w0 w big (write_instr (ICreate (mkMetaInput name NonFungible true None))) seeds bump) <->
  Forall (fun x => acceptable (fst x) (snd x)) xs.
Proof.
  intros BK MA MO Hn HS HO NE Hsz NM NP. set (m := mkMetaInput name NonFungible true None).
  pose proof HS as (P' & Hs1 & Hl1 & Hp1 & SB). pose proof P' as (_ & Q1 & Q2 & Q3 & Q4 & Q5).
  assert (A0 : arg big 0 asset) by (eexists; split; reflexivity).
  assert (A1 : arg big 1 auth) by (eexists; split; reflexivity).
  assert (A2 : arg big 2 owner) by (eexists; split; reflexivity).
  assert (A3 : optional E big 3 None) by (eexists; split; reflexivity).
  assert (A4 : optional E big 4 None) by (eexists; split; reflexivity).
  assert (A5 : optional E big 5 (Some p)) by (split; [eexists; split; reflexivity|assumption]).
  assert (A6 : optional E big 6 (Some pk_zero)) by (split; [eexists; split; reflexivity|intro Q; apply Hz; symmetry; exact Q]).
  assert (S0 : signed big asset) by (exists (mkInfo asset true true); split; [left; reflexivity|split; reflexivity]).
  assert (W0 : writable big asset) by (exists (mkInfo asset true true); split; [left; reflexivity|split; reflexivity]).
  assert (FI : Forall ext_arg (inline m)) by (unfold inline; cbn [m m_exts]; constructor).
  assert (FA : forall ys, Forall (fun b => acceptable (bk_type b) (bk_data b)) (map of_ext ys) <-> Forall (fun x => acceptable (fst x) (snd x)) ys).
  { intro ys. rewrite !Forall_forall. split; intros F x Hx.
    - apply (F (of_ext x)). now apply in_map.
    - apply in_map_iff in Hx as (y & <- & Hy). exact (F y Hy). }
  assert (CG : (exists w', process E big w (ICreate m) = Ok w') <-> Forall (fun x => acceptable (fst x) (snd x)) xs).
  { rewrite (create_goes E big w m asset auth owner None None (Some p) (Some pk_zero) (repeat x00 168) (map of_ext xs) 0 [] A0 A1 A2 A3 A4 A5 A6 HO FI); try assumption.
    2: { right. cbn. lia. }
    2: { intros g Q. discriminate Q. }
    unfold inline. cbn [m m_exts m_standard inline_blks map]. rewrite app_nil_r, FA. split; [tauto|]. intro F.
    split; [assumption|]. split; [intro Q; contradiction|]. split; [intros _; split; [apply (Q5 NE)|apply (open_zeros _ _ HO NE)]|]. split; [constructor|]. split; [constructor|]. split; [constructor|]. split; [assumption|].
    assert (TY : map bk_type (map of_ext xs) = map fst xs) by (rewrite map_map; apply map_ext; intros [t b]; reflexivity).
    split; [|intros g Q; discriminate Q]. split; [|split; [discriminate|]].
    - rewrite TY. split; [discriminate|contradiction].
    - intros _. rewrite ext_of_exts. now apply lookup_none. }
  rewrite <- CG. clear CG. unfold goes. split; intros [w' H]; exists w'.
  - apply invoke_iff in H as (pda & i & _ & _ & _ & I4 & I5 & I6 & _).
    apply instr_unambiguous in I5; [subst i; exact I6|split; [exact Hn|exact I]|assumption].
  - apply invoke_iff. exists asset, (ICreate m). split; [assumption|]. split; [apply BK|]. split; [now apply birth_granted|]. split; [split; [exact Hn|exact I]|]. split; [reflexivity|].
    split; [exact H|].
    destruct (create_effect E big w m w' asset _ _ _ (in_cpi_ok _ He) Hz A0 HO Hs1 FI H) as (au & ow & l' & hd' & _ & _ & _ & HL & HC & _ & _ & _ & _ & _ & _ & _ & _ & _ & _ & _ & _ & _ & _ & DG & _).
    assert (ED : forall k, k <> asset -> data (w' k) = data (w k)).
    { destruct DG as [(_ & _ & D)|(g & a & _ & _ & G1 & G2 & _)]; [exact D|]. exfalso. apply G2. destruct G1 as (x & G1 & <-). cbn in G1. apply Some_inj in G1. now subst x. }
    intros i _. destruct (pk_dec (ai_key i) asset) as [->|N]; [|rewrite (ED _ N); destruct (SB _ N) as [-> _]; now apply Hgr].
    rewrite D0. change (zlen []) with 0. apply layout_len in HL. rewrite HL.
    assert (CR : create_room (data (w asset)) 0 m = 0) by (unfold create_room; destruct (data (w asset)); reflexivity). rewrite CR.
    cbn [m inline m_exts inline_blks map] in HC. rewrite app_nil_r in HC.
    assert (SZ : sect_size l' = sect_size (map of_ext xs)).
    { clear - HC. induction HC as [|b b' l l' H _ IH]; [reflexivity|]. cbn [sect_size fold_right] in *. destruct (created_size _ _ _ H) as [-> _]. lia. }
    assert (SP : sect_size (map of_ext xs) = space xs).
    { clear. induction xs as [|[t b] ys IH]; [reflexivity|]. cbn [map sect_size fold_right space] in *. unfold of_ext at 1. cbn [fst snd]. rewrite blk_of_size, IH. unfold pad8. lia. }
    rewrite SZ, SP. change (zlen (repeat x00 (Z.to_nat 0))) with 0. lia.
Qed.
End Feed.

(** ** Create *)
Lemma mention_at infos i k : at_pos infos i k -> mentions infos k.
Proof. intros (a & H & E). exists a. split; [now apply nth_error_In in H|exact E]. Qed.
Lemma consent_iff e me infos w m auth coll t : ba_auth t = auth -> ba_collection t = coll ->
  (exists s, authority_must_sign e me infos w m coll = Ok s /\ negb s || is_signer infos auth = true) <-> consent (e_prog e) me (e_cpa e) infos w t m.
Proof.
  intros <- <-. unfold authority_must_sign, consent.
  assert (D : (exists s, Ok true = Ok s /\ negb s || is_signer infos (ba_auth t) = true) <-> signs infos (ba_auth t)).
  { rewrite <- signs_iff. split; [intros (s & Q & H); apply Ok_inj in Q; now subst s|]. intro H. exists true. auto. }
  destruct (mt_collection m) as [[[|] key]|]; [|exact D|exact D]. clear D. change (asset_seeds key) with (s_asset ++ pk_bytes key). split.
  - intros (s & H & _). destruct (find_address e (s_asset ++ pk_bytes key) me 255) as [[k n]|] eqn:F; [|discriminate].
    apply bind_ok in H as (cc & Hc & H). apply require_ok in H as [E1 H]. apply require_ok in H as [E2 H]. apply require_ok in H as [E3 _].
    apply pk_eqb_eq in E1, E2. subst cc. apply andb_true_iff in E3 as [_ E3]. apply beqb_eq in E3. destruct (ba_collection t) as [k'|]; [|discriminate]. apply Ok_inj in Hc. subst k'.
    exists k, n. split; [reflexivity|]. split; [now apply find_iff|]. split; [assumption|exact E3].
  - intros (c & n & E1 & E2 & E3 & E4). apply find_iff in E2. rewrite E2, E1. exists false. split; [|reflexivity]. cbn [ok_or bind]. rewrite pk_eqb_refl. cbn [require]. rewrite E3, pk_eqb_refl. cbn [require].
    change (byte_at (data (w c)) 0) with (nth 0 (data (w c)) x00). rewrite E4. destruct (data (w c)); [discriminate|]. reflexivity.
Qed.
Section Birth.
Variables (b : benv) (e : env) (me : pubkey) (infos : list ainfo) (w : world) (t : birth_accounts) (c : bool).
Hypotheses (He : env_ok e) (Hz : e_prog e <> pk_zero) (M : rent_mono e) (Hm : me <> e_prog e) (Hm0 : me <> pk_zero) (Hs : sized w) (Hl : lam_ok w) (TM : tm_ok b (e_prog e) me).
Hypotheses (NM : birth_names me infos t) (D0 : data (w (ba_asset t)) = []) (PW : wallet w (ba_payer t)).
Hypotheses (Np : ba_payer t <> e_prog e) (Npa : ba_payer t <> ba_asset t) (Npv : ba_payer t <> ba_vault t).
Hypotheses (Pl1 : plain_at e w (ba_auth t)) (Pl2 : plain_at e w (e_prog e)) (Pl3 : plain_at e w pk_zero).

Lemma birth_tail m bump abump w1 w2 :
  be_meta b (data (w (ba_metadata t))) = Some m -> ba_vault t <> ba_asset t -> mentions infos (ba_vault t) -> mentions infos (ba_auth t) ->
  e_cpa e (s_asset ++ pk_bytes (ba_mint t)) abump (pk_bytes me) = Some (ba_asset t) ->
  sys_create (as_prog e me) [mkInfo (ba_payer t) true true; mkInfo (ba_vault t) true true] w (ba_payer t) (ba_vault t) (e_rent e 36) 36 = Ok w1 ->
  set_data (as_prog e me) infos w1 (ba_vault t) ([x01; x00; bump] ++ pk_bytes (ba_mint t) ++ [abump]) = Ok w2 ->
  goes (w3 <- allocate_each e me infos w w2 (ba_asset t) (ba_payer t) (ba_sys t) (s_asset ++ pk_bytes (ba_mint t)) abump (bridged_exts c m) ;;
        invoke e me infos w w3 (birth_metas e (ba_asset t) (ba_auth t) (ba_vault t) (ba_payer t) (ba_sys t))
          (write_instr (ICreate (mkMetaInput (mt_name m) NonFungible true None))) (s_asset ++ pk_bytes (ba_mint t)) abump) <->
  ba_sys t = pk_zero /\ vacant w (ba_asset t) /\ backing e infos (ba_asset t) (ba_payer t) /\ sound_terms c m /\
  birth_price e c m <= lamports (w (ba_payer t)).
Proof.
  intros Bm Nva MV MA CPa H1 H2.
  set (asset := ba_asset t) in *. set (p := ba_payer t) in *. set (vault := ba_vault t) in *. set (auth := ba_auth t) in *. set (seeds := s_asset ++ pk_bytes (ba_mint t)) in *.
  pose proof (bridged_small _ _ _ _ _ c TM Bm) as SM. pose proof (bridged_space _ _ _ _ _ c TM Bm) as SP. pose proof (bridged_nodup c m) as ND.
  destruct (proj2 TM _ _ Bm) as (T1 & T2 & _ & _ & T3 & _). rewrite bridged_exts_spec by exact T3.
  rewrite <- (bridged_acceptable _ _ _ _ _ c TM Bm).
  pose proof (sys_create_psteps (as_prog e me) _ _ _ _ _ _ _ (He 36) Hm0 H1) as PS.
  assert (MON : lamports (w1 p) = lamports (w p) - e_rent e 36 /\ forall k, k <> p -> k <> vault -> lamports (w1 k) = lamports (w k)).
  { unfold sys_create in H1. apply require_ok in H1 as [_ H1]. apply require_ok in H1 as [_ H1]. apply require_ok in H1 as [_ H1]. cbn zeta in H1.
    apply transfer_money in H1 as (_ & E2 & E3); [|exact Npv]. rewrite upd_other in E2 by exact Npv. split; [exact E2|]. intros k K1 K2. rewrite (E3 k K1 K2). rewrite upd_other by exact K2. reflexivity. }
  destruct MON as [MP MO].
  apply sys_create_world in H1 as (C1 & C2 & C3 & _). cbn [as_prog e_prog] in C3.
  assert (S1 : sized w1) by (eapply psteps_sized; eauto). assert (L1 : lam_ok w1) by (eapply psteps_lam_ok; eauto).
  assert (S2 : sized w2) by (eapply set_data_sized; eauto). assert (L2 : lam_ok w2) by (eapply set_data_lam_ok; eauto).
  assert (F2 : forall k, k <> vault -> acct_owner (w2 k) = acct_owner (w k) /\ data (w2 k) = data (w k)).
  { intros k Nk. rewrite (set_data_other _ _ _ _ _ _ _ H2 Nk). destruct (C2 k Nk). auto. }
  assert (F3 : acct_owner (w2 vault) = me /\ data (w2 vault) = [x01; x00; bump] ++ pk_bytes (ba_mint t) ++ [abump]).
  { destruct (set_data_ok _ _ _ _ _ _ H2) as [[Q ->]|(_ & _ & _ & _ & ->)]; [split; [exact C3|now rewrite Q]|]. rewrite upd_same. split; [exact C3|reflexivity]. }
  destruct F3 as [F3 F4]. assert (Nav : asset <> vault) by congruence. destruct (F2 asset Nav) as [F5 F6]. destruct (F2 p Npv) as [F7 F8].
  assert (MP2 : lamports (w2 p) = lamports (w p) - e_rent e 36) by (rewrite (set_data_lam _ _ _ _ _ _ p H2); exact MP).
  assert (MO2 : lamports (w2 asset) = lamports (w asset)) by (rewrite (set_data_lam _ _ _ _ _ _ asset H2); apply MO; congruence).
  pose proof PW as (P1 & P2 & P3). fold p in P1, P2, P3. pose proof (He 36) as R36. set (T := lamports (w2 p)) in *.
  set (xs := bridged_payloads c m) in *. set (big := birth_metas e asset auth vault p pk_zero) in *.
  assert (NX : xs <> []) by (unfold xs, bridged_payloads; discriminate).
  assert (PA : plain_accounts (in_cpi e) big w2).
  { intros i Hi. change (passed big) with big in Hi. unfold big, birth_metas, absent in Hi. cbn [In] in Hi.
    assert (PG : forall k, plain_at e w k -> acct_owner (w2 k) = e_prog (in_cpi e) -> data (w2 k) = [] \/ (168 <= length (data (w2 k)))%nat).
    { intros k Q O. cbn [in_cpi e_prog] in O. destruct (pk_dec k vault) as [->|N]; [congruence|]. destruct (F2 k N) as [G1 G2]. rewrite G1 in O. rewrite G2. exact (Q O). }
    destruct Hi as [<-|[<-|[<-|[<-|[<-|[<-|[<-|[]]]]]]]]; cbn [ai_key]; try (apply PG; assumption).
    - intros _. left. now rewrite F6.
    - intro O. cbn [in_cpi e_prog] in O. congruence.
    - intros _. left. now rewrite F8. }
  assert (XS : Forall (fun x => fst x <> XNone /\ zlen (snd x) <= 100000) xs) by (eapply Forall_impl; [|exact SM]; cbn; tauto).
  assert (NMg : ~ In XManager (map fst xs) /\ ~ In XProxy (map fst xs)).
  { split; intro Q; apply in_map_iff in Q as (y & Q & Hy); rewrite Forall_forall in SM; destruct (SM y Hy) as (_ & Q2 & Q3 & _); contradiction. }
  assert (HO : open_account (data (w2 asset)) (repeat x00 168) [] 0) by (left; repeat split; congruence).
  assert (GR : forall k, k <> asset -> zlen (data (w2 k)) <= zlen (data (w k)) + 10240).
  { intros k _. destruct (pk_dec k vault) as [->|N]; [|destruct (F2 k N) as [_ ->]; lia]. rewrite F4. pose proof (zlen_nonneg (data (w vault))). rewrite !zlen_app.
    change (zlen [x01; x00; bump]) with 3. change (zlen [abump]) with 1. unfold zlen at 1. rewrite pk_length. lia. }
  assert (ST : vacant w asset -> stage (in_cpi e) big w2 asset p T w2).
  { intros (_ & V1 & V2). apply stage_start; try assumption; congruence. }
  assert (HTT : T < 18446744073709551616) by (unfold T; lia).
  assert (RS : birth_price e c m <= lamports (w p) <-> e_rent e (168 + space xs) <= T) by (unfold birth_price; fold xs; unfold T; lia).
  rewrite RS. rewrite goes_bind. split.
  - intros (w3 & A & G).
    assert (FIRST : ba_sys t = pk_zero /\ vacant w asset /\ backing e infos asset p).
    { destruct xs as [|[tx bx] xr]; [contradiction|]. cbn [map allocate_each fst snd] in A. apply bind_ok in A as (wx & A & _).
      apply invoke_iff in A as (pda & i & I1 & I2 & I3 & I4 & I5 & I6 & _). apply Forall_cons_iff in XS as [[Ht Hb] _]. cbn [fst snd] in *.
      apply instr_unambiguous in I5; [subst i|apply ext_ok_of; assumption|assumption].
      assert (pda = asset) by congruence. subst pda.
      apply Forall_cons_iff in I3 as [G1 I3]. apply Forall_cons_iff in I3 as [G2 I3]. apply Forall_cons_iff in I3 as [G3 _]. apply granted_iff in G1 as (_ & _ & G1), G2 as (_ & G2 & G4), G3 as (G3 & _).
      cbn [ai_key ai_signer ai_writable] in *.
      assert (AA : forall os, optional (in_cpi e) (alloc_metas asset p (ba_sys t)) 2 os -> os = Some pk_zero /\ vacant w asset).
      { intros os O2. assert (A0 : arg (alloc_metas asset p (ba_sys t)) 0 asset) by (eexists; split; reflexivity).
        assert (O1 : optional (in_cpi e) (alloc_metas asset p (ba_sys t)) 1 (Some p)) by (split; [eexists; split; reflexivity|exact Np]).
        assert (W0 : writable (alloc_metas asset p (ba_sys t)) asset) by (exists (mkInfo asset true true); split; [left; reflexivity|split; reflexivity]).
        pose proof I6 as I7. apply process_dispatch in I7. cbn [dispatch] in I7. unfold process_allocate in I7. change (firstn MAX_ACCOUNTS (alloc_metas asset p (ba_sys t))) with (passed (alloc_metas asset p (ba_sys t))) in I7. rewrite (optional_acct _ _ _ _ O1), (optional_acct _ _ _ _ O2) in I7.
        apply acct_arg in A0. rewrite A0 in I7. cbn [bind] in I7.
        pose proof (do_alloc_goes (in_cpi e) (alloc_metas asset p (ba_sys t)) w2 w2 asset (Some p) os (ext_of tx bx) (repeat x00 168) [] 0 HO S2 W0 (ext_arg_of _ _ Ht Hb)) as DG.
        destruct (proj1 DG (ex_intro _ wx I7)) as (SG & _ & _ & _ & OG). assert (DD : data (w2 asset) = []) by congruence. rewrite DD in OG. change (zlen [] =? 0) with true in OG. cbv iota in OG.
        apply (open_goes (in_cpi e) _ _ _ _ _ _ DD W0 SG (in_cpi_ok _ He) Hz) in OG.
        destruct OG as (V1 & V2 & _ & _ & V3 & _). split; [exact V3|]. split; [exact D0|]. split; congruence. }
      destruct (pk_dec (ba_sys t) (e_prog e)) as [Q|Q].
      - destruct (AA None) as [X _]; [rewrite Q; eexists; split; reflexivity|discriminate X].
      - destruct (AA (Some (ba_sys t))) as [X V]; [split; [eexists; split; reflexivity|exact Q]|]. apply Some_inj in X. split; [exact X|]. split; [exact V|].
        split; [exact I2|]. split; [auto|]. split; [destruct (G2 eq_refl) as [Y|Y]; [exact Y|contradiction]|]. split; [auto|]. rewrite <- X. exact G3. }
    destruct FIRST as (Y1 & Y2 & Y3). rewrite Y1 in A, G. split; [exact Y1|]. split; [exact Y2|]. split; [exact Y3|].
    destruct (feed_effect e me infos w w2 asset p auth vault seeds abump T He Hz M Np xs w2 w3 [] (ST Y2) XS HO ltac:(cbn [sect_size fold_right]; lia) A) as (HS3 & O3 & R3).
    destruct (R3 NX) as [NE3 R4]. cbn [app] in O3. split; [|exact R4].
    apply (birth_goes0 e me infos w w2 asset p auth vault seeds abump T He Hz Np CPa D0 GR xs w3 (mt_name m) Y3 MA MV T1 HS3 O3 NE3 SP (proj1 NMg) (proj2 NMg)). exact G.
  - intros (Y1 & Y2 & Y3 & FA & R). rewrite Y1.
    destruct (feed_goes e me infos w w2 asset p auth vault seeds abump T He Hz M HTT Np Npa CPa D0 GR Y3 xs w2 [] (ST Y2) XS HO ltac:(cbn [sect_size fold_right]; lia) ltac:(reflexivity) ND R) as [w3 A].
    exists w3. split; [exact A|].
    destruct (feed_effect e me infos w w2 asset p auth vault seeds abump T He Hz M Np xs w2 w3 [] (ST Y2) XS HO ltac:(cbn [sect_size fold_right]; lia) A) as (HS3 & O3 & R3).
    destruct (R3 NX) as [NE3 _]. cbn [app] in O3.
    apply (birth_goes0 e me infos w w2 asset p auth vault seeds abump T He Hz Np CPa D0 GR xs w3 (mt_name m) Y3 MA MV T1 HS3 O3 NE3 SP (proj1 NMg) (proj2 NMg)). exact FA.
Qed.

Lemma birth_goes : (exists w', bridge_create b e me infos w c = Ok w') <-> can_be_born b e me infos w t c.
Proof.
  change (goes (bridge_create b e me infos w c) <-> can_be_born b e me infos w t c).
  destruct NM as (N0 & N1 & N2 & N3 & N4 & N5 & N6 & N7 & N8). unfold bridge_create, can_be_born.
  assert (LN : 9 <=? zlen infos = true) by (unfold zlen; lia). rewrite LN. cbn [require].
  rewrite (at_acct _ _ _ N0), (at_acct _ _ _ N1), (at_acct _ _ _ N2), (at_acct _ _ _ N3), (at_acct _ _ _ N4), (at_opt _ _ _ _ N5), (at_acct _ _ _ N6), (at_acct _ _ _ N7). cbn [bind].
  assert (SPL : existsb (pk_eqb (acct_owner (w (ba_mint t)))) (be_spl b) = true <-> In (acct_owner (w (ba_mint t))) (be_spl b)).
  { rewrite existsb_exists. split; [intros (x & X & E); apply pk_eqb_eq in E; now subst x|]. intro X. eexists. split; [exact X|apply pk_eqb_refl]. }
  rewrite !goes_require, SPL, pk_eqb_eq. apply and_iff_compat_l. apply and_iff_compat_l. rewrite goes_bind.
  assert (BM : forall m, ok_or (be_meta b (data (w (ba_metadata t)))) EInvalidAccountData = Ok m <-> be_meta b (data (w (ba_metadata t))) = Some m).
  { intro m. destruct (be_meta b (data (w (ba_metadata t)))); cbn [ok_or]; split; intro Q; try discriminate; [apply Ok_inj in Q|apply Some_inj in Q]; congruence. }
  assert (EX : forall P Q : tm_meta -> Prop, (forall m, be_meta b (data (w (ba_metadata t))) = Some m -> P m <-> Q m) ->
     (exists m, ok_or (be_meta b (data (w (ba_metadata t)))) EInvalidAccountData = Ok m /\ P m) <-> exists m, be_meta b (data (w (ba_metadata t))) = Some m /\ Q m).
  { intros P Q PQ. split; intros (m & X & Y); exists m; [apply BM in X|]; (split; [now apply BM|]) || (split; [assumption|]); now apply (PQ m X). }
  apply EX. clear EX BM. intros m Bm.
  assert (NF : is_nft (mt_standard m) = true <-> mt_standard m = Some TmNonFungible \/ mt_standard m = Some TmProgrammable).
  { destruct (mt_standard m) as [[| |]|]; cbn [is_nft]; split; try discriminate; auto; intros [Q|Q]; discriminate. }
  assert (BE : forall x y, bytes_eqb x y = true <-> x = y) by (intros; apply bytes_eqb_eq).
  rewrite !goes_require, NF, !BE. apply and_iff_compat_l. apply and_iff_compat_l. apply and_iff_compat_l.
  rewrite goes_bind. rewrite <- (consent_iff e me infos w m (ba_auth t) (ba_collection t) t eq_refl eq_refl).
  change (vault_seeds (ba_mint t)) with (s_vault ++ pk_bytes (ba_mint t)). change (asset_seeds (ba_mint t)) with (s_asset ++ pk_bytes (ba_mint t)).
  assert (TAIL : goes (match find_address e (s_vault ++ pk_bytes (ba_mint t)) me 255 with
         | None => Panic
         | Some (k, bump) =>
             require (pk_eqb k (ba_vault t)) EInvalidSeeds
             (require (zlen (data (w (ba_vault t))) =? 0) EAlreadyInitialized
              (let metas := [mkInfo (ba_payer t) true true; mkInfo (ba_vault t) true true] in
               require (listed infos pk_zero && forallb (granted infos (ba_vault t)) metas) ECpi
               (w1 <- sys_create (as_prog e me) metas w (ba_payer t) (ba_vault t) (e_rent e VAULT_LEN) VAULT_LEN ;;
                match find_address e (s_asset ++ pk_bytes (ba_mint t)) me 255 with
                | None => Panic
                | Some (a, abump) =>
                    require (pk_eqb a (ba_asset t)) EInvalidSeeds
                    (w2 <- set_data (as_prog e me) infos w1 (ba_vault t)
                             ([V_DISC; V_IDLE; bump] ++ pk_bytes (ba_mint t) ++ [abump]) ;;
                     w3 <- allocate_each e me infos w w2 (ba_asset t) (ba_payer t) (ba_sys t) (s_asset ++ pk_bytes (ba_mint t)) abump
                             (bridged_exts c m) ;;
                     invoke e me infos w w3 (birth_metas e (ba_asset t) (ba_auth t) (ba_vault t) (ba_payer t) (ba_sys t))
                       (write_instr (ICreate (mkMetaInput (mt_name m) NonFungible true None)))
                       (s_asset ++ pk_bytes (ba_mint t)) abump)
                end)))
         end) <-> birth_privileges e infos t /\
    (exists bump, canonical (e_cpa e) me (s_vault ++ pk_bytes (ba_mint t)) (ba_vault t) bump) /\
    (exists abump, canonical (e_cpa e) me (s_asset ++ pk_bytes (ba_mint t)) (ba_asset t) abump) /\
    ba_vault t <> ba_asset t /\ vacant w (ba_vault t) /\ vacant w (ba_asset t) /\
    sound_terms c m /\ birth_price e c m <= lamports (w (ba_payer t))).
  { pose proof (mention_at _ _ _ N1) as MV. pose proof (mention_at _ _ _ N4) as MA. pose proof (mention_at _ _ _ N7) as MS.
    change VAULT_LEN with 36. cbv zeta. split.
    - intro G. destruct (find_address e (s_vault ++ pk_bytes (ba_mint t)) me 255) as [[k bump]|] eqn:Fv; [|destruct G; discriminate].
      apply goes_require in G as [E1 G]. apply pk_eqb_eq in E1. subst k. apply goes_require in G as [_ G]. apply goes_require in G as [LG G]. apply andb_true_iff in LG as [_ LG].
      cbn [forallb] in LG. rewrite !andb_true_iff, !granted_iff in LG. destruct LG as ((_ & GS & GW) & (_ & _ & GV) & _). cbn [ai_key ai_signer ai_writable] in *.
      apply goes_bind in G as (w1 & H1 & G). pose proof (proj1 (vault_made e me w (ba_payer t) (ba_vault t) Npv PW He) (ex_intro _ w1 H1)) as [VV _].
      destruct (find_address e (s_asset ++ pk_bytes (ba_mint t)) me 255) as [[a abump]|] eqn:Fa; [|destruct G; discriminate].
      apply goes_require in G as [E2 G]. apply pk_eqb_eq in E2. subst a. apply goes_bind in G as (w2 & H2 & G).
      apply find_iff in Fv, Fa. pose proof (proj1 Fa) as CPa.
      assert (Nva : ba_vault t <> ba_asset t).
      { intro Q. apply goes_bind in G as (w3 & A & _). destruct (proj2 TM _ _ Bm) as (_ & _ & _ & _ & T3 & _). rewrite bridged_exts_spec in A by exact T3.
        unfold bridged_payloads in A. cbn [app map allocate_each fst snd] in A. apply bind_ok in A as (wx & A & _). apply invoke_iff in A as (pda & i & _ & _ & _ & I4 & I5 & I6 & _).
        destruct i; cbn [write_instr] in I5; try discriminate I5. apply sys_create_world in H1 as (_ & _ & C3 & _).
        assert (F3 : acct_owner (w2 (ba_vault t)) = me /\ data (w2 (ba_vault t)) = [x01; x00; bump] ++ pk_bytes (ba_mint t) ++ [abump]).
        { destruct (set_data_ok _ _ _ _ _ _ H2) as [[R ->]|(_ & _ & _ & _ & ->)]; [split; [exact C3|symmetry; exact R]|]. rewrite upd_same. split; [exact C3|reflexivity]. }
        destruct F3 as [F3 F4]. revert I6. apply allocate_foreign with (asset := ba_asset t).
        - eexists; split; reflexivity.
        - rewrite <- Q, F4. discriminate.
        - cbn [in_cpi e_prog]. rewrite <- Q, F3. exact Hm. }
      apply (birth_tail m bump abump w1 w2 Bm Nva MV MA CPa H1 H2) in G as (Y1 & Y2 & (Y3 & Y4 & Y5 & Y6 & _) & Y7 & Y8).
      split; [repeat (split; [auto; fail|]); auto|]. split; [eauto|]. split; [eauto|]. auto.
    - intros ((Y1 & Y2 & Y3 & Y4 & Y5 & Y6) & (bump & Fv) & (abump & Fa) & Nva & VV & VA & ST & PR). pose proof (proj1 Fa) as CPa.
      apply find_iff in Fv, Fa. rewrite Fv. rewrite !goes_require. rewrite pk_eqb_refl. split; [reflexivity|]. split; [destruct VV as [-> _]; reflexivity|].
      split.
      { apply andb_true_iff. split; [apply listed_iff; rewrite <- Y1; exact MS|]. cbn [forallb]. rewrite !andb_true_iff, !granted_iff. cbn [ai_key ai_signer ai_writable].
        split; [split; [exact (mention_at _ _ _ N6)|auto]|]. split; [|reflexivity]. split; [exact MV|auto]. }
      rewrite goes_bind. pose proof (He (168 + space (bridged_payloads c m))) as R0. assert (PR36 : e_rent e 36 <= lamports (w (ba_payer t))) by (unfold birth_price in PR; lia).
      destruct (proj2 (vault_made e me w (ba_payer t) (ba_vault t) Npv PW He) (conj VV PR36)) as [w1 H1]. exists w1. split; [exact H1|].
      rewrite Fa, goes_require, pk_eqb_refl. split; [reflexivity|]. rewrite goes_bind.
      assert (G2 : goes (set_data (as_prog e me) infos w1 (ba_vault t) ([V_DISC; V_IDLE; bump] ++ pk_bytes (ba_mint t) ++ [abump]))).
      { apply sys_create_world in H1 as (_ & _ & C3 & _). cbn [as_prog e_prog] in C3. unfold set_data. destruct (bytes_eqb _ _); [apply goes_ok|]. rewrite goes_require.
        split; [|apply goes_ok]. apply writes_iff in Y5. rewrite Y5, C3. cbn [as_prog e_prog]. rewrite pk_eqb_refl. cbn [andb]. rewrite !zlen_app.
        change (zlen [V_DISC; V_IDLE; bump]) with 3. change (zlen [abump]) with 1. unfold zlen. rewrite pk_length. reflexivity. }
      destruct G2 as [w2 H2]. exists w2. split; [exact H2|].
      apply (birth_tail m bump abump w1 w2 Bm Nva MV MA CPa H1 H2). split; [exact Y1|]. split; [exact VA|]. split; [|split; [exact ST|exact PR]].
      split; [exact Y2|]. split; [exact Y6|]. split; [exact Y3|]. split; [exact Y4|]. rewrite <- Y1. exact MS. }
  split.
  - intros (s & A & G). apply goes_require in G as [G1 G]. split; [exists s; auto|]. now apply TAIL.
  - intros ((s & A & G1) & G). exists s. split; [exact A|]. apply goes_require. split; [exact G1|]. now apply TAIL.
Qed.
End Birth.

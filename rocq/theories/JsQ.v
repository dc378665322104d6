(** Lemmas: what the JavaScript client's helpers cannot do. *)
From Verif Require Import Base State Layout Constr Ext World Proc Borsh Proxy Client Js BaseL Spec SpecB SpecH SpecI SpecJ SpecK WorldL LayoutL LayoutM FrameL HeadL ProcSteps AllocM AllocC CreateL BuildL UpdateL UpdateM UpdateT StepH CodecL BorshL ClientL ProxyL ProxyM JsL JsP.
From Coq Require Import Strings.Byte.

(** ** Small updates are one instruction *)
Lemma js_update_inline e c buffer a b ixs w : js_payload (ju_ext a) = Some b -> (length b <= js_default DEFAULT_CHUNK_SIZE (ju_chunk a))%nat ->
  opt_valid utf8_text (ju_name a) -> js_update_with_buffer e c buffer a = Some ixs ->
  run_ixs e ixs w = process e (js_update_metas (e_prog e) c (ju_asset a) (ju_auth a) None (ju_group a) (ju_payer a) None) w
    (IUpdate (mkUpdInput (ju_name a) (ju_mutable a) (Some (mkExtInput (jext_type (ju_ext a)) (zlen b) (Some b))))).
Proof.
  intros HP Hn HU H. unfold js_update_with_buffer in H. rewrite HP in H. cbn zeta in H. apply Nat.ltb_ge in Hn. rewrite Hn in H.
  match type of H with jall [jix ?I ?J] = _ => change (jall (map jixj [(I, J)]) = Some ixs) in H end.
  apply jall_jobs in H as [K ->]; [|constructor; [exact HU|constructor]].
  rewrite run_jobs by assumption. cbn [at_env map fst snd steps]. destruct (process _ _ _ _); reflexivity.
Qed.

(** ** Royalties never pass through a buffer *)
Lemma buffer_royalties e infos w a w' asset l bk : env_ok e -> e_prog e <> pk_zero -> sized w ->
  arg infos 0 asset -> arg infos 2 bk -> bk <> e_prog e -> well_formed (data (w asset)) l ->
  (forall x, u_ext a = Some x -> ext_arg x) -> le32 (data (w bk)) 168 = ext_code XRoyalties ->
  process e infos w (IUpdate a) <> Ok w'.
Proof.
  intros He Hp Hs A0 A2 Hb HW Hx Hc H.
  destruct (update_buffer _ _ _ _ _ _ _ _ He Hp Hs A0 A2 Hb HW Hx H)
    as (auth & t & b & l' & _ & _ & _ & _ & _ & _ & _ & _ & Z1 & _ & C & _ & Ln & _ & _ & _ & (inp & S1 & _) & _).
  assert (t = XRoyalties) by (apply code_inj; congruence). subst t.
  assert (V : inp = sub (data (w bk)) 168 (length b) /\ (8 <= length inp)%nat /\ royalty_points inp <= 10000).
  { unfold SpecB.stored in S1. destruct (lookup _ _) as [c|].
    - destruct S1 as ((_ & E & _) & V & _). cbn [valid_payload] in V. split; [now apply E|assumption].
    - destruct S1 as (_ & _ & (_ & E & _) & V & _). cbn [valid_payload] in V. split; [now apply E|assumption]. }
  destruct V as (-> & L8 & V). unfold royalty_points in V.
  assert (E8 : sub (sub (data (w bk)) 168 (length b)) 0 8 = fld (data (w bk)) 168 4 ++ fld (data (w bk)) 172 4).
  { assert (8 <= length b)%nat by (unfold sub in L8; rewrite firstn_length in L8; lia).
    rewrite !sub_fld. rewrite fld_fld by lia. rewrite <- fld_cat by lia. reflexivity. }
  rewrite E8, le_dec_app in V. change (le_dec (fld (data (w bk)) 168 4)) with (le32 (data (w bk)) 168) in V.
  change (le_dec (fld (data (w bk)) 172 4)) with (le32 (data (w bk)) 172) in V.
  rewrite zlen_fld in V by lia. rewrite C, Ln in V. unfold zlen in V.
  assert (8 <= length b)%nat by (unfold sub in L8; rewrite firstn_length in L8; lia).
  change (ext_code XRoyalties) with 7 in V. change (256 ^ 4) with 4294967296 in V. lia.
Qed.
Lemma js_update_royalties e c buffer a b bp f ixs w w' l : env_ok e -> e_prog e <> pk_zero -> sized w -> lam_ok w ->
  data (w buffer) = [] -> buffer <> e_prog e -> well_formed (data (w (ju_asset a))) l ->
  ju_ext a = JRoyalties bp f -> js_payload (ju_ext a) = Some b -> 184 + zlen b <= 10485760 -> opt_valid utf8_text (ju_name a) ->
  (0 < js_default DEFAULT_CHUNK_SIZE (ju_chunk a) < length b)%nat ->
  js_update_with_buffer e c buffer a = Some ixs -> run_ixs e ixs w <> Ok w'.
Proof.
  intros He Hp Hs Hl Hd Hb HW EX HP Hsz HU [Hn0 Hn] HM H. rewrite (js_update_jobs _ _ _ _ _ _ _ HP Hn HU HM) in H.
  rewrite at_env_app, steps_app in H. apply bind_ok in H as (w1 & H1 & H).
  match type of H1 with context[split_jobs ?ia ?iw] => assert (U0 : arg ia 0 buffer) by (eexists; split; reflexivity); assert (U1 : arg iw 0 buffer) by (eexists; split; reflexivity) end.
  assert (U2 : open_account (data (w buffer)) (repeat x00 168) [] 0) by (left; auto).
  assert (Ht : jext_type (ju_ext a) <> XNone) by (rewrite EX; discriminate).
  destruct (split_effect _ _ _ _ buffer _ _ _ _ (repeat x00 168) [] (conj Hn0 Hn) He Hp Hs Hl Ht U0 U1 U2 ltac:(cbn [sect_size]; lia) H1)
    as (b1 & K & _ & (hd & HL) & Hs1 & Hl1 & _ & F1).
  cbn [app] in HL. apply one_block in HL as (T1 & _ & _). rewrite EX in T1. cbn [jext_type] in T1.
  cbn [at_env map fst snd steps] in H. apply bind_ok in H as (w2 & H2 & H).
  assert (N : buffer <> ju_asset a).
  { intros ->. destruct HW as (hd0 & tl0 & E & Q & _). rewrite Hd in E. apply (f_equal zlen) in E. rewrite !zlen_app in E. pose proof (zlen_nonneg tl0). pose proof (zlen_nonneg (enc_sect 168 l)). change (zlen []) with 0 in E. lia. }
  apply (buffer_royalties e _ w1 _ w2 (ju_asset a) l buffer He Hp Hs1) in H2; [exact H2| | |exact Hb| | |exact T1].
  - eexists; split; reflexivity.
  - eexists; split; reflexivity.
  - rewrite F1 by congruence. exact HW.
  - discriminate.
Qed.

(** ** Without a payer nothing can be opened *)
Lemma allocate_no_payer e infos w x w' asset : arg infos 0 asset -> arg infos 1 (e_prog e) -> data (w asset) = [] ->
  process e infos w (IAllocate x) <> Ok w'.
Proof.
  intros A0 A1 Hd H. apply process_dispatch in H. cbn [dispatch] in H. unfold process_allocate in H.
  apply acct_arg in A0. apply opt_acct_none in A1. change (firstn MAX_ACCOUNTS infos) with (passed infos) in H. rewrite A0, A1 in H. cbn [bind] in H.
  apply bind_ok in H as (sysp & _ & H). unfold do_allocate in H. apply require_ok in H as [_ H]. cbn zeta in H. rewrite Hd in H. cbn [zlen length Z.of_nat Z.eqb bind fst snd] in H.
  apply bind_ok in H as (bs & _ & H). unfold save_extension_data in H. cbn [negb] in H. apply bind_ok in H as (w1 & H & _). discriminate H.
Qed.
Lemma create_no_payer e infos w m w' asset : arg infos 0 asset -> arg infos 5 (e_prog e) -> data (w asset) = [] ->
  process e infos w (ICreate m) <> Ok w'.
Proof.
  intros A0 A1 Hd H. apply process_dispatch in H. cbn [dispatch] in H. unfold process_create in H.
  apply acct_arg in A0. apply opt_acct_none in A1. change (firstn MAX_ACCOUNTS infos) with (passed infos) in H. rewrite A0, A1 in H. cbn [bind] in H.
  do 4 (apply bind_ok in H as (? & _ & H)). apply bind_ok in H as (sysp & _ & H). apply require_ok in H as [_ H]. rewrite Hd in H. cbn [zlen length Z.of_nat Z.eqb] in H.
  apply bind_ok in H as (w1 & H & _). discriminate H.
Qed.
Lemma js_mint_no_payer e c a ps ixs w w' : jm_payer a = None -> data (w (jm_asset a)) = [] -> parts (jm_exts a) ps -> utf8_text (jm_name a) ->
  js_mint e c a = Some ixs -> run_ixs e ixs w <> Ok w'.
Proof.
  intros Hn Hd HP HU HM H. rewrite (js_mint_run _ _ _ _ _ _ HP HU HM) in H. rewrite Hn in H.
  destruct ps as [|[t b] ps].
  - unfold all_jobs in H; cbn [map concat app at_env map fst snd steps] in H. apply bind_ok in H as (w1 & H & _).
    eapply create_no_payer; [| |exact Hd|exact H]; [eexists; split; reflexivity|]. unfold jmint_create_metas. rewrite Hn. eexists; split; reflexivity.
  - unfold all_jobs in H. cbn [map concat fst snd] in H. unfold init_jobs at 1, split_jobs at 1 in H.
    destruct (Nat.ltb _ _); cbn [app at_env map fst snd steps] in H; apply bind_ok in H as (w1 & H & _);
      (eapply allocate_no_payer; [| |exact Hd|exact H]; eexists; split; reflexivity).
Qed.
Lemma js_update_no_payer e c buffer a b ixs w w' : ju_payer a = None -> data (w buffer) = [] -> js_payload (ju_ext a) = Some b ->
  (js_default DEFAULT_CHUNK_SIZE (ju_chunk a) < length b)%nat -> opt_valid utf8_text (ju_name a) ->
  js_update_with_buffer e c buffer a = Some ixs -> run_ixs e ixs w <> Ok w'.
Proof.
  intros Hn Hd HP Hc HU HM H. rewrite (js_update_jobs _ _ _ _ _ _ _ HP Hc HU HM) in H. rewrite Hn in H.
  unfold split_jobs in H. cbn [app at_env map fst snd steps] in H. apply bind_ok in H as (w1 & H & _).
  eapply allocate_no_payer; [| |exact Hd|exact H]; eexists; split; reflexivity.
Qed.

(** ** Through a proxy program *)
Lemma fetch_empty p : fetch_proxy [] <> Ok p.
Proof. vm_compute. discriminate. Qed.
Lemma js_proxied_chunks pe e me c buffer a b ixs w w' : data (w buffer) = [] -> js_payload (ju_ext a) = Some b ->
  (js_default DEFAULT_CHUNK_SIZE (ju_chunk a) < length b)%nat ->
  js_update_with_buffer_proxied e me c buffer a = Some ixs -> run_proxied pe e me ixs w <> Ok w'.
Proof.
  intros Hd HP Hc HM H. unfold js_update_with_buffer_proxied in HM. rewrite HP in HM. cbn zeta in HM. apply Nat.ltb_lt in Hc. rewrite Hc in HM.
  cbn [jall] in HM. destruct (jix _ _) as [[m d]|] eqn:E; [|discriminate]. destruct (jall _) as [r|]; [|discriminate].
  apply Some_inj in HM. subst ixs. cbn [run_proxied] in H. apply bind_ok in H as (w1 & H & _).
  unfold jix in E. destruct (js_instr _) as [d'|] eqn:J; [|discriminate]. injection E as <- <-.
  apply js_instr_iff in J as [K ->]; [|exact I]. rewrite proxy_forwards in H by (assumption || discriminate).
  unfold iface_process in H. destruct (write_instr _) as [|h t]; [discriminate|]. apply require_ok in H as [_ H].
  unfold js_allocate_metas in H. cbn [jmeta jsigner ai_key] in H. rewrite Hd in H. apply bind_ok in H as (p & H & _). exact (fetch_empty p H).
Qed.
Lemma js_proxied_inline pe e me c buffer a b ixs w w' l pb : env_ok e -> e_prog e <> pk_zero -> sized w ->
  well_formed (data (w (ju_asset a))) l -> lookup XProxy (ext_list l) = Some pb ->
  js_payload (ju_ext a) = Some b -> (length b <= js_default DEFAULT_CHUNK_SIZE (ju_chunk a))%nat -> opt_valid utf8_text (ju_name a) ->
  js_update_with_buffer_proxied e me c buffer a = Some ixs -> run_proxied pe e me ixs w = Ok w' ->
  well_formed (data (w' (ju_asset a))) l /\ header_updated (mkUpdInput (ju_name a) (ju_mutable a) None) (data (w (ju_asset a))) (data (w' (ju_asset a))).
Proof.
  intros He Hp Hs HW HX HP Hc HU HM H. unfold js_update_with_buffer_proxied in HM. rewrite HP in HM. cbn zeta in HM. apply Nat.ltb_ge in Hc. rewrite Hc in HM.
  cbn [jall] in HM. destruct (jix _ _) as [[m d]|] eqn:E; [|discriminate]. apply Some_inj in HM. subst ixs. cbn [run_proxied] in H. apply bind_ok in H as (w1 & H & Q). apply Ok_inj in Q. subst w1.
  unfold jix in E. destruct (js_instr _) as [d'|] eqn:J; [|discriminate]. injection E as <- <-.
  apply js_instr_iff in J as [K ->]; [|exact HU].
  eapply proxy_entry_update in H as (auth & _ & _ & _ & _ & _ & _ & Hu & W & _); try eassumption; [|eexists; split; reflexivity].
  split; [exact W|exact Hu].
Qed.
Lemma move_needs e infos w k r n w' : k <> r -> n <> 0 -> move_lamports e infos w k r n = Ok w' -> is_writable infos r = true.
Proof.
  intros N P H. unfold move_lamports in H. replace (n =? 0) with false in H by lia. replace (pk_eqb k r) with false in H by (symmetry; apply pk_eqb_neq; assumption).
  cbn [orb] in H. apply require_ok in H as [H _]. apply andb_true_iff in H as [H _]. now apply andb_true_iff in H as [_ H].
Qed.
Lemma burn_needs e infos w w' asset dest : arg infos 0 asset -> arg infos 2 dest -> dest <> e_prog e -> lamports (w asset) <> 0 ->
  process e infos w IBurn = Ok w' -> is_writable (passed infos) dest = true.
Proof.
  intros A0 A2 Nd Hl H. apply process_dispatch in H. cbn [dispatch] in H. unfold process_burn in H. change (firstn MAX_ACCOUNTS infos) with (passed infos) in H.
  apply acct_arg in A0. rewrite A0 in H. cbn [bind] in H. apply bind_ok in H as (signer & _ & H).
  rewrite (proj2 (opt_acct_some _ _ _ _) (conj A2 Nd)) in H. cbn [bind] in H. apply bind_ok in H as (group & _ & H).
  apply require_ok in H as [_ H]. apply require_ok in H as [_ H]. cbn zeta in H. apply require_ok in H as [_ H]. apply bind_ok in H as (al & _ & H). apply require_ok in H as [_ H].
  apply bind_ok in H as (w1 & H1 & H). apply bind_ok in H as (own & _ & H). apply bind_ok in H as (u & _ & H).
  assert (L1 : lamports (w1 asset) = lamports (w asset)).
  { destruct (nullable _); [|apply Ok_inj in H1; now subst]. apply bind_ok in H1 as (ga & _ & H1). apply require_ok in H1 as [_ H1]. apply require_ok in H1 as [_ H1].
    apply bind_ok in H1 as (r & _ & H1). destruct r as [[off b0]|]; [|discriminate]. apply bind_ok in H1 as (gr & _ & H1). apply require_ok in H1 as [_ H1]. exact (set_data_lam _ _ _ _ _ _ asset H1). }
  unfold close_account in H. apply require_ok in H as [N H]. apply guard_ok in H as [_ H]. apply bind_ok in H as (w2 & H & _).
  apply negb_true_iff in N. apply pk_eqb_neq in N. eapply move_needs; [exact N| |exact H]. rewrite L1. exact Hl.
Qed.
Lemma js_burn_proxied pe e me asset signer group w w' : me <> asset -> me <> signer -> group <> Some me -> me <> e_prog e -> lamports (w asset) <> 0 ->
  proxy_entry pe e me (js_proxied e (js_burn_metas me asset signer None group)) w (write_instr IBurn) <> Ok w'.
Proof.
  intros N1 N2 N3 N4 Hl H. rewrite proxy_forwards in H by (exact I || discriminate).
  unfold iface_process in H. destruct (write_instr IBurn) as [|h t] eqn:E; [discriminate|]. rewrite <- E in H. clear E. apply require_ok in H as [_ H].
  unfold js_burn_metas, js_proxied in H. cbn [app jmeta jpub jsigner ai_key ai_writable option_map] in H. apply bind_ok in H as (p & _ & H).
  unfold invoke in H. apply bind_ok in H as (pda & _ & H). apply require_ok in H as [_ H]. apply require_ok in H as [_ H]. apply bind_ok in H as (w1 & H & _).
  unfold Borsh.entry in H. rewrite instr_round in H by exact I.
  apply (burn_needs _ _ _ _ asset me) in H; [|eexists; split; reflexivity|eexists; split; reflexivity|exact N4|exact Hl].
  cbn [passed firstn MAX_ACCOUNTS is_writable existsb ai_key ai_writable] in H.
  replace (pk_eqb asset me) with false in H by (symmetry; apply pk_eqb_neq; congruence). replace (pk_eqb signer me) with false in H by (symmetry; apply pk_eqb_neq; congruence).
  rewrite !andb_false_r in H. cbn [andb orb] in H.
  destruct group as [g|]; cbn [option_map jmeta jpub ai_key ai_writable] in H; rewrite ?andb_false_r in H; cbn [orb] in H; [|discriminate].
  replace (pk_eqb g me) with false in H by (symmetry; apply pk_eqb_neq; congruence). discriminate H.
Qed.

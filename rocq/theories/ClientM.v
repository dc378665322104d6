(** Lemmas about the Rust client: sizes, macros, JSON payloads. *)
From Verif Require Import Base State Layout Constr Ext World Proc Borsh Client BaseL Spec SpecB SpecC SpecH SpecI SpecK WorldL LayoutL HeadL CreatorsL AllocC UpdateL ConstrL ReadsL CodecL BorshL ClientL.
From Coq Require Import Strings.Byte.

(** ** Transaction size *)
Lemma distinct_le l : zlen (distinct l) <= zlen l.
Proof.
  induction l as [|k l IH]; cbn [distinct]; [lia|]. destruct (existsb _ l); rewrite ?zlen_cons; lia.
Qed.
Lemma distinct_seen k l : In k l -> zlen (distinct (k :: l)) <= zlen l.
Proof.
  intro H. cbn [distinct]. assert (E : existsb (pk_eqb k) l = true) by (apply existsb_exists; exists k; split; [assumption|now apply pk_eqb_eq]).
  rewrite E. apply distinct_le.
Qed.
Lemma compact_small n : n < 128 -> compact n = 1.
Proof. intro H. unfold compact. destruct (n <? 128) eqn:E; [reflexivity|]. apply Z.ltb_ge in E. lia. Qed.
Lemma compact_mid n : n < 16384 -> compact n <= 2.
Proof. intro H. unfold compact. destruct (n <? 128); [lia|]. destruct (n <? 16384) eqn:E; [lia|]. apply Z.ltb_ge in E. lia. Qed.
Lemma tx_bound e p metas b nk ns : zlen (distinct (p :: e_prog e :: map ai_key metas)) <= nk -> zlen (distinct (p :: map ai_key (filter ai_signer metas))) <= ns ->
  nk < 128 -> ns < 128 -> zlen metas < 128 -> zlen b < 16384 ->
  tx_size e p (metas, b) <= 64 * ns + 32 * nk + zlen metas + zlen b + 42.
Proof.
  intros K S Hk Hs Hm Hb. unfold tx_size. rewrite (compact_small (zlen (distinct (p :: map _ _)))), (compact_small (zlen (distinct (p :: e_prog e :: _)))), (compact_small (zlen metas)) by lia.
  pose proof (compact_mid (zlen b) Hb). lia.
Qed.
Lemma allocate_bytes t n b : zlen (write_instr (IAllocate (mkExtInput t n (Some b)))) = 11 + zlen b.
Proof. unfold write_instr, write_ext_input, write_ext_type. cbn [x_type x_length x_data write_option]. unfold write_bytes, zlen. cbn [length app]. rewrite app_length, le_enc_length. cbn [length]. rewrite app_length, le_enc_length. lia. Qed.
Lemma write_data_bytes o b : zlen (write_instr (IWrite (mkDataInput o b))) = 6 + zlen b.
Proof. cbn [write_instr]. unfold write_data_input, write_bytes. cbn [w_bytes]. unfold zlen. cbn [length]. rewrite app_length, le_enc_length. lia. Qed.
Lemma create_bytes n s m : zlen (write_instr (ICreate (mkMetaInput n s m None))) = 8 + zlen n.
Proof. cbn [write_instr]. unfold write_metadata_input, write_bytes. cbn [m_name m_standard m_mutable m_exts write_option]. unfold zlen. cbn [length]. rewrite !app_length, le_enc_length. cbn [length]. lia. Qed.
Lemma mint_budget e a : zlen (mi_name a) <= 887 -> Forall (fun x => tx_size e (mint_payer a) x <= 1232) (mint e a).
Proof.
  intro Hn. pose proof (zlen_nonneg (mi_name a)).
  assert (K : forall (o : bytes), zlen o <= 931 -> tx_size e (mint_payer a) (mint_infos a, o) <= 1232).
  { intros o Ho. eapply Z.le_trans; [apply (tx_bound e _ _ o 4 2)|]; cbn [mint_infos map ai_key filter ai_signer sys]; try (cbn; lia).
    - eapply Z.le_trans; [apply distinct_seen; cbn; auto|cbn; lia].
    - eapply Z.le_trans; [apply distinct_seen; cbn; auto|cbn; lia].
    - change (zlen (mint_infos a)) with 3. lia. }
  unfold mint. apply Forall_app. split.
  - apply Forall_forall. intros x Hx. apply in_flat_map in Hx as ([t b] & _ & Hx). cbn [mint_ext In] in Hx. destruct Hx as [<-|Hx].
    + apply K. rewrite allocate_bytes. unfold zlen. rewrite firstn_length. unfold MAX_ALLOCATE. lia.
    + apply in_map_iff in Hx as (c & <- & Hc). apply K. rewrite write_data_bytes.
      pose proof (chunks_sizes MAX_WRITE ltac:(unfold MAX_WRITE; lia) (length b) (skipn MAX_ALLOCATE b)) as F. rewrite Forall_forall in F.
      destruct (F c Hc) as [_ L]. unfold zlen. unfold MAX_WRITE in L. lia.
  - constructor; [|constructor]. unfold create_ix. eapply Z.le_trans; [apply (tx_bound e _ _ _ 5 2)|]; cbn [map ai_key filter ai_signer sys]; try (rewrite create_bytes); try (cbn; lia).
    + set (p := mint_payer a). set (g := e_prog e). set (o := mi_owner a). 
      assert (zlen (distinct (p :: g :: [mi_asset a; o; o; g; g; p; pk_zero])) <= 5); [|assumption].
      unfold zlen. cbn [distinct existsb]. rewrite !(proj2 (pk_eqb_eq _ _) eq_refl), !orb_true_r. cbn [orb].
      repeat match goal with |- context [if ?c then _ else _] => destruct c; cbn [length]; try lia end.
    + eapply Z.le_trans; [apply distinct_seen; cbn; auto|cbn; lia].
    + lia.
    + match goal with |- context [zlen ?l] => change (zlen l) with 7 end. lia.
Qed.

(** ** Macros *)
Lemma macro_allocate_written t n b : SpecI.u32 n -> fits b -> macro_allocate t n b = write_instr (IAllocate (mkExtInput t n (Some b))).
Proof.
  intros Hn Hb. unfold macro_allocate, SpecI.u32, fits in *. pose proof (zlen_nonneg b). rewrite !Z.mod_small by (unfold two32; lia). reflexivity.
Qed.
Lemma macro_open_written t n b : zlen b = n -> SpecI.u32 n -> macro_open t n ++ b = write_instr (IAllocate (mkExtInput t n (Some b))).
Proof.
  intros L Hn. rewrite <- macro_allocate_written; [|assumption|unfold fits, SpecI.u32 in *; lia]. unfold macro_open, macro_allocate. cbn [app]. rewrite <- !app_assoc. cbn [app]. now rewrite L.
Qed.
Lemma macro_length_set t n m b : macro_length n (macro_open t m ++ b) = macro_open t n ++ b.
Proof.
  unfold macro_length, macro_open. cbn [app].
  change (x04 :: z2b (ext_code t) :: (le_enc 4 (m mod two32) ++ x01 :: le_enc 4 (m mod two32)) ++ b)
    with ([x04; z2b (ext_code t)] ++ (le_enc 4 (m mod two32) ++ x01 :: le_enc 4 (m mod two32)) ++ b).
  rewrite <- app_assoc, put_mid; [|reflexivity|unfold zlen; now rewrite !le_enc_length].
  change (([x04; z2b (ext_code t)] ++ le_enc 4 (n mod two32) ++ (x01 :: le_enc 4 (m mod two32)) ++ b)) with
    ([x04; z2b (ext_code t)] ++ le_enc 4 (n mod two32) ++ [x01] ++ le_enc 4 (m mod two32) ++ b).
  rewrite !app_assoc. rewrite <- (app_assoc _ (le_enc 4 (m mod two32)) b), put_mid; [|reflexivity|unfold zlen; now rewrite !le_enc_length].
  cbn [app]. rewrite <- !app_assoc. reflexivity.
Qed.
Lemma macro_jobs n t b asset payer : zlen b < 4294967296 -> 
  map (fun x => (macro_metas asset payer n, x)) (macro_allocate_and_write t b) =
  map (fun j => (fst j, write_instr (snd j))) (ext_job 1163 1172 (macro_metas asset payer n) t b).
Proof.
  intro Hb. unfold macro_allocate_and_write, ext_job. cbn [map fst snd]. rewrite !map_map. cbn [fst snd]. f_equal.
  - f_equal. apply macro_allocate_written; pose proof (zlen_nonneg b); [unfold SpecI.u32; lia|]. unfold fits, zlen in *. rewrite firstn_length. lia.
  - apply map_ext_in. intros c Hc. f_equal. unfold macro_write. rewrite Z.mod_small; [reflexivity|].
    pose proof (ext_job_ok 1163 1172 [] t b ltac:(lia) Hb) as F. apply Forall_cons_iff in F as [_ F]. rewrite Forall_map, Forall_forall in F.
    specialize (F c Hc). cbn [snd instr_ok w_bytes] in F. unfold fits in F. pose proof (zlen_nonneg c). unfold two32. lia.
Qed.
Lemma macro_effect e asset payer sysp t b w w' hd l : env_ok e -> e_prog e <> pk_zero -> sized w -> lam_ok w -> t <> XNone ->
  open_account (data (w asset)) hd l 0 -> 168 + sect_size l + 16 + zlen b <= 10485760 ->
  run_ixs e (map (fun x => (macro_metas asset payer sysp, x)) (macro_allocate_and_write t b)) w = Ok w' ->
  exists b', (b' = b \/ fresh_payload t None b b') /\ tight (data (w' asset)) (l ++ [blk_of t b']) /\ lookup t (ext_list l) = None /\
    (forall k, k <> asset -> data (w' k) = data (w k)).
Proof.
  intros He Hp Hs Hl Ht HO Hsz H. rewrite macro_jobs in H by (pose proof (sect_size_nonneg l); lia).
  edestruct (ext_job_effect 1163 1172) as (b' & K & _ & T & _ & _ & N & F); [|exact He|exact Hp|exact Hs|exact Hl|exact Ht| |exact HO|exact Hsz|exact H|]; [lia|eexists; split; reflexivity|].
  exists b'. auto.
Qed.

(** ** JSON payloads *)
Lemma json_creators_enc l : json_creators (map (fun c => (pk_bytes (fst (fst c)), snd (fst c), snd c)) l) = enc_creators (map entry l).
Proof.
  unfold json_creators, enc_creators. rewrite !map_map. f_equal.
Qed.
Lemma json_creators_round l : creators_from_bytes (json_creators (map (fun c => (pk_bytes (fst (fst c)), snd (fst c), snd c)) l)) = Ok (map entry l).
Proof. rewrite json_creators_enc. apply from_bytes_enc. apply entries_wf. Qed.
Lemma json_metadata_round s d u : short s -> short d -> short u -> metadata_from_bytes (json_metadata s d u) = Ok (s, d, u, []).
Proof.
  intros Hs Hd Hu. unfold json_metadata, metadata_from_bytes. rewrite pstr_enc by assumption. cbn [bind]. rewrite drop_app by now rewrite enc_pstr_size.
  rewrite pstr_enc by assumption. cbn [bind]. rewrite drop_app by now rewrite enc_pstr_size.
  rewrite <- (app_nil_r (enc_pstr u)). rewrite pstr_enc by assumption. cbn [bind]. rewrite drop_app by now rewrite enc_pstr_size. reflexivity.
Qed.
Definition json_form (k : royalties_kind) (items : list pubkey) : form :=
  match k with Allowlist => FPubkeyMatch AAsset items | Denylist => FNot (FOwnedBy AAsset items) end.
Lemma json_royalties_built k bp items : json_royalties k bp items = build_royalties bp (json_form k items).
Proof. destruct k; reflexivity. Qed.
Lemma in_keys (k : pubkey) l : In (pk_bytes k) (map pk_bytes l) <-> In k l.
Proof.
  rewrite in_map_iff. split; [|intro H; now exists k]. intros (k' & E & H). apply pk_ext in E. now subst.
Qed.
Lemma json_len k items : zlen items <= 1000000 -> zlen (build (json_form k items)) <= u32_max.
Proof.
  intro H. pose proof (keys_len items). destruct k; cbn [json_form build]; rewrite ?with_header_len; unfold keys_payload; rewrite zlen_app; unfold zlen at 1; rewrite le_enc_length; unfold u32_max; lia.
Qed.
Lemma allowlist_permits e w asset signer recipient bp items : zlen items <= 1000000 ->
  (permits e w asset signer recipient (json_royalties Allowlist bp items) <-> wallets e w signer recipient \/ In asset items).
Proof.
  intro H. rewrite json_royalties_built. unfold build_royalties. rewrite <- (app_nil_r (build _)).
  rewrite built_permits by now apply json_len. cbn [json_form wanted holds cacct_code]. unfold view_of. cbn [Z.eqb p_key party_of]. now rewrite in_keys.
Qed.
Lemma denylist_permits e w asset signer recipient bp items : zlen items <= 1000000 -> data (w asset) <> [] ->
  (permits e w asset signer recipient (json_royalties Denylist bp items) <-> wallets e w signer recipient \/ ~ In (acct_owner (w asset)) items).
Proof.
  intros H D. rewrite json_royalties_built. unfold build_royalties. rewrite <- (app_nil_r (build _)).
  rewrite built_permits by now apply json_len. cbn [json_form wanted holds cacct_code]. unfold view_of. cbn [Z.eqb p_owner p_empty party_of]. rewrite in_keys. tauto.
Qed.
Lemma macro_limit t b asset payer sysp : cpi_size (macro_metas asset payer sysp) (macro_allocate t (zlen b) (firstn 1163 b)) <= 1280.
Proof.
  unfold cpi_size, macro_metas, macro_allocate. unfold zlen. cbn [app length]. rewrite app_length, le_enc_length. cbn [length].
  rewrite app_length, le_enc_length, firstn_length. lia.
Qed.
Lemma json_pairs_round l : Forall short_pair l -> attributes_from_bytes (json_pairs l) = Ok l /\ links_from_bytes (json_pairs l) = Ok l.
Proof. intro H. destruct (pairs_round l H) as [P _]. split; exact P. Qed.
Lemma json_blob_round ct dat : short ct -> blob_from_bytes (json_blob ct dat) = Ok (ct, dat).
Proof. intro H. now destruct (blob_round ct dat H). Qed.
Lemma json_royalties_round al k bp items : al mod 8 = 0 -> 0 <= bp < two64 -> zlen items <= 1000000 ->
  exists c, royalties_from_bytes al (json_royalties k bp items) = Ok (bp, c) /\
    erase c = match k with Allowlist => RKey 0 (map pk_bytes items) | Denylist => RNeg (ROwner 0 (map pk_bytes items)) end.
Proof.
  intros Ha Hb Hi. rewrite json_royalties_built. destruct (royalties_round al bp (json_form k items) Ha Hb (json_len k items Hi)) as (c & P & E & _).
  exists c. split; [exact P|]. rewrite E. destruct k; reflexivity.
Qed.

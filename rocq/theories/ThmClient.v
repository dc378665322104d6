(** Property theorems: the Rust client (C45, C57). *)
From Verif Require Import Base State Layout Constr Ext World Proc Borsh Client BaseL Spec SpecB SpecC SpecH SpecI SpecK WorldL LayoutL CountL CreatorsL CodecL BorshL RoyalL ClientL ClientM Sample ThmAuth ThmConstr.
From Coq Require Import Strings.Byte.

(** C45: when all instructions that [mint] returns succeed on an account that holds
    nothing yet, the account is the asset asked for: header as given, the extensions
    in the order given, payloads as given with only the creators' verified flags
    recomputed, no unused bytes.  No other account's data changed, and no extension
    type was given twice. *)
Theorem C45_mint : forall e a w w', env_ok e -> e_prog e <> pk_zero -> sized w -> lam_ok w -> data (w (mi_asset a)) = [] ->
  Forall (fun x => fst x <> XNone) (mi_exts a) -> 168 + space (mi_exts a) <= 10485760 -> text_ok (mi_name a) ->
  run_ixs e (mint e a) w = Ok w' ->
  NoDup (map fst (mi_exts a)) /\ minted e a w' /\ (forall k, k <> mi_asset a -> data (w' k) = data (w k)).
Proof. exact mint_effect. Qed.
Print Assumptions C45_mint.
Definition two_creators : bytes := json_creators [(pk_bytes kHolder, false, x3c); (pk_bytes kAuth, true, x28)].
Definition ma : mint_args := mkMint kAsset kHolder (Some kPayer) [x48; x69] NonFungible true
  [(XAttributes, json_pairs [([x61], [x62; x63])]); (XBlob, json_blob [x74] (repeat x07 1900)); (XCreators, two_creators)].
Definition w_mint : world := table [(kPayer, wal 100000)].
Example C45_case : exists w', run_ixs env0 (mint env0 ma) w_mint = Ok w' /\ length (mint env0 ma) = 6%nat /\
  zlen (data (w' kAsset)) = 2200 /\ sub (data (w' kAsset)) 2128 68 = json_creators [(pk_bytes kHolder, true, x3c); (pk_bytes kAuth, false, x28)] /\
  sub (data (w' kAsset)) 208 1902 = json_blob [x74] (repeat x07 1900).
Proof.
  eexists. split; [apply (run_ok w_mint); vm_compute; reflexivity|]. vm_compute. auto.
Qed.
Example C45_hyps : env_ok env0 /\ e_prog env0 <> pk_zero /\ sized w_mint /\ lam_ok w_mint /\ data (w_mint (mi_asset ma)) = [] /\
  Forall (fun x => fst x <> XNone) (mi_exts ma) /\ 168 + space (mi_exts ma) <= 10485760 /\ text_ok (mi_name ma).
Proof.
  split; [exact env0_ok|]. split; [discriminate|]. split; [apply table_sized; reflexivity|]. split; [apply table_lam_ok; reflexivity|].
  split; [reflexivity|]. split; [repeat constructor; discriminate|]. split; [vm_compute; discriminate|].
  split; [vm_compute; reflexivity|apply utf8_iff; vm_compute; reflexivity].
Qed.

(** Every instruction returned fits in a transaction of its own, signed by the asset
    and the payer, however long the payloads are ... *)
Theorem C45_budget : forall e a, zlen (mi_name a) <= 887 -> Forall (fun x => tx_size e (mint_payer a) x <= 1232) (mint e a).
Proof. exact mint_budget. Qed.
Print Assumptions C45_budget.
Example C45_budget_case : map (tx_size env0 kPayer) (mint env0 ma) = [316; 1232; 1232; 363; 379; 346] /\ zlen (mi_name ma) <= 887.
Proof. vm_compute. split; [reflexivity|discriminate]. Qed.
(** ... but not with any name: nothing limits it and it goes into Create whole. *)
Theorem C45_long_name_refuted : exists e a, Exists (fun x => 1232 < tx_size e (mint_payer a) x) (mint e a) /\ mi_exts a = [] /\ zlen (mi_name a) = 888.
Proof.
  exists env0, (mkMint kAsset kHolder (Some kPayer) (repeat x41 888) NonFungible true []). split; [|split; vm_compute; reflexivity].
  constructor. vm_compute. reflexivity.
Qed.
Print Assumptions C45_long_name_refuted.

(** The macros for on-chain callers write the same bytes as the instruction encoder, *)
Theorem C45_macro_allocate : forall t n b, SpecI.u32 n -> fits b -> macro_allocate t n b = write_instr (IAllocate (mkExtInput t n (Some b))).
Proof. exact macro_allocate_written. Qed.
Print Assumptions C45_macro_allocate.
Theorem C45_macro_open : forall t n b, zlen b = n -> SpecI.u32 n -> macro_open t n ++ b = write_instr (IAllocate (mkExtInput t n (Some b))).
Proof. exact macro_open_written. Qed.
Print Assumptions C45_macro_open.
Theorem C45_macro_length : forall t n m b, macro_length n (macro_open t m ++ b) = macro_open t n ++ b.
Proof. exact macro_length_set. Qed.
Print Assumptions C45_macro_length.
(** and [allocate_and_write!] stores the payload it was given. *)
Theorem C45_macro_stores : forall e asset payer sysp t b w w' hd l, env_ok e -> e_prog e <> pk_zero -> sized w -> lam_ok w -> t <> XNone ->
  open_account (data (w asset)) hd l 0 -> 168 + sect_size l + 16 + zlen b <= 10485760 ->
  run_ixs e (map (fun x => (macro_metas asset payer sysp, x)) (macro_allocate_and_write t b)) w = Ok w' ->
  exists b', (b' = b \/ fresh_payload t None b b') /\ tight (data (w' asset)) (l ++ [blk_of t b']) /\ lookup t (ext_list l) = None /\
    (forall k, k <> asset -> data (w' k) = data (w k)).
Proof. exact macro_effect. Qed.
Print Assumptions C45_macro_stores.
Example C45_macro_case : exists w', run_ixs env0 (map (fun x => (macro_metas kAsset kPayer kSys, x)) (macro_allocate_and_write XBlob (json_blob [x74] (repeat x07 1900)))) w_mint = Ok w' /\
  zlen (data (w' kAsset)) = 168 + 16 + 1904 /\ length (macro_allocate_and_write XBlob (json_blob [x74] (repeat x07 1900))) = 2%nat /\
  open_account (data (w_mint kAsset)) (repeat x00 168) [] 0.
Proof.
  eexists. split; [apply (run_ok w_mint); vm_compute; reflexivity|]. split; [vm_compute; reflexivity|]. split; [vm_compute; reflexivity|]. now left.
Qed.
(** Its calls stay within the limit it sets itself (1280 bytes) for Allocate but not
    for Write: the header it counts misses the length of the bytes. *)
Theorem C45_macro_limit_partial : forall t b asset payer sysp, cpi_size (macro_metas asset payer sysp) (macro_allocate t (zlen b) (firstn 1163 b)) <= 1280.
Proof. exact macro_limit. Qed.
Print Assumptions C45_macro_limit_partial.
Theorem C45_macro_limit_refuted : exists t b c, In c (macro_allocate_and_write t b) /\ cpi_size (macro_metas kAsset kPayer kSys) c = 1284.
Proof. exists XBlob, (repeat x00 2335), (macro_write (repeat x00 1172)). split; [|vm_compute; reflexivity]. apply (nth_error_In _ 1). vm_compute. reflexivity. Qed.
Print Assumptions C45_macro_limit_refuted.

(** C57: payloads built from JSON read back as the values given. *)
Theorem C57_creators : forall l, creators_from_bytes (json_creators (map (fun c => (pk_bytes (fst (fst c)), snd (fst c), snd c)) l)) = Ok (map entry l).
Proof. exact json_creators_round. Qed.
Print Assumptions C57_creators.
Theorem C57_pairs : forall l, Forall short_pair l -> attributes_from_bytes (json_pairs l) = Ok l /\ links_from_bytes (json_pairs l) = Ok l.
Proof. exact json_pairs_round. Qed.
Print Assumptions C57_pairs.
Theorem C57_blob : forall ct dat, short ct -> blob_from_bytes (json_blob ct dat) = Ok (ct, dat).
Proof. exact json_blob_round. Qed.
Print Assumptions C57_blob.
Theorem C57_metadata : forall s d u, short s -> short d -> short u -> metadata_from_bytes (json_metadata s d u) = Ok (s, d, u, []).
Proof. exact json_metadata_round. Qed.
Print Assumptions C57_metadata.
Theorem C57_royalties : forall al k bp items, al mod 8 = 0 -> 0 <= bp < two64 -> zlen items <= 1000000 ->
  exists c, royalties_from_bytes al (json_royalties k bp items) = Ok (bp, c) /\
    erase c = match k with Allowlist => RKey 0 (map pk_bytes items) | Denylist => RNeg (ROwner 0 (map pk_bytes items)) end.
Proof. exact json_royalties_round. Qed.
Print Assumptions C57_royalties.
Example C57_case : creators_from_bytes two_creators = Ok (map entry [(kHolder, false, x3c); (kAuth, true, x28)]) /\
  attributes_from_bytes (json_pairs [([x61], [x62; x63]); ([], [x64])]) = Ok [([x61], [x62; x63]); ([], [x64])] /\
  metadata_from_bytes (json_metadata [x53] [] [x75; x72; x69]) = Ok ([x53], [], [x75; x72; x69], []) /\
  (exists c, royalties_from_bytes 0 (json_royalties Denylist 250 [kOther]) = Ok (250, c) /\ erase c = RNeg (ROwner 0 [pk_bytes kOther])).
Proof. split; [vm_compute; reflexivity|]. split; [vm_compute; reflexivity|]. split; [vm_compute; reflexivity|]. eexists. split; vm_compute; reflexivity. Qed.
(** What the lists mean for a Transfer: they speak of the asset account only, so
    neither the signer's nor the recipient's program matters. *)
Theorem C57_allowlist : forall e w asset signer recipient bp items, zlen items <= 1000000 ->
  (permits e w asset signer recipient (json_royalties Allowlist bp items) <-> wallets e w signer recipient \/ In asset items).
Proof. exact allowlist_permits. Qed.
Print Assumptions C57_allowlist.
Theorem C57_denylist : forall e w asset signer recipient bp items, zlen items <= 1000000 -> data (w asset) <> [] ->
  (permits e w asset signer recipient (json_royalties Denylist bp items) <-> wallets e w signer recipient \/ ~ In (acct_owner (w asset)) items).
Proof. exact denylist_permits. Qed.
Print Assumptions C57_denylist.
(** So an allowlist with the program that owns the recipient does not let a Transfer
    through, and a denylist with it does not stop one. *)
Definition list_data (k : royalties_kind) : bytes :=
  mk (header x01 x00 x00 x01 kHolder pk_zero kAuth pk_zero x00) [blk_of XRoyalties (json_royalties k 500 [kOther])].
Definition w_list (k : royalties_kind) : world := table [(kAsset, acc (list_data k)); (kHolder, wal 700); (kTo, mkAcct 5 kOther [x01])].
Theorem C57_lists_refuted : exists e infos w1 w2 w2' off1 off2,
  arg infos 0 kAsset /\ arg infos 2 kTo /\ acct_owner (w1 kTo) = kOther /\ acct_owner (w2 kTo) = kOther /\
  has_ext (data (w1 kAsset)) XRoyalties off1 (json_royalties Allowlist 500 [kOther]) /\
  has_ext (data (w2 kAsset)) XRoyalties off2 (json_royalties Denylist 500 [kOther]) /\
  process e infos w1 ITransfer = Err EAssertionFailure /\
  process e infos w2 ITransfer = Ok w2' /\ s_owner (data (w2' kAsset)) = pk_bytes kTo.
Proof.
  assert (X : forall k, exists off, has_ext (data (w_list k kAsset)) XRoyalties off (json_royalties k 500 [kOther])).
  { intro k. change (data (w_list k kAsset)) with (list_data k). rewrite <- (app_nil_r (list_data k)). apply (CountL.lookup_has_ext (list_data k ++ []) (header x01 x00 x00 x01 kHolder pk_zero kAuth pk_zero x00) [blk_of XRoyalties (json_royalties k 500 [kOther])] []).
    - unfold list_data, mk. rewrite <- app_assoc. apply mk_layout. destruct k; vm_compute; reflexivity.
    - reflexivity. }
  destruct (X Allowlist) as [o1 X1]. destruct (X Denylist) as [o2 X2].
  exists env0, (i_move kProg), (w_list Allowlist), (w_list Denylist). eexists. exists o1, o2.
  split; [eexists; split; reflexivity|]. split; [eexists; split; reflexivity|]. split; [reflexivity|]. split; [reflexivity|].
  split; [exact X1|]. split; [exact X2|]. split; [vm_compute; reflexivity|].
  split; [apply (run_ok (w_list Denylist)); vm_compute; reflexivity|]. vm_compute. reflexivity.
Qed.
Print Assumptions C57_lists_refuted.

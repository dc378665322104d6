(** Property theorems: the JavaScript client's helpers of several instructions (C63). *)
From Verif Require Import Base State Layout Constr Ext World Proc Borsh Proxy Client Js BaseL Spec SpecB SpecF SpecI SpecJ SpecK LayoutL BorshL ClientL JsP JsQ Sample SampleP.
From Coq Require Import Strings.Byte.

(** C63: when every instruction [mint] returns succeeds on an account that holds
    nothing, the asset is the one its arguments describe: the extensions in the order
    given, each with the payload its value serializes to (creators' verified flags
    recomputed), the header from the arguments and their defaults; no two extensions
    had one type, and nothing else changed but the group's count. *)
Theorem C63_mint : forall e c a ps ixs w w', env_ok e -> e_prog e <> pk_zero -> sized w -> lam_ok w -> data (w (jm_asset a)) = [] ->
  parts (jm_exts a) ps -> 168 + space ps <= 10485760 -> utf8_text (jm_name a) -> jm_group a <> Some (e_prog e) ->
  js_mint e c a = Some ixs -> run_ixs e ixs w = Ok w' ->
  NoDup (map jext_type (jm_exts a)) /\ acct_owner (w' (jm_asset a)) = e_prog e /\
  match jm_group a with
  | None => js_minted c a ps no_key (data (w' (jm_asset a))) /\ (forall k, k <> jm_asset a -> data (w' k) = data (w k))
  | Some g => g <> jm_asset a /\ js_minted c a ps (pk_bytes g) (data (w' (jm_asset a))) /\ group_joined e c a g w w'
  end.
Proof. exact js_mint_effect. Qed.
Print Assumptions C63_mint.
Definition jc0 : jctx := mkJctx kHolder kPayer.
Definition jm0 (p : option pubkey) : jmint :=
  mkJmint kAsset None None None None p None [x41] None None [JBlob [x74] (repeat x07 900); JCreators [(pk_bytes kHolder, false, 60); (pk_bytes kAuth, true, 40)]].
Definition jw0 : world := table [(kPayer, wal 1000000)].
Example C63_mint_case : exists ps ixs w', parts (jm_exts (jm0 (Some kPayer))) ps /\ js_mint env0 jc0 (jm0 (Some kPayer)) = Some ixs /\ length ixs = 5%nat /\
  run_ixs env0 ixs jw0 = Ok w' /\ zlen (data (w' kAsset)) = 1176 /\ env_ok env0 /\ e_prog env0 <> pk_zero /\ sized jw0 /\ lam_ok jw0 /\
  data (jw0 kAsset) = [] /\ 168 + space ps <= 10485760 /\ utf8_text [x41].
Proof.
  exists [(XBlob, x01 :: x74 :: repeat x07 900); (XCreators, json_creators [(pk_bytes kHolder, false, x3c); (pk_bytes kAuth, true, x28)])]. eexists. eexists. split; [repeat constructor; vm_compute; reflexivity|]. split; [vm_compute; reflexivity|]. split; [reflexivity|].
  split; [apply (run_ok jw0); vm_compute; reflexivity|]. split; [vm_compute; reflexivity|].
  split; [exact env0_ok|]. split; [discriminate|]. split; [apply table_sized; reflexivity|]. split; [apply table_lam_ok; reflexivity|].
  split; [reflexivity|]. split; [vm_compute; discriminate|]. apply utf8_iff. vm_compute. reflexivity.
Qed.
(** The payer has to be named: Write falls back on the context's payer, Allocate and
    Create do not. *)
Theorem C63_mint_payer : forall e c a ps ixs w w', jm_payer a = None -> data (w (jm_asset a)) = [] -> parts (jm_exts a) ps -> utf8_text (jm_name a) ->
  js_mint e c a = Some ixs -> run_ixs e ixs w <> Ok w'.
Proof. exact js_mint_no_payer. Qed.
Print Assumptions C63_mint_payer.
Example C63_mint_payer_case : exists ixs, js_mint env0 jc0 (jm0 None) = Some ixs /\ run_ixs env0 ixs jw0 = Err ENotEnoughAccountKeys.
Proof. eexists. split; [vm_compute; reflexivity|]. vm_compute. reflexivity. Qed.

(** A payload longer than the chunk size goes through a buffer account: when all
    instructions succeed the asset has the payload (creators aside, whose flags the
    program rewrites), its header fields are the ones asked for, and the buffer is gone. *)
Theorem C63_update : forall e c buffer a b ixs w w' l, env_ok e -> e_prog e <> pk_zero -> sized w -> lam_ok w ->
  data (w buffer) = [] -> buffer <> e_prog e -> well_formed (data (w (ju_asset a))) l ->
  js_payload (ju_ext a) = Some b -> 184 + zlen b <= 10485760 -> opt_valid utf8_text (ju_name a) ->
  (0 < js_default DEFAULT_CHUNK_SIZE (ju_chunk a) < length b)%nat ->
  js_update_with_buffer e c buffer a = Some ixs -> run_ixs e ixs w = Ok w' ->
  buffer <> ju_asset a /\ w' buffer = mkAcct 0 pk_zero [] /\
  (exists b', length b' = length b /\ (jext_type (ju_ext a) <> XCreators -> b' = b) /\
     js_updated c a (jext_type (ju_ext a)) b' l (data (w (ju_asset a))) (data (w' (ju_asset a)))) /\
  (forall k, k <> buffer -> k <> ju_asset a -> data (w' k) = data (w k)).
Proof. exact js_update_effect. Qed.
Print Assumptions C63_update.
Definition ju0 (p : option pubkey) (n : option nat) (x : jext) : jupdate := mkJupdate kAsset (Some kAuth) None p (Some [x42]) None x n.
Definition jw1 : world := table [(kAsset, acc plain_data); (kPayer, wal 1000000)].
Example C63_update_case : exists ixs w', js_update_with_buffer env0 jc0 kBuf (ju0 (Some kPayer) (Some 3%nat) (JBlob [x74] (repeat x07 8))) = Some ixs /\
  run_ixs env0 ixs jw1 = Ok w' /\ length ixs = 7%nat /\ s_name (data (w' kAsset)) = x42 :: repeat x00 34 /\
  sized jw1 /\ lam_ok jw1 /\ well_formed (data (jw1 kAsset)) plain_exts /\ opt_valid utf8_text (Some [x42]).
Proof.
  eexists. eexists. split; [vm_compute; reflexivity|]. split; [apply (run_ok jw1); vm_compute; reflexivity|]. split; [reflexivity|]. split; [vm_compute; reflexivity|].
  split; [apply table_sized; reflexivity|]. split; [apply table_lam_ok; reflexivity|]. split; [apply mk_wf; reflexivity|]. apply utf8_iff. vm_compute. reflexivity.
Qed.
(** Otherwise it is one Update with the payload inline. *)
Theorem C63_inline : forall e c buffer a b ixs w, js_payload (ju_ext a) = Some b -> (length b <= js_default DEFAULT_CHUNK_SIZE (ju_chunk a))%nat ->
  opt_valid utf8_text (ju_name a) -> js_update_with_buffer e c buffer a = Some ixs ->
  run_ixs e ixs w = process e (js_update_metas (e_prog e) c (ju_asset a) (ju_auth a) None (ju_group a) (ju_payer a) None) w
    (IUpdate (mkUpdInput (ju_name a) (ju_mutable a) (Some (mkExtInput (jext_type (ju_ext a)) (zlen b) (Some b))))).
Proof. exact js_update_inline. Qed.
Print Assumptions C63_inline.
Example C63_inline_case : exists ixs w', js_update_with_buffer env0 jc0 kBuf (ju0 (Some kPayer) None (JBlob [x74] (repeat x07 8))) = Some ixs /\
  run_ixs env0 ixs jw1 = Ok w' /\ length ixs = 1%nat.
Proof. eexists. eexists. split; [vm_compute; reflexivity|]. split; [apply (run_ok jw1); vm_compute; reflexivity|reflexivity]. Qed.
(** Royalties never get through a buffer (the program checks the bytes of the
    extension header instead of the payload), *)
Theorem C63_royalties : forall e c buffer a b bp f ixs w w' l, env_ok e -> e_prog e <> pk_zero -> sized w -> lam_ok w ->
  data (w buffer) = [] -> buffer <> e_prog e -> well_formed (data (w (ju_asset a))) l ->
  ju_ext a = JRoyalties bp f -> js_payload (ju_ext a) = Some b -> 184 + zlen b <= 10485760 -> opt_valid utf8_text (ju_name a) ->
  (0 < js_default DEFAULT_CHUNK_SIZE (ju_chunk a) < length b)%nat ->
  js_update_with_buffer e c buffer a = Some ixs -> run_ixs e ixs w <> Ok w'.
Proof. exact js_update_royalties. Qed.
Print Assumptions C63_royalties.
Definition jroy : jext := JRoyalties 500 (JPubkeyMatch ARecipient [pk_bytes kTo]).
Example C63_royalties_case : exists ixs, js_update_with_buffer env0 jc0 kBuf (ju0 (Some kPayer) (Some 30%nat) jroy) = Some ixs /\
  okb (run_ixs env0 ixs jw1) = false /\
  exists ixs', js_update_with_buffer env0 jc0 kBuf (ju0 (Some kPayer) None jroy) = Some ixs' /\ okb (run_ixs env0 ixs' jw1) = true.
Proof. eexists. split; [vm_compute; reflexivity|]. split; [vm_compute; reflexivity|]. eexists. split; [vm_compute; reflexivity|]. vm_compute. reflexivity. Qed.
(** nor anything without a payer; *)
Theorem C63_update_payer : forall e c buffer a b ixs w w', ju_payer a = None -> data (w buffer) = [] -> js_payload (ju_ext a) = Some b ->
  (js_default DEFAULT_CHUNK_SIZE (ju_chunk a) < length b)%nat -> opt_valid utf8_text (ju_name a) ->
  js_update_with_buffer e c buffer a = Some ixs -> run_ixs e ixs w <> Ok w'.
Proof. exact js_update_no_payer. Qed.
Print Assumptions C63_update_payer.
Example C63_update_payer_case : exists ixs, js_update_with_buffer env0 jc0 kBuf (ju0 None (Some 3%nat) (JBlob [x74] (repeat x07 8))) = Some ixs /\
  run_ixs env0 ixs jw1 = Err ENotEnoughAccountKeys.
Proof. eexists. split; [vm_compute; reflexivity|]. vm_compute. reflexivity. Qed.
(** with a proxy program nothing does, because Allocate goes to that program, which
    looks for a proxy extension in the new buffer; *)
Theorem C63_proxied : forall pe e me c buffer a b ixs w w', data (w buffer) = [] -> js_payload (ju_ext a) = Some b ->
  (js_default DEFAULT_CHUNK_SIZE (ju_chunk a) < length b)%nat ->
  js_update_with_buffer_proxied e me c buffer a = Some ixs -> run_proxied pe e me ixs w <> Ok w'.
Proof. exact js_proxied_chunks. Qed.
Print Assumptions C63_proxied.
Example C63_proxied_case : exists ixs, js_update_with_buffer_proxied envP kMe jc0 kBuf (ju0 (Some kPayer) (Some 3%nat) (JBlob [x74] (repeat x07 8))) = Some ixs /\
  okb (run_proxied pe0 envP kMe ixs w_prox) = false.
Proof. eexists. split; [vm_compute; reflexivity|]. vm_compute. reflexivity. Qed.
(** and a small update reports success while the extension is dropped. *)
Theorem C63_proxied_inline : forall pe e me c buffer a b ixs w w' l pb, env_ok e -> e_prog e <> pk_zero -> sized w ->
  well_formed (data (w (ju_asset a))) l -> lookup XProxy (ext_list l) = Some pb ->
  js_payload (ju_ext a) = Some b -> (length b <= js_default DEFAULT_CHUNK_SIZE (ju_chunk a))%nat -> opt_valid utf8_text (ju_name a) ->
  js_update_with_buffer_proxied e me c buffer a = Some ixs -> run_proxied pe e me ixs w = Ok w' ->
  well_formed (data (w' (ju_asset a))) l /\ header_updated (mkUpdInput (ju_name a) (ju_mutable a) None) (data (w (ju_asset a))) (data (w' (ju_asset a))).
Proof. exact js_proxied_inline. Qed.
Print Assumptions C63_proxied_inline.
Example C63_proxied_inline_case : exists ixs w', js_update_with_buffer_proxied envP kMe jc0 kBuf (ju0 (Some kPayer) None (JBlob [x74] (repeat x07 8))) = Some ixs /\
  run_proxied pe0 envP kMe ixs w_prox = Ok w'.
Proof. eexists. eexists. split; [vm_compute; reflexivity|]. apply (run_ok w_prox). vm_compute. reflexivity. Qed.
(** [burn] with a proxy and no recipient fails: the list marks the recipient absent
    with the proxy program's ID, which the asset program takes for an account. *)
Theorem C63_burn_proxied : forall pe e me asset signer group w w', me <> asset -> me <> signer -> group <> Some me -> me <> e_prog e -> lamports (w asset) <> 0 ->
  proxy_entry pe e me (js_proxied e (js_burn_metas me asset signer None group)) w (write_instr IBurn) <> Ok w'.
Proof. exact js_burn_proxied. Qed.
Print Assumptions C63_burn_proxied.
Example C63_burn_proxied_case : lamports (w_prox kAsset) <> 0 /\
  okb (proxy_entry pe0 envP kMe (js_proxied envP (js_burn_metas kMe kAsset kHolder None None)) w_prox (write_instr IBurn)) = false /\
  okb (proxy_entry pe0 envP kMe (js_proxied envP (js_burn_metas kMe kAsset kHolder (Some kTo) None)) w_prox (write_instr IBurn)) = true.
Proof. split; [vm_compute; discriminate|]. split; vm_compute; reflexivity. Qed.

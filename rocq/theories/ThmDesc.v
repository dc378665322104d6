(** C86: the published interface descriptions describe the programs. *)
From Verif Require Import Base State Layout Constr Ext World Proc Borsh Js Rs Cpi Codes Client Proxy ProxyC Bridge BridgeC Desc DescData
  Spec SpecI SpecJ SpecDesc DescN DescO Sample.
From Coq Require Import Strings.Byte Strings.String Lia.
Open Scope string_scope.
Open Scope list_scope.
Open Scope Z_scope.

(** C86: what the description embedded in the program encodes is decoded by the program as the
    instruction of that name with those arguments, whatever code stands behind its two open types; *)
Theorem C86_data : forall hooks s args b, cdata hooks codama_asset s args = Some b -> exists i, told i = (s, args) /\ try_from_slice b = Some i.
Proof. exact codama_only. Qed.
Print Assumptions C86_data.
(** and everything the program decodes it encodes. *)
Theorem C86_complete : forall hooks b i, try_from_slice b = Some i <-> cdata hooks codama_asset (fst (told i)) (snd (told i)) = Some b.
Proof. exact codama_decodes. Qed.
Print Assumptions C86_complete.
Definition a_name : bytes := [x61; x62].
Definition a_update : list cval := [VSome (VRaw a_name); VNone; VSome (VRec [word "blob"; VNum 3; VSome (VRaw [x00; x05; x06])])].
Example C86_data_case :
  cdata [] codama_asset "update" a_update = Some [x0a; x01; x02; x00; x00; x00; x61; x62; x00; x01; x02; x03; x00; x00; x00; x01; x03; x00; x00; x00; x00; x05; x06] /\
  cdata [] codama_asset "update" [VSome (VRaw a_name); VNone; VNum 3] = None /\ cdata [] codama_asset "mint" [] = None /\
  cdata [] codama_asset "resize" [VVar "extend" [VNum 258]] = Some [x11; x01; x02; x01].
Proof. vm_compute. repeat split; reflexivity. Qed.

(** C86: so does shank's description, of the program and of its interface, together with the types
    kinobi adds. *)
Theorem C86_shank : forall hooks s args b, cdata hooks shank_whole s args = Some b -> exists i, told_shank i = (s, args) /\ try_from_slice b = Some i.
Proof. exact shank_only. Qed.
Print Assumptions C86_shank.
Theorem C86_shank_complete : forall hooks b i, try_from_slice b = Some i <-> cdata hooks shank_whole (fst (told_shank i)) (snd (told_shank i)) = Some b.
Proof. exact shank_decodes. Qed.
Print Assumptions C86_shank_complete.
Theorem C86_interface : forall hooks s args,
  cdata hooks (mkCProg (cp_instrs shank_interface) (cp_types shank_interface ++ kinobi_types) []) s args = cdata hooks shank_whole s args.
Proof. exact interface_data. Qed.
Print Assumptions C86_interface.
Example C86_shank_case : cdata [] shank_whole "remove" [word "links"] = Some [x10; x04] /\
  cdata [] shank_whole "write" [VRec [VBool true; VRaw [x09]]] = Some [x0c; x01; x01; x00; x00; x00; x09].
Proof. vm_compute. split; reflexivity. Qed.

(** C86: without those types nothing that names a kind of extension, a role or a standard can be
    encoded, and everything else can. *)
Theorem C86_shank_alone : forall hooks i, names_kind i -> cdata hooks shank_asset (fst (told_shank i)) (snd (told_shank i)) = None.
Proof. exact shank_missing. Qed.
Print Assumptions C86_shank_alone.
Theorem C86_shank_rest : forall hooks i, instr_ok i -> ~ names_kind i ->
  exists b, cdata hooks shank_asset (fst (told_shank i)) (snd (told_shank i)) = Some b /\ try_from_slice b = Some i.
Proof. exact shank_rest. Qed.
Print Assumptions C86_shank_rest.
Example C86_shank_rest_case : instr_ok (IResize (Extend 5)) /\ ~ names_kind (IResize (Extend 5)) /\ ~ names_kind (IApprove DAll).
Proof. split; [cbn; lia|]. split; intros []. Qed.
(** so the file alone does not describe the program: *)
Theorem C86_shank_refuted : exists i b, try_from_slice b = Some i /\ forall hooks, cdata hooks shank_asset (fst (told_shank i)) (snd (told_shank i)) = None.
Proof. exists (IRemove XLinks), [x10; x04]. split; [vm_compute; reflexivity|]. intros hooks. apply shank_missing. exact I. Qed.
Print Assumptions C86_shank_refuted.

(** C86: the accounts, their order and their flags are those the clients send; *)
Theorem C86_accounts : forall prog x, cmetas codama_asset (fst (given x)) prog (snd (given x)) = Some (rs_metas prog x) /\
  cmetas shank_asset (fst (given x)) prog (snd (given x)) = Some (rs_metas prog x).
Proof. intros prog x. exact (conj (codama_accounts prog x) (shank_accounts prog x)). Qed.
Print Assumptions C86_accounts.
(** of the interface, those the on-chain callers send. *)
Theorem C86_interface_accounts : forall prog x, cmetas shank_interface (fst (given x)) prog (snd (given x)) = Some (if_metas prog x).
Proof. exact interface_accounts. Qed.
Print Assumptions C86_interface_accounts.
Example C86_accounts_case :
  cmetas codama_asset "transfer" kProg [must kAsset; must kHolder; must kTo; may None] =
    Some [mkInfo kAsset false true; mkInfo kHolder true false; mkInfo kTo false false; mkInfo kProg false false] /\
  cmetas shank_interface "transfer" kProg [must kAsset; must kHolder; must kTo; may None] =
    Some [mkInfo kAsset true true; mkInfo kHolder true false; mkInfo kTo false false; mkInfo kProg false false] /\
  cmetas codama_asset "transfer" kProg [must kAsset; None; must kTo; may None] = None.
Proof. vm_compute. repeat split; reflexivity. Qed.

(** C86: the types of nine of the extensions give the payload the program reads back as the same
    values, once the open types are a key and a byte; *)
Theorem C86_extensions : forall x s v b, typed x -> describable x -> told_ext x = Some (s, v) -> zlen b <= u32_max ->
  cenc DEPTH hooked_types (cp_types codama_asset) (CLink s) v = Some b -> says x b /\ s = kind_name (jext_type x).
Proof. intros x s v b T D H L E. exact (conj (ext_says x s v b T D H L E) (told_kind x s v H)). Qed.
Print Assumptions C86_extensions.
(** they are the bytes the JS client sends. *)
Theorem C86_extensions_js : forall x s v, typed x -> describable x -> told_ext x = Some (s, v) ->
  cenc DEPTH hooked_types (cp_types codama_asset) (CLink s) v = js_payload x.
Proof. exact ext_described. Qed.
Print Assumptions C86_extensions_js.
Definition a_links : jext := JLinks [(a_name, [x63]); ([], [x64])].
Definition a_manager : jext := JManager None [RTransfer; RBurn].
Example C86_extensions_case : typed a_links /\ describable a_links /\ typed a_manager /\ describable a_manager /\
  (exists v, told_ext a_links = Some ("links", v) /\
    cenc DEPTH hooked_types (cp_types codama_asset) (CLink "links") v = Some [x02; x61; x62; x01; x63; x00; x01; x64]) /\
  (exists v, told_ext a_manager = Some ("manager", v) /\
    cenc DEPTH hooked_types (cp_types codama_asset) (CLink "manager") v = Some (repeat x00 32 ++ [x05])).
Proof.
  split; [exact I|]. split; [repeat constructor; apply BorshL.utf8_iff; reflexivity|]. split; [exact I|].
  split; [intros [E|[E|[]]]; discriminate E|]. split; eexists; (split; [reflexivity|vm_compute; reflexivity]).
Qed.

(** C86: the account type gives the 168 bytes in front of an asset. *)
Theorem C86_header : forall d, valid_header d -> (s_mutable d = x00 \/ s_mutable d = x01) -> utf8_text (s_name d) ->
  cenc DEPTH hooked_types (cp_types codama_asset) codama_account (told_header d) = Some (firstn 168 d).
Proof. exact header_described. Qed.
Print Assumptions C86_header.
Definition a_header : bytes := [x01; x01; x02; x01] ++ repeat x07 32 ++ repeat x00 32 ++ repeat x09 32 ++ repeat x08 32 ++ [x03] ++ [x61] ++ repeat x00 34.
Example C86_header_case : valid_header a_header /\ s_mutable a_header = x01 /\ utf8_text (s_name a_header) /\
  told_header a_header = VRec [word "asset"; word "locked"; word "soulbound"; VBool true; VRaw (repeat x07 32); VRaw (repeat x00 32); VRaw (repeat x09 32);
    VRec [VRaw (repeat x08 32); VNum 3]; VRaw (x61 :: repeat x00 34)].
Proof.
  split; [split; [split; [vm_compute; lia|reflexivity]|split; vm_compute; reflexivity]|]. split; [reflexivity|].
  split; [apply BorshL.utf8_iff; reflexivity|reflexivity].
Qed.

(** C86: of royalties and properties it has no type at all, and what holds a nullable key or roles it
    leaves to code: *)
Theorem C86_undescribed_refuted : (exists x, typed x /\ in_range x /\ forall n hooks v, cenc n hooks (cp_types codama_asset) (CLink (kind_name (jext_type x))) v = None) /\
  (exists x, typed x /\ describable x /\ in_range x /\ forall n v, cenc n [] (cp_types codama_asset) (CLink (kind_name (jext_type x))) v = None) /\
  (forall n v, cenc n [] (cp_types codama_asset) codama_account v = None).
Proof.
  split; [|split].
  - exists (JProperties [(a_name, JBoolean true)]). split; [exact I|]. split; [|intros n hooks v; apply (undescribed n hooks v)].
    constructor; [|constructor]. split; [vm_compute; discriminate|exact I].
  - exists (JGrouping 1 2 None). split; [exact I|]. split; [exact I|]. split; [split; unfold is_u64; lia|]. intros n v. apply grouping_hooked.
  - intros n v. apply header_hooked.
Qed.
Print Assumptions C86_undescribed_refuted.

(** C86: the descriptions of the proxy and of the bridge encode what those programs decode, *)
Theorem C86_proxy : forall hooks s args b, cdata hooks shank_proxy s args = Some b <-> exists n, (s, args) = told_proxy n /\ proxy_decode b = Some n.
Proof. exact proxy_described. Qed.
Print Assumptions C86_proxy.
Theorem C86_bridge : forall hooks s args b, cdata hooks shank_bridge s args = Some b <-> exists i, (s, args) = told_bridge i /\ bridge_decode b = Some i.
Proof. exact bridge_described. Qed.
Print Assumptions C86_bridge.
Example C86_others_case : cdata [] shank_proxy "create" [VRec [VRaw a_name]] = Some [x00; x02; x00; x00; x00; x61; x62] /\
  cdata [] shank_bridge "create" [VRec [VBool true]] = Some [x01; x01] /\ cdata [] shank_bridge "bridge" [] = Some [x00] /\
  cdata [] shank_bridge "bridge" [VBool true] = None.
Proof. vm_compute. repeat split; reflexivity. Qed.
(** and list the accounts their clients send. *)
Theorem C86_bridge_accounts : forall me i j, cmetas shank_bridge "bridge" me (given_bridge i) = Some (rs_bridge me i) /\
  cmetas shank_bridge "create" me (given_create j) = Some (rs_create me j).
Proof. intros me i j. exact (conj (bridge_accounts me i) (bridge_create_accounts me j)). Qed.
Print Assumptions C86_bridge_accounts.
Theorem C86_proxy_accounts : forall e me c i m, js_proxied_create e me c i = Some m ->
  exists a, jelse (jp_asset i) (js_find_proxied e me (jp_stub i)) = Some a /\
  cmetas shank_proxy "create" me [must a; must (jp_stub i); must (jp_owner i); must (jor (jp_auth i) (jc_identity c)); may (jp_payer i);
    may (option_map fst (jsys (jp_payer i) (jp_sys i))); must (jor (jp_nifty i) (e_prog e))] = Some m.
Proof. exact proxy_accounts. Qed.
Print Assumptions C86_proxy_accounts.

(** C86: the errors have the codes the program returns and no others. *)
Theorem C86_errors : forall er c, custom_code er = Some c -> exists n, In (Some er, n) asset_errors /\ get_z (cp_errors codama_asset) c = Some (small n).
Proof. exact errors_returned. Qed.
Print Assumptions C86_errors.
Theorem C86_errors_rust : forall c, get_z (cp_errors codama_asset) c = option_map small (rust_from_code c) /\ cp_errors shank_asset = cp_errors codama_asset.
Proof. intros c. exact (conj (errors_described c) errors_same). Qed.
Print Assumptions C86_errors_rust.
Example C86_errors_case : custom_code ELockedAsset = Some 12 /\ get_z (cp_errors codama_asset) 12 = Some "lockedAsset" /\ get_z (cp_errors codama_asset) 22 = None.
Proof. vm_compute. repeat split; reflexivity. Qed.

(** The JavaScript client of the proxy program: /repo/clients/js/proxy/src.  The
    serializers and account lists of umi are those of [Js]; addresses as in [BridgeC]. *)
From Verif Require Import Base State Layout Constr Ext World Proc Borsh Proxy Client Bridge Js Rs BridgeC.
From Coq Require Import Strings.Byte.

(** findProxiedAssetPda — pda.ts:4-18 *)
Definition js_find_proxied (e : env) (me stub : pubkey) : option pubkey := js_pda e me [pk_bytes stub].
(** CreateInstructionAccounts — generated/instructions/create.ts:34-49; stub, authority and payer are signers *)
Record jproxied := mkJProxied {
  jp_asset : option pubkey; jp_stub : pubkey; jp_owner : pubkey; jp_auth : option pubkey; jp_payer : option pubkey; jp_sys : option pubkey; jp_nifty : option pubkey
}.
(** create() — generated/instructions/create.ts:86-197, with resolveProxiedAsset — hooked/resolvers.ts:5-21:
    the address by default, the identity as authority, the system program only if there is a payer *)
Definition js_proxied_create (e : env) (me : pubkey) (c : jctx) (i : jproxied) : option (list ainfo) :=
  match jelse (jp_asset i) (js_find_proxied e me (jp_stub i)) with
  | None => None
  | Some asset =>
      Some [jmeta me true (Some (jpub asset)); jmeta me false (Some (jsigner (jp_stub i))); jmeta me false (Some (jpub (jp_owner i)));
            jmeta me false (Some (jsigner (jor (jp_auth i) (jc_identity c)))); jmeta me true (option_map jsigner (jp_payer i));
            jmeta me false (jsys (jp_payer i) (jp_sys i)); jmeta me false (Some (jpub (jor (jp_nifty i) (e_prog e))))]
  end.
(** getCreateInstructionDataSerializer — generated/instructions/create.ts:56-71 *)
Definition js_proxied_data (name : bytes) : option bytes := jseq [ju 1 0; jstr32 name].
(** transfer() and update() of the asset's client with [proxy]: /repo/clients/js/asset/src/transfer.ts:12-34, update.ts:22-60 *)
Definition js_proxied_transfer (e : env) (me : pubkey) (c : jctx) (asset : pubkey) (signer : option pubkey) (recipient : pubkey) (group : option pubkey) : list ainfo :=
  js_proxied e (js_transfer_metas me c asset signer recipient group).
Definition js_proxied_update (e : env) (me : pubkey) (c : jctx) (asset : pubkey) (auth buffer group payer sysp : option pubkey) : list ainfo :=
  js_proxied e (js_update_metas me c asset auth buffer group payer sysp).

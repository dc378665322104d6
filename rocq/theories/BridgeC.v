(** The JavaScript and Rust clients of the bridge: account lists, instruction data and
    the readers of vaults.
    JavaScript paths are relative to /repo/clients/js/bridge/src, Rust paths to
    /repo/clients/rust/bridge/src/generated.  The serializers of umi are those of [Js]. *)
From Verif Require Import Base State Layout Constr Ext World Proc Borsh Proxy Client Bridge Js Rs.
From Coq Require Import Strings.Byte.

(** ** What the clients take from other packages *)
(** mpl-token-metadata and mpl-toolbox: findMetadataPda, findMasterEditionPda,
    findAssociatedTokenPda (mint, owner), findTokenRecordPda (mint, token) *)
Record pdas := mkPdas {
  pd_metadata : pubkey -> pubkey; pd_edition : pubkey -> pubkey;
  pd_ata : pubkey -> pubkey -> pubkey; pd_record : pubkey -> pubkey -> pubkey
}.
(** IDs of other programs: Token Metadata, instructions sysvar, SPL token, SPL ATA, Token Auth Rules *)
Record ids := mkIds { id_tm : pubkey; id_sysvar : pubkey; id_spl : pubkey; id_ata : pubkey; id_rules : pubkey }.

(** ** Addresses *)
(** context.eddsa.findPda: throws where no bump gives an address *)
Definition js_pda (e : env) (me : pubkey) (seeds : list bytes) : option pubkey :=
  option_map fst (find_address e (concat seeds) me 255).
(** findBridgeAssetPda — pda.ts:7-22; string({ size: 'variable' }) writes the bytes alone *)
Definition js_find_asset (e : env) (me mint : pubkey) : option pubkey := js_pda e me [[x61; x73; x73; x65; x74]; pk_bytes mint].
(** findVaultPda — generated/accounts/vault.ts:156-171 *)
Definition js_find_vault (e : env) (me mint : pubkey) : option pubkey := js_pda e me [[x76; x61; x75; x6c; x74]; pk_bytes mint].
(** Vault::find_pda — accounts/vault.rs:47-52 *)
Definition rs_find_vault (e : env) (me mint : pubkey) : option (pubkey * byte) := find_address e ([x76; x61; x75; x6c; x74] ++ pk_bytes mint) me 255.
(** Vault::create_pda — accounts/vault.rs:37-45 *)
Definition rs_vault_pda (e : env) (me mint : pubkey) (bump : byte) : option pubkey := e_cpa e ([x76; x61; x75; x6c; x74] ++ pk_bytes mint) bump (pk_bytes me).

(** ** Bridge, JavaScript — generated/instructions/bridge.ts:43-84, 103-110 *)
Record jbridge := mkJBridge {
  jb_asset : option pubkey; jb_vault : option pubkey; jb_owner : pubkey; jb_token : option pubkey; jb_mint : pubkey;
  jb_metadata : option pubkey; jb_edition : option pubkey; jb_record : option pubkey; jb_vtoken : option pubkey; jb_vrecord : option pubkey;
  jb_payer : option pubkey; jb_nifty : option pubkey; jb_tm : option pubkey; jb_sys : option pubkey; jb_sysvar : option pubkey;
  jb_spl : option pubkey; jb_ata : option pubkey; jb_rulesp : option pubkey; jb_rules : option pubkey; jb_group : option pubkey;
  jb_standard : option tm_std
}.
(** a value that was given, or else the default *)
Definition jelse (o d : option pubkey) : option pubkey := match o with Some k => Some k | None => d end.
(** ... the default for programmable tokens only; the standard is NonFungible by default *)
Definition jpnft (o : option pubkey) (s : option tm_std) (d : pubkey) : option pubkey :=
  match o, s with Some k, _ => Some k | None, Some TmProgrammable => Some d | None, _ => None end.
(** bridge() — generated/instructions/bridge.ts:113-360: accounts and their defaults *)
Definition js_bridge (e : env) (me : pubkey) (pd : pdas) (id : ids) (c : jctx) (i : jbridge) : option (list ainfo) :=
  match jelse (jb_asset i) (js_find_asset e me (jb_mint i)), jelse (jb_vault i) (js_find_vault e me (jb_mint i)) with
  | Some asset, Some vault =>
      let token := jor (jb_token i) (pd_ata pd (jb_mint i) (jb_owner i)) in
      let vtoken := jor (jb_vtoken i) (pd_ata pd (jb_mint i) vault) in
      Some [jmeta me true (Some (jpub asset)); jmeta me true (Some (jpub vault)); jmeta me false (Some (jsigner (jb_owner i)));
            jmeta me true (Some (jpub token)); jmeta me false (Some (jpub (jb_mint i)));
            jmeta me true (Some (jpub (jor (jb_metadata i) (pd_metadata pd (jb_mint i)))));
            jmeta me false (Some (jpub (jor (jb_edition i) (pd_edition pd (jb_mint i)))));
            jmeta me true (option_map jpub (jpnft (jb_record i) (jb_standard i) (pd_record pd (jb_mint i) token)));
            jmeta me true (Some (jpub vtoken));
            jmeta me true (option_map jpub (jpnft (jb_vrecord i) (jb_standard i) (pd_record pd (jb_mint i) vtoken)));
            jmeta me true (Some (jsigner (jor (jb_payer i) (jc_payer c))));
            jmeta me false (Some (jpub (jor (jb_nifty i) (e_prog e))));
            jmeta me false (Some (jpub (jor (jb_tm i) (id_tm id))));
            jmeta me false (Some (jpub (jor (jb_sys i) pk_zero)));
            jmeta me false (Some (jpub (jor (jb_sysvar i) (id_sysvar id))));
            jmeta me false (Some (jpub (jor (jb_spl i) (id_spl id))));
            jmeta me false (Some (jpub (jor (jb_ata i) (id_ata id))));
            jmeta me false (option_map jpub (jpnft (jb_rulesp i) (jb_standard i) (id_rules id)));
            jmeta me false (option_map jpub (jb_rules i));
            jmeta me false (option_map jpub (jb_group i))]
  | _, _ => None
  end.
(** getBridgeInstructionDataSerializer — generated/instructions/bridge.ts:91-101 *)
Definition js_bridge_data : option bytes := ju 1 0.

(** ** Create, JavaScript — generated/instructions/create.ts:35-54 *)
Record jcreate := mkJCreate {
  jn_asset : option pubkey; jn_vault : option pubkey; jn_mint : pubkey; jn_metadata : option pubkey; jn_auth : option jkey;
  jn_collection : option pubkey; jn_payer : option pubkey; jn_sys : option pubkey; jn_nifty : option pubkey
}.
(** create() — generated/instructions/create.ts:84-209 *)
Definition js_create (e : env) (me : pubkey) (pd : pdas) (c : jctx) (i : jcreate) : option (list ainfo) :=
  match jelse (jn_asset i) (js_find_asset e me (jn_mint i)), jelse (jn_vault i) (js_find_vault e me (jn_mint i)) with
  | Some asset, Some vault =>
      Some [jmeta me true (Some (jpub asset)); jmeta me true (Some (jpub vault)); jmeta me false (Some (jpub (jn_mint i)));
            jmeta me false (Some (jpub (jor (jn_metadata i) (pd_metadata pd (jn_mint i)))));
            jmeta me false (Some match jn_auth i with Some a => a | None => jsigner (jc_identity c) end);
            jmeta me false (option_map jpub (jn_collection i));
            jmeta me true (Some (jsigner (jor (jn_payer i) (jc_payer c))));
            jmeta me false (Some (jpub (jor (jn_sys i) pk_zero)));
            jmeta me false (Some (jpub (jor (jn_nifty i) (e_prog e))))]
  | _, _ => None
  end.
(** getCreateInstructionDataSerializer — generated/instructions/create.ts:64-78 *)
Definition js_create_data (is_collection : bool) : option bytes := jseq [ju 1 1; jbool is_collection].

(** ** Rust — instructions/bridge.rs:12-53, 55-200 *)
Record rbridge := mkRBridge {
  rb_asset : pubkey; rb_vault : pubkey; rb_owner : pubkey; rb_token : pubkey; rb_mint : pubkey; rb_metadata : pubkey; rb_edition : pubkey;
  rb_record : option pubkey; rb_vtoken : pubkey; rb_vrecord : option pubkey; rb_payer : pubkey; rb_nifty : pubkey; rb_tm : pubkey;
  rb_sys : pubkey; rb_sysvar : pubkey; rb_spl : pubkey; rb_ata : pubkey; rb_rulesp : option pubkey; rb_rules : option pubkey; rb_group : option pubkey
}.
Definition rs_bridge (me : pubkey) (i : rbridge) : list ainfo :=
  [am (rb_asset i) false; am (rb_vault i) false; am_ro (rb_owner i) true; am (rb_token i) false; am_ro (rb_mint i) false;
   am (rb_metadata i) false; am_ro (rb_edition i) false; rs_opt me am false (rb_record i); am (rb_vtoken i) false;
   rs_opt me am false (rb_vrecord i); am (rb_payer i) true; am_ro (rb_nifty i) false; am_ro (rb_tm i) false; am_ro (rb_sys i) false;
   am_ro (rb_sysvar i) false; am_ro (rb_spl i) false; am_ro (rb_ata i) false; rs_opt me am_ro false (rb_rulesp i);
   rs_opt me am_ro false (rb_rules i); rs_opt me am_ro false (rb_group i)].
Definition rs_bridge_data : bytes := [x00].
(** BridgeBuilder::instruction — instructions/bridge.rs:435-477: the same defaults for
    the programs, none for other accounts (a missing one panics) *)
Definition rs_bridge_build (e : env) (id : ids) (asset vault owner token mint metadata edition : pubkey) (record : option pubkey) (vtoken : pubkey)
    (vrecord : option pubkey) (payer : pubkey) (nifty tm sys sysvar spl ata rulesp rules group : option pubkey) : rbridge :=
  mkRBridge asset vault owner token mint metadata edition record vtoken vrecord payer (jor nifty (e_prog e)) (jor tm (id_tm id)) (jor sys pk_zero)
    (jor sysvar (id_sysvar id)) (jor spl (id_spl id)) (jor ata (id_ata id)) rulesp rules group.
(** instructions/create.rs:12-31, 33-119 *)
Record rcreate := mkRCreate {
  rn_asset : pubkey; rn_vault : pubkey; rn_mint : pubkey; rn_metadata : pubkey; rn_auth : pubkey * bool; rn_collection : option pubkey;
  rn_payer : pubkey; rn_sys : pubkey; rn_nifty : pubkey
}.
Definition rs_create (me : pubkey) (i : rcreate) : list ainfo :=
  [am (rn_asset i) false; am (rn_vault i) false; am_ro (rn_mint i) false; am_ro (rn_metadata i) false; am_ro (fst (rn_auth i)) (snd (rn_auth i));
   rs_opt me am_ro false (rn_collection i); am (rn_payer i) true; am_ro (rn_sys i) false; am_ro (rn_nifty i) false].
Definition rs_create_data (is_collection : bool) : bytes := x01 :: [bool_byte is_collection].

(** ** Vaults *)
(** discriminator, state, bump, mint, asset bump *)
Record vault_view := mkView { vw_disc : Z; vw_state : Z; vw_bump : Z; vw_mint : bytes; vw_abump : Z }.
(** getVaultAccountDataSerializer — generated/accounts/vault.ts:56-77; enums: generated/types/discriminator.ts, state.ts *)
Definition js_vault : reader vault_view :=
  rbind (jr_enum 2) (fun di => rbind (jr_enum 2) (fun st => rbind (jr_u 1) (fun bu => rbind (jr_fixed 32) (fun mi => rbind (jr_u 1) (fun ab =>
  rret (mkView di st bu mi ab)))))).
(** Vault::from_bytes — accounts/vault.rs:14-26, 55-58 (bytes after the fields are ignored) *)
Definition rs_vault : reader vault_view :=
  rbind (rs_variant 2) (fun di => rbind (rs_variant 2) (fun st => rbind read_u8 (fun bu => rbind (rs_array 32) (fun mi => rbind read_u8 (fun ab =>
  rret (mkView (b2z di) (b2z st) (b2z bu) mi (b2z ab))))))).
(** getVaultGpaBuilder — generated/accounts/vault.ts:133-155: a field is compared with the
    serialized value at its position; every search compares the discriminator with Vault too *)
Inductive jvfilter : Set := JVDiscriminator (z : Z) | JVState (z : Z) | JVBump (z : Z) | JVMint (k : bytes) | JVAssetBump (z : Z).
Definition js_vault_filter (f : jvfilter) : option (nat * bytes) :=
  let at_ (o : nat) (b : option bytes) := match b with Some b => Some (o, b) | None => None end in
  match f with
  | JVDiscriminator z => at_ 0%nat (if z <? 2 then ju 1 z else None)
  | JVState z => at_ 1%nat (if z <? 2 then ju 1 z else None)
  | JVBump z => at_ 2%nat (ju 1 z)
  | JVMint k => at_ 3%nat (Some k)
  | JVAssetBump z => at_ 35%nat (ju 1 z)
  end.
Definition js_vault_search (f : jvfilter) : option (list (nat * bytes)) :=
  match js_vault_filter (JVDiscriminator 1), js_vault_filter f with Some a, Some b => Some [a; b] | _, _ => None end.

(** The Rust client: the generated instruction builders and the account reader.
    Paths are relative to /repo/clients/rust/asset/src. *)
From Verif Require Import Base State Layout Constr Ext World Proc Borsh Client.
From Coq Require Import Strings.Byte.

(** ** Instructions — generated/instructions: the accounts pushed by [instruction()]
    (without remaining accounts) and the data.  The argument types have the same
    fields in the same order as the program's, so the data are [write_instr]. *)
(** AccountMeta::new, AccountMeta::new_readonly *)
Definition am (k : pubkey) (s : bool) : ainfo := mkInfo k s true.
Definition am_ro (k : pubkey) (s : bool) : ainfo := mkInfo k s false.
(** an optional account; absent: the program's ID, read only *)
Definition rs_opt (prog : pubkey) (f : pubkey -> bool -> ainfo) (s : bool) (o : option pubkey) : ainfo :=
  match o with Some k => f k s | None => am_ro prog false end.
(** the eighteen account structs; a key with a flag is an optional signer *)
Inductive rs_ix : Type :=
| RsClose (buffer recipient : pubkey)                                                              (* close.rs:12-46 *)
| RsBurn (asset signer : pubkey) (recipient group : option pubkey)                                 (* burn.rs:12-67 *)
| RsCreate (asset : pubkey) (authority : pubkey * bool) (owner : pubkey) (group gauth payer sysp : option pubkey) (m : metadata_input) (* create.rs:14-104 *)
| RsApprove (asset owner delegate : pubkey) (d : delegate_input)                                   (* approve.rs:13-57 *)
| RsAllocate (asset : pubkey) (payer sysp : option pubkey) (x : ext_input)                         (* allocate.rs:13-69 *)
| RsLock (asset signer : pubkey)                                                                   (* lock.rs:12-45 *)
| RsRevoke (asset signer : pubkey) (d : delegate_input)                                            (* revoke.rs:13-52 *)
| RsTransfer (asset signer recipient : pubkey) (group : option pubkey)                             (* transfer.rs:12-63 *)
| RsUnlock (asset signer : pubkey)                                                                 (* unlock.rs:12-45 *)
| RsUnverify (asset creator : pubkey)                                                              (* unverify.rs:12-45 *)
| RsUpdate (asset authority : pubkey) (buffer group payer sysp : option pubkey) (u : update_input) (* update.rs:13-97 *)
| RsVerify (asset creator : pubkey)                                                                (* verify.rs:12-45 *)
| RsWrite (asset payer sysp : pubkey) (d : data_input)                                             (* write.rs:12-56 *)
| RsGroup (asset group authority : pubkey)                                                         (* group.rs:12-50 *)
| RsUngroup (asset group authority : pubkey)                                                       (* ungroup.rs:12-50 *)
| RsHandover (asset authority next : pubkey)                                                       (* handover.rs:12-51 *)
| RsRemove (asset authority : pubkey) (group : option pubkey) (recipient : pubkey) (t : ext_type)  (* remove.rs:13-70 *)
| RsResize (asset authority : pubkey) (payer : pubkey * bool) (sysp : option pubkey) (s : strategy). (* resize.rs:13-71 *)
Definition rs_instr (x : rs_ix) : instr :=
  match x with
  | RsClose _ _ => IClose | RsBurn _ _ _ _ => IBurn | RsCreate _ _ _ _ _ _ _ m => ICreate m | RsApprove _ _ _ d => IApprove d
  | RsAllocate _ _ _ x => IAllocate x | RsLock _ _ => ILock | RsRevoke _ _ d => IRevoke d | RsTransfer _ _ _ _ => ITransfer
  | RsUnlock _ _ => IUnlock | RsUnverify _ _ => IUnverify | RsUpdate _ _ _ _ _ _ u => IUpdate u | RsVerify _ _ => IVerify
  | RsWrite _ _ _ d => IWrite d | RsGroup _ _ _ => IGroup | RsUngroup _ _ _ => IUngroup | RsHandover _ _ _ => IHandover
  | RsRemove _ _ _ _ t => IRemove t | RsResize _ _ _ _ s => IResize s
  end.
(** the [accounts.push] lines of [instruction_with_remaining_accounts] in the same files *)
Definition rs_metas (prog : pubkey) (x : rs_ix) : list ainfo :=
  let opt := rs_opt prog in
  match x with
  | RsClose b r => [am b true; am r false]
  | RsBurn a s r g => [am a false; am s true; opt am false r; opt am false g]
  | RsCreate a au o g ga p s _ => [am a true; am_ro (fst au) (snd au); am_ro o false; opt am false g; opt am_ro true ga; opt am true p; opt am_ro false s]
  | RsApprove a o d _ => [am a false; am_ro o true; am_ro d false]
  | RsAllocate a p s _ => [am a true; opt am true p; opt am_ro false s]
  | RsLock a s | RsRevoke a s _ | RsUnlock a s | RsUnverify a s | RsVerify a s => [am a false; am_ro s true]
  | RsTransfer a s r g => [am a false; am_ro s true; am_ro r false; opt am_ro false g]
  | RsUpdate a au b g p s _ => [am a false; am_ro au true; opt am false b; opt am_ro false g; opt am true p; opt am_ro false s]
  | RsWrite a p s _ => [am a true; am p true; am_ro s false]
  | RsGroup a g au | RsUngroup a g au => [am a false; am g false; am_ro au true]
  | RsHandover a au n => [am a false; am_ro au true; am_ro n true]
  | RsRemove a au g r _ => [am a false; am_ro au true; opt am_ro false g; am r false]
  | RsResize a au p s _ => [am a false; am_ro au true; am (fst p) (snd p); opt am_ro false s]
  end.
Definition rs_build (prog : pubkey) (x : rs_ix) : ix := (rs_metas prog x, write_instr (rs_instr x)).

(** ** Account reader — generated/accounts/internal_asset.rs:17-45: borsh, field by field *)
Record rs_asset : Type := mkRsAsset {
  ra_disc : byte; ra_state : byte; ra_standard : standard; ra_mutable : bool; ra_owner : bytes; ra_group : bytes; ra_authority : bytes;
  ra_delegate : bytes; ra_roles : byte; ra_name : bytes }.
(** an enum of [n] variants without fields *)
Definition rs_variant (n : Z) : reader byte := rbind read_u8 (fun b => if b2z b <? n then rret b else rfail).
(** [[u8; N]] and Pubkey *)
Definition rs_array (n : nat) : reader bytes := fun b => if Nat.leb n (length b) then Some (firstn n b, skipn n b) else None.
(** NullablePublicKey::to_option — hooked/nullable_public_key.rs:8-16 *)
Definition rs_nullable (b : bytes) : option bytes := if bytes_eqb b zero32 then None else Some b.
(** deserialize: bytes after the fields are left alone *)
Definition rs_reader : reader rs_asset :=
  rbind (rs_variant 2) (fun di => rbind (rs_variant 2) (fun st => rbind read_standard (fun sd => rbind read_bool (fun mu =>
  rbind (rs_array 32) (fun ow => rbind (rs_array 32) (fun gr => rbind (rs_array 32) (fun au => rbind (rs_array 32) (fun de =>
  rbind read_u8 (fun ro => rbind (rs_array 35) (fun na => rret (mkRsAsset di st sd mu ow gr au de ro na))))))))))).
Definition rs_read (d : bytes) : option rs_asset := option_map fst (rs_reader d).

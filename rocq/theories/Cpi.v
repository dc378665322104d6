(** Cross-program calls of the asset program through the generated code: the
    [...Cpi] structs and [...CpiBuilder]s of the Rust client
    (clients/rust/asset/src/generated/instructions) and of the interface crate
    (programs/asset/interface/src/generated/instructions). *)
From Verif Require Import Base State Layout Constr Ext World Proc Borsh Client Proxy Bridge Rs.
From Coq Require Import Strings.Byte.

(** A remaining account as the builders keep it: the account and two flags —
    [__remaining_accounts], transfer.rs:413-418 *)
Definition rest : Type := (pubkey * bool * bool)%type.
(** add_remaining_account — transfer.rs:349-359 *)
Definition add_rest (l : list rest) (k : pubkey) (is_writable is_signer : bool) : list rest := l ++ [(k, is_writable, is_signer)].
(** the push of a remaining account in invoke_signed_with_remaining_accounts —
    transfer.rs:254-260: [is_signer: remaining_account.1, is_writable: remaining_account.2] *)
Definition rest_meta (r : rest) : ainfo := mkInfo (fst (fst r)) (snd (fst r)) (snd r).

(** the accounts given, absent optional ones left out: the [account_infos.push]
    lines after the program's — transfer.rs:268-279 and the same place in the others *)
Definition opt_key (o : option pubkey) : list pubkey := match o with Some k => [k] | None => [] end.
Definition rs_keys (x : rs_ix) : list pubkey :=
  match x with
  | RsClose b r => [b; r]
  | RsBurn a s r g => [a; s] ++ opt_key r ++ opt_key g
  | RsCreate a au o g ga p s _ => [a; fst au; o] ++ opt_key g ++ opt_key ga ++ opt_key p ++ opt_key s
  | RsApprove a o d _ => [a; o; d]
  | RsAllocate a p s _ => [a] ++ opt_key p ++ opt_key s
  | RsLock a s | RsRevoke a s _ | RsUnlock a s | RsUnverify a s | RsVerify a s => [a; s]
  | RsTransfer a s r g => [a; s; r] ++ opt_key g
  | RsUpdate a au b g p s _ => [a; au] ++ opt_key b ++ opt_key g ++ opt_key p ++ opt_key s
  | RsWrite a p s _ => [a; p; s]
  | RsGroup a g au | RsUngroup a g au => [a; g; au]
  | RsHandover a au n => [a; au; n]
  | RsRemove a au g r _ => [a; au] ++ opt_key g ++ [r]
  | RsResize a au p s _ => [a; au; fst p] ++ opt_key s
  end.

(** The interface crate's account lists — interface/src/generated/instructions/*.rs,
    [accounts.push] lines; its data are those of the client *)
Definition if_metas (prog : pubkey) (x : rs_ix) : list ainfo :=
  let opt := rs_opt prog in
  match x with
  | RsClose b r => [am b true; am r false]
  | RsBurn a s r g => [am a true; am s true; opt am false r; opt am false g]
  | RsCreate a au o g ga p s _ => [am a true; am_ro (fst au) (snd au); am_ro o false; opt am false g; opt am_ro true ga; opt am true p; opt am_ro false s]
  | RsApprove a o d _ => [am a true; am_ro o true; am_ro d false]
  | RsAllocate a p s _ => [am a true; opt am true p; opt am_ro false s]
  | RsLock a s | RsRevoke a s _ | RsUnlock a s | RsUnverify a s | RsVerify a s => [am a true; am_ro s true]
  | RsTransfer a s r g => [am a true; am_ro s true; am_ro r false; opt am_ro false g]
  | RsUpdate a au b g p s _ => [am a true; am_ro au true; opt am false b; opt am_ro false g; opt am true p; opt am_ro false s]
  | RsWrite a p s _ => [am a true; am p true; am_ro s false]
  | RsGroup a g au | RsUngroup a g au => [am a true; am g false; am_ro au true]
  | RsHandover a au n => [am a true; am_ro au true; am_ro n true]
  | RsRemove a au g r _ => [am a true; am_ro au true; opt am_ro false g; am r false]
  | RsResize a au p s _ => [am a true; am_ro au true; am (fst p) (snd p); opt am_ro false s]
  end.

(** invoke and invoke_signed (Solana; assumed) from program [me] with the accounts
    [infos]: on top of the rules of [invoke], every account of the instruction that is
    not executable must be among those handed over.  The program called is the asset
    program, whatever [program] is — [program_id: crate::ASSET_ID] or INTERFACE_ID,
    transfer.rs:263-267; [program] is only handed over.  No seeds, or one pair. *)
Definition cpi_call (e : env) (me : pubkey) (infos : list ainfo) (w0 w : world) (sd : option (bytes * byte)) (program : pubkey)
    (keys : list pubkey) (metas : list ainfo) (b : bytes) : res world :=
  require (forallb (fun m => pk_eqb (ai_key m) (e_prog e) || existsb (pk_eqb (ai_key m)) (program :: keys)) metas) ECpi
   (match sd with
    | None => invoke0 e infos w0 w metas b
    | Some (s, bump) => invoke e me infos w0 w metas b s bump
    end).
(** invoke_signed_with_remaining_accounts of the client and of the interface *)
Definition rs_cpi (e : env) (me : pubkey) (infos : list ainfo) (w0 w : world) (sd : option (bytes * byte)) (program : pubkey)
    (x : rs_ix) (r : list rest) : res world :=
  cpi_call e me infos w0 w sd program (rs_keys x ++ map (fun y => fst (fst y)) r) (rs_metas (e_prog e) x ++ map rest_meta r) (write_instr (rs_instr x)).
Definition if_cpi (e : env) (me : pubkey) (infos : list ainfo) (w0 w : world) (sd : option (bytes * byte)) (program : pubkey)
    (x : rs_ix) (r : list rest) : res world :=
  cpi_call e me infos w0 w sd program (rs_keys x ++ map (fun y => fst (fst y)) r) (if_metas (e_prog e) x ++ map rest_meta r) (write_instr (rs_instr x)).

(** Specification: calls of the asset program from other programs. *)
From Verif Require Import Base State World Proc Borsh Proxy Rs Cpi Spec SpecI SpecP.
From Coq Require Import Strings.Byte.

(** the address a program signs for with the seeds it gives *)
Definition signs_for (e : env) (me : pubkey) (sd : option (bytes * byte)) (k : pubkey) : Prop :=
  match sd with None => False | Some (s, b) => e_cpa e s b (pk_bytes me) = Some k end.
(** seeds, if given, that give an address *)
Definition seeds_good (e : env) (me : pubkey) (sd : option (bytes * byte)) : Prop :=
  match sd with None => True | Some (s, b) => exists k, e_cpa e s b (pk_bytes me) = Some k end.
(** a caller with the accounts [infos] may pass on [m] *)
Definition may_pass (e : env) (me : pubkey) (infos : list ainfo) (sd : option (bytes * byte)) (m : ainfo) : Prop :=
  mentions infos (ai_key m) /\ (ai_signer m = true -> signs infos (ai_key m) \/ signs_for e me sd (ai_key m)) /\
  (ai_writable m = true -> writes infos (ai_key m)).
(** the account as the caller of [add_remaining_account] asks for it *)
Definition asked (k : pubkey) (is_writable is_signer : bool) : ainfo := mkInfo k is_signer is_writable.
(** the asset (or buffer) an instruction is about: its first account *)
Definition about (x : rs_ix) : pubkey :=
  match x with
  | RsClose a _ | RsBurn a _ _ _ | RsCreate a _ _ _ _ _ _ _ | RsApprove a _ _ _ | RsAllocate a _ _ _ | RsLock a _ | RsRevoke a _ _
  | RsTransfer a _ _ _ | RsUnlock a _ | RsUnverify a _ | RsUpdate a _ _ _ _ _ _ | RsVerify a _ | RsWrite a _ _ _ | RsGroup a _ _
  | RsUngroup a _ _ | RsHandover a _ _ | RsRemove a _ _ _ _ | RsResize a _ _ _ _ => a
  end.
(** the accounts whose signature the instruction asks for *)
Definition other_signers (x : rs_ix) : list pubkey :=
  match x with
  | RsClose _ _ | RsAllocate _ None _ _ | RsCreate _ _ _ _ None None _ _ => []
  | RsBurn _ s _ _ | RsApprove _ s _ _ | RsLock _ s | RsRevoke _ s _ | RsTransfer _ s _ _ | RsUnlock _ s | RsUnverify _ s | RsVerify _ s
  | RsWrite _ s _ _ | RsGroup _ _ s | RsUngroup _ _ s | RsRemove _ s _ _ _ | RsAllocate _ (Some s) _ _ | RsCreate _ _ _ _ (Some s) None _ _
  | RsCreate _ _ _ _ None (Some s) _ _ | RsUpdate _ s _ _ None _ _ => [s]
  | RsCreate _ _ _ _ (Some s) (Some p) _ _ | RsUpdate _ s _ _ (Some p) _ _ | RsHandover _ s p => [s; p]
  | RsResize _ s p _ _ => if snd p then [s; fst p] else [s]
  end.

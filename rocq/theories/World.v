(** Accounts, the runtime's account rules, system-program CPIs and the shared
    helpers of the processor (processor/mod.rs, utils.rs).

    The Solana runtime is not part of /repo: the rules below are the assumed
    environment (see DESIGN.md, trusted base). *)
From Verif Require Import Base State Layout Constr Ext.
From Coq Require Import Strings.Byte.

Record account := mkAcct { lamports : Z; acct_owner : pubkey; data : bytes }.
Definition world := pubkey -> account.

(** One entry of the instruction's account list. *)
Record ainfo := mkInfo { ai_key : pubkey; ai_signer : bool; ai_writable : bool }.

(** Everything the program takes from outside the accounts and arguments. *)
Record env := mkEnv {
  e_prog : pubkey;                    (* crate::ID *)
  e_rent : Z -> Z;                    (* Rent::minimum_balance *)
  e_cpa : bytes -> byte -> bytes -> option pubkey;
                                      (* Pubkey::create_program_address([seeds,[bump]], program) *)
  e_cpi : bool;                       (* get_stack_height() > TRANSACTION_LEVEL_STACK_HEIGHT *)
  e_heap_al : Z;                      (* address mod 8 of the decoded extension data vector *)
  e_fuel : nat                        (* compute budget of the boundary loop of Update *)
}.

Definition upd (w : world) (k : pubkey) (a : account) : world :=
  fun k' => if pk_eqb k' k then a else w k'.

(** An account may appear several times in the list; privileges are merged, as
    the runtime does when it deduplicates the transaction's accounts. *)
Definition is_signer (infos : list ainfo) (k : pubkey) : bool :=
  existsb (fun i => pk_eqb (ai_key i) k && ai_signer i) infos.
Definition is_writable (infos : list ainfo) (k : pubkey) : bool :=
  existsb (fun i => pk_eqb (ai_key i) k && ai_writable i) infos.

(** nitrate [Accounts] derive: the i-th account; missing -> NotEnoughAccountKeys.
    An optional account is absent iff its key is the program's own ID. *)
Definition acct (infos : list ainfo) (i : nat) : res pubkey :=
  match nth_error infos i with
  | Some a => Ok (ai_key a)
  | None => Err ENotEnoughAccountKeys
  end.
Definition opt_acct (e : env) (infos : list ainfo) (i : nat) : res (option pubkey) :=
  k <- acct infos i ;;
  Ok (if pk_eqb k (e_prog e) then None else Some k).

(** MAX_PERMITTED_DATA_LENGTH: 10 MiB *)
Definition MAX_DATA : Z := 10485760.

(** Runtime rule for data writes: an account whose data changes must be writable
    and owned by the executing program, and data never exceed 10 MiB.  (Checked here at the write; the runtime
    checks at the end of the instruction, with the same effect since a violation
    aborts the transaction.) *)
Definition set_data (e : env) (infos : list ainfo) (w : world) (k : pubkey) (d : bytes)
  : res world :=
  if bytes_eqb d (data (w k)) then Ok w
  else require (is_writable infos k && pk_eqb (acct_owner (w k)) (e_prog e)
                && (zlen d <=? MAX_DATA)) ERuntime
         (Ok (upd w k (mkAcct (lamports (w k)) (acct_owner (w k)) d))).

(** Moving lamports directly ([*a += d; *b -= d]): the source must be writable
    and owned by the program, the destination writable.  Nothing happens when the
    amount is 0 or source and destination coincide. *)
Definition move_lamports (e : env) (infos : list ainfo) (w : world) (src dst : pubkey) (amt : Z)
  : res world :=
  if (amt =? 0) || pk_eqb src dst then Ok w
  else require (is_writable infos src && is_writable infos dst &&
                pk_eqb (acct_owner (w src)) (e_prog e)) ERuntime
    (require (amt <=? lamports (w src)) ERuntime
     (let w1 := upd w src (mkAcct (lamports (w src) - amt) (acct_owner (w src)) (data (w src))) in
      require (lamports (w1 dst) + amt <? two64) ERuntime
      (Ok (upd w1 dst (mkAcct (lamports (w1 dst) + amt) (acct_owner (w1 dst)) (data (w1 dst))))))).

(** CPI to the system program: Transfer.  The source must be a signer, writable,
    system-owned and without data. *)
Definition sys_transfer (infos : list ainfo) (w : world) (src dst : pubkey) (amt : Z) : res world :=
  require (is_signer infos src && is_writable infos src && is_writable infos dst) ECpi
   (require (pk_eqb (acct_owner (w src)) pk_zero && (zlen (data (w src)) =? 0)) ECpi
    (require (amt <=? lamports (w src)) ECpi
     (let w1 := upd w src (mkAcct (lamports (w src) - amt) (acct_owner (w src)) (data (w src))) in
      require (lamports (w1 dst) + amt <? two64) ECpi
      (Ok (upd w1 dst (mkAcct (lamports (w1 dst) + amt) (acct_owner (w1 dst)) (data (w1 dst)))))))).

(** MAX_PERMITTED_DATA_INCREASE *)
Definition MAX_INCREASE : Z := 10240.

(** CPI to the system program: CreateAccount. *)
Definition sys_create (e : env) (infos : list ainfo) (w : world) (payer k : pubkey) (lam space : Z)
  : res world :=
  require (is_signer infos k && is_writable infos k) ECpi
   (require ((lamports (w k) =? 0) && (zlen (data (w k)) =? 0) &&
             pk_eqb (acct_owner (w k)) pk_zero) ECpi
    (require (space <=? MAX_INCREASE) ECpi
     (let w1 := upd w k (mkAcct (lamports (w k)) (e_prog e) (zeros space)) in
      sys_transfer infos w1 payer k lam))).

(** AccountInfo::realloc(size, false): at most MAX_PERMITTED_DATA_INCREASE more
    than the length at entry of the instruction ([w0]); new bytes read as zero. *)
Definition realloc_bytes (d : bytes) (size : Z) : bytes :=
  if size <=? zlen d then firstn (Z.to_nat size) d
  else d ++ zeros (size - zlen d).
Definition realloc (e : env) (infos : list ainfo) (w0 w : world) (k : pubkey) (size : Z) : res world :=
  if size =? zlen (data (w k)) then Ok w
  else require (size <=? zlen (data (w0 k)) + MAX_INCREASE) EInvalidRealloc
         (set_data e infos w k (realloc_bytes (data (w k)) size)).

(** resize — processor/mod.rs:208-280 *)
Definition resize (e : env) (infos : list ainfo) (w0 w : world) (size : Z) (k : pubkey)
    (payer sysp : option pubkey) : res world :=
  let required := e_rent e size in
  let lam := lamports (w k) in
  w1 <- (if size <? zlen (data (w k)) then
           let delta := Z.max 0 (lam - (if size =? 0 then 0 else required)) in
           p <- ok_or payer ENotEnoughAccountKeys ;;
           move_lamports e infos w k p delta
         else
           require (size - zlen (data (w k)) <=? MAX_INCREASE) EAccountDataTooSmall
            (let delta := Z.max 0 (required - lam) in
             if 0 <? delta then
               p <- ok_or payer ENotEnoughAccountKeys ;;
               s <- ok_or sysp ENotEnoughAccountKeys ;;
               require (is_signer infos p) EMissingRequiredSignature
                (require (pk_eqb s pk_zero) EIncorrectProgramId
                 (sys_transfer infos w p k delta))
             else Ok w)) ;;
  realloc e infos w0 w1 k size.

(** close_program_account — utils.rs:11-27 *)
Definition close_account (e : env) (infos : list ainfo) (w : world) (k recipient : pubkey) : res world :=
  require (negb (pk_eqb k recipient)) EAccountBorrowFailed
   (guard (lamports (w recipient) + lamports (w k) <? two64)
    (w1 <- move_lamports e infos w k recipient (lamports (w k)) ;;
     (* realloc(0) and assign: data and owner of a writable, program-owned account *)
     require (is_writable infos k && pk_eqb (acct_owner (w k)) (e_prog e)) ERuntime
      (Ok (upd w1 k (mkAcct (lamports (w1 k)) pk_zero []))))).

(** assert_delegate — utils.rs:29-59.  [require!] inside the closure returns from
    the closure, so the last delegate present decides. *)
Definition assert_delegate (ds : list (option delegate)) (target : bytes) (r : role) : res unit :=
  fold_left (fun result o =>
    match o with
    | None => result
    | Some dl =>
        if negb (bytes_eqb (del_addr dl) target) then Err EInvalidDelegate
        else if negb (is_active dl r) then Err EDelegateRoleNotActive
        else Ok tt
    end) ds (Err EDelegateNotFound).

(** [Extension::get::<Manager>(extensions).map(|s| s.delegate)] *)
Definition manager_delegate (d : bytes) : res (option delegate) :=
  r <- sect_get XManager (drop ASSET_LEN d) ;;
  match r with
  | None => Ok None
  | Some (_, b) => dl <- manager_from_bytes b ;; Ok (Some dl)
  end.

Definition target_of (w : world) (k : pubkey) : target :=  (* utils.rs:108-125 *)
  mkTarget (pk_bytes k) (pk_bytes (acct_owner (w k))) (zlen (data (w k)) =? 0).

(** process_royalties! — utils.rs:61-106.  [d] is the data holding the extension
    (asset or group). *)
Definition process_royalties (e : env) (w : world) (asset signer recipient : pubkey) (d : bytes)
  : res bool :=
  r <- asset_get XRoyalties d ;;
  match r with
  | None => Ok false
  | Some (off, b) =>
      roy <- royalties_from_bytes off b ;;
      let w2w := negb (e_cpi e) && pk_eqb (acct_owner (w signer)) pk_zero
                 && pk_eqb (acct_owner (w recipient)) pk_zero in
      if w2w then Ok true
      else
        ok <- eval_constr (snd roy)
                (mkCctx (target_of w asset) (target_of w signer) (Some (target_of w recipient))) ;;
        require ok EAssertionFailure (Ok true)
  end.

(** validate_access — processor/mod.rs:161-205.  [Some k]: a locked asset. *)
Fixpoint find_locked (e : env) (w : world) (l : list ainfo) : res (option pubkey) :=
  match l with
  | [] => Ok None
  | i :: l' =>
      let a := w (ai_key i) in
      if pk_eqb (acct_owner a) (e_prog e) && negb (zlen (data a) =? 0) then
        if beqb (byte_at (data a) 0) DISC_ASSET then
          guard (2 <=? zlen (data a))
           (if beqb (byte_at (data a) 1) ST_LOCKED then Ok (Some (ai_key i))
            else find_locked e w l')
        else find_locked e w l'
      else find_locked e w l'
  end.
Definition validate_access (e : env) (w : world) (infos : list ainfo) : res (option pubkey) :=
  u <- (match infos with
        | [] => Ok tt
        | i :: _ =>
            let a := w (ai_key i) in
            if pk_eqb (acct_owner a) (e_prog e) && negb (zlen (data a) =? 0) then
              guard (3 <=? zlen (data a))
               (if beqb (byte_at (data a) 2) (standard_code Proxied)
                then require (is_signer infos (ai_key i)) EMissingRequiredSignature (Ok tt)
                else Ok tt)
            else Ok tt
        end) ;;
  find_locked e w infos.

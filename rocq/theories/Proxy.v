(** The interface crate's pass-through and the proxy program built on it
    (programs/asset/interface/src/processor.rs, programs/proxy/src). *)
From Verif Require Import Base State Layout Constr Ext World Proc Borsh.
From Coq Require Import Strings.Byte.

(** ** Cross-program invocation (Solana runtime; assumed environment)

    invoke_signed from a program [me] into the asset program.  The address of the
    single signer seed pair is derived; every account of the instruction must be
    one the caller was given, with no privilege the caller does not have, except
    that the derived address counts as a signer; the callee's account must be
    among the caller's; no account given to the caller may end up more than
    MAX_PERMITTED_DATA_INCREASE longer than it was when the caller was entered
    ([w0]).  A failing callee aborts the transaction.  (The 10 KiB limit on
    instruction data, the stack height limit and compute are not modelled.) *)
Definition in_cpi (e : env) : env :=
  mkEnv (e_prog e) (e_rent e) (e_cpa e) true (e_heap_al e) (e_fuel e).
Definition listed (infos : list ainfo) (k : pubkey) : bool :=
  existsb (fun i => pk_eqb (ai_key i) k) infos.
Definition granted (infos : list ainfo) (pda : pubkey) (m : ainfo) : bool :=
  listed infos (ai_key m)
  && (negb (ai_signer m) || is_signer infos (ai_key m) || pk_eqb (ai_key m) pda)
  && (negb (ai_writable m) || is_writable infos (ai_key m)).
Definition grown (infos : list ainfo) (w0 w : world) : bool :=
  forallb (fun i => zlen (data (w (ai_key i))) <=? zlen (data (w0 (ai_key i))) + MAX_INCREASE) infos.
Definition invoke (e : env) (me : pubkey) (infos : list ainfo) (w0 w : world) (metas : list ainfo)
    (b : bytes) (seeds : bytes) (bump : byte) : res world :=
  pda <- ok_or (e_cpa e seeds bump (pk_bytes me)) ECpi ;;
  require (listed infos (e_prog e)) ECpi
   (require (forallb (granted infos pda) metas) ECpi
    (w' <- entry (in_cpi e) metas w b ;;
     require (grown infos w0 w') ECpi (Ok w'))).

(** ** Interface *)
(** fetch_proxy_data! — interface/src/processor.rs:23-40 *)
Definition fetch_proxy (d : bytes) : res proxy :=
  r <- asset_get XProxy d ;;
  match r with
  | None => Err EInvalidAccountData
  | Some (off, b) => proxy_from_bytes b
  end.
(** Interface::process_instruction — interface/src/processor.rs:57-123; the tag
    check of log_instruction_name! is 57-86 *)
Definition iface_process (e : env) (me : pubkey) (infos : list ainfo) (w : world) (b : bytes) : res world :=
  match b with
  | [] => Err EInvalidInstructionData
  | t :: _ =>
      require (b2z t <=? 16) EInvalidInstructionData
       (match infos with
        | [] => Err ENotEnoughAccountKeys
        | i :: r =>
            p <- fetch_proxy (data (w (ai_key i))) ;;
            invoke e me infos w w (mkInfo (ai_key i) true (ai_writable i) :: r) b (p_seeds p) (p_bump p)
        end)
  end.

(** ** The proxy program (programs/proxy/src) *)
(** What the program takes from outside: the clock, the hash and its own image
    file split at the colour placeholder (image.svg; include_str!, processor/mod.rs:14) *)
Record penv := mkPenv {
  pe_now : Z;                       (* Clock::unix_timestamp, an i64 *)
  pe_hash : list bytes -> bytes;    (* keccak::hashv *)
  pe_before : bytes;                (* image text before {#RGB#} *)
  pe_after : bytes                  (* image text after {#RGB#} *)
}.
Definition image (pe : penv) (colour : bytes) : bytes := pe_before pe ++ colour ++ pe_after pe.

(** Decimal formatting: format!("{}", n) and format!("{:>width}", n) *)
Fixpoint digits (fuel : nat) (n : Z) : bytes :=
  match fuel with
  | O => []
  | S f => if n <? 10 then [z2b (48 + n)] else digits f (n / 10) ++ [z2b (48 + n mod 10)]
  end.
Definition decimal (n : Z) : bytes :=
  if n <? 0 then x2d :: digits 20 (- n) else digits 20 n.
Definition pad_left (width : nat) (s : bytes) : bytes := repeat x20 (width - length s) ++ s.

(** str::trim (ASCII white space only: simplification) and str::parse::<i64> *)
Definition white (b : byte) : bool := (b2z b =? 32) || ((9 <=? b2z b) && (b2z b <=? 13)).
Fixpoint trim_left (s : bytes) : bytes :=
  match s with [] => [] | b :: r => if white b then trim_left r else s end.
Definition trim (s : bytes) : bytes := rev (trim_left (rev (trim_left s))).
Fixpoint parse_digits (acc : Z) (s : bytes) : option Z :=
  match s with
  | [] => Some acc
  | b :: r => if (48 <=? b2z b) && (b2z b <=? 57) then parse_digits (10 * acc + (b2z b - 48)) r else None
  end.
Definition parse_i64 (s : bytes) : option Z :=
  let n := match s with
           | [] => None
           | b :: r =>
               if b2z b =? 45 then (match r with [] => None | _ => option_map Z.opp (parse_digits 0 r) end)
               else if b2z b =? 43 then (match r with [] => None | _ => parse_digits 0 r end)
               else parse_digits 0 s
           end in
  match n with
  | Some v => if (- 9223372036854775808 <=? v) && (v <=? 9223372036854775807) then Some v else None
  | None => None
  end.
(** i64 addition without overflow checks *)
Definition i64_wrap (n : Z) : Z := (n + 9223372036854775808) mod two64 - 9223372036854775808.

Definition TRANSFERS : bytes := [x74; x72; x61; x6e; x73; x66; x65; x72; x73].
Definition LAST_TRANSFERRED : bytes :=
  [x6c; x61; x73; x74; x5f; x74; x72; x61; x6e; x73; x66; x65; x72; x72; x65; x64].
(** CONTENT_TYPE "image/svg+xml" — processor/mod.rs:16 *)
Definition CONTENT_TYPE : bytes :=
  [x69; x6d; x61; x67; x65; x2f; x73; x76; x67; x2b; x78; x6d; x6c].
Definition NO_COLOUR : bytes := [x30; x30; x30; x2c; x30; x30; x30; x2c; x30; x30; x30].

(** The payloads the program writes — create.rs:50-107, transfer.rs:46-109 *)
Definition counter_payload (n : Z) : bytes := build_attributes [(TRANSFERS, pad_left 12 (decimal n))].
Definition image_payload (pe : penv) (colour : bytes) : bytes := build_blob CONTENT_TYPE (image pe colour).
Definition stamp_payload (pe : penv) : bytes := build_properties [(LAST_TRANSFERRED, TNumber (pe_now pe mod two64))].
Definition colour_of (h : bytes) : bytes :=
  pad_left 3 (decimal (b2z (byte_at h 0))) ++ [x2c] ++ pad_left 3 (decimal (b2z (byte_at h 1))) ++ [x2c] ++
  pad_left 3 (decimal (b2z (byte_at h 2))).
Definition ext_of (t : ext_type) (b : bytes) : ext_input := mkExtInput t (zlen b) (Some b).

(** Account lists of the generated CPI builders —
    interface/src/generated/instructions/update.rs:330-386, transfer.rs, create.rs;
    absent optional accounts are the program's own ID, read-only *)
Definition absent (e : env) : ainfo := mkInfo (e_prog e) false false.
Definition update_metas (e : env) (asset auth : pubkey) : list ainfo :=
  [mkInfo asset true true; mkInfo auth true false; absent e; absent e; absent e; absent e].
Definition transfer_metas (e : env) (asset signer recipient : pubkey) : list ainfo :=
  [mkInfo asset true true; mkInfo signer true false; mkInfo recipient false false; absent e].
Definition create_metas (e : env) (asset owner : pubkey) (payer sysp : option pubkey) : list ainfo :=
  [mkInfo asset true true; mkInfo asset true false; mkInfo owner false false; absent e; absent e;
   match payer with Some p => mkInfo p true true | None => absent e end;
   match sysp with Some s => mkInfo s false false | None => absent e end].

(** process_transfer — proxy/src/processor/transfer.rs:19-120.  The context needs
    the interface's four Transfer accounts; the asset program is searched among
    the remaining ones (interface/src/processor.rs:42-50). *)
Definition proxy_transfer (pe : penv) (e : env) (me : pubkey) (infos : list ainfo) (w : world) : res world :=
  asset <- acct infos 0 ;; signer <- acct infos 1 ;; recipient <- acct infos 2 ;;
  group <- opt_acct e infos 3 ;;
  let d := data (w asset) in
  p <- fetch_proxy d ;;
  require (listed (skipn 4 infos) (e_prog e)) ENotEnoughAccountKeys
   (a <- asset_get XAttributes d ;;
    match a with
    | None => Panic
    | Some (off, b) =>
        l <- attributes_from_bytes b ;;
        current <- ok_or (parse_i64 (trim (match pairs_get TRANSFERS l with Some s => s | None => [x30] end)))
                         EInvalidAccountData ;;
        let update w1 x := invoke e me infos w w1 (update_metas e asset asset)
                             (write_instr (IUpdate (mkUpdInput None None (Some x)))) (p_seeds p) (p_bump p) in
        w1 <- update w (ext_of XAttributes (counter_payload (i64_wrap (current + 1)))) ;;
        let h := pe_hash pe [pk_bytes asset; le_enc 8 (pe_now pe mod two64); le_enc 8 (current mod two64)] in
        w2 <- update w1 (ext_of XBlob (image_payload pe (colour_of h))) ;;
        w3 <- update w2 (ext_of XProperties (stamp_payload pe)) ;;
        invoke e me infos w w3 (transfer_metas e asset signer recipient) (write_instr ITransfer)
          (p_seeds p) (p_bump p)
    end).

(** process_update — proxy/src/processor/update.rs:8-70: checks the proxy
    extension's authority, drops the extension argument *)
Definition proxy_update (e : env) (me : pubkey) (infos : list ainfo) (w : world) (u : update_input) : res world :=
  asset <- acct infos 0 ;; auth <- acct infos 1 ;; buf <- opt_acct e infos 2 ;;
  group <- opt_acct e infos 3 ;; payer <- opt_acct e infos 4 ;; sysp <- opt_acct e infos 5 ;;
  p <- fetch_proxy (data (w asset)) ;;
  require (listed (skipn 6 infos) (e_prog e)) ENotEnoughAccountKeys
   (require (is_signer infos auth) EMissingRequiredSignature
    (match nullable (p_authority p) with
     | None => Err EInvalidArgument
     | Some a =>
         require (key_is a auth) EInvalidArgument
          (invoke e me infos w w (update_metas e asset asset)
             (write_instr (IUpdate (mkUpdInput (u_name u) (u_mutable u) None))) (p_seeds p) (p_bump p))
     end)).

(** Pubkey::find_program_address: the largest bump (255 down to 1) with a valid address *)
Fixpoint find_address (e : env) (seeds : bytes) (me : pubkey) (n : nat) : option (pubkey * byte) :=
  match n with
  | O => None
  | S m => match e_cpa e seeds (z2b (Z.of_nat n)) (pk_bytes me) with
           | Some k => Some (k, z2b (Z.of_nat n))
           | None => find_address e seeds me m
           end
  end.
(** process_create — proxy/src/processor/create.rs:23-125.  Optional accounts are
    absent when they are the proxy program's own ID. *)
Definition proxy_create (pe : penv) (e : env) (me : pubkey) (infos : list ainfo) (w : world) (name : bytes) : res world :=
  let opt i := (k <- acct infos i ;; Ok (if pk_eqb k me then None else Some k)) in
  asset <- acct infos 0 ;; stub <- acct infos 1 ;; owner <- acct infos 2 ;; auth <- acct infos 3 ;;
  payer <- opt 4%nat ;; sysp <- opt 5%nat ;; prog <- acct infos 6 ;;
  require (is_signer infos auth) EMissingRequiredSignature
   (require (is_signer infos stub) EMissingRequiredSignature
    (match find_address e (pk_bytes stub) me 255 with
     | None => Panic
     | Some (k, bump) =>
         require (pk_eqb k asset) EInvalidSeeds
          (let m := mkMetaInput name Proxied true
                      (Some [ext_of XAttributes (counter_payload 0);
                             ext_of XBlob (image_payload pe NO_COLOUR);
                             ext_of XProxy (build_proxy me (pk_bytes stub) bump (Some auth));
                             ext_of XProperties (stamp_payload pe)]) in
           invoke e me infos w w (create_metas e asset owner payer sysp) (write_instr (ICreate m))
             (pk_bytes stub) bump)
     end)).

(** The program's own instruction: Create(Metadata { name }) with tag 0 —
    proxy/src/instruction.rs:9-27 *)
Definition read_proxy : reader bytes := rbind read_u8 (fun t => if b2z t =? 0 then read_string else rfail).
Definition proxy_decode (b : bytes) : option bytes :=
  match read_proxy b with Some (n, []) => Some n | _ => None end.
Definition write_proxy (name : bytes) : bytes := x00 :: write_bytes name.

(** process_instruction — proxy/src/processor/mod.rs:18-61.  The interface's
    Instruction enum decodes as the program's own (interface/src/interface.rs:8-208). *)
Definition proxy_entry (pe : penv) (e : env) (me : pubkey) (infos : list ainfo) (w : world) (b : bytes) : res world :=
  match proxy_decode b with
  | Some name => proxy_create pe e me infos w name
  | None =>
      match try_from_slice b with
      | Some ITransfer => proxy_transfer pe e me infos w
      | Some (IUpdate u) => proxy_update e me infos w u
      | _ => iface_process e me infos w b
      end
  end.

(** The Rust client: instruction builders, mint(), payloads from JSON, and the
    macros for calling Allocate and Write from a program.
    Paths are relative to /repo/clients/rust/asset/src. *)
From Verif Require Import Base State Layout Constr Ext World Proc Borsh.
From Coq Require Import Strings.Byte.

(** an Instruction: account metas and data; the program ID is the asset program's *)
Definition ix : Type := list ainfo * bytes.
Definition sys : ainfo := mkInfo pk_zero false false.

(** Allocate::instruction — generated/instructions/allocate.rs:22-66 *)
Definition allocate_ix (e : env) (asset : pubkey) (payer : option pubkey) (sysp : bool) (x : ext_input) : ix :=
  ([mkInfo asset true true;
    match payer with Some p => mkInfo p true true | None => mkInfo (e_prog e) false false end;
    if sysp then sys else mkInfo (e_prog e) false false], write_instr (IAllocate x)).
(** Write::instruction — generated/instructions/write.rs:21-56 *)
Definition write_ix (asset payer : pubkey) (d : data_input) : ix :=
  ([mkInfo asset true true; mkInfo payer true true; sys], write_instr (IWrite d)).
(** Create::instruction — generated/instructions/create.rs:32-103, with the
    arguments mint() gives it: no group, no inline extensions *)
Definition create_ix (e : env) (asset authority owner payer : pubkey) (m : metadata_input) : ix :=
  ([mkInfo asset true true; mkInfo authority false false; mkInfo owner false false; mkInfo (e_prog e) false false;
    mkInfo (e_prog e) false false; mkInfo payer true true; sys], write_instr (ICreate m)).

(** slice.chunks(n) *)
Fixpoint chunks (fuel : nat) (n : nat) (b : bytes) : list bytes :=
  match fuel, b with
  | O, _ | _, [] => []
  | S f, _ => firstn n b :: chunks f n (skipn n b)
  end.
(** MAX_ALLOCATE_DATA_SIZE, MAX_WRITE_DATA_SIZE — mint.rs:306-314 *)
Definition MAX_ALLOCATE : nat := 920.
Definition MAX_WRITE : nat := 925.

(** MintIxArgs — mint.rs:24-50 *)
Record mint_args : Set := mkMint {
  mi_asset : pubkey; mi_owner : pubkey; mi_payer : option pubkey;
  mi_name : bytes; mi_standard : standard; mi_mutable : bool;
  mi_exts : list (ext_type * bytes) }.
Definition mint_payer (a : mint_args) : pubkey := match mi_payer a with Some p => p | None => mi_owner a end.
(** one extension — mint.rs:323-367; [data.len() as u32] *)
Definition mint_ext (e : env) (a : mint_args) (x : ext_type * bytes) : list ix :=
  let '(t, b) := x in
  allocate_ix e (mi_asset a) (Some (mint_payer a)) true (mkExtInput t (zlen b mod two32) (Some (firstn MAX_ALLOCATE b))) ::
  map (fun c => write_ix (mi_asset a) (mint_payer a) (mkDataInput false c))
      (chunks (length b) MAX_WRITE (skipn MAX_ALLOCATE b)).
(** mint — mint.rs:318-390 *)
Definition mint (e : env) (a : mint_args) : list ix :=
  flat_map (mint_ext e a) (mi_exts a) ++
  [create_ix e (mi_asset a) (mi_owner a) (mi_owner a) (mint_payer a)
     (mkMetaInput (mi_name a) (mi_standard a) (mi_mutable a) None)].
(** the instructions executed one after the other *)
Fixpoint run_ixs (e : env) (l : list ix) (w : world) : res world :=
  match l with
  | [] => Ok w
  | (metas, b) :: r => w1 <- entry e metas w b ;; run_ixs e r w1
  end.

(** ** Payloads from JSON — mint.rs:89-276 (files and JSON syntax not modelled) *)
Definition json_creator (c : bytes * bool * byte) : bytes :=
  let '(k, v, s) := c in k ++ [if v then x01 else x00; s].
Definition json_creators (l : list (bytes * bool * byte)) : bytes := concat (map json_creator l).
Definition json_pair (p : bytes * bytes) : bytes := enc_pstr (fst p) ++ enc_pstr (snd p).
Definition json_pairs (l : list (bytes * bytes)) : bytes := concat (map json_pair l).
Definition json_blob (ct content : bytes) : bytes := enc_pstr ct ++ content.
Definition json_metadata (s d u : bytes) : bytes := enc_pstr s ++ enc_pstr d ++ enc_pstr u.
Inductive royalties_kind : Set := Allowlist | Denylist.
Definition json_royalties (k : royalties_kind) (bp : Z) (items : list pubkey) : bytes :=
  le_enc 8 bp ++
  build match k with
        | Allowlist => FPubkeyMatch AAsset items
        | Denylist => FNot (FOwnedBy AAsset items)
        end.

(** ** Transaction size *)
(** compact-u16 length prefix of the legacy transaction format *)
Definition compact (n : Z) : Z := if n <? 128 then 1 else if n <? 16384 then 2 else 3.
(** keys a list of metas adds to a transaction *)
Fixpoint distinct (l : list pubkey) : list pubkey :=
  match l with
  | [] => []
  | k :: r => if existsb (pk_eqb k) r then distinct r else k :: distinct r
  end.
(** a legacy transaction with this instruction only: signatures, message header,
    account keys, blockhash, one instruction; [payer] pays the fee *)
Definition tx_size (e : env) (payer : pubkey) (x : ix) : Z :=
  let '(metas, b) := x in
  let keys := distinct (payer :: e_prog e :: map ai_key metas) in
  let signers := distinct (payer :: map ai_key (filter ai_signer metas)) in
  compact (zlen signers) + 64 * zlen signers + 3 + compact (zlen keys) + 32 * zlen keys + 32 +
  1 + (1 + compact (zlen metas) + zlen metas + compact (zlen b) + zlen b).

(** ** Macros for calls from a program — impls.rs:96-243 *)
(** allocate_instruction_data!(type, length, data) — impls.rs:97-119 *)
Definition macro_allocate (t : ext_type) (length : Z) (b : bytes) : bytes :=
  x04 :: z2b (ext_code t) :: le_enc 4 (length mod two32) ++ [x01] ++ le_enc 4 (zlen b mod two32) ++ b.
(** allocate_instruction_data!(type, length), data appended later — impls.rs:121-141 *)
Definition macro_open (t : ext_type) (length : Z) : bytes :=
  x04 :: z2b (ext_code t) :: le_enc 4 (length mod two32) ++ [x01] ++ le_enc 4 (length mod two32).
(** allocate_update_data_length! — impls.rs:150-163 *)
Definition macro_length (length : Z) (d : bytes) : bytes :=
  put (put d 2 (le_enc 4 (length mod two32))) 7 (le_enc 4 (length mod two32)).
(** allocate_and_write! — impls.rs:178-243: the data of the calls.  CPI_LIMIT -
    ALLOCATE_HEADER - ACCOUNT_METAS_SIZE = 1163, CPI_LIMIT - WRITE_HEADER -
    ACCOUNT_METAS_SIZE = 1172 *)
Definition macro_write (c : bytes) : bytes := x0c :: x00 :: le_enc 4 (zlen c mod two32) ++ c.
Definition macro_allocate_and_write (t : ext_type) (b : bytes) : list bytes :=
  macro_allocate t (zlen b) (firstn 1163 b) :: map macro_write (chunks (length b) 1172 (skipn 1163 b)).
(** its metas *)
Definition macro_metas (asset payer sysp : pubkey) : list ainfo :=
  [mkInfo asset true true; mkInfo payer true true; mkInfo sysp false false].
(** serialized size of an instruction in a call as the macro counts it *)
Definition cpi_size (metas : list ainfo) (b : bytes) : Z := 34 * zlen metas + 4 + zlen b.

(** The reader of the interface description in a program binary:
    /repo/include-idl/src/parse.rs, lib.rs and /repo/include-idl-cli/src/main.rs.
    Parsing of the ELF headers (goblin), zlib and JSON are arguments. *)
From Verif Require Import Base.
From Coq Require Import Strings.Byte.

(** IdlType and as_str — parse.rs:17-36 *)
Inductive idl_type : Set := Anchor | Codama.
Definition idl_str (t : idl_type) : bytes :=
  match t with Anchor => [x61; x6e; x63; x68; x6f; x72] | Codama => [x63; x6f; x64; x61; x6d; x61] end.
(** str::to_lowercase on ASCII letters.  No other character becomes one of a, c, d, h, m, n, o, r. *)
Definition lower (b : byte) : byte := if (65 <=? b2z b) && (b2z b <=? 90) then z2b (b2z b + 32) else b.
(** FromStr for IdlType — parse.rs:47-58 *)
Definition idl_from_str (s : bytes) : option idl_type :=
  if bytes_eqb (map lower s) (idl_str Anchor) then Some Anchor else if bytes_eqb (map lower s) (idl_str Codama) then Some Codama else None.
(** the sections' names — parse.rs:11-14 *)
Definition IDL_TYPE_SECTION : bytes := [x2e; x69; x64; x6c; x2e; x74; x79; x70; x65].
Definition IDL_DATA_SECTION : bytes := [x2e; x69; x64; x6c; x2e; x64; x61; x74; x61].

(** what the crates goblin, flate2 and serde_json make of bytes: section headers as
    (name, sh_offset), the name None if its index is not in the table *)
Record idl_env (V : Type) := mkIdlEnv {
  ie_elf : bytes -> option (list (option bytes * Z)); ie_inflate : bytes -> option bytes; ie_json : bytes -> option V
}.
Arguments ie_elf {V}. Arguments ie_inflate {V}. Arguments ie_json {V}.

(** get_section_data_offset — parse.rs:104-115.  usize arithmetic wraps. *)
Definition section_loc (buf : bytes) (off : Z) : res (Z * Z) :=
  bind (slice buf ((off + 4) mod two64) ((off + 8) mod two64)) (fun a =>
  bind (slice buf ((off + 8) mod two64) ((off + 16) mod two64)) (fun b => Ok (le_dec a, le_dec b))).
(** &buffer[location..location + size] — parse.rs:75,84 *)
Definition section_bytes (buf : bytes) (off : Z) : res bytes :=
  bind (section_loc buf off) (fun p => slice buf (fst p) ((fst p + snd p) mod two64)).
(** unwrap() *)
Definition unwrap {A} (o : option A) : res A := match o with Some a => Ok a | None => Panic end.

(** the loop over section headers — parse.rs:64-94.  from_utf8 fails only on bytes that are no IdlType either: both unwraps panic. *)
Fixpoint idl_loop {V} (ie : idl_env V) (buf : bytes) (l : list (option bytes * Z)) (t : option idl_type) (v : option V) : res (option idl_type * option V) :=
  match l with
  | [] => Ok (t, v)
  | (Some n, off) :: l' =>
      if bytes_eqb n IDL_DATA_SECTION then
        bind (section_bytes buf off) (fun s => bind (unwrap (ie_inflate ie s)) (fun d => bind (unwrap (ie_json ie d)) (fun x => idl_loop ie buf l' t (Some x))))
      else if bytes_eqb n IDL_TYPE_SECTION then
        bind (section_bytes buf off) (fun s => bind (unwrap (idl_from_str s)) (fun x => idl_loop ie buf l' (Some x) v))
      else idl_loop ie buf l' t v
  | (None, _) :: l' => idl_loop ie buf l' t v
  end.
(** parse_idl_from_program_binary — parse.rs:59-104 *)
Definition parse_idl {V} (ie : idl_env V) (buf : bytes) : res (idl_type * V) :=
  match ie_elf ie buf with
  | None => Err EInvalidAccountData
  | Some l => bind (idl_loop ie buf l None None) (fun p =>
      match p with (Some t, Some v) => Ok (t, v) | _ => Err EInvalidAccountData end)
  end.
(** main, command Parse — /repo/include-idl-cli/src/main.rs:22-38: what is shown, None for "Could not find IDL" *)
Definition idl_cli {V} (ie : idl_env V) (buf : bytes) : res (option (bytes * V)) :=
  match parse_idl ie buf with
  | Ok (t, v) => Ok (Some (idl_str t, v))
  | Err _ => Ok None
  | Panic => Panic
  | Diverge => Diverge
  | UB => UB
  end.

(** Bytes, little-endian integers, slices and outcomes.

    Rust values are modelled as follows.
    - [u8] is [Coq.Init.Byte.byte]; [&[u8]] / [Vec<u8>] is [list byte];
    - [usize]/[u32]/[u64] are [Z] (in range by construction; the places where
      the Rust arithmetic can wrap are written with an explicit [mod]);
    - a function returning [Result] becomes one returning [res]: [Ok], [Err],
      and two outcomes Rust does not return: [Panic] (an aborted program, i.e.
      slice index out of range, failed bytemuck cast, explicit [panic!]) and
      [Diverge] (a loop that never ends; on chain the compute budget aborts
      it).  [UB] marks an execution whose Rust behaviour is undefined (raw
      pointer out of range, invalid enum tag); nothing is claimed about it. *)

From Coq Require Export List ZArith Lia Bool.
From Coq Require Import Strings.Byte.
Export ListNotations.
Open Scope Z_scope.

Definition bytes := list byte.

(** u8 <-> integer *)
Definition b2z (b : byte) : Z := Z.of_N (Byte.to_N b).
Definition z2b (z : Z) : byte :=
  match Byte.of_N (Z.to_N (z mod 256)) with Some b => b | None => x00 end.

Definition beqb (a b : byte) : bool := Byte.eqb a b.

Fixpoint bytes_eqb (a b : bytes) : bool :=
  match a, b with
  | [], [] => true
  | x :: a', y :: b' => beqb x y && bytes_eqb a' b'
  | _, _ => false
  end.

Definition zlen {A} (l : list A) : Z := Z.of_nat (length l).

Definition zeros (n : Z) : bytes := repeat x00 (Z.to_nat n).

(** Little-endian integers ([to_le_bytes], and the in-memory layout of the
    [u32]/[u64] fields on the little-endian SBF target). *)
Fixpoint le_enc (n : nat) (z : Z) : bytes :=
  match n with
  | O => []
  | S n' => z2b z :: le_enc n' (z / 256)
  end.
Fixpoint le_dec (b : bytes) : Z :=
  match b with
  | [] => 0
  | x :: b' => b2z x + 256 * le_dec b'
  end.

Definition u32_max : Z := 4294967295.
Definition two32 : Z := 4294967296.
Definition two64 : Z := 18446744073709551616.

(** [fld d o n]: the [n] bytes at offset [o]; only used where the length has
    been checked ([zlen d >= o + n]). *)
Definition fld (d : bytes) (o n : Z) : bytes :=
  firstn (Z.to_nat n) (skipn (Z.to_nat o) d).

(** [put d o bs]: overwrite at offset [o]; only used in range. *)
Definition put (d : bytes) (o : Z) (bs : bytes) : bytes :=
  firstn (Z.to_nat o) d ++ bs ++ skipn (Z.to_nat o + length bs) d.

(** Outcomes. *)
Inductive error : Set :=
| EMissingRequiredSignature
| EIllegalOwner
| EInvalidArgument
| EInvalidInstructionData
| EInvalidAccountData
| EInvalidSeeds
| EIncorrectProgramId
| ENotEnoughAccountKeys
| EAccountDataTooSmall
| EAccountBorrowFailed
| EInvalidRealloc
| ECpi                 (* a CPI to the system program failed *)
| ERuntime             (* rejected by the runtime's account checks *)
(* AssetError, programs/asset/program/src/error.rs:10-98 *)
| EAlreadyInitialized
| EInvalidAccountLength
| EIncompleteExtensionData
| EUninitialized
| EExtensionNotFound
| EInvalidBurnAuthority
| EInvalidTransferAuthority
| EDelegateNotFound
| EDelegateRoleNotActive
| EInvalidDelegate
| EInvalidAssetOwner
| ELockedAsset
| EInvalidAuthority
| EImmutableAsset
| ECannotTransferSoulbound
| EExtensionDataInvalid
| EInvalidGroup
| EAssertionFailure
| EGroupNotEmpty
| EAlreadyInGroup
| EExtensionLengthInvalid
(* types Error, programs/asset/types/src/error.rs:4-35 *)
| LInvalidCreatorsTotalShare (expected got : Z)
| LInvalidRoyaltyBasisPoints
| LCannotUnverifyCreator
| LCannotRemoveVerifiedCreator
| LInvalidGroupSize
| LInvalidMaximumGroupSize (expected got : Z)
| LCannotModifyDerivationData.

Inductive res (A : Type) : Type :=
| Ok (a : A)
| Err (e : error)
| Panic
| Diverge
| UB.
Arguments Ok {A} a.
Arguments Err {A} e.
Arguments Panic {A}.
Arguments Diverge {A}.
Arguments UB {A}.

Definition bind {A B} (m : res A) (k : A -> res B) : res B :=
  match m with
  | Ok a => k a
  | Err e => Err e
  | Panic => Panic
  | Diverge => Diverge
  | UB => UB
  end.
Notation "x <- m ;; k" := (bind m (fun x => k))
  (at level 61, m at next level, right associativity).
Notation "' p <- m ;; k" := (bind m (fun p => k))
  (at level 61, p pattern, m at next level, right associativity).

(** [require!], programs/asset/program/src/processor/mod.rs:144-155 *)
Definition require {B} (c : bool) (e : error) (k : res B) : res B :=
  if c then k else Err e.

(** a check whose failure panics (slice indexing etc.) *)
Definition guard {B} (c : bool) (k : res B) : res B :=
  if c then k else Panic.

Definition map_err {A} (m : res A) (e' : error) : res A :=
  match m with Err _ => Err e' | _ => m end.

(** [&d[a..b]] : panics when [a > b] or [b > d.len()]. *)
Definition slice (d : bytes) (a b : Z) : res bytes :=
  guard ((0 <=? a) && (a <=? b) && (b <=? zlen d)) (Ok (fld d a (b - a))).

(** pointwise maps *)
Definition ok_or {A} (o : option A) (e : error) : res A :=
  match o with Some a => Ok a | None => Err e end.

Definition is_ok {A} (m : res A) : bool :=
  match m with Ok _ => true | _ => false end.

(** Round up to a multiple of 8: [Layout::from_size_align(n, 8)?.pad_to_align().size()]
    (create.rs:84-90, allocate.rs:190-196, update.rs:273-279).  The error case of
    [from_size_align] (n > isize::MAX - 7) cannot occur: n < 2^34. *)
Definition pad8 (n : Z) : Z := (n + 7) / 8 * 8.

(** A public key: exactly 32 bytes. *)
Record pubkey : Set := mkPk { pk_bytes : list byte; pk_len : Nat.eqb (length pk_bytes) 32 = true }.

Definition pk_eqb (a b : pubkey) : bool := bytes_eqb (pk_bytes a) (pk_bytes b).

(** [Pubkey::default()]; also the system program's ID (base58 "111…1"). *)
Definition zero32 : bytes := zeros 32.
Definition pk_zero : pubkey := mkPk (repeat x00 32) eq_refl.

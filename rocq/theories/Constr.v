(** Constraints: programs/asset/types/src/constraints/*.rs. *)
From Verif Require Import Base.

(** Account — constraints/mod.rs:55-68 ([repr(u64)]) *)
Inductive cacct : Set := AAsset | AAuthority | ARecipient.
Definition cacct_code (a : cacct) : Z :=
  match a with AAsset => 0 | AAuthority => 1 | ARecipient => 2 end.

(** Parsed constraints: every node keeps the size field of its operator header
    (mod.rs:166-192, 214-218). *)
Inductive constr : Set :=
| CAnd (sz : Z) (cs : list constr)
| CNot (sz : Z) (c : constr)
| COr (sz : Z) (cs : list constr)
| COwnedBy (sz : Z) (a : cacct) (ks : list bytes)
| CPubkeyMatch (sz : Z) (a : cacct) (ks : list bytes)
| CEmpty (sz : Z).

(** Constraint::size — mod.rs:221-223: 8 + operator size *)
Definition op_size (c : constr) : Z :=
  match c with
  | CAnd s _ | CNot s _ | COr s _ | COwnedBy s _ _ | CPubkeyMatch s _ _ | CEmpty s => s
  end.
Definition op_code (c : constr) : Z :=      (* mod.rs:129-164 *)
  match c with
  | CAnd _ _ => 0 | CNot _ _ => 1 | COr _ _ => 2 | COwnedBy _ _ _ => 3
  | CPubkeyMatch _ _ _ => 4 | CEmpty _ => 5
  end.
Definition csize (c : constr) : Z := 8 + op_size c.

(** [bytemuck::cast_slice(&[u8]) : &[Pubkey]] — panics unless the length is a
    multiple of 32. *)
Fixpoint chunks32 (n : nat) (b : bytes) : list bytes :=
  match n with O => [] | S n' => firstn 32 b :: chunks32 n' (skipn 32 b) end.
Definition cast_keys (b : bytes) : res (list bytes) :=
  guard (zlen b mod 32 =? 0) (Ok (chunks32 (Nat.div (length b) 32) b)).

(** OwnedBy/PubkeyMatch::from_bytes — owned_by.rs:22-29, pubkey_match.rs:22-29.
    [al] is the address of the slice modulo 8: [Account::load] needs 8-byte
    alignment.  A tag outside 0..2 is an invalid Rust enum value: [UB]. *)
Definition parse_keys (al : Z) (b : bytes) : res (cacct * list bytes) :=
  guard (8 <=? zlen b)
   (guard (al mod 8 =? 0)
    (ks <- cast_keys (skipn 8 b) ;;
     let t := le_dec (firstn 8 b) in
     if t =? 0 then Ok (AAsset, ks)
     else if t =? 1 then Ok (AAuthority, ks)
     else if t =? 2 then Ok (ARecipient, ks)
     else UB)).

(** Constraint::from_bytes — mod.rs:233-257; And/Or::from_bytes — and.rs:15-28,
    or.rs:15-28; Not::from_bytes — not.rs:16-21; Empty — empty.rs:14-18.
    Fuel counts nested calls and loop iterations; each consumes at least 8 bytes
    or one nesting level, so [2 * length + 2] always suffices.  The SBF stack
    depth limit (64 frames) is not modelled. *)
Fixpoint parse_constr (fuel : nat) (al : Z) (b : bytes) {struct fuel} : res constr :=
  match fuel with
  | O => Diverge
  | S f =>
      guard (8 <=? zlen b)
       (guard (al mod 4 =? 0)
        (let ty := le_dec (fld b 0 4) in
         let sz := le_dec (fld b 4 4) in
         (* operator_type() panics on an unknown type, mod.rs:139-151 *)
         guard ((0 <=? ty) && (ty <=? 5))
          (body <- slice b 8 (8 + sz) ;;
           if ty =? 0 then cs <- parse_constrs f (al + 8) body ;; Ok (CAnd sz cs)
           else if ty =? 1 then c <- parse_constr f (al + 8) body ;; Ok (CNot sz c)
           else if ty =? 2 then cs <- parse_constrs f (al + 8) body ;; Ok (COr sz cs)
           else if ty =? 3 then
             p <- parse_keys (al + 8) body ;; Ok (COwnedBy sz (fst p) (snd p))
           else if ty =? 4 then
             p <- parse_keys (al + 8) body ;; Ok (CPubkeyMatch sz (fst p) (snd p))
           else Ok (CEmpty sz))))
  end
with parse_constrs (fuel : nat) (al : Z) (b : bytes) {struct fuel} : res (list constr) :=
  match fuel with
  | O => Diverge
  | S f =>
      match b with
      | [] => Ok []
      | _ =>
          c <- parse_constr f al b ;;
          cs <- parse_constrs f (al + csize c) (skipn (Z.to_nat (csize c)) b) ;;
          Ok (c :: cs)
      end
  end.
Definition constr_fuel (b : bytes) : nat := (2 * length b + 2)%nat.
Definition constr_from_bytes (al : Z) (b : bytes) : res constr :=
  parse_constr (constr_fuel b) al b.

(** Evaluation.  Context — mod.rs:27-36; Target — mod.rs:42-53. *)
Record target := mkTarget { t_key : bytes; t_owner : bytes; t_empty : bool }.
Record cctx := mkCctx { c_asset : target; c_authority : target; c_recipient : option target }.

(** get_account! — mod.rs:99-110 *)
Definition get_account (a : cacct) (c : cctx) : res target :=
  match a with
  | AAsset => Ok (c_asset c)
  | AAuthority => Ok (c_authority c)
  | ARecipient => ok_or (c_recipient c) ENotEnoughAccountKeys
  end.

Definition mem_bytes (k : bytes) (ks : list bytes) : bool := existsb (bytes_eqb k) ks.

(** assert — and.rs:30-40, not.rs:23-29, or.rs:30-43, owned_by.rs:31-42,
    pubkey_match.rs:31-40, empty.rs:20-23.  [true] is Pass, [false] Failure. *)
Fixpoint eval_constr (c : constr) (ctx : cctx) : res bool :=
  match c with
  | CAnd _ cs =>
      (fix all (l : list constr) : res bool :=
         match l with
         | [] => Ok true
         | x :: l' => r <- eval_constr x ctx ;; if r then all l' else Ok false
         end) cs
  | CNot _ x => r <- eval_constr x ctx ;; Ok (negb r)
  | COr _ cs =>
      (fix any (l : list constr) : res bool :=
         match l with
         | [] => Ok false
         | x :: l' => r <- eval_constr x ctx ;; if r then Ok true else any l'
         end) cs
  | COwnedBy _ a ks =>
      t <- get_account a ctx ;; Ok (mem_bytes (t_owner t) ks && negb (t_empty t))
  | CPubkeyMatch _ a ks =>
      t <- get_account a ctx ;; Ok (mem_bytes (t_key t) ks)
  | CEmpty _ => Ok true
  end.

(** as_bytes — mod.rs:225-230, and.rs:42-48, not.rs:31-36 (which emits the inner
    operator header twice), or.rs:45-51, owned_by.rs:44-50, empty.rs:25-27. *)
Definition op_header (c : constr) : bytes := le_enc 4 (op_code c) ++ le_enc 4 (op_size c).
Fixpoint as_bytes (c : constr) : bytes :=
  op_header c ++
  match c with
  | CAnd _ cs | COr _ cs => concat (map as_bytes cs)
  | CNot _ x => op_header x ++ as_bytes x
  | COwnedBy _ a ks | CPubkeyMatch _ a ks => le_enc 8 (cacct_code a) ++ concat ks
  | CEmpty _ => []
  end.

(** Builders — and.rs:52-82, not.rs:41-67, or.rs:55-85, owned_by.rs:55-88,
    pubkey_match.rs:53-86, empty.rs:32-49: operator type, payload length as
    [u32], payload.  One fresh builder per node; [build] leaves the builder
    empty, re-use after [build] is modelled separately ([reused_and]). *)
Inductive form : Set :=
| FAnd (l : list form) | FNot (f : form) | FOr (l : list form)
| FOwnedBy (a : cacct) (ks : list pubkey) | FPubkeyMatch (a : cacct) (ks : list pubkey)
| FEmpty.
Definition with_header (ty : Z) (payload : bytes) : bytes :=
  le_enc 4 ty ++ le_enc 4 (zlen payload) ++ payload.
Definition keys_payload (a : cacct) (ks : list pubkey) : bytes :=
  le_enc 8 (cacct_code a) ++ concat (map pk_bytes ks).
Fixpoint build (f : form) : bytes :=
  match f with
  | FAnd l => with_header 0 (concat (map build l))
  | FNot x => with_header 1 (build x)
  | FOr l => with_header 2 (concat (map build l))
  | FOwnedBy a ks => with_header 3 (keys_payload a ks)
  | FPubkeyMatch a ks => with_header 4 (keys_payload a ks)
  | FEmpty => with_header 5 []
  end.
(** AndBuilder re-used after [build()] (and.rs:62-81): the buffer was taken, so
    [add] appends at offset 0 and the next [build] overwrites the first eight
    bytes of the first child. *)
Definition reused_and (l : list form) : bytes :=
  let buf := concat (map build l) in
  match buf with
  | [] => with_header 0 []
  | _ => put buf 0 (le_enc 4 0 ++ le_enc 4 (zlen buf - 8))
  end.

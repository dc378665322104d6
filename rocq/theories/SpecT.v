(** Specification: the interface description inside a program binary. *)
From Verif Require Import Base Idl.
From Coq Require Import Strings.Byte.

(** [s] is the part of [buf] that starts at [a] *)
Definition part (buf : bytes) (a : Z) (s : bytes) : Prop := exists l r, buf = l ++ s ++ r /\ zlen l = a.
(** at [off] is a static slice as the linker leaves it: four bytes of no interest,
    where the bytes [s] start, and how many they are *)
Definition points_to (buf : bytes) (off : Z) (s : bytes) : Prop :=
  exists low loc, part buf off (low ++ le_enc 4 loc ++ le_enc 8 (zlen s)) /\ zlen low = 4 /\ 0 <= loc < 4294967296 /\ part buf loc s.
(** the name of a kind of description, in any mix of capitals *)
Definition same_letter (x y : byte) : Prop := x = y \/ b2z x + 32 = b2z y.
Definition spells (s : bytes) (t : idl_type) : Prop :=
  Forall2 same_letter s (match t with Anchor => [x61; x6e; x63; x68; x6f; x72] | Codama => [x63; x6f; x64; x61; x6d; x61] end).
(** ".idl.type", ".idl.data" *)
Definition type_section (h : option bytes * Z) : Prop := fst h = Some [x2e; x69; x64; x6c; x2e; x74; x79; x70; x65].
Definition data_section (h : option bytes * Z) : Prop := fst h = Some [x2e; x69; x64; x6c; x2e; x64; x61; x74; x61].
Definition reads_type (buf : bytes) (h : option bytes * Z) (t : idl_type) : Prop := exists s, points_to buf (snd h) s /\ spells s t.
Definition reads_data {V} (ie : idl_env V) (buf : bytes) (h : option bytes * Z) (v : V) : Prop :=
  exists s d, points_to buf (snd h) s /\ ie_inflate ie s = Some d /\ ie_json ie d = Some v.
(** every section of the two names can be read *)
Definition readable {V} (ie : idl_env V) (buf : bytes) (h : option bytes * Z) : Prop :=
  (type_section h -> exists t, reads_type buf h t) /\ (data_section h -> exists v, reads_data ie buf h v).
(** the last of its name *)
Definition last_such {A} (P : A -> Prop) (l : list A) (h : A) : Prop := exists a b, l = a ++ h :: b /\ P h /\ Forall (fun x => ~ P x) b.
(** offsets that are not within 16 of the end of the address range, files below 2^64 bytes *)
Definition near (buf : bytes) (l : list (option bytes * Z)) : Prop := zlen buf < two64 /\ Forall (fun h => 0 <= snd h /\ snd h + 16 < two64) l.

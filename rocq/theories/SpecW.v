(** Specification: updating an account that has bytes after its extensions. *)
From Verif Require Import Base State World Proc Spec SpecB SpecC SpecE SpecF.
From Coq Require Import Strings.Byte.

(** bytes written over others *)
Definition over (d : bytes) (o : nat) (bs : bytes) : bytes := firstn o d ++ bs ++ skipn (o + length bs) d.
(** the account with the name and mutability asked for *)
Definition retitled (a : update_input) (d : bytes) : bytes :=
  let d1 := match u_name a with Some n => over d 133 (name_field n) | None => d end in
  match u_mutable a with Some b => over d1 3 [bool_byte b] | None => d1 end.
(** Going from [p] to the position stored eight bytes further on, again and again,
    arrives at the end of the data or beyond in fewer than [k] steps, every position
    on the way being a multiple of four with sixteen bytes to read. *)
Inductive ends (d : bytes) : nat -> Z -> Prop :=
| ends_out k p : zlen d <= p -> ends d (S k) p
| ends_hop k p : 0 <= p -> p + 16 <= zlen d -> p mod 4 = 0 -> ends d k (le32 d (p + 8)) -> ends d (S k) p.
(** a header and [n] bytes, rounded up *)
Definition room_for (n : Z) : Z := (16 + n + 7) / 8 * 8.
(** There is room for [n] bytes of type [t]: a new extension comes after the others, and
    whatever was there goes, unless it is too short to look at; an
    extension that takes another amount of room makes the account end where
    the extensions end; and one that takes the same amount leaves the account's
    size alone, but then the boundaries are followed into what comes after the
    extensions, and that has to come to an end. *)
Definition room_ok (e : env) (infos : list ainfo) (w : world) (asset : pubkey) (payer sysp : option pubkey)
    (a : update_input) (l : list blk) (tl : bytes) (t : ext_type) (n : Z) : Prop :=
  (lookup t (ext_list l) = None ->
     (tl = [] \/ 16 <= zlen tl) /\ can_size e infos w asset payer sysp (168 + sect_size l + room_for n)) /\
  (forall l1 b l2, l = l1 ++ b :: l2 -> bk_type b = t -> lookup t (ext_list l1) = None ->
     (room_for (zlen (bk_data b)) <> room_for n ->
        can_size e infos w asset payer sysp (168 + sect_size l - room_for (zlen (bk_data b)) + room_for n)) /\
     (room_for (zlen (bk_data b)) = room_for n ->
        ends (over (retitled a (data (w asset))) (Z.to_nat (168 + sect_size l1 + 4)) (le_enc 4 n)) (e_fuel e - length l2) (168 + sect_size l))).
(** bytes 4 to 7 of the owner's key, as a number *)
Definition owner_word (d : bytes) : Z := le_dec (sub (s_owner d) 4 4).

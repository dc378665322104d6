(** Specification: extensions of types that this version does not know. *)
From Verif Require Import Base State World Js Spec SpecB SpecC SpecJ.
From Coq Require Import Strings.Byte.

(** a header's type code, its position, the payload, and the bytes up to the boundary *)
Record item := mkItem { it_code : Z; it_at : Z; it_data : bytes; it_pad : bytes }.
(** [headers d cur l stop]: the headers in [d], from [cur] on, are those of [l];
    each payload ends before its boundary, inside [d].  At [stop] fewer than 16
    bytes are left, or the type code is 0.  Nothing else is asked of the type
    codes. *)
Inductive headers (d : bytes) : Z -> list item -> Z -> Prop :=
| hs_end cur : cur mod 4 = 0 -> zlen d < cur + 16 \/ le32 d cur = 0 -> headers d cur [] cur
| hs_item cur code len bnd l stop : cur mod 4 = 0 -> le32 d cur = code -> le32 d (cur + 4) = len -> le32 d (cur + 8) = bnd ->
    code <> 0 -> cur + 16 + len <= bnd <= zlen d -> headers d bnd l stop ->
    headers d cur (mkItem code cur (sub d (Z.to_nat (cur + 16)) (Z.to_nat len)) (sub d (Z.to_nat (cur + 16 + len)) (Z.to_nat (bnd - (cur + 16 + len)))) :: l) stop.

(** the first of a type *)
Fixpoint first_of (t : ext_type) (l : list item) : option item :=
  match l with [] => None | i :: r => if it_code i =? ext_code t then Some i else first_of t r end.
Definition all_types : list ext_type :=
  [XAttributes; XBlob; XCreators; XLinks; XMetadata; XGrouping; XRoyalties; XManager; XProxy; XProperties; XBucket].
Definition type_of (i : item) : option ext_type := find (fun t => ext_code t =? it_code i) all_types.
(** those of known types *)
Fixpoint known (l : list item) : list (ext_type * item) :=
  match l with
  | [] => []
  | i :: r => match type_of i with Some t => (t, i) :: known r | None => known r end
  end.
(** those before the first of an unknown type *)
Fixpoint known_prefix (l : list item) : list item :=
  match l with
  | [] => []
  | i :: r => match type_of i with Some _ => i :: known_prefix r | None => [] end
  end.
Definition item_header (i : item) : hdr := mkHdr (it_code i) (zlen (it_data i)) (it_at i + 16 + zlen (it_data i) + zlen (it_pad i)).

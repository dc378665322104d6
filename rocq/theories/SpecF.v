(** Payload formats: which bytes are a payload of which type, as grammars. *)
From Verif Require Import Base State Constr Spec SpecB SpecC.
From Coq Require Import Strings.Byte.

(** a string of at most 255 bytes behind its length *)
Definition pstring (s b : bytes) : Prop := zlen s <= 255 /\ b = z2b (zlen s) :: s.
(** attributes and links: names and values *)
Inductive pairs_in : bytes -> Prop :=
| pairs_nil : pairs_in []
| pairs_cons n v bn bv r : pstring n bn -> pstring v bv -> pairs_in r -> pairs_in (bn ++ bv ++ r).
(** properties: names and typed values *)
Inductive value_in : bytes -> Prop :=
| value_text s b : pstring s b -> value_in (x00 :: b)
| value_number b : length b = 8%nat -> value_in (x01 :: b)
| value_bool y : value_in [x02; y].
Inductive props_in : bytes -> Prop :=
| props_nil : props_in []
| props_cons n bn bv r : pstring n bn -> value_in bv -> props_in r -> props_in (bn ++ bv ++ r).
(** content type and data *)
Definition blob_in (b : bytes) : Prop := exists s bs dat, pstring s bs /\ b = bs ++ dat.
(** symbol, description, uri and maybe an image uri *)
Definition metadata_in (b : bytes) : Prop :=
  exists s d u bs bd bu rest, pstring s bs /\ pstring d bd /\ pstring u bu /\ b = bs ++ bd ++ bu ++ rest /\
    (rest = [] \/ exists i bi junk, pstring i bi /\ rest = bi ++ junk).

(** [sits al b r rest]: as [reads], and every part is at an address its type
    needs; [al] is the address of [b] *)
Inductive sits : Z -> bytes -> rule -> bytes -> Prop :=
| sits_all al b body rest l : al mod 4 = 0 -> operator 0 body rest b -> sits_list (al + 8) body l -> sits al b (RAll l) rest
| sits_neg al b body rest r junk : al mod 4 = 0 -> operator 1 body rest b -> sits (al + 8) body r junk -> sits al b (RNeg r) rest
| sits_any al b body rest l : al mod 4 = 0 -> operator 2 body rest b -> sits_list (al + 8) body l -> sits al b (RAny l) rest
| sits_owner al b body rest who ks : al mod 8 = 0 -> operator 3 body rest b -> key_list who ks body -> sits al b (ROwner who ks) rest
| sits_key al b body rest who ks : al mod 8 = 0 -> operator 4 body rest b -> key_list who ks body -> sits al b (RKey who ks) rest
| sits_true al b body rest : al mod 4 = 0 -> operator 5 body rest b -> sits al b RTrue rest
with sits_list : Z -> bytes -> list rule -> Prop :=
| sits_nil al : sits_list al [] []
| sits_cons al b r rest l : sits al b r rest -> sits_list (al + zlen b - zlen rest) rest l -> sits_list al b (r :: l).

(** a payload of the type; for royalties the constraint starts at offset 8 of
    a payload at an address that is a multiple of 8 *)
Definition parses (t : ext_type) (b : bytes) : Prop :=
  match t with
  | XAttributes | XLinks => pairs_in b
  | XProperties => props_in b
  | XBlob => blob_in b
  | XMetadata => metadata_in b
  | XCreators => length b = (34 * cr_count b)%nat
  | XGrouping => (16 <= length b <= 48)%nat
  | XRoyalties => (8 <= length b)%nat /\ exists r rest, sits 8 (skipn 8 b) r rest
  | XManager => (33 <= length b)%nat
  | XProxy => length b = 97%nat
  | XNone | XBucket => True
  end.
(** acceptable for a new extension *)
Definition acceptable (t : ext_type) (b : bytes) : Prop :=
  parses t b /\
  (t = XCreators -> shares (cr_count b) b mod 256 = 100) /\
  (t = XGrouping -> gr_size b = 0) /\
  (t = XRoyalties -> royalty_points b <= 10000).
(** acceptable in place of a current payload *)
Definition replaceable (t : ext_type) (cur b : bytes) : Prop :=
  (t = XNone \/ t = XBucket \/ parses t cur) /\ parses t b /\
  (t = XCreators -> shares (cr_count b) b mod 256 = 100 /\
     forall i, (i < cr_count cur)%nat -> cr_flag_at cur i <> x00 ->
       (exists j, (j < cr_count b)%nat /\ cr_addr_at b j = cr_addr_at cur i) /\
       flag_of (cr_count cur) cur (cr_addr_at cur i) <> Some x00) /\
  (t = XGrouping -> gr_max b = 0 \/ gr_size cur <= gr_max b) /\
  (t = XRoyalties -> royalty_points b <= 10000) /\
  (t = XProxy -> sub b 0 65 = sub cur 0 65).
(** a payload Update takes: a replacement of the one there, or a new extension, which
    cannot be a manager or a proxy *)
Definition fits (t : ext_type) (cur : option bytes) (b : bytes) : Prop :=
  match cur with
  | Some c => replaceable t c b
  | None => t <> XNone /\ t <> XManager /\ t <> XProxy /\ acceptable t b
  end.
(** the size of the account once extension [t] has [n] bytes *)
Definition updated_size (d : bytes) (l : list blk) (t : ext_type) (n : Z) : Z :=
  zlen d - match lookup t (ext_list l) with Some b => (16 + zlen b + 7) / 8 * 8 | None => 0 end + (16 + n + 7) / 8 * 8.

(** The [length] methods of the parsed extensions and the typed reads of
    properties: programs/asset/types/src/extensions/*.rs. *)
From Verif Require Import Base State Constr Ext.
From Coq Require Import Strings.Byte.

Definition sumz (l : list Z) : Z := fold_right Z.add 0 l.

(** Attributes::length, Trait::length — attributes.rs:52-54, 81-83; Links::length,
    Link::length — links.rs:41-43, 70-72 *)
Definition pairs_length (l : list (bytes * bytes)) : Z :=
  sumz (map (fun p => pstr_size (fst p) + pstr_size (snd p)) l).
(** Blob::length — blob.rs:27-29 *)
Definition blob_length (p : bytes * bytes) : Z := pstr_size (fst p) + zlen (snd p).
(** Bucket — bucket.rs:17-23 *)
Definition bucket_from_bytes (b : bytes) : res bytes := Ok b.
Definition bucket_length (b : bytes) : Z := zlen b.
(** Metadata::length — metadata.rs:56-58 *)
Definition metadata_length (m : bytes * bytes * bytes * bytes) : Z :=
  let '(s, d, u, i) := m in pstr_size s + pstr_size d + pstr_size u + pstr_size i.
(** Properties::length, Property::size — properties.rs:60-62, 134-136 *)
Definition props_length (l : list (bytes * prop_val)) : Z :=
  sumz (map (fun p => pstr_size (fst p) + prop_val_size (snd p)) l).
(** Creators::length — creators.rs:39-41 *)
Definition creators_length (l : list creator) : Z := 34 * zlen l.
(** Grouping::length — grouping.rs:56-58 *)
Definition grouping_length (g : grouping) : Z := 8 + 8 + 32.
(** Royalties::length — royalties.rs:28-30 *)
Definition royalties_length (r : Z * constr) : Z := 8 + csize (snd r).
(** Manager::length — manager.rs:28-30 *)
Definition manager_length (d : delegate) : Z := 33.
(** Proxy::length — proxy.rs:51-56 *)
Definition proxy_length (p : proxy) : Z := 32 + 32 + 1 + 32.

(** Deref of Text, Number, Boolean — properties.rs:230-236, 264-270, 297-303; a
    byte other than 0 and 1 read as [bool] is undefined. *)
Definition prop_deref (v : prop_val) : res typed_val :=
  match v with
  | PText s => Ok (TText s)
  | PNumber b8 => Ok (TNumber (le_dec b8))
  | PBoolean b => if b2z b =? 0 then Ok (TBool false) else if b2z b =? 1 then Ok (TBool true) else UB
  end.
(** Properties::get::<T> — properties.rs:23-35: the value with that name is cast
    to [T] without a check. *)
Inductive ptype : Set := TyText | TyNumber | TyBoolean.
Definition prop_type (v : prop_val) : ptype :=
  match v with PText _ => TyText | PNumber _ => TyNumber | PBoolean _ => TyBoolean end.
Definition ptype_eqb (a b : ptype) : bool :=
  match a, b with TyText, TyText | TyNumber, TyNumber | TyBoolean, TyBoolean => true | _, _ => false end.
Definition props_get (t : ptype) (name : bytes) (l : list (bytes * prop_val)) : res (option typed_val) :=
  match find (fun p => bytes_eqb (fst p) name) l with
  | None => Ok None
  | Some p => if ptype_eqb (prop_type (snd p)) t then v <- prop_deref (snd p) ;; Ok (Some v) else UB
  end.
(** PropertiesMut::remove — properties.rs:95-97 *)
Definition props_remove (name : bytes) (l : list (bytes * prop_val)) : list (bytes * prop_val) :=
  filter (fun p => negb (bytes_eqb (fst p) name)) l.

(** Specification for the JavaScript client, from values to values: which extensions a
    new asset can have, and what is shown of an asset after it was minted. *)
From Verif Require Import Base State Layout Constr Ext World Proc Borsh Client Js Spec SpecB SpecC SpecI SpecF SpecK SpecJ.
From Coq Require Import Strings.Byte.

(** ** Values for a new extension *)
Definition share_sum (l : list (bytes * bool * Z)) : Z := fold_right (fun c s => snd c + s) 0 l.
Definition sensible (x : jext) : Prop :=
  match x with
  | JCreators l => share_sum l mod 256 = 100
  | JGrouping size _ _ => size = 0
  | JRoyalties bp _ => bp <= 10000
  | _ => True
  end.
(** the extensions go with the standard *)
Definition suits (e : env) (st : standard) (asset : pubkey) (xs : list jext) : Prop :=
  (st = Managed <-> In XManager (map jext_type xs)) /\
  (st = Proxied <-> In XProxy (map jext_type xs)) /\
  (forall prog seeds bump auth, In (JProxy prog seeds bump auth) xs -> e_cpa e seeds (z2b bump) prog = Some asset).

(** ** What is shown of them once [auth] has minted the asset *)
Definition minted_value (auth : bytes) (x y : jext) : Prop :=
  match x with
  | JCreators l => y = JCreators (map (fun c => (fst (fst c), bytes_eqb (fst (fst c)) auth, snd c)) l)
  | _ => same_value x y
  end.
Definition displayed (c : jctx) (a : jmint) (xs : list jext) (s : jasset) : Prop :=
  ja_state s = 0 /\
  ja_standard s = match jm_standard a with Some Managed => 1 | Some Soulbound => 2 | Some Proxied => 3 | _ => 0 end /\
  ja_mutable s = match jm_mutable a with Some false => false | _ => true end /\
  ja_owner s = pk_bytes (js_owner c a) /\ ja_authority s = pk_bytes (js_authority c a) /\
  ja_group s = match jm_group a with Some g => seen_key (pk_bytes g) | None => None end /\
  ja_delegate s = None /\ ja_name s = seen_text (firstn 35 (jm_name a)) /\
  Forall2 (minted_value (pk_bytes (js_authority c a))) xs (ja_exts s).

(** ** Looking up *)
Definition first_of (t : ext_type) (l : list jext) (o : option jext) : Prop :=
  match o with
  | Some x => exists before after, l = before ++ x :: after /\ jext_type x = t /\ ~ In t (map jext_type before)
  | None => ~ In t (map jext_type l)
  end.

(** More specification vocabulary: chunked uploads. *)
From Verif Require Import Base State Layout Constr Ext World Proc Spec.
From Coq Require Import Strings.Byte.

(** an appending Write of the given bytes *)
Definition write_of (c : env * list ainfo * bytes) : env * list ainfo * instr :=
  (fst c, IWrite (mkDataInput false (snd c))).
Definition chunk_bytes (cs : list (env * list ainfo * bytes)) : bytes := concat (map snd cs).
(** no creator's verified flag is set *)
Definition unflagged (t : ext_type) (b : bytes) : Prop :=
  t = XCreators -> forall i, (i < cr_count b)%nat -> cr_flag_at b i = x00.

(** ** Create *)
(** an extension argument of a real type; nothing is said about declared lengths
    of 2 GB and more, which no account can hold *)
Definition ext_arg (x : ext_input) : Prop :=
  x_type x <> XNone /\ 0 <= x_length x <= 2000000000 /\ zlen (given x) < 4294967296.
(** the blocks inline extension arguments become *)
Definition inline_blks (xs : list ext_input) : list blk := map (fun x => blk_of (x_type x) (given x)) xs.
(** first, last, last but one, ... *)
Definition inline_order {A} (l : list A) : list A := match l with [] => [] | x :: r => x :: rev r end.
Definition inline (m : metadata_input) : list ext_input :=
  match m_exts m with Some xs => inline_order xs | None => [] end.
(** name field: cut to 35 bytes, zero filled *)
Definition name_field (s : bytes) : bytes := firstn 35 (s ++ repeat x00 35).
(** block by block: same type and validated payload *)
Definition validated (auth : bytes) (b b' : blk) : Prop :=
  bk_type b' = bk_type b /\ fresh_payload (bk_type b) (Some auth) (bk_data b) (bk_data b').

(** ** Groups *)
(** first entry of a type replaced *)
Fixpoint replaced (t : ext_type) (b : bytes) (l : list (ext_type * bytes)) : list (ext_type * bytes) :=
  match l with
  | [] => []
  | (t', b') :: l' => if ext_type_eqb t' t then (t', b) :: l' else (t', b') :: replaced t b l'
  end.
(** a grouping payload with another size *)
Definition with_size (n : Z) (b : bytes) : bytes := le_enc 8 n ++ skipn 8 b.
(** may admit and release members: the group's authority or its grouping delegate *)
Definition group_signer (gd b : bytes) (k : pubkey) : Prop :=
  s_authority gd = pk_bytes k \/ (gr_delegate b <> no_key /\ gr_delegate b = pk_bytes k).

(** a proxy payload (program, seeds, bump, authority: 97 bytes) from which the
    address [k] is derived; [e_cpa] is the runtime's address derivation *)
Definition proxy_derives (e : env) (b : bytes) (k : pubkey) : Prop :=
  length b = 97%nat /\ e_cpa e (sub b 32 32) (nth 64 b x00) (sub b 0 32) = Some k.

(** ** What validation guarantees of a payload *)
Definition royalty_points (b : bytes) : Z := le_dec (sub b 0 8).
Definition valid_payload (t : ext_type) (b : bytes) : Prop :=
  match t with
  | XCreators => length b = (34 * cr_count b)%nat /\ shares (cr_count b) b mod 256 = 100
  | XGrouping => (16 <= length b <= 48)%nat
  | XRoyalties => (8 <= length b)%nat /\ royalty_points b <= 10000
  | XManager => (33 <= length b)%nat
  | XProxy => length b = 97%nat
  | _ => True
  end.
(** a new grouping starts empty *)
Definition valid_new (t : ext_type) (b : bytes) : Prop :=
  valid_payload t b /\ (t = XGrouping -> gr_size b = 0).

(** the flag stored for the first entry naming [a], if there is one *)
Fixpoint flag_of (n : nat) (b a : bytes) : option byte :=
  match n with
  | O => None
  | S n' => match flag_of n' b a with
            | Some f => Some f
            | None => if list_eq_dec Byte.byte_eq_dec (cr_addr_at b n') a then Some (cr_flag_at b n') else None
            end
  end.
(** [b'] is what an Update stores for a supplied payload [b] over a current
    payload [cur]: creators keep the flag they had, new ones are verified exactly
    if they are the authority; a grouping keeps its size; a proxy keeps the data
    its address is derived from; anything else is taken as supplied *)
Definition updated_payload (t : ext_type) (auth : bytes) (cur b b' : bytes) : Prop :=
  length b' = length b /\
  (t <> XCreators -> t <> XGrouping -> b' = b) /\
  (t = XGrouping -> b' = with_size (gr_size cur) b /\ (gr_max b = 0 \/ gr_size cur <= gr_max b)) /\
  (t = XProxy -> sub b 0 65 = sub cur 0 65) /\
  (t = XCreators -> forall i, (i < cr_count b)%nat ->
     cr_addr_at b' i = cr_addr_at b i /\ cr_share_at b' i = cr_share_at b i /\
     match flag_of (cr_count cur) cur (cr_addr_at b i) with
     | Some f => cr_flag_at b' i = f
     | None => (cr_flag_at b' i = x01 <-> auth = cr_addr_at b i) /\ (cr_flag_at b' i = x00 <-> auth <> cr_addr_at b i)
     end) /\
  (t = XCreators -> forall a, verified_in cur a -> verified_in b' a).

(** ** Update *)
(** first entry of the type replaced, or a new one added at the end *)
Definition put_ext (t : ext_type) (b : bytes) (l : list (ext_type * bytes)) : list (ext_type * bytes) :=
  match lookup t l with Some _ => replaced t b l | None => l ++ [(t, b)] end.
(** [b'] is what Update stores for a supplied payload [b], where [cur] is the
    payload so far; manager and proxy extensions cannot be added *)
Definition stored (t : ext_type) (auth : bytes) (cur : option bytes) (b b' : bytes) : Prop :=
  match cur with
  | Some c => updated_payload t auth c b b' /\ valid_payload t b' /\ (t = XManager -> (33 <= length c)%nat) /\ (t = XGrouping -> (16 <= length c)%nat)
  | None => t <> XManager /\ t <> XProxy /\ fresh_payload t (Some auth) b b' /\ valid_new t b'
  end.
(** the header after an Update: name and mutability as requested, the rest kept *)
Definition header_updated (a : update_input) (d d' : bytes) : Prop :=
  s_disc d' = s_disc d /\ s_state d' = s_state d /\ s_standard d' = s_standard d /\
  s_mutable d' = match u_mutable a with Some m => bool_byte m | None => s_mutable d end /\
  s_owner d' = s_owner d /\ s_group d' = s_group d /\ s_authority d' = s_authority d /\
  s_delegate d' = s_delegate d /\ s_roles d' = s_roles d /\
  s_name d' = match u_name a with Some n => name_field n | None => s_name d end.

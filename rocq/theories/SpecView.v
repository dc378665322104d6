(** Specification: payloads that can be read, and what the clients make of the assets
    of the registry. *)
From Verif Require Import Base State Layout Constr Ext World Proc Client Js Rs Spec SpecB SpecF SpecJ SpecR SpecS.
From Coq Require Import Strings.Byte.

(** a payload of its type; verified flags are 0 or 1 *)
Definition legible (x : ext_type * bytes) : Prop :=
  parses (fst x) (snd x) /\
  (fst x = XCreators -> forall i, (i < cr_count (snd x))%nat -> cr_flag_at (snd x) i = x00 \/ cr_flag_at (snd x) i = x01).
Definition all_legible (R : registry) : Prop := forall k v, R k = Some v -> Forall legible (as_exts v).
(** with all the parts the JavaScript client expects *)
Definition complete (x : ext_type * bytes) : Prop :=
  (fst x = XGrouping -> zlen (snd x) = 48) /\ (fst x = XMetadata -> four_texts (snd x)).

(** the roles of a delegate as a list *)
Definition role_list (r : rights) : list role :=
  match filter (right r) [RTransfer; RLock; RBurn] with [] => [RNone] | l => l end.
(** the JavaScript client's picture of an asset *)
Definition portrays (v : asset) (s : jasset) : Prop :=
  ja_state s = (if as_locked v then 1 else 0) /\ ja_standard s = Z.of_N (Byte.to_N (as_standard v)) /\ ja_mutable s = as_mutable v /\
  ja_owner s = as_owner v /\ ja_group s = as_group v /\ ja_authority s = as_authority v /\
  ja_delegate s = match as_delegate v with Some (k, r) => Some (k, role_list r) | None => None end /\
  ja_name s = seen_text (as_name v) /\
  Forall2 (fun p x => shown (fst p) (snd p) [] x) (as_exts v) (ja_exts s).
(** the Rust client's *)
Definition reflects (v : asset) (a : rs_asset) : Prop :=
  ra_disc a = x01 /\ ra_state a = (if as_locked v then x01 else x00) /\ std_byte (ra_standard a) = as_standard v /\ ra_mutable a = as_mutable v /\
  ra_owner a = as_owner v /\ key_opt (ra_group a) = as_group v /\ ra_authority a = as_authority v /\
  match key_opt (ra_delegate a) with Some k => Some (k, rights_of (ra_roles a)) | None => None end = as_delegate v /\ ra_name a = as_name v.
(** the size of an account with these extensions and nothing behind them *)
Definition full_size (v : asset) : Z := 168 + fold_right (fun x n => (16 + zlen (snd x) + 7) / 8 * 8 + n) 0 (as_exts v).

(** ** Update, from values to values *)
(** the flag of the first creator with a key *)
Fixpoint flag_in (l : list (bytes * bool * Z)) (k : bytes) : option bool :=
  match l with
  | [] => None
  | c :: r => if bytes_eqb (fst (fst c)) k then Some (snd (fst c)) else flag_in r k
  end.
(** what is shown once [auth] has put [x] in the place of [cur] *)
Definition updated_value (auth : bytes) (cur : option jext) (x y : jext) : Prop :=
  match cur, x with
  | None, JCreators l => y = JCreators (map (fun c => (fst (fst c), bytes_eqb (fst (fst c)) auth, snd c)) l)
  | Some (JCreators l0), JCreators l =>
      y = JCreators (map (fun c => (fst (fst c), match flag_in l0 (fst (fst c)) with Some f => f | None => bytes_eqb (fst (fst c)) auth end, snd c)) l)
  | Some (JGrouping n _ _), JGrouping _ max del => y = JGrouping n max (seen_opt del)
  | _, _ => same_value x y
  end.
(** which values can take the place of [cur] *)
Definition may_follow (cur : option jext) (x : jext) : Prop :=
  match cur, x with
  | None, JManager _ _ | None, JProxy _ _ _ _ => False
  | None, JCreators l => fold_right (fun c s => snd c + s) 0 l mod 256 = 100
  | None, JGrouping size _ _ => size = 0
  | Some (JCreators l0), JCreators l => fold_right (fun c s => snd c + s) 0 l mod 256 = 100 /\
      forall k s, In (k, true, s) l0 -> In k (map (fun c => fst (fst c)) l) /\ flag_in l0 k = Some true
  | Some (JGrouping n _ _), JGrouping _ max _ => max = 0 \/ n <= max
  | Some (JProxy prog seeds bump _), JProxy prog' seeds' bump' _ => prog' = prog /\ seeds' = seeds /\ bump' = bump
  | _, JRoyalties bp _ => bp <= 10000
  | _, _ => True
  end.
(** the first value of the type replaced, or a new one at the end *)
Fixpoint put_value (t : ext_type) (y : jext) (l : list jext) : list jext :=
  match l with
  | [] => [y]
  | x :: r => if ext_type_eqb (jext_type x) t then y :: r else x :: put_value t y r
  end.
Definition changed (auth : bytes) (name : option bytes) (mut : option bool) (x : jext) (s s' : jasset) : Prop :=
  (exists y, updated_value auth (js_get (jext_type x) (ja_exts s)) x y /\ ja_exts s' = put_value (jext_type x) y (ja_exts s)) /\
  ja_name s' = match name with Some n => seen_text (firstn 35 n) | None => ja_name s end /\
  ja_mutable s' = match mut with Some m => m | None => ja_mutable s end /\
  ja_state s' = ja_state s /\ ja_standard s' = ja_standard s /\ ja_owner s' = ja_owner s /\ ja_group s' = ja_group s /\
  ja_authority s' = ja_authority s /\ ja_delegate s' = ja_delegate s.

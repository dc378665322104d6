(** Specification vocabulary for histories: sequences of instructions by anybody,
    interleaved with whatever the rest of the chain does. *)
From Verif Require Import Base State Layout Constr Ext World Proc Spec SpecB.
From Coq Require Import Strings.Byte.

(** What other programs can do between instructions of program [p] (runtime
    rules): they cannot touch the data or ownership of its accounts, and an
    account can only be handed to it with zeroed data. *)
Definition outside (p : pubkey) (w w' : world) : Prop :=
  (forall k, acct_owner (w k) = p -> acct_owner (w' k) = p /\ data (w' k) = data (w k)) /\
  (forall k, acct_owner (w k) <> p -> acct_owner (w' k) = p -> exists n, data (w' k) = repeat x00 n) /\
  sized w' /\ lam_ok w'.

(** From [w] to [w'] by successful instructions of [p] and outside events.
    (A failing instruction leaves the world as it was.) *)
Inductive history (p : pubkey) : world -> world -> Prop :=
| hist_refl w : history p w w
| hist_instr w w1 e infos i w2 : history p w w1 -> e_prog e = p -> env_ok e ->
    process e infos w1 i = Ok w2 -> history p w w2
| hist_outside w w1 w2 : history p w w1 -> outside p w1 w2 -> history p w w2.

(** A history in which every instruction satisfies [P]. *)
Inductive history_of (P : env -> list ainfo -> world -> instr -> Prop) (p : pubkey) : world -> world -> Prop :=
| hof_refl w : history_of P p w w
| hof_instr w w1 e infos i w2 : history_of P p w w1 -> e_prog e = p -> env_ok e -> P e infos w1 i ->
    process e infos w1 i = Ok w2 -> history_of P p w w2
| hof_outside w w1 w2 : history_of P p w w1 -> outside p w1 w2 -> history_of P p w w2.

(** A history that burns [k] at some point. *)
Definition burned_in (p : pubkey) (w w' : world) (k : pubkey) : Prop :=
  exists w1 e infos w2, history p w w1 /\ e_prog e = p /\ env_ok e /\ arg infos 0 k /\
    process e infos w1 IBurn = Ok w2 /\ history p w2 w'.

(** The content of an extension is kept, except for the size of a grouping and
    the verified flags of creators. *)
Definition kept (x x' : ext_type * bytes) : Prop :=
  fst x' = fst x /\ length (snd x') = length (snd x) /\
  (fst x <> XCreators -> fst x <> XGrouping -> snd x' = snd x) /\
  (fst x = XGrouping -> skipn 8 (snd x') = skipn 8 (snd x)) /\
  (fst x = XCreators -> forall i, (i < cr_count (snd x))%nat ->
     cr_addr_at (snd x') i = cr_addr_at (snd x) i /\ cr_share_at (snd x') i = cr_share_at (snd x) i).

(** Requests of real extension types and sizes the argument encoding and the
    runtime allow; everything else is unrestricted.  Update and Remove also accept
    the type None (see C14_none_refuted). *)
Definition plain_request (i : instr) : Prop :=
  match i with
  | IUpdate a => forall x, u_ext a = Some x -> ext_arg x
  | IRemove t => t <> XNone
  | IResize (Extend v) => 0 <= v <= 65535
  | _ => True
  end.

(** signed by the recorded authority of [k] while [k] is mutable *)
Definition by_authority (infos : list ainfo) (w : world) (k : pubkey) : Prop :=
  exists a, signed infos a /\ s_authority (data (w k)) = pk_bytes a /\ mutable (data (w k)).

(** a well-formed section followed by zeros only *)
Definition tidy (d : bytes) (l : list blk) : Prop := exists hd n, layout d hd l (repeat x00 n).
(** plain requests that do not take an extension out of the middle of [k] (C26
    shows what Remove does there) *)
Definition careful (k : pubkey) (e : env) (infos : list ainfo) (w : world) (i : instr) : Prop :=
  plain_request i /\
  forall t l, i = IRemove t -> arg infos 0 k -> well_formed (data (w k)) l ->
    exists l1 b, l = l1 ++ [b] /\ bk_type b = t /\ Forall (fun x => bk_type x <> t) l1.
(** the instruction burns [k] *)
Definition burns (infos : list ainfo) (i : instr) (k : pubkey) : Prop := i = IBurn /\ arg infos 0 k.

(** signed neither by the recorded owner of [k] nor by the holder's delegate *)
Definition without_holder (k : pubkey) (infos : list ainfo) (w : world) : Prop :=
  forall s, s_owner (data (w k)) = pk_bytes s \/ s_delegate (data (w k)) = pk_bytes s -> ~ signed infos s.
(** no manager extension, or one too short to name a delegate *)
Definition unmanaged (l : list blk) : Prop :=
  forall b, lookup XManager (ext_list l) = Some b -> (length b < 33)%nat.

(** ** Creators *)
(** the flags of exactly the entries naming [cr] are set to [v]; there is one *)
Definition set_flags (v : bool) (cr : bytes) (b b' : bytes) : Prop :=
  length b' = length b /\ length b = (34 * cr_count b)%nat /\
  (exists i, (i < cr_count b)%nat /\ cr_addr_at b i = cr) /\
  forall i, (i < cr_count b)%nat ->
    cr_addr_at b' i = cr_addr_at b i /\ cr_share_at b' i = cr_share_at b i /\
    (cr_addr_at b i = cr -> cr_flag_at b' i = bool_byte v) /\
    (cr_addr_at b i <> cr -> cr_flag_at b' i = cr_flag_at b i).
(** [c] is a verified creator of an asset with extensions [l] *)
Definition has_verified (l : list blk) (c : bytes) : Prop :=
  exists b, lookup XCreators (ext_list l) = Some b /\ verified_in b c.
(** the instruction carries the word of [c] for [k]: a Verify signed by [c], or an
    Update signed by [c] as the recorded authority *)
Definition vouches (infos : list ainfo) (w : world) (i : instr) (k : pubkey) (c : bytes) : Prop :=
  arg infos 0 k /\ exists s, signed infos s /\ c = pk_bytes s /\
    ((i = IVerify /\ arg infos 1 s) \/ (exists a, i = IUpdate a /\ s_authority (data (w k)) = c)).
(** Updates of [k] take the payload from the instruction, not from a buffer *)
Definition no_buffer (k : pubkey) (e : env) (infos : list ainfo) (i : instr) : Prop :=
  forall a, i = IUpdate a -> arg infos 0 k -> arg infos 2 (e_prog e).
(** somewhere in the history [c] vouched for [k] *)
Definition vouched (P : env -> list ainfo -> world -> instr -> Prop) (p : pubkey) (w w' : world) (k : pubkey) (c : bytes) : Prop :=
  exists w1 e infos i w2, history_of P p w w1 /\ e_prog e = p /\ env_ok e /\ P e infos w1 i /\
    process e infos w1 i = Ok w2 /\ history_of P p w2 w' /\ vouches infos w1 i k c.

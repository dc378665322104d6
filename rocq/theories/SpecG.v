(** Specification vocabulary for groups: consent, membership, counting. *)
From Verif Require Import Base State Layout Constr Ext World Proc Spec SpecB SpecH.
From Coq Require Import Strings.Byte.

(** an asset of program [p] *)
Definition asset_of (p : pubkey) (w : world) (k : pubkey) : Prop :=
  acct_owner (w k) = p /\ initialized (data (w k)).
(** [g] agrees to take in an asset with authority [auth]: its authority or its
    grouping delegate signs, the authorities are the same, and it is not full *)
Definition consent (p : pubkey) (infos : list ainfo) (w : world) (auth : bytes) (g : pubkey) : Prop :=
  asset_of p w g /\ s_authority (data (w g)) = auth /\
  exists s off b, signed infos s /\ has_ext (data (w g)) XGrouping off b /\ (16 <= length b <= 48)%nat /\
    group_signer (data (w g)) b s /\ (gr_max b = 0 \/ gr_size b < gr_max b).

(** [k] names [g] as its group *)
Definition member (p : pubkey) (w : world) (g k : pubkey) : Prop :=
  asset_of p w k /\ s_group (data (w k)) = pk_bytes g.
(** [g] has exactly [n] members *)
Definition counts (p : pubkey) (w : world) (g : pubkey) (n : Z) : Prop :=
  exists ks, NoDup ks /\ Z.of_nat (length ks) = n /\ forall k, In k ks <-> member p w g k.
(** the size recorded for [g]: that of its grouping extension, 0 if it has none or
    is no asset *)
Definition size_in (l : list blk) : Z :=
  match lookup XGrouping (ext_list l) with Some b => gr_size b | None => 0 end.
Definition recorded (p : pubkey) (w : world) (g : pubkey) (n : Z) : Prop :=
  (asset_of p w g /\ exists l, tidy (data (w g)) l /\ n = size_in l) \/ (~ asset_of p w g /\ n = 0).
(** the maximum recorded for [g]; 0 stands for no limit *)
Definition max_in (l : list blk) : Z :=
  match lookup XGrouping (ext_list l) with Some b => gr_max b | None => 0 end.

(** An account being built in the ordinary way: its header is still zero. *)
Definition building (w : world) (k : pubkey) (l : list blk) (n : Z) : Prop :=
  open_account (data (w k)) (repeat x00 168) l n.
(** Requests as clients make them: extension arguments of real types with data;
    accounts are built by complete Allocates and by Writes that append no more than
    was announced; Update takes its data from the argument and not from a buffer
    account; Remove takes the last extension. *)
Definition proper (e : env) (infos : list ainfo) (w : world) (i : instr) : Prop :=
  match i with
  | ICreate m => Forall ext_arg (inline m) /\ forall a, arg infos 0 a -> exists l n, building w a l n
  | IAllocate x => ext_arg x /\ forall a, arg infos 0 a -> exists l n, building w a l n
  | IWrite x => w_overwrite x = false /\ forall a, arg infos 0 a -> exists l t len bs,
      partial_account (data (w a)) (repeat x00 168) l t len bs /\ zlen bs < len /\ zlen bs + zlen (w_bytes x) <= len
  | IUpdate a => arg infos 2 (e_prog e) /\ forall x, u_ext a = Some x -> ext_arg x /\ x_data x <> None
  | IRemove t => t <> XNone /\ forall k l, arg infos 0 k -> well_formed (data (w k)) l ->
      exists l1 b, l = l1 ++ [b] /\ bk_type b = t /\ Forall (fun x => bk_type x <> t) l1
  | IResize (Extend v) => 0 <= v <= 65535
  | _ => True
  end.
(** no group has as many members as the counter can hold *)
Definition roomy (p : pubkey) (w : world) : Prop := forall g n, recorded p w g n -> n < 18446744073709551615.

(** The books are in order: every asset is tidy, and every group's recorded size
    is the number of its members. *)
Definition sound (p : pubkey) (w : world) : Prop :=
  sized w /\ lam_ok w /\ (forall k, asset_of p w k -> exists l, tidy (data (w k)) l) /\
  (forall g n, g <> pk_zero -> recorded p w g n -> counts p w g n).
(** no group is over its limit *)
Definition within_limits (p : pubkey) (w : world) : Prop :=
  forall g l, g <> pk_zero -> asset_of p w g -> tidy (data (w g)) l -> max_in l = 0 \/ size_in l <= max_in l.
(** histories of such requests *)
Definition good_step (e : env) (infos : list ainfo) (w : world) (i : instr) : Prop :=
  proper e infos w i /\ roomy (e_prog e) w.
(** somewhere between [w] and [w'], [g] consented to taking in [k] *)
Definition joined (P : env -> list ainfo -> world -> instr -> Prop) (p : pubkey) (w w' : world) (k g : pubkey) : Prop :=
  exists w1 e infos i w2, history_of P p w w1 /\ e_prog e = p /\ env_ok e /\ P e infos w1 i /\
    process e infos w1 i = Ok w2 /\ history_of P p w2 w' /\ arg infos 0 k /\
    ((i = IGroup /\ arg infos 1 g) \/ (exists m, i = ICreate m /\ arg infos 3 g)) /\
    consent p infos w1 (s_authority (data (w2 k))) g /\ member p w2 g k.

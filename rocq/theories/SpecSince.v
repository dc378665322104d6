(** Specification vocabulary for the origin of rights: since when something holds and
    by whose request. *)
From Verif Require Import Base State World Proc Spec SpecB SpecG SpecH.
From Coq Require Import Strings.Byte.

(** requests that do not burn [k] and do not take an extension out of the middle of it *)
Definition unharmed (k : pubkey) (e : env) (infos : list ainfo) (w : world) (i : instr) : Prop :=
  ~ burns infos i k /\ careful k e infos w i.
(** a history of such requests during which [H] held of the data of [k] all the time,
    from the first to the last moment *)
Definition throughout (H : bytes -> Prop) (p : pubkey) (w w' : world) (k : pubkey) : Prop :=
  H (data (w k)) /\ history_of (fun e infos v i => unharmed k e infos v i /\ H (data (v k))) p w w' /\ H (data (w' k)).
(** [H] did not hold, until the request described by [act] was made; since then it did *)
Definition since (H : bytes -> Prop) (act : list ainfo -> world -> instr -> Prop) (p : pubkey) (w w' : world) (k : pubkey) : Prop :=
  exists w1 e infos i w2, history_of (unharmed k) p w w1 /\ e_prog e = p /\ env_ok e /\ unharmed k e infos w1 i /\
    process e infos w1 i = Ok w2 /\ ~ H (data (w1 k)) /\ act infos w1 i /\ throughout H p w2 w' k.

(** [d] holds role [r] from owner [o] *)
Definition entrusted (o d : bytes) (r : role) (x : bytes) : Prop := s_owner x = o /\ s_delegate x = d /\ has_role (s_roles x) r.
(** the owner gives [r] to [d]: an Approve of the owner naming [d] and [r] *)
Definition grants (k : pubkey) (o d : bytes) (r : role) (infos : list ainfo) (w : world) (i : instr) : Prop :=
  exists a so sd, i = IApprove a /\ requested a r /\ arg infos 0 k /\ arg infos 1 so /\ arg infos 2 sd /\ signed infos so /\
    s_owner (data (w k)) = o /\ o = pk_bytes so /\ d = pk_bytes sd.
(** a Transfer to [o] by somebody who may transfer *)
Definition hands_to (k : pubkey) (o : bytes) (infos : list ainfo) (w : world) (i : instr) : Prop :=
  exists s r, i = ITransfer /\ arg infos 0 k /\ arg infos 1 s /\ arg infos 2 r /\ o = pk_bytes r /\ signed infos s /\
    forall l, well_formed (data (w k)) l -> authorized (data (w k)) l s RTransfer.
(** a Handover to [a], signed by the authority before and by [a] *)
Definition appoints (k : pubkey) (a : bytes) (infos : list ainfo) (w : world) (i : instr) : Prop :=
  exists s n, i = IHandover /\ arg infos 0 k /\ arg infos 1 s /\ arg infos 2 n /\ signed infos s /\ signed infos n /\
    s_authority (data (w k)) = pk_bytes s /\ a = pk_bytes n.
(** a Lock by somebody who may lock *)
Definition shuts (k : pubkey) (infos : list ainfo) (w : world) (i : instr) : Prop :=
  exists s, i = ILock /\ arg infos 0 k /\ arg infos 1 s /\ signed infos s /\ forall l, well_formed (data (w k)) l -> may_lock (data (w k)) l s.
(** a Group into [g] with the group's consent *)
Definition admits (p k : pubkey) (g : bytes) (infos : list ainfo) (w : world) (i : instr) : Prop :=
  exists ga, i = IGroup /\ arg infos 0 k /\ arg infos 1 ga /\ g = pk_bytes ga /\ s_group (data (w k)) = no_key /\
    consent p infos w (s_authority (data (w k))) ga.
(** an Update by the authority that makes [k] immutable *)
Definition freezes (k : pubkey) (infos : list ainfo) (w : world) (i : instr) : Prop :=
  exists a, i = IUpdate a /\ u_mutable a = Some false /\ arg infos 0 k /\ by_authority infos w k.

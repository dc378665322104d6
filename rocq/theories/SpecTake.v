(** Specification vocabulary for taking requests back. *)
From Verif Require Import Base State World Proc Spec.

(** no account has changed *)
Definition unchanged (w w' : world) : Prop := forall k, w' k = w k.

(** [i] is about account [k] alone — no group, no buffer — and whatever it moves, it moves
    between [k] and [p] *)
Definition alone (e : env) (infos : list ainfo) (i : instr) (k p : pubkey) : Prop :=
  arg infos 0 k /\
  match i with
  | IAllocate _ | IWrite _ => arg infos 1 p
  | ICreate _ => arg infos 3 (e_prog e) /\ arg infos 5 p
  | IUpdate _ => arg infos 2 (e_prog e) /\ arg infos 4 p
  | IRemove _ => arg infos 3 p
  | IResize _ => arg infos 2 p
  | IGroup | IUngroup | IBurn | IClose => False
  | _ => True
  end.

(** successful requests about [k] alone, one after the other, in any environments of
    program [pr] *)
Inductive works (pr k p : pubkey) : world -> world -> Prop :=
| works_refl w : works pr k p w w
| works_step w w1 e infos i w2 : works pr k p w w1 -> e_prog e = pr -> env_ok e -> alone e infos i k p ->
    process e infos w1 i = Ok w2 -> works pr k p w w2.

(** [w'] gives account [k] back: to [p], by Burn of an asset outside groups or Close of a buffer *)
Definition given_back (e : env) (infos : list ainfo) (w w' : world) (k p : pubkey) : Prop :=
  arg infos 0 k /\
  (process e infos w IBurn = Ok w' /\ s_group (data (w k)) = no_key /\ (arg infos 2 p /\ p <> e_prog e \/ arg infos 2 (e_prog e) /\ arg infos 1 p) \/
   process e infos w IClose = Ok w' /\ arg infos 1 p).

(** ** The same request once more *)
(** no such request succeeds *)
Definition refused (e : env) (infos : list ainfo) (w : world) (i : instr) : Prop :=
  forall w', process e infos w i <> Ok w'.
(** such a request changes nothing, if it succeeds *)
Definition settled (e : env) (infos : list ainfo) (w : world) (i : instr) : Prop :=
  forall w', process e infos w i = Ok w' -> unchanged w w'.
(** requests that can be carried out once only *)
Definition once_only (infos : list ainfo) (i : instr) : Prop :=
  match i with
  | ICreate _ | ILock | IBurn | IClose => True
  | IGroup | IUngroup => ~ arg infos 1 pk_zero
  | IHandover => forall old new, arg infos 1 old -> arg infos 2 new -> old <> new
  | _ => False
  end.
(** requests that set something to a value they name *)
Definition assigns (e : env) (infos : list ainfo) (i : instr) : Prop :=
  match i with
  | ITransfer | IApprove _ | IRevoke _ | IUnlock | IHandover | IVerify | IUnverify => True
  | IUpdate u => u_ext u = None /\ arg infos 2 (e_prog e)
  | _ => False
  end.

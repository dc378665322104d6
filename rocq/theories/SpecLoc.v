(** Specification vocabulary for requests that do not concern each other. *)
From Verif Require Import Base State Layout Constr Ext World Proc Spec.
From Coq Require Import Strings.Byte.

(** the request names the account *)
Definition names (infos : list ainfo) (k : pubkey) : Prop := exists n, arg infos n k.
(** two states agree on the accounts a request names *)
Definition agree_for (infos : list ainfo) (w v : world) : Prop := forall k, names infos k -> w k = v k.
(** ... and everywhere *)
Definition agree (w v : world) : Prop := forall k, w k = v k.
(** the same outcome: success with agreeing accounts, or failure of the same kind *)
Definition same_outcome (infos : list ainfo) (r s : res world) : Prop :=
  match r, s with
  | Ok w, Ok v => agree_for infos w v
  | Err x, Err y => x = y
  | Panic, Panic | Diverge, Diverge | UB, UB => True
  | _, _ => False
  end.
(** a request: environment, accounts, instruction *)
Definition request : Type := env * list ainfo * instr.
Definition accounts (r : request) : list ainfo := snd (fst r).
Definition valid (r : request) : Prop := env_ok (fst (fst r)) /\ e_prog (fst (fst r)) <> pk_zero.
(** neither request may write to an account the other one names *)
Definition apart (r s : request) : Prop := forall k,
  (writable (accounts r) k -> ~ names (accounts s) k) /\ (writable (accounts s) k -> ~ names (accounts r) k).
(** [l] is an interleaving of [l1] and [l2] *)
Inductive mix : list request -> list request -> list request -> Prop :=
| mix_nil : mix [] [] []
| mix_left x l1 l2 l : mix l1 l2 l -> mix (x :: l1) l2 (x :: l)
| mix_right x l1 l2 l : mix l1 l2 l -> mix l1 (x :: l2) (x :: l).
(** the same for programs that look at all the accounts they are given *)
Definition agree_on (infos : list ainfo) (w v : world) : Prop := forall a, In a infos -> w (ai_key a) = v (ai_key a).
Definition same_result (infos : list ainfo) (r s : res world) : Prop :=
  match r, s with
  | Ok w, Ok v => agree_on infos w v
  | Err x, Err y => x = y
  | Panic, Panic | Diverge, Diverge | UB, UB => True
  | _, _ => False
  end.

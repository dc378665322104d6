(** Specification vocabulary for rent: an account that holds data must hold the
    lamports the runtime asks for its size. *)
From Verif Require Import Base State World Proc Spec SpecH.

(** every account of program [p] that holds data has its rent under the tariff [rent] *)
Definition paid_by (rent : Z -> Z) (p : pubkey) (w : world) : Prop :=
  forall k, acct_owner (w k) = p -> 0 < zlen (data (w k)) -> rent (zlen (data (w k))) <= lamports (w k).

(** a tariff never charges less for more bytes, and never a negative amount *)
Definition tariff (rent : Z -> Z) : Prop := (forall a b, 0 <= a <= b -> rent a <= rent b) /\ forall n, 0 <= rent n.

(** From [w] to [w'] by successful instructions of [p] and outside events, the tariff
    being [rent] all the time.  Other programs cannot take lamports from an account
    of [p], and the runtime lets them hand over only accounts that have their rent. *)
Inductive rented (rent : Z -> Z) (p : pubkey) : world -> world -> Prop :=
| rented_refl w : rented rent p w w
| rented_instr w w1 e infos i w2 : rented rent p w w1 -> e_prog e = p -> (forall n, e_rent e n = rent n) ->
    process e infos w1 i = Ok w2 -> rented rent p w w2
| rented_outside w w1 w2 : rented rent p w w1 -> outside p w1 w2 ->
    (forall k, acct_owner (w1 k) = p -> lamports (w1 k) <= lamports (w2 k)) ->
    (forall k, acct_owner (w1 k) <> p -> acct_owner (w2 k) = p -> rent (zlen (data (w2 k))) <= lamports (w2 k)) ->
    rented rent p w w2.

(** A history of any successful instructions of [p] and outside events, the latter under
    the runtime rule that only an account's own program takes lamports from it. *)
Inductive fair_history (p : pubkey) : world -> world -> Prop :=
| fair_refl w : fair_history p w w
| fair_instr w w1 e infos i w2 : fair_history p w w1 -> e_prog e = p -> env_ok e -> process e infos w1 i = Ok w2 -> fair_history p w w2
| fair_outside w w1 w2 : fair_history p w w1 -> outside p w1 w2 ->
    (forall k, acct_owner (w1 k) = p -> lamports (w1 k) <= lamports (w2 k)) -> fair_history p w w2.

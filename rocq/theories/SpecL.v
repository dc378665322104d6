(** Specification for whole jobs: what the accounts are like before the first of
    several instructions. *)
From Verif Require Import Base State World Spec.

(** rent grows with size *)
Definition rent_mono (e : env) : Prop := forall a b, 0 <= a <= b -> e_rent e a <= e_rent e b.
(** an address nothing was ever put at *)
Definition vacant (w : world) (k : pubkey) : Prop := data (w k) = [] /\ acct_owner (w k) = pk_zero /\ lamports (w k) = 0.
(** a wallet: an account of the system program with no data *)
Definition wallet (w : world) (k : pubkey) : Prop := acct_owner (w k) = pk_zero /\ data (w k) = [] /\ lamports (w k) < 18446744073709551616.
(** an account such as the program leaves it, if it is the program's *)
Definition plain_at (e : env) (w : world) (k : pubkey) : Prop :=
  acct_owner (w k) = e_prog e -> data (w k) = [] \/ (168 <= length (data (w k)))%nat.

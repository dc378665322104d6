(** What requests are answered, read off the errors of the instructions: the
    conditions of a request in the order in which they are looked at, each with the
    error that a request gets when it is the first one broken.  (C76) *)
From Verif Require Import Base State Layout Constr Ext World Proc BaseL Spec SpecB SpecC SpecE.
From Coq Require Import Strings.Byte.

Definition conds : Type := list (Prop * error).
(** [m] goes through when all conditions hold; otherwise it is refused with the error
    of the first one that does not *)
Fixpoint answers {A} (m : res A) (l : conds) : Prop :=
  match l with
  | [] => exists x, m = Ok x
  | (P, er) :: l' => (P /\ answers m l') \/ (~ P /\ m = Err er)
  end.
(** the same, with nothing said of the requests that meet all of them *)
Fixpoint begins {A} (m : res A) (l : conds) : Prop :=
  match l with
  | [] => True
  | (P, er) :: l' => (P /\ begins m l') \/ (~ P /\ m = Err er)
  end.

(** the first account of a request: passed as writable; of the accounts of the program
    that are passed, each is empty or has room for a header *)
Definition told (e : env) (infos : list ainfo) (w : world) (a : pubkey) : Prop :=
  arg infos 0 a /\ writable infos a /\ plain_accounts e infos w /\ sized w.
(** a proxied account of the program signs *)
Definition proxy_signs (e : env) (infos : list ainfo) (w : world) (a : pubkey) : Prop :=
  acct_owner (w a) = e_prog e -> s_standard (data (w a)) = x03 -> signed infos a.
Definition held (e : env) (w : world) (k : pubkey) : Prop := acct_owner (w k) = e_prog e.
Definition live (w : world) (k : pubkey) : Prop := initialized (data (w k)).

(** what is looked at first; [b]: the instruction is refused while an asset is locked *)
Definition front (b : bool) (e : env) (infos : list ainfo) (w : world) (a : pubkey) : conds :=
  (proxy_signs e infos w a, EMissingRequiredSignature) :: (if b then [(none_locked e infos w, ELockedAsset)] else []).
(** the authority's checks *)
Definition charge (e : env) (infos : list ainfo) (w : world) (a auth : pubkey) : conds :=
  [(held e w a, EIllegalOwner); (live w a, EUninitialized);
   (s_authority (data (w a)) = pk_bytes auth, EInvalidAuthority); (mutable (data (w a)), EImmutableAsset)].

(** ** Lock: who decides *)
(** the holder acts alone while there is no delegate *)
Definition free_hand (d : bytes) (k : pubkey) : Prop := s_delegate d = no_key /\ s_owner d = pk_bytes k.
(** the delegate whose key and roles count: the manager's, else the holder's *)
Inductive decider (d : bytes) (l : list blk) : bytes -> byte -> Prop :=
| dec_manager b : lookup XManager (ext_list l) = Some b -> decider d l (sub b 0 32) (nth 32 b x00)
| dec_delegate : lookup XManager (ext_list l) = None -> s_delegate d <> no_key -> decider d l (s_delegate d) (s_roles d).
Definition lock_conds (d : bytes) (l : list blk) (k : pubkey) : conds :=
  [(free_hand d k \/ exists a m, decider d l a m, EDelegateNotFound);
   (free_hand d k \/ exists m, decider d l (pk_bytes k) m, EInvalidDelegate);
   (free_hand d k \/ exists m, decider d l (pk_bytes k) m /\ has_role m RLock, EDelegateRoleNotActive)].

(** ** Leaving a group when burnt *)
Definition leave_conds (e : env) (w : world) (a : pubkey) (og : option pubkey) (lg : list blk) : conds :=
  let N := s_group (data (w a)) <> no_key in
  [(N -> og <> None, ENotEnoughAccountKeys);
   (N -> forall g, og = Some g -> s_group (data (w a)) = pk_bytes g, EInvalidArgument);
   (N -> og <> Some a, EAccountBorrowFailed);
   (N -> lookup XGrouping (ext_list lg) <> None, EExtensionNotFound);
   (N -> forall b, lookup XGrouping (ext_list lg) = Some b -> 1 <= gr_size b, EInvalidAccountData)].
(** giving up an account: its balance goes to another one *)
Definition empty_conds (infos : list ainfo) (w : world) (k dest : pubkey) : conds :=
  [(dest <> k, EAccountBorrowFailed); (lamports (w k) = 0 \/ writable infos dest, ERuntime)].

(** the balance of a burnt asset goes to the recipient, or else the signer *)
Definition receiver (s : pubkey) (orec : option pubkey) : pubkey := match orec with Some r => r | None => s end.

(** ** The group's word on a transfer *)
Definition group_conds (e : env) (w : world) (a s r : pubkey) (og : option pubkey) (l lg : list blk) : conds :=
  let N := s_owner (data (w a)) <> pk_bytes r /\ s_group (data (w a)) <> no_key /\ lookup XRoyalties (ext_list l) = None in
  [(N -> og <> None, ENotEnoughAccountKeys);
   (N -> forall g, og = Some g -> held e w g, EInvalidGroup);
   (N -> forall g, og = Some g -> s_group (data (w a)) = pk_bytes g, EInvalidGroup);
   (N -> og <> Some a, EAccountBorrowFailed);
   (N -> forall g, og = Some g -> s_disc (data (w g)) = x01, EInvalidGroup);
   (N -> allows e w a s r lg, EAssertionFailure)].

(** ** Room *)
(** growing to [size] bytes *)
Definition grow_conds (e : env) (infos : list ainfo) (w : world) (k : pubkey) (payer : pubkey) (sysp : option pubkey) (size : Z) : conds :=
  let N := lamports (w k) < e_rent e size in
  [(size - zlen (data (w k)) <= 10240, EAccountDataTooSmall);
   (N -> sysp <> None, ENotEnoughAccountKeys);
   (N -> signed infos payer, EMissingRequiredSignature);
   (N -> sysp = Some pk_zero, EIncorrectProgramId);
   (N -> e_rent e size < 18446744073709551616 /\ can_pay infos w payer (e_rent e size - lamports (w k)), ECpi);
   (size <= 10485760, ERuntime)].

(** ** New accounts *)
(** who pays when [N], the account is opened by the request *)
Definition fund_conds (infos : list ainfo) (N : Prop) (payer sysp : option pubkey) : conds :=
  [(N -> payer <> None, ENotEnoughAccountKeys);
   (N -> forall p, payer = Some p -> signed infos p, EMissingRequiredSignature);
   (N -> sysp <> None, ENotEnoughAccountKeys);
   (N -> sysp = Some pk_zero, EIncorrectProgramId)].
(** an account that is there already is one being built *)
Definition blank_conds (e : env) (w : world) (a : pubkey) : conds :=
  let N := data (w a) <> [] in
  [(N -> held e w a, EIllegalOwner);
   (N -> (168 <= length (data (w a)))%nat, EInvalidAccountLength);
   (N -> s_disc (data (w a)) = x00, EAlreadyInitialized)].

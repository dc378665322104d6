(** Specification of constraint rules: a binary grammar and its meaning, stated
    without the parser and evaluator of the model. *)
From Verif Require Import Base State Constr World Spec.

(** Who a rule speaks about (0, 1, 2 in the encoding). *)
Inductive rule : Set :=
| RAll (l : list rule) | RAny (l : list rule) | RNeg (r : rule)
| ROwner (who : Z) (ks : list bytes) | RKey (who : Z) (ks : list bytes) | RTrue.

(** An operator: type and body length, 32 bits each, then the body. *)
Definition operator (ty : Z) (body rest b : bytes) : Prop :=
  zlen body < 4294967296 /\ b = le_enc 4 ty ++ le_enc 4 (zlen body) ++ body ++ rest.
(** an account number and any number of 32-byte keys *)
Definition key_list (who : Z) (ks : list bytes) (body : bytes) : Prop :=
  0 <= who <= 2 /\ Forall (fun k => length k = 32%nat) ks /\ body = le_enc 8 who ++ concat ks.

(** [reads b r rest]: [b] starts with an encoding of [r], followed by [rest]. *)
Inductive reads : bytes -> rule -> bytes -> Prop :=
| reads_all b body rest l : operator 0 body rest b -> reads_list body l -> reads b (RAll l) rest
| reads_neg b body rest r junk : operator 1 body rest b -> reads body r junk -> reads b (RNeg r) rest
| reads_any b body rest l : operator 2 body rest b -> reads_list body l -> reads b (RAny l) rest
| reads_owner b body rest who ks : operator 3 body rest b -> key_list who ks body -> reads b (ROwner who ks) rest
| reads_key b body rest who ks : operator 4 body rest b -> key_list who ks body -> reads b (RKey who ks) rest
| reads_true b body rest : operator 5 body rest b -> reads b RTrue rest
with reads_list : bytes -> list rule -> Prop :=
| reads_nil : reads_list [] []
| reads_cons b r rest l : reads b r rest -> reads_list rest l -> reads_list b (r :: l).

(** What a rule sees: key, owner and emptiness of the three accounts. *)
Record party := mkParty { p_key : bytes; p_owner : bytes; p_empty : Prop }.
Definition view := Z -> party.
Fixpoint holds (r : rule) (v : view) : Prop :=
  match r with
  | RAll l => fold_right (fun x P => holds x v /\ P) True l
  | RAny l => fold_right (fun x P => holds x v \/ P) False l
  | RNeg x => ~ holds x v
  | ROwner who ks => In (p_owner (v who)) ks /\ ~ p_empty (v who)
  | RKey who ks => In (p_key (v who)) ks
  | RTrue => True
  end.
Definition party_of (w : world) (k : pubkey) : party :=
  mkParty (pk_bytes k) (pk_bytes (acct_owner (w k))) (data (w k) = []).
Definition view_of (w : world) (asset signer recipient : pubkey) : view :=
  fun who => if who =? 0 then party_of w asset else if who =? 1 then party_of w signer else party_of w recipient.

(** The rule a tree of builders, or a parsed tree, stands for. *)
Fixpoint wanted (f : form) : rule :=
  match f with
  | FAnd l => RAll (map wanted l) | FOr l => RAny (map wanted l) | FNot x => RNeg (wanted x)
  | FOwnedBy a ks => ROwner (cacct_code a) (map pk_bytes ks)
  | FPubkeyMatch a ks => RKey (cacct_code a) (map pk_bytes ks)
  | FEmpty => RTrue
  end.
Fixpoint erase (c : constr) : rule :=
  match c with
  | CAnd _ l => RAll (map erase l) | COr _ l => RAny (map erase l) | CNot _ x => RNeg (erase x)
  | COwnedBy _ a ks => ROwner (cacct_code a) ks
  | CPubkeyMatch _ a ks => RKey (cacct_code a) ks
  | CEmpty _ => RTrue
  end.
Fixpoint negation_free (f : form) : Prop :=
  match f with
  | FAnd l | FOr l => fold_right (fun x P => negation_free x /\ P) True l
  | FNot _ => False
  | _ => True
  end.
(** the context of the model as a view *)
Definition party_in (t : target) : party := mkParty (t_key t) (t_owner t) (t_empty t = true).
Definition sees (ctx : cctx) (v : view) : Prop :=
  v 0 = party_in (c_asset ctx) /\ v 1 = party_in (c_authority ctx) /\
  exists t, c_recipient ctx = Some t /\ v 2 = party_in t.

(** ** Royalties *)
(** both wallets, and not called by another program *)
Definition wallets (e : env) (w : world) (signer recipient : pubkey) : Prop :=
  e_cpi e = false /\ acct_owner (w signer) = pk_zero /\ acct_owner (w recipient) = pk_zero.
(** the royalties payload [b] allows the transfer *)
Definition permits (e : env) (w : world) (asset signer recipient : pubkey) (b : bytes) : Prop :=
  wallets e w signer recipient \/
  exists r rest, reads (skipn 8 b) r rest /\ holds r (view_of w asset signer recipient).

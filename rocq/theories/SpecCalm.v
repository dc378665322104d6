(** Specification vocabulary for requests that get an answer. *)
From Verif Require Import Base State Layout Constr Ext World Proc Spec SpecF SpecJ.
From Coq Require Import Strings.Byte.

(** success or an error code: not an abort, an access outside the data or a loop *)
Definition answered {A} (r : res A) : Prop := match r with Ok _ | Err _ => True | _ => False end.

(** data of the program's: nothing or at least a header; of an asset, extensions that
    are well-formed and can be read *)
Definition sound (d : bytes) : Prop :=
  (d <> [] -> (168 <= length d)%nat) /\ (s_disc d = x01 -> exists l, well_formed d l /\ readable l).
(** among the accounts passed those of the program are sound, and the group an asset
    names is an asset *)
Definition sound_accounts (e : env) (infos : list ainfo) (w : world) : Prop :=
  (forall a, In a (passed infos) -> acct_owner (w (ai_key a)) = e_prog e -> sound (data (w (ai_key a)))) /\
  (forall a g, In a (passed infos) -> In g (passed infos) -> acct_owner (w (ai_key a)) = e_prog e -> s_disc (data (w (ai_key a))) = x01 ->
     s_group (data (w (ai_key a))) = pk_bytes (ai_key g) -> ai_key g <> pk_zero -> acct_owner (w (ai_key g)) = e_prog e /\ initialized (data (w (ai_key g)))).
(** no two accounts together hold more than there can be *)
Definition bounded (w : world) : Prop := forall j k, j <> k -> lamports (w j) + lamports (w k) < 18446744073709551616.
(** the requests that bring no payload *)
Definition bare (i : instr) : Prop :=
  match i with ICreate _ | IUpdate _ | IWrite _ | IAllocate _ | IRemove _ => False | _ => True end.

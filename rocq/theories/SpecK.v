(** Specification for the client: what minting should give. *)
From Verif Require Import Base State Layout Constr Ext World Proc Borsh Client Spec SpecB.
From Coq Require Import Strings.Byte.

(** bytes an extension section with these payloads takes *)
Fixpoint space (xs : list (ext_type * bytes)) : Z :=
  match xs with [] => 0 | (_, b) :: r => 16 + (zlen b + 7) / 8 * 8 + space r end.
(** the account that the mint arguments describe *)
Definition minted (e : env) (a : mint_args) (w' : world) : Prop :=
  exists l, tight (data (w' (mi_asset a))) l /\ acct_owner (w' (mi_asset a)) = e_prog e /\
    map bk_type l = map fst (mi_exts a) /\
    Forall2 (fun x b => fresh_payload (fst x) (Some (pk_bytes (mi_owner a))) (snd x) (bk_data b)) (mi_exts a) l /\
    Forall (fun b => valid_new (bk_type b) (bk_data b)) l /\
    s_disc (data (w' (mi_asset a))) = x01 /\ s_state (data (w' (mi_asset a))) = x00 /\
    s_standard (data (w' (mi_asset a))) = standard_code (mi_standard a) /\
    s_mutable (data (w' (mi_asset a))) = bool_byte (mi_mutable a) /\
    s_owner (data (w' (mi_asset a))) = pk_bytes (mi_owner a) /\ s_authority (data (w' (mi_asset a))) = pk_bytes (mi_owner a) /\
    s_group (data (w' (mi_asset a))) = no_key /\ s_delegate (data (w' (mi_asset a))) = no_key /\
    s_roles (data (w' (mi_asset a))) = x00 /\ s_name (data (w' (mi_asset a))) = name_field (mi_name a).

(** Specification vocabulary for the bridge's clients. *)
From Verif Require Import Base State Layout Constr Ext World Proc Borsh Proxy Client Bridge Js Rs BridgeC Spec SpecP SpecV SpecX SpecY SpecJ.
From Coq Require Import Strings.Byte.

(** no optional account has the bridge's ID, which stands for none *)
Definition no_clash (me : pubkey) (pd : pdas) (i : jbridge) : Prop :=
  jb_record i <> Some me /\ jb_vrecord i <> Some me /\ jb_group i <> Some me /\ forall m k, pd_record pd m k <> me.
(** the JavaScript input that names every account of the Rust one *)
Definition given (r : rbridge) : jbridge :=
  mkJBridge (Some (rb_asset r)) (Some (rb_vault r)) (rb_owner r) (Some (rb_token r)) (rb_mint r) (Some (rb_metadata r)) (Some (rb_edition r)) (rb_record r)
    (Some (rb_vtoken r)) (rb_vrecord r) (Some (rb_payer r)) (Some (rb_nifty r)) (Some (rb_tm r)) (Some (rb_sys r)) (Some (rb_sysvar r)) (Some (rb_spl r))
    (Some (rb_ata r)) (rb_rulesp r) (rb_rules r) (rb_group r) None.
Definition given_c (r : rcreate) : jcreate :=
  mkJCreate (Some (rn_asset r)) (Some (rn_vault r)) (rn_mint r) (Some (rn_metadata r)) (Some (rn_auth r)) (rn_collection r) (Some (rn_payer r)) (Some (rn_sys r)) (Some (rn_nifty r)).
(** the fields of a vault where they are stored *)
Definition view (d : bytes) : vault_view :=
  mkView (b2z (nth 0 d x00)) (b2z (nth 1 d x00)) (b2z (nth 2 d x00)) (sub d 3 32) (b2z (nth 35 d x00)).
(** the field of a search *)
Definition picks (f : jvfilter) (v : vault_view) : Prop :=
  match f with
  | JVDiscriminator z => vw_disc v = z
  | JVState z => vw_state v = z
  | JVBump z => vw_bump v = z
  | JVMint k => vw_mint v = k
  | JVAssetBump z => vw_abump v = z
  end.
(** values of the type of the field *)
Definition pick_typed (f : jvfilter) : Prop := match f with JVMint k => length k = 32%nat | _ => True end.
(** the account passes every comparison *)
Definition found (d : bytes) (l : list (nat * bytes)) : Prop := Forall (SpecJ.matches d) l.

(** Specification: proxied assets through the JavaScript clients. *)
From Verif Require Import Base State World Proc Borsh Proxy Js ProxyC Spec SpecB SpecC SpecE SpecH SpecI SpecP SpecL SpecM.
From Coq Require Import Strings.Byte.

(** what the caller of create() must see to: a new address, a payer who is named and
    can pay, and an image that fits *)
Definition birth_affordable (e : env) (pe : penv) (w : world) (asset : pubkey) (payer : option pubkey) : Prop :=
  acct_owner (w asset) = pk_zero /\ lamports (w asset) = 0 /\ birth_size pe <= 10240 /\ e_rent e (birth_size pe) < 18446744073709551616 /\
  exists p, payer = Some p /\ p <> asset /\ p <> e_prog e /\ acct_owner (w p) = pk_zero /\ data (w p) = [] /\ e_rent e (birth_size pe) <= lamports (w p).
(** [asset] goes from [from] to the keys listed through transfer(), each holder signing *)
Inductive js_passed (e : env) (me : pubkey) (c : jctx) (asset : pubkey) : pubkey -> list (penv * pubkey) -> world -> world -> Prop :=
| jp_none from w : js_passed e me c asset from [] w w
| jp_more from pe to r w w1 w2 b : js_instr ITransfer = Some b ->
    proxy_entry pe e me (js_proxied_transfer e me c asset (Some from) to None) w b = Ok w1 ->
    js_passed e me c asset to r w1 w2 -> js_passed e me c asset from ((pe, to) :: r) w w2.

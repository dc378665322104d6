(** Specification: assets in the care of the proxy program. *)
From Verif Require Import Base State World Proc Borsh Proxy Spec SpecB SpecC SpecE SpecH SpecI SpecP SpecL.
From Coq Require Import Strings.Byte.

(** An asset as the proxy program makes and keeps it, [n] transfers counted: its own
    authority, and exactly the counter, the time of the last transfer, the proxy
    data [pb] and the image as extensions, with nothing after them. *)
Definition in_care (pe : penv) (e : env) (me : pubkey) (w : world) (asset : pubkey) (pb : bytes) (n : Z) : Prop :=
  acct_owner (w asset) = e_prog e /\ s_disc (data (w asset)) = x01 /\ s_standard (data (w asset)) = x03 /\
  s_authority (data (w asset)) = pk_bytes asset /\ mutable (data (w asset)) /\ proxies e me pb asset /\
  exists l s t doc, tight (data (w asset)) l /\
    ext_list l = [(XAttributes, counter_entry s); (XProperties, stamp_entry t); (XProxy, pb); (XBlob, image_entry doc)] /\
    shows s n /\ 12 <= zlen s <= 13 /\ zlen doc = zlen (pe_before pe) + 11 + zlen (pe_after pe).
(** counts that fit the room made for them *)
Definition countable (n : Z) : Prop := 0 <= n <= 9999999999999.
(** the owner, or the holder's delegate with the right to transfer *)
Definition may_pass_on (d : bytes) (k : pubkey) : Prop := s_owner d = pk_bytes k \/ delegate_is d k RTransfer.

(** ** A chain of holders *)
(** the account list of a Transfer through the proxy program *)
Definition pass_accounts (e : env) (asset from to : pubkey) : list ainfo :=
  [mkInfo asset false true; mkInfo from true false; mkInfo to false false; mkInfo (e_prog e) false false; mkInfo (e_prog e) false false].
(** the same image, at any time *)
Definition same_image (pe pe' : penv) : Prop := pe_before pe' = pe_before pe /\ pe_after pe' = pe_after pe.
(** [asset] goes from [from] to the keys listed, one after the other, at the times given *)
Inductive passed_on (e : env) (me asset : pubkey) : pubkey -> list (penv * pubkey) -> world -> world -> Prop :=
| po_none from w : passed_on e me asset from [] w w
| po_more from pe to r w w1 w2 : proxy_entry pe e me (pass_accounts e asset from to) w (write_instr ITransfer) = Ok w1 ->
    passed_on e me asset to r w1 w2 -> passed_on e me asset from ((pe, to) :: r) w w2.
Definition last_holder (from : pubkey) (r : list (penv * pubkey)) : pubkey := last (map snd r) from.

(** ** Create *)
(** the size of the account of a new asset *)
Definition birth_size (pe : penv) : Z := 168 + 40 + 48 + 120 + (16 + (14 + zlen (pe_before pe) + 11 + zlen (pe_after pe)) + 7) / 8 * 8.
(** an optional account of the proxy program: its own ID stands for none *)
Definition maybe_at (me : pubkey) (infos : list ainfo) (i : nat) (o : option pubkey) : Prop :=
  match o with None => arg infos i me | Some k => arg infos i k /\ k <> me end.
(** what it takes to open the account of a new asset through the proxy program *)
Definition can_birth (e : env) (infos : list ainfo) (w : world) (asset : pubkey) (payer sysp : option pubkey) (size : Z) : Prop :=
  acct_owner (w asset) = pk_zero /\ lamports (w asset) = 0 /\ size <= 10240 /\ e_rent e size < 18446744073709551616 /\ sysp = Some pk_zero /\
  exists p, payer = Some p /\ p <> asset /\ p <> e_prog e /\ signs infos p /\ writes infos p /\ acct_owner (w p) = pk_zero /\ data (w p) = [] /\
    e_rent e size <= lamports (w p).

(** ** What can happen to an asset at an address of the proxy program *)
(** instructions to the asset program without the asset's signature, instructions
    to the proxy program [me], and whatever other programs do *)
Inductive proxied_life (p me asset : pubkey) : world -> world -> Prop :=
| pl_refl w : proxied_life p me asset w w
| pl_direct w w1 e infos i w2 : proxied_life p me asset w w1 -> e_prog e = p -> env_ok e -> ~ signed infos asset ->
    process e infos w1 i = Ok w2 -> proxied_life p me asset w w2
| pl_proxy w w1 pe e infos b w2 : proxied_life p me asset w w1 -> e_prog e = p -> env_ok e ->
    proxy_entry pe e me infos w1 b = Ok w2 -> proxied_life p me asset w w2
| pl_outside w w1 w2 : proxied_life p me asset w w1 -> outside p w1 w2 -> proxied_life p me asset w w2.

(** When an instruction goes through: what the accounts must be like, stated on
    bytes, signers and balances. *)
From Verif Require Import Base State Layout Constr Ext World Proc Spec SpecB SpecC.
From Coq Require Import Strings.Byte.

(** the first account is an asset the program may write, and the accounts passed
    are such as the program leaves them *)
Definition ready (e : env) (infos : list ainfo) (w : world) (asset : pubkey) : Prop :=
  arg infos 0 asset /\ acct_owner (w asset) = e_prog e /\ initialized (data (w asset)) /\ writable infos asset /\
  plain_accounts e infos w /\ sized w.
(** a proxied asset signs everything done to it *)
Definition gate (infos : list ainfo) (w : world) (asset : pubkey) : Prop :=
  s_standard (data (w asset)) = x03 -> signed infos asset.
(** a manager extension holds at least a key and its roles *)
Definition manager_sane (l : list blk) : Prop :=
  forall b, lookup XManager (ext_list l) = Some b -> (33 <= length b)%nat.
(** a grouping extension holds two counters and at most a key *)
Definition grouping_sane (l : list blk) : Prop :=
  forall b, lookup XGrouping (ext_list l) = Some b -> (16 <= length b <= 48)%nat.
(** the program may write the account *)
Definition ours (e : env) (infos : list ainfo) (w : world) (k : pubkey) : Prop :=
  acct_owner (w k) = e_prog e /\ writable infos k.
(** the authority of a mutable asset signs *)
Definition in_charge (infos : list ainfo) (w : world) (asset auth : pubkey) : Prop :=
  signed infos auth /\ s_authority (data (w asset)) = pk_bytes auth /\ mutable (data (w asset)).
(** an account's whole balance can go to another account *)
Definition can_empty (infos : list ainfo) (w : world) (k dest : pubkey) : Prop :=
  dest <> k /\ lamports (w dest) + lamports (w k) < 18446744073709551616 /\
  (lamports (w k) = 0 \/ writable infos dest).
(** an optional account: the program's own address stands for none *)
Definition optional (e : env) (infos : list ainfo) (i : nat) (o : option pubkey) : Prop :=
  match o with None => arg infos i (e_prog e) | Some k => arg infos i k /\ k <> e_prog e end.
(** the balance [k] does not need with [size] bytes can go to [dest] *)
Definition can_shrink (e : env) (infos : list ainfo) (w : world) (k dest : pubkey) (size : Z) : Prop :=
  e_rent e size < lamports (w k) -> dest <> k ->
  writable infos dest /\ lamports (w dest) + (lamports (w k) - e_rent e size) < 18446744073709551616.
(** a wallet signs for the missing rent of [size] bytes *)
Definition can_pay (infos : list ainfo) (w : world) (payer : pubkey) (amount : Z) : Prop :=
  signed infos payer /\ writable infos payer /\ acct_owner (w payer) = pk_zero /\ data (w payer) = [] /\ amount <= lamports (w payer).
Definition can_grow (e : env) (infos : list ainfo) (w : world) (k : pubkey) (payer sysp : option pubkey) (size : Z) : Prop :=
  size - zlen (data (w k)) <= 10240 /\ size <= 10485760 /\
  (lamports (w k) < e_rent e size ->
     e_rent e size < 18446744073709551616 /\ sysp = Some pk_zero /\ exists p, payer = Some p /\ can_pay infos w p (e_rent e size - lamports (w k))).
(** the royalties of [l] are a basis-points word and a constraint built with the library *)
Definition royalties_sane (l : list blk) : Prop :=
  forall b, lookup XRoyalties (ext_list l) = Some b ->
    exists bp f rest, b = build_royalties bp f ++ rest /\ zlen (build f) <= u32_max.
(** ... and allow the transfer *)
Definition allows (e : env) (w : world) (asset signer recipient : pubkey) (l : list blk) : Prop :=
  forall b, lookup XRoyalties (ext_list l) = Some b -> permits e w asset signer recipient b.
(** a wallet signs for opening an account of [size] bytes at a fresh address *)
Definition can_open (e : env) (infos : list ainfo) (w : world) (k : pubkey) (payer sysp : option pubkey) (size : Z) : Prop :=
  acct_owner (w k) = pk_zero /\ lamports (w k) = 0 /\ size <= 10240 /\ e_rent e size < 18446744073709551616 /\
  sysp = Some pk_zero /\ exists p, payer = Some p /\ p <> k /\ can_pay infos w p (e_rent e size).
(** the account can be brought to [size] bytes *)
Definition can_size (e : env) (infos : list ainfo) (w : world) (k : pubkey) (payer sysp : option pubkey) (size : Z) : Prop :=
  (zlen (data (w k)) <= size -> can_grow e infos w k payer sysp size) /\
  (size < zlen (data (w k)) -> exists p, payer = Some p /\ can_shrink e infos w k p size).
(** the end of an account once the extension given is added after [l] *)
Definition new_end (l : list blk) (x : ext_input) : Z :=
  if x_length x =? zlen (given x) then 168 + sect_size l + (16 + x_length x + 7) / 8 * 8 else 168 + sect_size l + 16 + zlen (given x).
(** the end of an account with a payload of [len] bytes in the making after [l],
    of which [got] have arrived *)
Definition part_end (l : list blk) (len got : Z) : Z :=
  if got =? len then 168 + sect_size l + (16 + len + 7) / 8 * 8 else 168 + sect_size l + 16 + got.
(** the asset, which has group field [sg] and authority [sa], may join group [g], whose
    extensions are [lg], with [a] signing for the group *)
Definition may_join (e : env) (infos : list ainfo) (w : world) (asset g a : pubkey) (lg : list blk) (sg sa : bytes) : Prop :=
  signed infos a /\ acct_owner (w g) = e_prog e /\ initialized (data (w g)) /\ g <> asset /\ sg = no_key /\ s_authority (data (w g)) = sa /\
  exists b, lookup XGrouping (ext_list lg) = Some b /\ group_signer (data (w g)) b a /\ (gr_max b = 0 \/ gr_size b < gr_max b).
(** what a standard asks of the extensions: the manager extension goes with managed
    assets, the proxy extension with proxied ones, whose address must derive from it *)
Definition standard_ok (e : env) (st : standard) (asset : pubkey) (l : list blk) : Prop :=
  (st = Managed <-> In XManager (map bk_type l)) /\
  (st = Proxied -> exists b, lookup XProxy (ext_list l) = Some b /\ proxy_derives e b asset) /\
  (st <> Proxied -> lookup XProxy (ext_list l) = None).

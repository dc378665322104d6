(** Specification vocabulary for the bridge: vaults, custody, histories of the
    chain with the asset program, the bridge and everybody else. *)
From Verif Require Import Base State Layout Constr Ext World Proc Borsh Proxy Bridge Spec SpecB SpecH SpecI SpecP.
From Coq Require Import Strings.Byte.

Record chain := mkChain { ch_world : world; ch_holder : holders }.

(** [k] is a vault of program [me]: discriminator, state, bump, mint, asset bump *)
Inductive mode : Set := Idle | Active.
Definition mode_byte (s : mode) : byte := match s with Idle => x00 | Active => x01 end.
Definition flip (s : mode) : mode := match s with Idle => Active | Active => Idle end.
Definition vault_at (me : pubkey) (w : world) (k : pubkey) (s : mode) (bump : byte) (mint : pubkey) (abump : byte) : Prop :=
  acct_owner (w k) = me /\ data (w k) = x01 :: mode_byte s :: bump :: pk_bytes mint ++ [abump].
Definition s_vault : bytes := [x76; x61; x75; x6c; x74].
Definition s_asset : bytes := [x61; x73; x73; x65; x74].

(** accounts of the bridge's instruction *)
Definition at_pos (infos : list ainfo) (i : nat) (k : pubkey) : Prop :=
  exists a, nth_error infos i = Some a /\ ai_key a = k.

(** a program's accounts are left alone: none gained, none lost, no data changed *)
Definition untouched (p : pubkey) (w w' : world) : Prop :=
  (forall k, acct_owner (w' k) = p <-> acct_owner (w k) = p) /\
  (forall k, acct_owner (w k) = p -> data (w' k) = data (w k)).
(** the token of [m] goes from [a] to [b], no other token moves *)
Definition token_moves (h h' : holders) (m a b : pubkey) : Prop :=
  h m = a /\ h' m = b /\ forall m', m' <> m -> h' m' = h m'.

(** What is assumed of Token Metadata: a successful TransferV1 of the bridge moves
    the one token of the mint from source to destination, was authorised by the
    authority's signature, and leaves the accounts of the other two programs
    alone; strings are valid texts of reasonable size. *)
Definition tm_ok (b : benv) (p me : pubkey) : Prop :=
  (forall infos pda c w h w' h', be_transfer b infos pda c w h = Ok (w', h') ->
     sized w -> lam_ok w ->
     token_moves h h' (tc_mint c) (tc_source c) (tc_dest c) /\
     (signs infos (tc_authority c) \/ pda = Some (tc_authority c)) /\
     untouched p w w' /\ untouched me w w' /\ sized w' /\ lam_ok w') /\
  (forall d m, be_meta b d = Some m ->
     text_ok (mt_name m) /\ zlen (mt_name m) <= 10485760 /\ zlen (mt_symbol m) <= 200 /\ zlen (mt_uri m) <= 200 /\
     (forall l, mt_creators m = Some l -> zlen l <= 255 /\ Forall (fun c => length (cr_addr c) = 32%nat) l) /\
     0 <= mt_fee m <= 65535).

(** a step of the rest of the chain, for an asset address [a] derived from the
    bridge: neither program's accounts are touched, accounts handed to the asset
    program are zeroed and [a] is not among them (it would have to sign), and the
    token of [mint] stays with the vault [v] if it is there (the vault would have to sign) *)
Definition elsewhere (p me v a mint : pubkey) (c c' : chain) : Prop :=
  outside p (ch_world c) (ch_world c') /\
  (forall k, acct_owner (ch_world c k) = me ->
     acct_owner (ch_world c' k) = me /\ data (ch_world c' k) = data (ch_world c k)) /\
  (acct_owner (ch_world c a) <> p -> acct_owner (ch_world c' a) <> p) /\
  (ch_holder c mint = v -> ch_holder c' mint = v).

(** Any sequence of asset instructions satisfying [P] (sent directly or by other
    programs), bridge instructions and steps of the rest of the chain.  The
    derived addresses [v] and [a] sign only through the bridge itself. *)
Inductive traffic (P : env -> list ainfo -> world -> instr -> Prop) (p me : pubkey)
    (cpa : bytes -> byte -> bytes -> option pubkey) (v a mint : pubkey) : chain -> chain -> Prop :=
| tr_refl c : traffic P p me cpa v a mint c c
| tr_asset c c1 e infos i w2 : traffic P p me cpa v a mint c c1 ->
    e_prog e = p -> env_ok e -> P e infos (ch_world c1) i -> ~ signed infos v -> ~ signed infos a ->
    process e infos (ch_world c1) i = Ok w2 ->
    traffic P p me cpa v a mint c (mkChain w2 (ch_holder c1))
| tr_bridge c c1 b e infos d w2 h2 : traffic P p me cpa v a mint c c1 ->
    e_prog e = p -> env_ok e -> e_cpa e = cpa -> tm_ok b p me -> ~ signs infos v -> ~ signs infos a ->
    bridge_entry b e me infos (ch_world c1) (ch_holder c1) d = Ok (w2, h2) ->
    traffic P p me cpa v a mint c (mkChain w2 h2)
| tr_else c c1 c2 : traffic P p me cpa v a mint c c1 -> elsewhere p me v a mint c1 c2 ->
    traffic P p me cpa v a mint c c2.

(** [a] is a live asset held by [v]: nobody else may transfer or burn it *)
Definition in_custody (p : pubkey) (w : world) (v a : pubkey) : Prop :=
  acct_owner (w a) = p /\ initialized (data (w a)) /\ s_owner (data (w a)) = pk_bytes v /\
  s_delegate (data (w a)) = no_key.
(** [a] is no asset any more, or a tidy NonFungible asset without manager (and
    unlocked and without delegate while its owner is the vault) *)
Definition plain_or_gone (p : pubkey) (w : world) (v a : pubkey) : Prop :=
  acct_owner (w a) <> p \/
  (acct_owner (w a) = p /\ initialized (data (w a)) /\ (exists l, tidy (data (w a)) l /\ unmanaged l) /\
   s_standard (data (w a)) = x00 /\
   (s_owner (data (w a)) = pk_bytes v -> s_delegate (data (w a)) = no_key /\ s_state (data (w a)) <> x01)).

(** the canonical vault of [mint] and the address of its asset *)
Definition addresses (cpa : bytes -> byte -> bytes -> option pubkey) (me mint v : pubkey) (bump : byte) (a : pubkey) (abump : byte) : Prop :=
  cpa (s_vault ++ pk_bytes mint) bump (pk_bytes me) = Some v /\
  (forall n, b2z bump < n <= 255 -> cpa (s_vault ++ pk_bytes mint) (z2b n) (pk_bytes me) = None) /\
  0 < b2z bump /\
  cpa (s_asset ++ pk_bytes mint) abump (pk_bytes me) = Some a /\
  (* no other seeds of that form give the asset's address *)
  (forall m' n, cpa (s_asset ++ pk_bytes m') n (pk_bytes me) = Some a -> m' = mint).

(** The promise of the bridge: an idle vault holds the asset, an active vault
    holds the token. *)
Definition backed (p me : pubkey) (c : chain) (v : pubkey) (bump : byte) (mint a : pubkey) (abump : byte) : Prop :=
  exists s, vault_at me (ch_world c) v s bump mint abump /\
    match s with
    | Idle => in_custody p (ch_world c) v a
    | Active => ch_holder c mint = v
    end.
Definition settled (p me : pubkey) (c : chain) (v : pubkey) (bump : byte) (mint a : pubkey) (abump : byte) : Prop :=
  backed p me c v bump mint a abump /\ plain_or_gone p (ch_world c) v a /\
  sized (ch_world c) /\ lam_ok (ch_world c).

(** The vault keeps the token although the asset is gone, or is in the vault too. *)
Definition stuck (p me : pubkey) (c : chain) (v : pubkey) (bump : byte) (mint a : pubkey) (abump : byte) : Prop :=
  vault_at me (ch_world c) v Active bump mint abump /\ ch_holder c mint = v /\
  plain_or_gone p (ch_world c) v a /\ sized (ch_world c) /\ lam_ok (ch_world c) /\
  (acct_owner (ch_world c a) <> p \/ in_custody p (ch_world c) v a).

(** ** The asset a bridge Create makes *)
Definition text8 (s : bytes) : bytes := z2b (zlen s) :: s.
Definition bridged_payloads (is_collection : bool) (m : tm_meta) : list (ext_type * bytes) :=
  [(XMetadata, text8 (mt_symbol m) ++ [x00] ++ text8 (mt_uri m) ++ [x00])] ++
  match mt_creators m with
  | Some l => [(XCreators, concat (map (fun c => cr_addr c ++ [cr_verified c; cr_share c]) l))]
  | None => []
  end ++
  (if is_collection || mt_details m then
     (XGrouping, repeat x00 48) ::
     match mt_standard m with
     | Some TmProgrammable => [(XRoyalties, le_enc 8 (mt_fee m) ++ [x05; x00; x00; x00; x00; x00; x00; x00])]
     | _ => []
     end
   else []).
(** who must agree to a bridge Create: the collection's asset exists, or the
    update authority signs *)
Definition create_allowed (p me : pubkey) (cpa : bytes -> byte -> bytes -> option pubkey) (infos : list ainfo) (w : world) (m : tm_meta) : Prop :=
  match mt_collection m with
  | Some (true, key) => exists c n, at_pos infos 5 c /\ c <> me /\ cpa (s_asset ++ pk_bytes key) n (pk_bytes me) = Some c /\
      acct_owner (w c) = p /\ nth 0 (data (w c)) x00 = x01
  | _ => exists auth, at_pos infos 4 auth /\ signs infos auth
  end.

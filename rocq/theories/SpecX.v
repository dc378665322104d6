(** Specification vocabulary for the exact conditions of the bridge. *)
From Verif Require Import Base State Layout Constr Ext World Proc Borsh Proxy Bridge Spec SpecB SpecC SpecE SpecH SpecP SpecV SpecL.
From Coq Require Import Strings.Byte.

(** an optional account of the bridge: its own ID stands for none *)
Definition opt_pos (me : pubkey) (infos : list ainfo) (i : nat) (o : option pubkey) : Prop :=
  match o with None => at_pos infos i me | Some k => at_pos infos i k /\ k <> me end.
(** the asset program, called by the bridge, lets [from] give the asset to [to]; [og] is the group passed *)
Definition may_move (e : env) (w : world) (asset from to : pubkey) (og : option pubkey) (l lg : list blk) : Prop :=
  (s_standard (data (w asset)) = x03 -> from = asset) /\ s_standard (data (w asset)) <> x02 /\
  (forall k, In k (asset :: from :: to :: match og with Some g => [g] | None => [] end) -> acct_owner (w k) = e_prog e -> ~ locked (data (w k))) /\
  authorized (data (w asset)) l from RTransfer /\
  allows (in_cpi e) w asset from to l /\
  (s_owner (data (w asset)) <> pk_bytes to -> s_group (data (w asset)) <> no_key -> lookup XRoyalties (ext_list l) = None ->
     exists g, og = Some g /\ pk_bytes g = s_group (data (w asset)) /\ g <> asset /\ acct_owner (w g) = e_prog e /\ s_disc (data (w g)) = x01 /\
       allows (in_cpi e) w asset from to lg).
(** the vault's state byte turned *)
Definition turned (w : world) (vault : pubkey) (s : mode) : world :=
  upd w vault (mkAcct (lamports (w vault)) (acct_owner (w vault)) (x01 :: mode_byte (flip s) :: skipn 2 (data (w vault)))).
(** the accounts of Bridge *)
Record toggle_accounts := mkToggle {
  ta_asset : pubkey; ta_vault : pubkey; ta_owner : pubkey; ta_token : pubkey; ta_mint : pubkey; ta_metadata : pubkey; ta_edition : pubkey;
  ta_record : option pubkey; ta_vault_token : pubkey; ta_vault_record : option pubkey; ta_payer : pubkey; ta_group : option pubkey
}.
Definition names (me : pubkey) (infos : list ainfo) (t : toggle_accounts) : Prop :=
  at_pos infos 0 (ta_asset t) /\ at_pos infos 1 (ta_vault t) /\ at_pos infos 2 (ta_owner t) /\ at_pos infos 3 (ta_token t) /\
  at_pos infos 4 (ta_mint t) /\ at_pos infos 5 (ta_metadata t) /\ at_pos infos 6 (ta_edition t) /\ opt_pos me infos 7 (ta_record t) /\
  at_pos infos 8 (ta_vault_token t) /\ opt_pos me infos 9 (ta_vault_record t) /\ at_pos infos 10 (ta_payer t) /\ opt_pos me infos 19 (ta_group t).
(** the token's way: into an idle vault, out of an active one *)
Definition token_call (t : toggle_accounts) (s : mode) : tm_call :=
  match s with
  | Idle => mkCall (ta_owner t) (ta_mint t) (ta_metadata t) (ta_edition t) (ta_payer t) (ta_owner t) (ta_token t) (ta_record t)
              (ta_vault t) (ta_vault_token t) (ta_vault_record t)
  | Active => mkCall (ta_vault t) (ta_mint t) (ta_metadata t) (ta_edition t) (ta_payer t) (ta_vault t) (ta_vault_token t) (ta_vault_record t)
              (ta_owner t) (ta_token t) (ta_record t)
  end.
Definition token_signer (t : toggle_accounts) (s : mode) : option pubkey := match s with Idle => None | Active => Some (ta_vault t) end.
(** the asset's way is the other one *)
Definition giver (t : toggle_accounts) (s : mode) : pubkey := match s with Idle => ta_vault t | Active => ta_owner t end.
Definition taker (t : toggle_accounts) (s : mode) : pubkey := match s with Idle => ta_owner t | Active => ta_vault t end.
(** the metadata account describes a non-fungible token of [mint] *)
Definition nft_of (b : benv) (d : bytes) (mint : pubkey) : Prop :=
  exists m, be_meta b d = Some m /\ (mt_standard m = Some TmNonFungible \/ mt_standard m = Some TmProgrammable) /\ mt_mint m = pk_bytes mint.

(** ** Extensions too short to be read *)
Definition short (t : ext_type) (n : nat) (l : list blk) : Prop :=
  exists b, lookup t (ext_list l) = Some b /\ (length b < n)%nat.

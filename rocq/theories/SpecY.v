(** Specification vocabulary for the bridge's Create. *)
From Verif Require Import Base State Layout Constr Ext World Proc Borsh Proxy Bridge Spec SpecB SpecE SpecH SpecK SpecL SpecP SpecV SpecX.
From Coq Require Import Strings.Byte.

(** [k] is the address derived from [seeds] for program [me] with the highest bump that gives one *)
Definition canonical (cpa : bytes -> byte -> bytes -> option pubkey) (me : pubkey) (seeds : bytes) (k : pubkey) (bump : byte) : Prop :=
  cpa seeds bump (pk_bytes me) = Some k /\ 0 < b2z bump /\ forall n, b2z bump < n <= 255 -> cpa seeds (z2b n) (pk_bytes me) = None.
(** the accounts of Create *)
Record birth_accounts := mkBirth {
  ba_asset : pubkey; ba_vault : pubkey; ba_mint : pubkey; ba_metadata : pubkey; ba_auth : pubkey; ba_collection : option pubkey;
  ba_payer : pubkey; ba_sys : pubkey
}.
Definition birth_names (me : pubkey) (infos : list ainfo) (t : birth_accounts) : Prop :=
  at_pos infos 0 (ba_asset t) /\ at_pos infos 1 (ba_vault t) /\ at_pos infos 2 (ba_mint t) /\ at_pos infos 3 (ba_metadata t) /\
  at_pos infos 4 (ba_auth t) /\ opt_pos me infos 5 (ba_collection t) /\ at_pos infos 6 (ba_payer t) /\ at_pos infos 7 (ba_sys t) /\
  (9 <= length infos)%nat.
(** the token belongs to a verified collection whose bridged asset is passed, or the update authority signs *)
Definition consent (p me : pubkey) (cpa : bytes -> byte -> bytes -> option pubkey) (infos : list ainfo) (w : world) (t : birth_accounts) (m : tm_meta) : Prop :=
  match mt_collection m with
  | Some (true, key) => exists c n, ba_collection t = Some c /\ canonical cpa me (s_asset ++ pk_bytes key) c n /\
      acct_owner (w c) = p /\ nth 0 (data (w c)) x00 = x01
  | _ => signs infos (ba_auth t)
  end.
(** the creators' shares make 100 (counted in a byte), a collection's fee is at most 100 % *)
Definition sum_shares (l : list creator) : Z := fold_right (fun c s => b2z (cr_share c) + s) 0 l.
Definition sound_terms (is_collection : bool) (m : tm_meta) : Prop :=
  (forall l, mt_creators m = Some l -> sum_shares l mod 256 = 100) /\
  (is_collection = true \/ mt_details m = true -> mt_standard m = Some TmProgrammable -> mt_fee m <= 10000).
(** rent for the vault and for the asset *)
Definition birth_price (e : env) (is_collection : bool) (m : tm_meta) : Z := e_rent e 36 + e_rent e (168 + space (bridged_payloads is_collection m)).
(** the accounts the call needs, with their privileges *)
Definition birth_privileges (e : env) (infos : list ainfo) (t : birth_accounts) : Prop :=
  ba_sys t = pk_zero /\ mentions infos (e_prog e) /\ signs infos (ba_payer t) /\ writes infos (ba_payer t) /\
  writes infos (ba_vault t) /\ writes infos (ba_asset t).
(** all of it *)
Definition can_be_born (b : benv) (e : env) (me : pubkey) (infos : list ainfo) (w : world) (t : birth_accounts) (is_collection : bool) : Prop :=
  In (acct_owner (w (ba_mint t))) (be_spl b) /\ acct_owner (w (ba_metadata t)) = be_tm b /\
  exists m, be_meta b (data (w (ba_metadata t))) = Some m /\
    (mt_standard m = Some TmNonFungible \/ mt_standard m = Some TmProgrammable) /\
    mt_mint m = pk_bytes (ba_mint t) /\ mt_authority m = pk_bytes (ba_auth t) /\
    consent (e_prog e) me (e_cpa e) infos w t m /\ birth_privileges e infos t /\
    (exists bump, canonical (e_cpa e) me (s_vault ++ pk_bytes (ba_mint t)) (ba_vault t) bump) /\
    (exists abump, canonical (e_cpa e) me (s_asset ++ pk_bytes (ba_mint t)) (ba_asset t) abump) /\
    ba_vault t <> ba_asset t /\ vacant w (ba_vault t) /\ vacant w (ba_asset t) /\
    sound_terms is_collection m /\ birth_price e is_collection m <= lamports (w (ba_payer t)).

(** ** An address somebody sent lamports to: it belongs to the system program and has no data *)
Definition squatted (w : world) (k : pubkey) : Prop := acct_owner (w k) = pk_zero /\ data (w k) = [] /\ 0 < lamports (w k).
(** Token Metadata cannot take them away, as [k] does not sign *)
Definition tm_spares (b : benv) (k : pubkey) : Prop :=
  forall infos pda c w h w' h', be_transfer b infos pda c w h = Ok (w', h') -> ~ signs infos k -> pda <> Some k -> squatted w k -> squatted w' k.
(** Everything that may happen while [k], an address derived from the bridge, signs nothing
    but what the bridge signs for it *)
Inductive later (p me : pubkey) (cpa : bytes -> byte -> bytes -> option pubkey) (k : pubkey) : chain -> chain -> Prop :=
| la_refl c : later p me cpa k c c
| la_asset c c1 e infos i w2 : later p me cpa k c c1 -> e_prog e = p -> env_ok e -> ~ signed infos k ->
    process e infos (ch_world c1) i = Ok w2 -> later p me cpa k c (mkChain w2 (ch_holder c1))
| la_bridge c c1 b e infos d w2 h2 : later p me cpa k c c1 -> e_prog e = p -> env_ok e -> e_cpa e = cpa -> tm_ok b p me -> tm_spares b k -> ~ signs infos k ->
    bridge_entry b e me infos (ch_world c1) (ch_holder c1) d = Ok (w2, h2) -> later p me cpa k c (mkChain w2 h2)
| la_else c c1 c2 : later p me cpa k c c1 -> (squatted (ch_world c1) k -> squatted (ch_world c2) k) -> sized (ch_world c2) -> lam_ok (ch_world c2) ->
    later p me cpa k c c2.

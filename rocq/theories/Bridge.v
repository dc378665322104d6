(** The bridge program (programs/bridge/src): vaults, Create and Bridge.

    Tokens are modelled by the holder of each mint's single token; the Token
    Metadata program (its metadata accounts and TransferV1) is outside /repo and
    enters as an argument. *)
From Verif Require Import Base State Layout Constr Ext World Proc Borsh Proxy.
From Coq Require Import Strings.Byte.

(** The holder of each mint's token. *)
Definition holders := pubkey -> pubkey.

(** ** Token Metadata (mpl-token-metadata; assumed environment) *)
(** the fields of [Metadata] the bridge reads *)
Inductive tm_std : Set := TmNonFungible | TmProgrammable | TmOther.
Record tm_meta := mkMeta {
  mt_standard : option tm_std;
  mt_mint : bytes;
  mt_authority : bytes;                    (* update_authority *)
  mt_collection : option (bool * pubkey);  (* verified, key *)
  mt_details : bool;                       (* collection_details.is_some() *)
  mt_creators : option (list creator);
  mt_fee : Z;                              (* seller_fee_basis_points: u16 *)
  mt_name : bytes; mt_symbol : bytes; mt_uri : bytes
}.
(** the accounts of a TransferV1 of amount 1 that matter to the bridge *)
Record tm_call := mkCall {
  tc_authority : pubkey; tc_mint : pubkey; tc_metadata : pubkey; tc_edition : pubkey; tc_payer : pubkey;
  tc_source : pubkey; tc_source_token : pubkey; tc_source_record : option pubkey;
  tc_dest : pubkey; tc_dest_token : pubkey; tc_dest_record : option pubkey
}.
Record benv := mkBenv {
  be_spl : list pubkey;               (* SPL_TOKEN_PROGRAM_IDS — processor/mod.rs:15-18 *)
  be_tm : pubkey;                     (* mpl_token_metadata::ID *)
  be_meta : bytes -> option tm_meta;  (* Metadata::try_from on the account data *)
  (* TransferV1 called with these accounts; the optional key is the address the
     bridge signs for *)
  be_transfer : list ainfo -> option pubkey -> tm_call -> world -> holders -> res (world * holders)
}.

(** ** Vault — state/vault.rs:7-33, state/mod.rs:9-82 *)
Definition VAULT_LEN : Z := 36.
Definition VAULT_PREFIX : bytes := [x76; x61; x75; x6c; x74].
(** state/bridged_asset.rs:4 *)
Definition ASSET_PREFIX : bytes := [x61; x73; x73; x65; x74].
Definition V_DISC : byte := x01.
Definition V_IDLE : byte := x00.
Definition V_ACTIVE : byte := x01.
(** seeds up to the bump; the runtime hashes their concatenation *)
Definition vault_seeds (mint : pubkey) : bytes := VAULT_PREFIX ++ pk_bytes mint.
Definition asset_seeds (mint : pubkey) : bytes := ASSET_PREFIX ++ pk_bytes mint.

(** the bridge as executing program *)
Definition as_prog (e : env) (me : pubkey) : env :=
  mkEnv me (e_rent e) (e_cpa e) (e_cpi e) (e_heap_al e) (e_fuel e).
(** Shank context: an optional account is absent iff its key is the program's own ID *)
Definition opt_of (me : pubkey) (infos : list ainfo) (i : nat) : res (option pubkey) :=
  k <- acct infos i ;; Ok (if pk_eqb k me then None else Some k).
(** [invoke] without signer seeds: no address signs that did not sign already *)
Definition granted0 (infos : list ainfo) (m : ainfo) : bool :=
  listed infos (ai_key m)
  && (negb (ai_signer m) || is_signer infos (ai_key m))
  && (negb (ai_writable m) || is_writable infos (ai_key m)).
Definition invoke0 (e : env) (infos : list ainfo) (w0 w : world) (metas : list ainfo) (b : bytes) : res world :=
  require (listed infos (e_prog e)) ECpi
   (require (forallb (granted0 infos) metas) ECpi
    (w' <- entry (in_cpi e) metas w b ;;
     require (grown infos w0 w') ECpi (Ok w'))).

(** Account lists of the generated CPI builders (clients/rust/asset/src/generated/
    instructions/transfer.rs:207-240, allocate.rs, create.rs): absent optional
    accounts are the asset program's ID, read-only *)
Definition opt_meta (e : env) (k : option pubkey) : ainfo :=
  match k with Some g => mkInfo g false false | None => absent e end.
Definition move_metas (e : env) (asset signer recipient : pubkey) (group : option pubkey) : list ainfo :=
  [mkInfo asset false true; mkInfo signer true false; mkInfo recipient false false; opt_meta e group].
Definition alloc_metas (asset payer sysp : pubkey) : list ainfo :=
  [mkInfo asset true true; mkInfo payer true true; mkInfo sysp false false].
Definition birth_metas (e : env) (asset auth owner payer sysp : pubkey) : list ainfo :=
  [mkInfo asset true true; mkInfo auth false false; mkInfo owner false false; absent e; absent e;
   mkInfo payer true true; mkInfo sysp false false].

(** token_standard must be NonFungible or ProgrammableNonFungible *)
Definition is_nft (s : option tm_std) : bool :=
  match s with Some TmNonFungible => true | Some TmProgrammable => true | _ => false end.

(** process_bridge — processor/bridge.rs:37-194.  A state byte that is neither
    Idle nor Active would be an invalid enum value. *)
Definition process_bridge (b : benv) (e : env) (me : pubkey) (infos : list ainfo) (w : world) (h : holders)
  : res (world * holders) :=
  require (20 <=? zlen infos) ENotEnoughAccountKeys
  (asset <- acct infos 0 ;; vault <- acct infos 1 ;; owner <- acct infos 2 ;; token <- acct infos 3 ;;
   mint <- acct infos 4 ;; metadata <- acct infos 5 ;; edition <- acct infos 6 ;;
   record <- opt_of me infos 7 ;; vtoken <- acct infos 8 ;; vrecord <- opt_of me infos 9 ;;
   payer <- acct infos 10 ;; group <- opt_of me infos 19 ;;
   require (is_signer infos owner) EMissingRequiredSignature
   (require (existsb (pk_eqb (acct_owner (w mint))) (be_spl b)) EIllegalOwner
   (require (pk_eqb (acct_owner (w asset)) (e_prog e)) EIllegalOwner
   (require (pk_eqb (acct_owner (w vault)) me) EIllegalOwner
   (let d := data (w vault) in
    require (negb (zlen d =? 0) && beqb (byte_at d 0) V_DISC) EUninitialized
    (guard (VAULT_LEN <=? zlen d)
     (let bump := byte_at d 2 in
      k <- ok_or (e_cpa e (vault_seeds mint) bump (pk_bytes me)) EInvalidSeeds ;;
      require (pk_eqb k vault) EInvalidSeeds
      (require (bytes_eqb (fld d 3 32) (pk_bytes mint)) EInvalidArgument
       (a <- ok_or (e_cpa e (asset_seeds mint) (byte_at d 35) (pk_bytes me)) EInvalidSeeds ;;
        require (pk_eqb a asset) EInvalidSeeds
        (guard (negb (pk_eqb metadata vault))   (* the vault's data is still borrowed *)
         (m <- ok_or (be_meta b (data (w metadata))) EInvalidAccountData ;;
          require (is_nft (mt_standard m)) EInvalidAccountData
          (require (bytes_eqb (mt_mint m) (pk_bytes mint)) EInvalidAccountData
           (if beqb (byte_at d 1) V_IDLE then
              w1 <- set_data (as_prog e me) infos w vault (put d 1 [V_ACTIVE]) ;;
              r <- be_transfer b infos None
                     (mkCall owner mint metadata edition payer owner token record vault vtoken vrecord) w1 h ;;
              w3 <- invoke e me infos w (fst r) (move_metas e asset vault owner group) (write_instr ITransfer)
                      (vault_seeds mint) bump ;;
              Ok (w3, snd r)
            else if beqb (byte_at d 1) V_ACTIVE then
              w1 <- set_data (as_prog e me) infos w vault (put d 1 [V_IDLE]) ;;
              r <- be_transfer b infos (Some vault)
                     (mkCall vault mint metadata edition payer vault vtoken vrecord owner token record) w1 h ;;
              w3 <- invoke0 e infos w (fst r) (move_metas e asset owner vault group) (write_instr ITransfer) ;;
              Ok (w3, snd r)
            else UB))))))))))))).

(** The payloads of the extensions of a bridged asset — processor/create.rs:200-273 *)
Definition bridged_exts (is_collection : bool) (m : tm_meta) : list ext_input :=
  [ext_of XMetadata (build_metadata (Some (mt_symbol m)) None (Some (mt_uri m)) None)] ++
  match mt_creators m with Some l => [ext_of XCreators (build_creators l)] | None => [] end ++
  (if is_collection || mt_details m then
     ext_of XGrouping (build_grouping None None) ::
     match mt_standard m with
     | Some TmProgrammable => [ext_of XRoyalties (build_royalties (mt_fee m) FEmpty)]
     | _ => []
     end
   else []).
Fixpoint allocate_each (e : env) (me : pubkey) (infos : list ainfo) (w0 w : world) (asset payer sysp : pubkey)
    (seeds : bytes) (bump : byte) (l : list ext_input) : res world :=
  match l with
  | [] => Ok w
  | x :: r =>
      w1 <- invoke e me infos w0 w (alloc_metas asset payer sysp) (write_instr (IAllocate x)) seeds bump ;;
      allocate_each e me infos w0 w1 asset payer sysp seeds bump r
  end.
(** the collection check — processor/create.rs:75-128: must the update authority sign? *)
Definition authority_must_sign (e : env) (me : pubkey) (infos : list ainfo) (w : world) (m : tm_meta)
    (collection : option pubkey) : res bool :=
  match mt_collection m with
  | Some (true, key) =>
      match find_address e (asset_seeds key) me 255 with
      | None => Panic
      | Some (k, _) =>
          c <- ok_or collection ENotEnoughAccountKeys ;;
          require (pk_eqb k c) EInvalidSeeds
          (require (pk_eqb (acct_owner (w c)) (e_prog e)) EIllegalOwner
           (require (negb (zlen (data (w c)) =? 0) && beqb (byte_at (data (w c)) 0) DISC_ASSET) EUninitialized
            (Ok false)))
      end
  | _ => Ok true
  end.
(** process_create — processor/create.rs:34-284 *)
Definition bridge_create (b : benv) (e : env) (me : pubkey) (infos : list ainfo) (w : world) (is_collection : bool)
  : res world :=
  require (9 <=? zlen infos) ENotEnoughAccountKeys
  (asset <- acct infos 0 ;; vault <- acct infos 1 ;; mint <- acct infos 2 ;; metadata <- acct infos 3 ;;
   auth <- acct infos 4 ;; collection <- opt_of me infos 5 ;; payer <- acct infos 6 ;; sysp <- acct infos 7 ;;
   require (existsb (pk_eqb (acct_owner (w mint))) (be_spl b)) EIllegalOwner
   (require (pk_eqb (acct_owner (w metadata)) (be_tm b)) EIllegalOwner
    (m <- ok_or (be_meta b (data (w metadata))) EInvalidAccountData ;;
     require (is_nft (mt_standard m)) EInvalidAccountData
     (require (bytes_eqb (mt_mint m) (pk_bytes mint)) EInvalidArgument
      (require (bytes_eqb (mt_authority m) (pk_bytes auth)) EInvalidAuthority
       (s <- authority_must_sign e me infos w m collection ;;
        require (negb s || is_signer infos auth) EMissingRequiredSignature
        (match find_address e (vault_seeds mint) me 255 with
         | None => Panic
         | Some (k, bump) =>
             require (pk_eqb k vault) EInvalidSeeds
             (require (zlen (data (w vault)) =? 0) EAlreadyInitialized
              (let metas := [mkInfo payer true true; mkInfo vault true true] in
               require (listed infos pk_zero && forallb (granted infos vault) metas) ECpi
               (w1 <- sys_create (as_prog e me) metas w payer vault (e_rent e VAULT_LEN) VAULT_LEN ;;
                match find_address e (asset_seeds mint) me 255 with
                | None => Panic
                | Some (a, abump) =>
                    require (pk_eqb a asset) EInvalidSeeds
                    (w2 <- set_data (as_prog e me) infos w1 vault
                             ([V_DISC; V_IDLE; bump] ++ pk_bytes mint ++ [abump]) ;;
                     w3 <- allocate_each e me infos w w2 asset payer sysp (asset_seeds mint) abump
                             (bridged_exts is_collection m) ;;
                     invoke e me infos w w3 (birth_metas e asset auth vault payer sysp)
                       (write_instr (ICreate (mkMetaInput (mt_name m) NonFungible true None)))
                       (asset_seeds mint) abump)
                end)))
         end))))))).

(** ** Instructions — instruction.rs:4-58 (borsh: tag, then the bool of CreateArgs) *)
Inductive bridge_instr : Set := BBridge | BCreate (is_collection : bool).
Definition bridge_decode (d : bytes) : option bridge_instr :=
  match d with
  | [t] => if b2z t =? 0 then Some BBridge else None
  | [t; c] => if b2z t =? 1 then
                if b2z c =? 0 then Some (BCreate false) else if b2z c =? 1 then Some (BCreate true) else None
              else None
  | _ => None
  end.
(** process_instruction — processor/mod.rs:20-39 *)
Definition bridge_entry (b : benv) (e : env) (me : pubkey) (infos : list ainfo) (w : world) (h : holders) (d : bytes)
  : res (world * holders) :=
  match bridge_decode d with
  | None => Err EInvalidInstructionData
  | Some BBridge => process_bridge b e me infos w h
  | Some (BCreate c) => w' <- bridge_create b e me infos w c ;; Ok (w', h)
  end.

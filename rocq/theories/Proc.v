(** The instruction processors: programs/asset/program/src/processor/*.rs. *)
From Verif Require Import Base State Layout Constr Ext World.
From Coq Require Import Strings.Byte.

(** ** Instruction arguments — instruction.rs:128-217 *)
Record ext_input := mkExtInput { x_type : ext_type; x_length : Z; x_data : option bytes }.
Inductive delegate_input := DAll | DSome (roles : list role).
Record data_input := mkDataInput { w_overwrite : bool; w_bytes : bytes }.
Record metadata_input := mkMetaInput {
  m_name : bytes; m_standard : standard; m_mutable : bool; m_exts : option (list ext_input) }.
Record update_input := mkUpdInput {
  u_name : option bytes; u_mutable : option bool; u_ext : option ext_input }.
Inductive strategy := Trim | Extend (value : Z).

(** Instruction — instruction.rs:9-126 *)
Inductive instr :=
| IClose | IBurn | ICreate (m : metadata_input) | IApprove (d : delegate_input)
| IAllocate (x : ext_input) | ILock | IRevoke (d : delegate_input) | ITransfer | IUnlock
| IUnverify | IUpdate (u : update_input) | IVerify | IWrite (d : data_input) | IGroup | IUngroup
| IHandover | IRemove (t : ext_type) | IResize (s : strategy).

(** ** Setting header fields *)
Definition set_field (d : bytes) (off : Z) (bs : bytes) : bytes := put d off bs.

(** [asset.delegate = PodOption::new(Delegate::default())] *)
Definition clear_delegate (d : bytes) : bytes := put d 100 (zeros 33).

Definition owned_by_prog (e : env) (w : world) (k : pubkey) : bool :=
  pk_eqb (acct_owner (w k)) (e_prog e).

Definition key_is (b : bytes) (k : pubkey) : bool := bytes_eqb b (pk_bytes k).

(** the three checks shared by Update, Remove, Resize and Handover:
    initialized, authority, mutable (e.g. update.rs:62-80) *)
Definition check_authority {B} (d : bytes) (auth : pubkey) (k : res B) : res B :=
  require (is_asset d) EUninitialized
   (require (key_is (f_authority d) auth) EInvalidAuthority
    (require (pod_true (byte_at d 3)) EImmutableAsset k)).

(** ** Close — close.rs:17-48 *)
Definition process_close (e : env) (infos : list ainfo) (w : world) : res world :=
  buffer <- acct infos 0 ;; recipient <- acct infos 1 ;;
  require (is_signer infos buffer) EMissingRequiredSignature
   (require (owned_by_prog e w buffer) EIllegalOwner
    (let d := data (w buffer) in
     require ((zlen d =? 0) || beqb (byte_at d 0) DISC_UNINIT) EAlreadyInitialized
      (close_account e infos w buffer recipient))).

(** ** Burn — burn.rs:25-116 *)
Definition process_burn (e : env) (infos : list ainfo) (w : world) : res world :=
  asset <- acct infos 0 ;; signer <- acct infos 1 ;;
  recipient <- opt_acct e infos 2 ;; group <- opt_acct e infos 3 ;;
  require (owned_by_prog e w asset) EIllegalOwner
   (require (is_signer infos signer) EMissingRequiredSignature
    (let d := data (w asset) in
     require (is_asset d) EUninitialized
      (allowed <- (if key_is (f_owner d) signer then Ok true
                   else m <- manager_delegate d ;;
                        Ok (is_ok (assert_delegate [asset_delegate d; m] (pk_bytes signer) RBurn))) ;;
       require allowed EInvalidBurnAuthority
        (w1 <- (match nullable (f_group d) with
                | None => Ok w
                | Some g =>
                    ga <- ok_or group ENotEnoughAccountKeys ;;
                    require (key_is g ga) EInvalidArgument
                     (require (negb (pk_eqb ga asset)) EAccountBorrowFailed
                      (let gd := data (w ga) in
                       r <- asset_get XGrouping gd ;;
                       match r with
                       | None => Err EExtensionNotFound
                       | Some (off, b) =>
                           gr <- grouping_from_bytes off b ;;
                           require (1 <=? g_size gr) EInvalidAccountData
                            (set_data e infos w ga (put gd off (le_enc 8 (g_size gr - 1))))
                       end))
                end) ;;
         own <- asset_get XGrouping d ;;
         u <- (match own with
               | None => Ok tt
               | Some (off, b) =>
                   gr <- grouping_from_bytes off b ;;
                   require (g_size gr =? 0) EGroupNotEmpty (Ok tt)
               end) ;;
         close_account e infos w1 asset (match recipient with Some r => r | None => signer end))))).

(** ** Approve — approve.rs:23-81 *)
Definition roles_of (a : delegate_input) : Z :=
  match a with
  | DAll => ALL_ROLES_MASK
  | DSome roles => fold_left (fun all r => Z.lor all (role_mask r)) roles 0
  end.
Definition process_approve (e : env) (infos : list ainfo) (w : world) (a : delegate_input) : res world :=
  asset <- acct infos 0 ;; owner <- acct infos 1 ;; del <- acct infos 2 ;;
  require (owned_by_prog e w asset) EIllegalOwner
   (let d := data (w asset) in
    require (is_asset d) EUninitialized
     (require (key_is (f_owner d) owner) EInvalidAssetOwner
      (require (is_signer infos owner) EMissingRequiredSignature
       (let roles := roles_of a in
        let d' :=
          match asset_delegate d with
          | Some dl =>
              if key_is (del_addr dl) del
              then put d 132 [z2b (Z.lor (b2z (del_roles dl)) roles)]
              else put d 100 (pk_bytes del ++ [z2b roles])
          | None => put d 100 (pk_bytes del ++ [z2b roles])
          end in
        set_data e infos w asset d')))).

(** ** Revoke — revoke.rs:23-85 *)
Definition process_revoke (e : env) (infos : list ainfo) (w : world) (a : delegate_input) : res world :=
  asset <- acct infos 0 ;; signer <- acct infos 1 ;;
  require (is_signer infos signer) EMissingRequiredSignature
   (require (owned_by_prog e w asset) EIllegalOwner
    (let d := data (w asset) in
     require (is_asset d) EUninitialized
      (let allowed := key_is (f_owner d) signer
                      || match asset_delegate d with
                         | Some dl => key_is (del_addr dl) signer
                         | None => false
                         end in
       require allowed EInvalidAuthority
        (let d' :=
           match a with
           | DAll => clear_delegate d
           | DSome roles =>
               match asset_delegate d with
               | None => d
               | Some dl =>
                   let r' := fold_left disable_role roles (del_roles dl) in
                   if has_active_roles r' then put d 132 [r'] else clear_delegate d
               end
           end in
         set_data e infos w asset d')))).

(** ** Lock / Unlock — lock.rs:21-70, unlock.rs:21-70 *)
Definition process_set_state (st : byte) (e : env) (infos : list ainfo) (w : world) : res world :=
  asset <- acct infos 0 ;; signer <- acct infos 1 ;;
  require (is_signer infos signer) EMissingRequiredSignature
   (require (owned_by_prog e w asset) EIllegalOwner
    (let d := data (w asset) in
     require (is_asset d) EUninitialized
      (m <- manager_delegate d ;;
       u <- (match asset_delegate d with
             | Some dl => assert_delegate [Some dl; m] (pk_bytes signer) RLock
             | None =>
                 if key_is (f_owner d) signer then Ok tt
                 else assert_delegate [m] (pk_bytes signer) RLock
             end) ;;
       set_data e infos w asset (put d 1 [st])))).
Definition process_lock := process_set_state ST_LOCKED.
Definition process_unlock := process_set_state ST_UNLOCKED.

(** ** Transfer — transfer.rs:34-142 *)
Definition process_transfer (e : env) (infos : list ainfo) (w : world) : res world :=
  asset <- acct infos 0 ;; signer <- acct infos 1 ;; recipient <- acct infos 2 ;;
  group <- opt_acct e infos 3 ;;
  require (owned_by_prog e w asset) EIllegalOwner
   (require (is_signer infos signer) EMissingRequiredSignature
    (let d := data (w asset) in
     require (is_asset d) EUninitialized
      (checked <- process_royalties e w asset signer recipient d ;;
       require (negb (beqb (byte_at d 2) (standard_code Soulbound))) ECannotTransferSoulbound
        (allowed <- (if key_is (f_owner d) signer then Ok true
                     else m <- manager_delegate d ;;
                          Ok (is_ok (assert_delegate [asset_delegate d; m] (pk_bytes signer) RTransfer))) ;;
         require allowed EInvalidTransferAuthority
          (if key_is (f_owner d) recipient then Ok w
           else
             u <- (match nullable (f_group d) with
                   | None => Ok tt
                   | Some g =>
                       if checked then Ok tt
                       else
                         ga <- ok_or group ENotEnoughAccountKeys ;;
                         require (owned_by_prog e w ga) EInvalidGroup
                          (require (key_is g ga) EInvalidGroup
                           (require (negb (pk_eqb ga asset)) EAccountBorrowFailed
                            (guard (1 <=? zlen (data (w ga)))
                             (require (beqb (byte_at (data (w ga)) 0) DISC_ASSET) EInvalidGroup
                              (x <- process_royalties e w asset signer recipient (data (w ga)) ;;
                               Ok tt)))))
                   end) ;;
             set_data e infos w asset (clear_delegate (put d 4 (pk_bytes recipient)))))))).

(** ** Verify / Unverify — verify.rs:20-71, unverify.rs:20-71 *)
Definition process_set_verified (v : bool) (e : env) (infos : list ainfo) (w : world) : res world :=
  asset <- acct infos 0 ;; cr <- acct infos 1 ;;
  require (is_signer infos cr) EMissingRequiredSignature
   (require (owned_by_prog e w asset) EIllegalOwner
    (let d := data (w asset) in
     require (is_asset d) EUninitialized
      (r <- asset_get XCreators d ;;
       match r with
       | None => Err EExtensionNotFound
       | Some (off, b) =>
           l <- creators_from_bytes b ;;
           let l' := map (fun c => if key_is (cr_addr c) cr
                                   then mkCreator (cr_addr c) (bool_byte v) (cr_share c) else c) l in
           require (existsb (fun c => key_is (cr_addr c) cr) l) EInvalidArgument
            (set_data e infos w asset (put d off (enc_creators l')))
       end))).
Definition process_verify := process_set_verified true.
Definition process_unverify := process_set_verified false.

(** ** Handover — handover.rs:20-66 *)
Definition process_handover (e : env) (infos : list ainfo) (w : world) : res world :=
  asset <- acct infos 0 ;; auth <- acct infos 1 ;; new <- acct infos 2 ;;
  require (is_signer infos auth) EMissingRequiredSignature
   (require (is_signer infos new) EMissingRequiredSignature
    (require (owned_by_prog e w asset) EIllegalOwner
     (let d := data (w asset) in
      check_authority d auth
       (set_data e infos w asset (put d 68 (pk_bytes new)))))).

(** ** Group / Ungroup — group.rs:22-117, ungroup.rs:22-102 *)
(** the signer check group.rs:86-101, ungroup.rs:80-95 *)
Definition group_signer_ok (gauth : bytes) (gr : grouping) (signer : pubkey) : bool :=
  if key_is gauth signer then true
  else match nullable (g_delegate gr) with
       | Some k => key_is k signer
       | None => false
       end.

(** process_group on keys (also called by Create, create.rs:265-282) *)
Definition do_group (e : env) (infos : list ainfo) (w : world) (asset group auth : pubkey) : res world :=
  require (is_signer infos auth) EMissingRequiredSignature
   (require (owned_by_prog e w asset) EIllegalOwner
    (require (owned_by_prog e w group) EIllegalOwner
     (let d := data (w asset) in
      require (is_asset d) EUninitialized
       (require (negb (pk_eqb group asset)) EAccountBorrowFailed
        (let gd := data (w group) in
         require (is_asset gd) EUninitialized
          (require (match nullable (f_group d) with None => true | Some _ => false end) EAlreadyInGroup
           (require (bytes_eqb (f_authority gd) (f_authority d)) EInvalidAuthority
            (r <- sect_get XGrouping (drop ASSET_LEN gd) ;;
             match r with
             | None => Err EExtensionNotFound
             | Some (off, b) =>
                 gr <- grouping_from_bytes off b ;;
                 require (group_signer_ok (f_authority gd) gr auth) EInvalidAuthority
                  (require ((g_max gr =? 0) || (g_size gr <? g_max gr)) EExtensionDataInvalid
                   (w1 <- set_data e infos w asset (put d 36 (pk_bytes group)) ;;
                    set_data e infos w1 group
                      (put gd (ASSET_LEN + off) (le_enc 8 ((g_size gr + 1) mod two64)))))
             end)))))))).
Definition process_group (e : env) (infos : list ainfo) (w : world) : res world :=
  asset <- acct infos 0 ;; group <- acct infos 1 ;; auth <- acct infos 2 ;;
  do_group e infos w asset group auth.

Definition process_ungroup (e : env) (infos : list ainfo) (w : world) : res world :=
  asset <- acct infos 0 ;; group <- acct infos 1 ;; auth <- acct infos 2 ;;
  require (is_signer infos auth) EMissingRequiredSignature
   (require (owned_by_prog e w asset) EIllegalOwner
    (require (owned_by_prog e w group) EIllegalOwner
     (let d := data (w asset) in
      require (is_asset d) EUninitialized
       (require (negb (pk_eqb group asset)) EAccountBorrowFailed
        (let gd := data (w group) in
         require (is_asset gd) EUninitialized
          (require (key_is (f_group d) group) EInvalidArgument
           (r <- sect_get XGrouping (drop ASSET_LEN gd) ;;
            match r with
            | None => Err EExtensionNotFound
            | Some (off, b) =>
                gr <- grouping_from_bytes off b ;;
                require (group_signer_ok (f_authority gd) gr auth) EInvalidAuthority
                 (w1 <- set_data e infos w asset (put d 36 zero32) ;;
                  set_data e infos w1 group
                    (put gd (ASSET_LEN + off) (le_enc 8 ((g_size gr - 1) mod two64))))
            end))))))).

(** ** Allocate — allocate.rs:30-235 *)
(** create_account — allocate.rs:137-179 *)
Definition alloc_create_account (e : env) (infos : list ainfo) (w : world) (asset : pubkey)
    (payer sysp : option pubkey) (space : Z) : res world :=
  p <- ok_or payer ENotEnoughAccountKeys ;;
  require (is_signer infos p) EMissingRequiredSignature
   (s <- ok_or sysp ENotEnoughAccountKeys ;;
    require (pk_eqb s pk_zero) EIncorrectProgramId
     (sys_create e infos w p asset (e_rent e space) space)).

(** [sol_memcpy(&mut d[off..], bs, bs.len())]: slice start is checked, the copy
    itself is not (out of range is UB) *)
Definition memcpy_at (d : bytes) (off : Z) (bs : bytes) : res bytes :=
  guard ((0 <=? off) && (off <=? zlen d))
    (if off + zlen bs <=? zlen d then Ok (put d off bs) else UB).

(** save_extension_data — allocate.rs:182-235 *)
Definition save_extension_data (e : env) (infos : list ainfo) (w0 w : world) (asset : pubkey)
    (payer sysp : option pubkey) (x : ext_input) (exists_ : bool) (offset : Z) (bs : bytes)
  : res world :=
  let boundary := pad8 (offset + EXT_LEN + x_length x) in
  let partial := negb (x_length x =? zlen bs mod two32) in
  let extended := if partial then offset + EXT_LEN + zlen bs else boundary in
  w1 <- (if negb exists_ then alloc_create_account e infos w asset payer sysp extended
         else if (zlen (data (w asset)) <? extended)
                 || (partial && (extended <? zlen (data (w asset))))
         then resize e infos w0 w extended asset payer sysp
         else Ok w) ;;
  d1 <- set_hdr (data (w1 asset)) offset (ext_code (x_type x)) (x_length x) boundary ;;
  d2 <- (match bs with [] => Ok d1 | _ => memcpy_at d1 (offset + EXT_LEN) bs end) ;;
  set_data e infos w1 asset d2.

(** process_allocate on keys (also called by Create) — allocate.rs:30-134 *)
Definition do_allocate (e : env) (infos : list ainfo) (w0 w : world) (asset : pubkey)
    (payer sysp : option pubkey) (x : ext_input) : res world :=
  require (is_signer infos asset) EMissingRequiredSignature
   (let d := data (w asset) in
    st <- (if zlen d =? 0 then Ok (false, ASSET_LEN)
           else
             require (owned_by_prog e w asset) EIllegalOwner
              (require (ASSET_LEN <=? zlen d) EInvalidAccountLength
               (require (beqb (byte_at d 0) DISC_UNINIT) EAlreadyInitialized
                (c <- asset_contains (x_type x) d ;;
                 require (negb c) EAlreadyInitialized
                  (l <- last_extension d ;;
                   match l with
                   | None => Ok (true, ASSET_LEN)
                   | Some (h, off) =>
                       require (h_len h + off <=? zlen d) EIncompleteExtensionData
                         (Ok (true, h_bnd h))
                   end))))) ;;
    bs <- (match x_data x with
           | Some bs => require (zlen bs mod two32 <=? x_length x) EExtensionLengthInvalid (Ok bs)
           | None => Ok []
           end) ;;
    save_extension_data e infos w0 w asset payer sysp x (fst st) (snd st) bs).
Definition process_allocate (e : env) (infos : list ainfo) (w : world) (x : ext_input) : res world :=
  asset <- acct infos 0 ;; payer <- opt_acct e infos 1 ;; sysp <- opt_acct e infos 2 ;;
  do_allocate e infos w w asset payer sysp x.

(** ** Write — write.rs:28-162 *)
Definition process_write (e : env) (infos : list ainfo) (w : world) (a : data_input) : res world :=
  asset <- acct infos 0 ;; payer <- acct infos 1 ;; sysp <- acct infos 2 ;;
  require (pk_eqb sysp pk_zero) EIncorrectProgramId
   (require (is_signer infos payer) EMissingRequiredSignature
    (require (is_signer infos asset) EMissingRequiredSignature
     (require (owned_by_prog e w asset) EIllegalOwner
      (let d := data (w asset) in
       require (ASSET_LEN <=? zlen d) EInvalidAccountLength
        (require (beqb (byte_at d 0) DISC_UNINIT) EAlreadyInitialized
         (l <- last_extension d ;;
          match l with
          | None => Err EExtensionNotFound
          | Some (h, off) =>
              let expected := off + h_len h in
              require (zlen d <=? expected) EInvalidAccountLength
               (let bs := w_bytes a in
                let start := if w_overwrite a then off else zlen d in
                let size := if w_overwrite a then off + zlen bs
                            else if zlen d + zlen bs =? expected then h_bnd h
                            else zlen d + zlen bs in
                w1 <- resize e infos w w size asset (Some payer) (Some sysp) ;;
                d1 <- memcpy_at (data (w1 asset)) start bs ;;
                w2 <- set_data e infos w1 asset d1 ;;
                if zlen d1 <? expected then Ok w2
                else
                  l2 <- last_extension d1 ;;
                  match l2 with
                  | None => Err EExtensionNotFound
                  | Some (h2, off2) =>
                      t <- ok_or (ext_of_code (h_type h2)) EExtensionDataInvalid ;;
                      b <- slice d1 off2 (off2 + h_len h2) ;;
                      b' <- map_err (on_create t off2 None b) EExtensionDataInvalid ;;
                      set_data e infos w2 asset (put d1 off2 b')
                  end)
          end)))))).

(** ** Create — create.rs:33-285 *)
(** the order in which [while !v.is_empty() { v.swap_remove(0) }] yields the
    elements: the first, then the others from the back (create.rs:131-147) *)
Definition swap_order {A} (l : list A) : list A :=
  match l with [] => [] | x :: r => x :: rev r end.

Definition create_space (l : option (list ext_input)) : Z :=   (* create.rs:79-96 *)
  ASSET_LEN + match l with
              | None => 0
              | Some l => fold_left (fun t x => t + pad8 (x_length x + EXT_LEN)) l 0
              end.

Fixpoint allocate_all (e : env) (infos : list ainfo) (w0 w : world) (asset : pubkey)
    (payer sysp : option pubkey) (l : list ext_input) : res world :=
  match l with
  | [] => Ok w
  | x :: l' =>
      w1 <- do_allocate e infos w0 w asset payer sysp x ;;
      allocate_all e infos w0 w1 asset payer sysp l'
  end.

(** the validation loop create.rs:157-200.  [off] is the absolute offset of the
    remaining slice.  Returns the data as the hooks leave it and the types seen.
    [boundary - (16 + offset)] wraps when negative, which then exceeds the
    remaining length. *)
Fixpoint create_loop (fuel : nat) (auth : bytes) (d : bytes) (off : Z) (seen : list ext_type)
  : res (bytes * list ext_type) :=
  match fuel with
  | O => Diverge
  | S f =>
      if EXT_LEN <=? zlen d - off then
        h <- load_hdr d off ;;
        match ext_of_code (h_type h) with
        | Some XNone => Ok (d, rev seen)
        | None => Err EExtensionDataInvalid
        | Some t =>
            let adjusted := (h_bnd h - (EXT_LEN + off)) mod two64 in
            require (adjusted <=? zlen d - off - EXT_LEN) EExtensionDataInvalid
             (guard (h_len h <=? adjusted)
              (b' <- map_err (on_create t (off + EXT_LEN) (Some auth)
                               (fld d (off + EXT_LEN) (h_len h))) EExtensionDataInvalid ;;
               create_loop f auth (put d (off + EXT_LEN) b') (h_bnd h) (t :: seen)))
        end
      else Ok (d, rev seen)
  end.

Definition is_std (a b : standard) : bool := beqb (standard_code a) (standard_code b).

(** create.rs:206-211 *)
Definition init_header (d : bytes) (m : metadata_input) (owner auth : pubkey) : bytes :=
  let d := put d 0 [DISC_ASSET] in
  let d := put d 2 [standard_code (m_standard m)] in
  let d := put d 3 [bool_byte (m_mutable m)] in
  let d := put d 4 (pk_bytes owner) in
  let d := put d 68 (pk_bytes auth) in
  put d 133 (pod_str35 (m_name m)).

Definition process_create (e : env) (infos : list ainfo) (w : world) (m : metadata_input) : res world :=
  asset <- acct infos 0 ;; auth <- acct infos 1 ;; owner <- acct infos 2 ;;
  group <- opt_acct e infos 3 ;; gauth <- opt_acct e infos 4 ;;
  payer <- opt_acct e infos 5 ;; sysp <- opt_acct e infos 6 ;;
  require (is_signer infos asset) EMissingRequiredSignature
   (w1 <- (if zlen (data (w asset)) =? 0 then
             alloc_create_account e infos w asset payer sysp (create_space (m_exts m))
           else
             require (owned_by_prog e w asset) EIllegalOwner
              (require (ASSET_LEN <=? zlen (data (w asset))) EInvalidAccountLength
               (require (beqb (byte_at (data (w asset)) 0) DISC_UNINIT) EAlreadyInitialized (Ok w)))) ;;
    w2 <- (match m_exts m with
           | None => Ok w1
           | Some l => allocate_all e infos w w1 asset payer sysp (swap_order l)
           end) ;;
    r <- guard (ASSET_LEN <=? zlen (data (w2 asset)))   (* split_at_mut, create.rs:155 *)
           (create_loop (walk_fuel (data (w2 asset))) (pk_bytes auth) (data (w2 asset)) ASSET_LEN []) ;;
    let d := init_header (fst r) m owner auth in
    let has_manager := existsb (ext_type_eqb XManager) (snd r) in
    require (Bool.eqb (is_std (m_standard m) Managed) has_manager) EExtensionDataInvalid
     (p <- asset_get XProxy d ;;
      px <- (match p with
             | None => Ok None
             | Some (_, b) => q <- proxy_from_bytes b ;; Ok (Some q)
             end) ;;
      u <- (if is_std (m_standard m) Proxied then
              match px with
              | None => Err EExtensionDataInvalid
              | Some q =>
                  k <- ok_or (e_cpa e (p_seeds q) (p_bump q) (p_program q)) EInvalidSeeds ;;
                  require (pk_eqb k asset) EInvalidSeeds (Ok tt)
              end
            else require (match px with None => true | Some _ => false end) EExtensionDataInvalid
                   (Ok tt)) ;;
      w3 <- set_data e infos w2 asset d ;;
      match group with
      | None => Ok w3
      | Some g => do_group e infos w3 asset g (match gauth with Some a => a | None => auth end)
      end)).

(** ** Update — update.rs:41-414 *)
(** validate — update.rs:388-414 *)
Definition validate (t : ext_type) (al : Z) (input : bytes) (cur : option (Z * bytes)) (auth : bytes)
  : res bytes :=
  match cur with
  | Some (al_cur, c) => map_err (on_update t al_cur c al input (Some auth)) EExtensionDataInvalid
  | None =>
      match t with
      | XNone | XManager | XProxy => Err EExtensionDataInvalid
      | _ => map_err (on_create t al (Some auth) input) EExtensionDataInvalid
      end
  end.

(** the search loop update.rs:161-173: [while offset < len], the slice of 16 bytes
    panics when fewer are left.  Returns the final offset and the header found. *)
Fixpoint update_find (fuel : nat) (t : ext_type) (d : bytes) (off : Z) : res (Z * option hdr) :=
  match fuel with
  | O => Diverge
  | S f =>
      if off <? zlen d then
        h <- load_hdr d off ;;
        if h_type h =? ext_code t then Ok (off, Some h)
        else if h_type h =? 0 then Ok (off, None)
        else update_find f t d (h_bnd h)
      else Ok (off, None)
  end.

(** two's complement i32 *)
Definition to_i32 (z : Z) : Z := (z + 2147483648) mod two32 - 2147483648.

(** u32::saturating_add_signed *)
Definition sat_add_u32 (a d : Z) : Z := Z.min u32_max (Z.max 0 (a + d)).

(** the loop update.rs:347-354 *)
Fixpoint fix_boundaries (fuel : nat) (delta : Z) (d : bytes) (cur : Z) : res bytes :=
  match fuel with
  | O => Diverge
  | S f =>
      if cur <? zlen d then
        h <- load_hdr d cur ;;
        let b := sat_add_u32 (h_bnd h) delta in
        fix_boundaries f delta (put d (cur + 8) (le_enc 4 b)) b
      else Ok d
  end.

(** [sol_memmove(ptr + dst, ptr + src, n)]: raw pointers; out of the account's
    data is UB *)
Definition memmove (d : bytes) (dst src n : Z) : res bytes :=
  if n =? 0 then Ok d
  else if (0 <=? dst) && (0 <=? src) && (dst + n <=? zlen d) && (src + n <=? zlen d)
  then Ok (put d dst (fld d src n)) else UB.

(** step 1 of the extension part: where does the data come from — buffer account
    (update.rs:121-145, 181-220) or instruction arguments (221-264).  Returns the
    length, the bytes to copy later (None: from the buffer), and the world (the
    hooks may modify the buffer). *)
Definition update_source (e : env) (infos : list ainfo) (w : world) (asset auth : pubkey)
    (buffer : option pubkey) (x : option ext_input) (t : ext_type) (off : Z) (found : option hdr)
  : res (Z * option bytes * world) :=
  let d := data (w asset) in
  let start := off + EXT_LEN in
  match buffer with
  | Some bk =>
      let bd := data (w bk) in
      fe <- first_extension bd ;;
      match fe with
      | None => Err EExtensionNotFound
      | Some (h, _) =>
          require (h_type h =? ext_code t) EInvalidInstructionData
           (require (h_bnd h <=? zlen bd) EExtensionDataInvalid
            (inp <- slice bd ASSET_LEN (ASSET_LEN + h_len h) ;;
             cur <- (match found with
                     | None => Ok None
                     | Some c => s <- slice d start (start + h_len c) ;; Ok (Some (start, s))
                     end) ;;
             inp' <- validate t ASSET_LEN inp cur (pk_bytes auth) ;;
             w' <- set_data e infos w bk (put bd ASSET_LEN inp') ;;
             Ok (h_len h, None, w')))
      end
  | None =>
      match x with
      | None => Err EInvalidInstructionData
      | Some x =>
          r <- (match x_data x with
                | None => Ok (0, None)
                | Some bs =>
                    cur <- (match found with
                            | None => Ok None
                            | Some c => s <- slice d start (start + h_len c) ;; Ok (Some (start, s))
                            end) ;;
                    bs' <- validate t (e_heap_al e) bs cur (pk_bytes auth) ;;
                    Ok (zlen bs', Some bs')
                end) ;;
          let '(n, o) := r in
          if n <? x_length x then Err EExtensionDataInvalid
          else if x_length x <? n then Err EExtensionLengthInvalid
          else Ok (n, o, w)
      end
  end.

(** step 2: resizing and moving the tail — update.rs:273-338 *)
Definition update_room (e : env) (infos : list ainfo) (w0 w : world) (asset : pubkey)
    (payer sysp : option pubkey) (off : Z) (found : option hdr) (n : Z) : res world :=
  let ub := pad8 (off + EXT_LEN + n) in
  match found with
  | None => resize e infos w0 w ub asset payer sysp
  | Some c =>
      if h_len c =? n then Ok w
      else
        let delta := to_i32 (ub - h_bnd c) in
        l <- last_extension (data (w asset)) ;;
        match l with
        | None => Err EExtensionNotFound
        | Some (lh, _) =>
            let ab := h_bnd lh in
            let resized := Z.max 0 (ab + delta) in
            let n_move := Z.max 0 (ab - h_bnd c) in
            w1 <- (if 0 <? delta then resize e infos w0 w resized asset payer sysp else Ok w) ;;
            d1 <- memmove (data (w1 asset)) ub (h_bnd c) n_move ;;
            w2 <- set_data e infos w1 asset d1 ;;
            if delta <? 0 then resize e infos w0 w2 resized asset payer sysp else Ok w2
        end
  end.

(** which extension is updated — update.rs:121-152 *)
Definition update_type (e : env) (w : world) (asset : pubkey) (buffer : option pubkey)
    (x : option ext_input) : res ext_type :=
  match buffer with
  | Some bk =>
      require (owned_by_prog e w bk) EIllegalOwner
       (require (negb (pk_eqb bk asset)) EAccountBorrowFailed
        (let bd := data (w bk) in
         require (ASSET_LEN + EXT_LEN <=? zlen bd) EInvalidAccountLength
          (require (beqb (byte_at bd 0) DISC_UNINIT) EAlreadyInitialized
           (fe <- first_extension bd ;;
            match fe with
            | None => Err EExtensionNotFound
            | Some (h, _) => ok_or (ext_of_code (h_type h)) EExtensionNotFound
            end))))
  | None => match x with
            | Some x => Ok (x_type x)
            | None => Err EInvalidInstructionData
            end
  end.

(** step 3: header, later boundaries, data — update.rs:340-376 *)
Definition update_finish (e : env) (infos : list ainfo) (w3 : world) (asset : pubkey)
    (buffer : option pubkey) (t : ext_type) (off : Z) (found : option hdr) (n : Z)
    (src : option bytes) : res world :=
  let ub := pad8 (off + EXT_LEN + n) in
  let old := match found with Some c => h_bnd c | None => off end in
  let delta := to_i32 (ub - old) in
  d4 <- set_hdr (data (w3 asset)) off (ext_code t) n ub ;;
  d5 <- fix_boundaries (e_fuel e) delta d4 ub ;;
  d6 <- (if 0 <? n then
           match buffer, src with
           | Some bk, _ =>
               bs <- slice (data (w3 bk)) (ASSET_LEN + EXT_LEN) (ASSET_LEN + EXT_LEN + n) ;;
               memcpy_at d5 (off + EXT_LEN) bs
           | None, Some bs => memcpy_at d5 (off + EXT_LEN) bs
           | None, None => Ok d5
           end
         else Ok d5) ;;
  set_data e infos w3 asset d6.

(** the extension part — update.rs:112-377; [w0] is the world at entry, [w] the
    one with name and mutability already updated *)
Definition update_ext (e : env) (infos : list ainfo) (w0 w : world) (asset auth : pubkey)
    (buffer payer sysp : option pubkey) (x : option ext_input) : res world :=
  t <- update_type e w asset buffer x ;;
  f <- update_find (walk_fuel (data (w asset))) t (data (w asset)) ASSET_LEN ;;
  let '(off, found) := f in
  s <- update_source e infos w asset auth buffer x t off found ;;
  let '(n, src, w2) := s in
  w3 <- update_room e infos w0 w2 asset payer sysp off found n ;;
  update_finish e infos w3 asset buffer t off found n src.

Definition process_update (e : env) (infos : list ainfo) (w : world) (a : update_input) : res world :=
  asset <- acct infos 0 ;; auth <- acct infos 1 ;; buffer <- opt_acct e infos 2 ;;
  group <- opt_acct e infos 3 ;; payer <- opt_acct e infos 4 ;; sysp <- opt_acct e infos 5 ;;
  require (is_signer infos auth) EMissingRequiredSignature
   (require (owned_by_prog e w asset) EIllegalOwner
    (let d := data (w asset) in
     check_authority d auth
      (let d1 := match u_name a with Some n => put d 133 (pod_str35 n) | None => d end in
       let d2 := match u_mutable a with Some b => put d1 3 [bool_byte b] | None => d1 end in
       w1 <- set_data e infos w asset d2 ;;
       match u_ext a, buffer with
       | None, None => Ok w1
       | Some _, Some _ => Err EInvalidInstructionData
       | _, _ => update_ext e infos w w1 asset auth buffer payer sysp (u_ext a)
       end))).

(** ** Remove — remove.rs:28-140 *)
(** the search loop remove.rs:74-85: [while offset + 16 < len] *)
Fixpoint remove_find (fuel : nat) (t : ext_type) (d : bytes) (off : Z) : res (option (Z * Z)) :=
  match fuel with
  | O => Diverge
  | S f =>
      if off + EXT_LEN <? zlen d then
        h <- load_hdr d off ;;
        if h_type h =? ext_code t then Ok (Some (off, h_bnd h))
        else if h_type h =? 0 then Ok None
        else remove_find f t d (h_bnd h)
      else Ok None
  end.
Definition process_remove (e : env) (infos : list ainfo) (w : world) (t : ext_type) : res world :=
  asset <- acct infos 0 ;; auth <- acct infos 1 ;; group <- opt_acct e infos 2 ;;
  recipient <- acct infos 3 ;;
  require (is_signer infos auth) EMissingRequiredSignature
   (require (owned_by_prog e w asset) EIllegalOwner
    (let d := data (w asset) in
     check_authority d auth
      (r <- remove_find (walk_fuel d) t d ASSET_LEN ;;
       match r with
       | None => Err EExtensionNotFound
       | Some (off, bnd) =>
           u <- (match t with
                 | XManager | XProxy => Err EExtensionDataInvalid
                 | XGrouping =>
                     g <- asset_get XGrouping d ;;
                     match g with
                     | None => Panic
                     | Some (o, b) =>
                         gr <- grouping_from_bytes o b ;;
                         require (g_size gr =? 0) EGroupNotEmpty (Ok tt)
                     end
                 | _ => Ok tt
                 end) ;;
           d1 <- memmove d off bnd (Z.max 0 (zlen d - bnd)) ;;
           w1 <- set_data e infos w asset d1 ;;
           resize e infos w w1 (Z.max 0 (zlen d - Z.max 0 (bnd - off))) asset (Some recipient) None
       end))).

(** ** Resize — resize.rs:26-79 *)
Definition process_resize (e : env) (infos : list ainfo) (w : world) (s : strategy) : res world :=
  asset <- acct infos 0 ;; auth <- acct infos 1 ;; payer <- acct infos 2 ;;
  sysp <- opt_acct e infos 3 ;;
  require (is_signer infos auth) EMissingRequiredSignature
   (require (owned_by_prog e w asset) EIllegalOwner
    (let d := data (w asset) in
     check_authority d auth
      (size <- (match s with
                | Trim => l <- last_extension d ;;
                          Ok (match l with Some (h, _) => h_bnd h | None => ASSET_LEN end)
                | Extend v => Ok (zlen d + v)
                end) ;;
       resize e infos w w size asset (Some payer) sysp))).

(** ** Dispatch — processor/mod.rs:46-142 *)
Definition blocked_when_locked (i : instr) : bool :=
  match i with
  | IApprove _ | IBurn | ILock | IRevoke _ | ITransfer => true
  | _ => false
  end.
Definition dispatch (e : env) (infos : list ainfo) (w : world) (i : instr) : res world :=
  match i with
  | IClose => process_close e infos w
  | IBurn => process_burn e infos w
  | ICreate m => process_create e infos w m
  | IApprove d => process_approve e infos w d
  | IAllocate x => process_allocate e infos w x
  | ILock => process_lock e infos w
  | IRevoke d => process_revoke e infos w d
  | ITransfer => process_transfer e infos w
  | IUnlock => process_unlock e infos w
  | IUnverify => process_unverify e infos w
  | IUpdate u => process_update e infos w u
  | IVerify => process_verify e infos w
  | IWrite d => process_write e infos w d
  | IGroup => process_group e infos w
  | IUngroup => process_ungroup e infos w
  | IHandover => process_handover e infos w
  | IRemove t => process_remove e infos w t
  | IResize s => process_resize e infos w s
  end.

(** The entrypoint passes at most 7 accounts (entrypoint.rs:14 / nitrate). *)
Definition MAX_ACCOUNTS : nat := 7.
Definition process (e : env) (infos0 : list ainfo) (w : world) (i : instr) : res world :=
  let infos := firstn MAX_ACCOUNTS infos0 in
  l <- validate_access e w infos ;;
  match l with
  | Some _ => if blocked_when_locked i then Err ELockedAsset else dispatch e infos w i
  | None => dispatch e infos w i
  end.

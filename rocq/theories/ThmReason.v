(** Property theorems: why requests are refused (C76).  Each theorem lists what a
    request is asked for, in order, with the error for each; [answers] says that a
    request that meets everything goes through and any other gets the error of the
    first thing it does not meet. *)
From Verif Require Import Base State Layout Constr Ext World Proc BaseL Spec SpecB SpecC SpecE SpecU WorldL LayoutL ConstrL ExactL ExactM ReasonL Sample SampleE ThmUpdate ThmCreators ThmExact ThmExactB.
From Coq Require Import Strings.Byte.

Lemma ready_told e infos w a : ready e infos w a -> told e infos w a.
Proof. intros (H1 & _ & _ & H2 & H3 & H4). exact (conj H1 (conj H2 (conj H3 H4))). Qed.
Ltac ok_told := apply ready_told; ok_ready.
Ltac ok_raw := split; [ok_arg|split; [ok_wr|split; [ok_plain|ok_sized]]].

Theorem C76_approve : forall e infos w a owner del x, told e infos w a -> arg infos 1 owner -> arg infos 2 del ->
  answers (process e infos w (IApprove x)) (front true e infos w a ++
    [(held e w a, EIllegalOwner); (live w a, EUninitialized); (s_owner (data (w a)) = pk_bytes owner, EInvalidAssetOwner);
     (signed infos owner, EMissingRequiredSignature)]).
Proof. exact approve_answers. Qed.
Print Assumptions C76_approve.
Theorem C76_revoke : forall e infos w a s x, told e infos w a -> arg infos 1 s ->
  answers (process e infos w (IRevoke x)) (front true e infos w a ++
    [(signed infos s, EMissingRequiredSignature); (held e w a, EIllegalOwner); (live w a, EUninitialized);
     (s_owner (data (w a)) = pk_bytes s \/ s_delegate (data (w a)) <> no_key /\ s_delegate (data (w a)) = pk_bytes s, EInvalidAuthority)]).
Proof. exact revoke_answers. Qed.
Print Assumptions C76_revoke.
Theorem C76_handover : forall e infos w a auth new, told e infos w a -> arg infos 1 auth -> arg infos 2 new ->
  answers (process e infos w IHandover) (front false e infos w a ++
    (signed infos auth, EMissingRequiredSignature) :: (signed infos new, EMissingRequiredSignature) :: charge e infos w a auth).
Proof. exact handover_answers. Qed.
Print Assumptions C76_handover.
Definition x3u (s : pubkey) (third : ainfo) : list ainfo := [mkInfo kAsset false true; mkInfo s false false; third].
Example C76_holder_case : told env0 (x3 kHolder to3) w_plain kAsset /\ arg (x3 kHolder to3) 1 kHolder /\ arg (x3 kHolder to3) 2 kOther /\
  process env0 (x3 kDeleg to3) w_plain (IApprove (DSome [RLock])) = Err EInvalidAssetOwner /\
  process env0 (x3u kHolder to3) w_plain (IApprove (DSome [RLock])) = Err EMissingRequiredSignature /\
  process env0 (x3u kDeleg to3) w_plain (IApprove (DSome [RLock])) = Err EInvalidAssetOwner /\
  process env0 (x3 kOther to3) w_plain (IRevoke DAll) = Err EInvalidAuthority /\
  process env0 (x3u kOther to3) w_plain (IRevoke DAll) = Err EMissingRequiredSignature /\
  process env0 (x3 kHolder to3) (table [(kAsset, acc locked_data)]) (IRevoke DAll) = Err ELockedAsset /\
  process env0 (x3 kHolder to3) (table [(kAsset, acc proxied_data)]) (IRevoke DAll) = Err EMissingRequiredSignature /\
  process env0 (x3 kHolder to3) (table [(kAsset, acc (zeros 168))]) (IRevoke DAll) = Err EUninitialized /\
  process env0 (x3 kHolder to3) (table []) (IRevoke DAll) = Err EIllegalOwner /\
  process env0 (x3 kHolder new3) w_plain IHandover = Err EInvalidAuthority /\
  process env0 (x3 kAuth to3) w_plain IHandover = Err EMissingRequiredSignature.
Proof. split; [ok_told|]. split; [ok_arg|]. split; [ok_arg|]. vm_compute. auto 20. Qed.

(** [b]: Lock, else Unlock *)
Theorem C76_lock : forall (b : bool) e infos w a s l, told e infos w a -> arg infos 1 s ->
  (held e w a -> live w a -> well_formed (data (w a)) l /\ manager_sane l) ->
  answers (process e infos w (if b then ILock else IUnlock)) (front b e infos w a ++
    [(signed infos s, EMissingRequiredSignature); (held e w a, EIllegalOwner); (live w a, EUninitialized)] ++ lock_conds (data (w a)) l s).
Proof. exact locking_answers. Qed.
Print Assumptions C76_lock.
Definition x2 (s : pubkey) : list ainfo := [mkInfo kAsset false true; mkInfo s true false].
Definition w_del (del : pubkey) (roles : byte) : world := table [(kAsset, acc (mk (header x01 x00 x00 x01 kHolder pk_zero kAuth del roles) plain_exts))].
Example C76_lock_case : told env0 (x2 kHolder) w_plain kAsset /\ arg (x2 kHolder) 1 kHolder /\
  well_formed (data (w_plain kAsset)) plain_exts /\ manager_sane plain_exts /\
  process env0 (x2 kHolder) w_plain ILock = Err EInvalidDelegate /\
  okb (process env0 (x2 kHolder) (w_del pk_zero x00) ILock) = true /\
  process env0 (x2 kOther) (w_del pk_zero x00) ILock = Err EDelegateNotFound /\
  okb (process env0 (x2 kDeleg) (w_del kDeleg x02) ILock) = true /\
  process env0 (x2 kDeleg) (w_del kDeleg x05) ILock = Err EDelegateRoleNotActive.
Proof. split; [ok_told|]. split; [ok_arg|]. split; [apply mk_wf; vm_compute; reflexivity|]. split; [intros b H; found H|]. vm_compute. auto 20. Qed.

Theorem C76_group : forall e infos w a g auth lg, told e infos w a -> arg infos 1 g -> arg infos 2 auth -> writable infos g ->
  (held e w g -> live w g -> well_formed (data (w g)) lg /\ grouping_sane lg) ->
  answers (process e infos w IGroup) (front false e infos w a ++
  [(signed infos auth, EMissingRequiredSignature); (held e w a, EIllegalOwner); (held e w g, EIllegalOwner); (live w a, EUninitialized);
   (g <> a, EAccountBorrowFailed); (live w g, EUninitialized); (s_group (data (w a)) = no_key, EAlreadyInGroup);
   (s_authority (data (w g)) = s_authority (data (w a)), EInvalidAuthority);
   (lookup XGrouping (ext_list lg) <> None, EExtensionNotFound);
   (forall b, lookup XGrouping (ext_list lg) = Some b -> group_signer (data (w g)) b auth, EInvalidAuthority);
   (forall b, lookup XGrouping (ext_list lg) = Some b -> gr_max b = 0 \/ gr_size b < gr_max b, EExtensionDataInvalid)]).
Proof. exact join_answers. Qed.
Print Assumptions C76_group.
Theorem C76_ungroup : forall e infos w a g auth lg, told e infos w a -> arg infos 1 g -> arg infos 2 auth -> writable infos g ->
  (held e w g -> live w g -> well_formed (data (w g)) lg /\ grouping_sane lg) ->
  answers (process e infos w IUngroup) (front false e infos w a ++
  [(signed infos auth, EMissingRequiredSignature); (held e w a, EIllegalOwner); (held e w g, EIllegalOwner); (live w a, EUninitialized);
   (g <> a, EAccountBorrowFailed); (live w g, EUninitialized); (s_group (data (w a)) = pk_bytes g, EInvalidArgument);
   (lookup XGrouping (ext_list lg) <> None, EExtensionNotFound);
   (forall b, lookup XGrouping (ext_list lg) = Some b -> group_signer (data (w g)) b auth, EInvalidAuthority)]).
Proof. exact leave_answers. Qed.
Print Assumptions C76_ungroup.
Example C76_group_case : told env0 (ig kAuth) (w_room 2) kAsset /\ arg (ig kAuth) 1 kGroup /\ arg (ig kAuth) 2 kAuth /\ writable (ig kAuth) kGroup /\
  well_formed (data (w_room 2 kGroup)) (grp_exts 2 3) /\ grouping_sane (grp_exts 2 3) /\
  process env0 (ig kHolder) (w_room 2) IGroup = Err EInvalidAuthority /\ process env0 (ig kAuth) (w_room 3) IGroup = Err EExtensionDataInvalid /\
  process env0 (ig kAuth) w_grp IGroup = Err EAlreadyInGroup /\
  process env0 (ig kAuth) (table [(kAsset, acc plain_data); (kGroup, acc plain_data)]) IGroup = Err EExtensionNotFound /\
  process env0 (ig kAuth) (w_room 2) IUngroup = Err EInvalidArgument /\ process env0 (ig kHolder) w_grp IUngroup = Err EInvalidAuthority.
Proof.
  split; [ok_told|]. split; [ok_arg|]. split; [ok_arg|]. split; [ok_wr|]. split; [apply mk_wf; vm_compute; reflexivity|].
  split; [intros b H; found H; vm_compute; lia|]. vm_compute. auto 20.
Qed.

Theorem C76_close : forall e infos w k dest, told e infos w k -> arg infos 1 dest -> lam_ok w -> lamports (w dest) + lamports (w k) < 18446744073709551616 ->
  answers (process e infos w IClose) (front false e infos w k ++
    [(signed infos k, EMissingRequiredSignature); (held e w k, EIllegalOwner); (data (w k) = [] \/ s_disc (data (w k)) = x00, EAlreadyInitialized)] ++ empty_conds infos w k dest).
Proof. exact close_answers. Qed.
Print Assumptions C76_close.
Example C76_close_case : told env0 (i_cl true) (table (t_buf (zeros 168))) kBuf /\ arg (i_cl true) 1 kTo /\ lam_ok (table (t_buf (zeros 168))) /\
  process env0 (i_cl false) (table (t_buf (zeros 168))) IClose = Err EMissingRequiredSignature /\
  process env0 (i_cl true) (table (t_buf plain_data)) IClose = Err EAlreadyInitialized /\
  process env0 [mkInfo kBuf true true; mkInfo kBuf true true] (table (t_buf (zeros 168))) IClose = Err EAccountBorrowFailed.
Proof. split; [ok_raw|]. split; [ok_arg|]. split; [ok_lam|]. vm_compute. auto. Qed.

Theorem C76_burn : forall e infos w a s orec og l lg, told e infos w a -> lam_ok w -> arg infos 1 s -> optional e infos 2 orec -> optional e infos 3 og ->
  (held e w a -> live w a -> well_formed (data (w a)) l /\ manager_sane l /\ grouping_sane l) ->
  (forall g, og = Some g -> s_group (data (w a)) = pk_bytes g -> held e w g /\ writable infos g /\ well_formed (data (w g)) lg /\ grouping_sane lg) ->
  lamports (w (receiver s orec)) + lamports (w a) < 18446744073709551616 ->
  answers (process e infos w IBurn) (front true e infos w a ++
  [(held e w a, EIllegalOwner); (signed infos s, EMissingRequiredSignature); (live w a, EUninitialized); (authorized (data (w a)) l s RBurn, EInvalidBurnAuthority)] ++
  leave_conds e w a og lg ++
  [(forall b, lookup XGrouping (ext_list l) = Some b -> gr_size b = 0, EGroupNotEmpty)] ++ empty_conds infos w a (receiver s orec)).
Proof. exact burn_answers. Qed.
Print Assumptions C76_burn.
Ltac ok_none := ok_arg.
Example C76_burn_case : told env0 (i_bn kGroup) w_grp kAsset /\ lam_ok w_grp /\ arg (i_bn kGroup) 1 kHolder /\ optional env0 (i_bn kGroup) 2 None /\ optional env0 (i_bn kGroup) 3 (Some kGroup) /\
  well_formed (data (w_grp kAsset)) plain_exts /\ manager_sane plain_exts /\ grouping_sane plain_exts /\
  held env0 w_grp kGroup /\ writable (i_bn kGroup) kGroup /\ well_formed (data (w_grp kGroup)) (grp_exts 2 3) /\ grouping_sane (grp_exts 2 3) /\
  process env0 (i_bn kProg) w_grp IBurn = Err ENotEnoughAccountKeys /\
  process env0 (i_bn kOther) w_grp IBurn = Err EInvalidArgument /\
  process env0 [mkInfo kGroup false true; mkInfo kHolder true true; mkInfo kProg false false; mkInfo kProg false false] w_grp IBurn = Err EGroupNotEmpty /\
  process env0 [mkInfo kAsset false true; mkInfo kOther true true; mkInfo kProg false false; mkInfo kGroup false true] w_grp IBurn = Err EInvalidBurnAuthority.
Proof.
  split; [ok_told|]. split; [apply table_lam_ok; vm_compute; reflexivity|]. split; [ok_arg|]. split; [ok_none|]. split; [ok_opt|].
  split; [apply mk_wf; vm_compute; reflexivity|]. split; [intros b H; found H|]. split; [intros b H; found H|]. split; [vm_compute; reflexivity|]. split; [ok_wr|].
  split; [apply mk_wf; vm_compute; reflexivity|]. split; [intros b H; found H; vm_compute; lia|]. vm_compute. auto 10.
Qed.

Theorem C76_transfer : forall e infos w a s r og l lg, told e infos w a -> arg infos 1 s -> arg infos 2 r -> optional e infos 3 og ->
  (held e w a -> live w a -> well_formed (data (w a)) l /\ manager_sane l /\ royalties_sane l) ->
  (forall g, og = Some g -> held e w g -> s_group (data (w a)) = pk_bytes g -> data (w g) <> [] /\ (s_disc (data (w g)) = x01 -> well_formed (data (w g)) lg /\ royalties_sane lg)) ->
  answers (process e infos w ITransfer) (front true e infos w a ++
  [(held e w a, EIllegalOwner); (signed infos s, EMissingRequiredSignature); (live w a, EUninitialized);
   (allows e w a s r l, EAssertionFailure); (s_standard (data (w a)) <> x02, ECannotTransferSoulbound);
   (authorized (data (w a)) l s RTransfer, EInvalidTransferAuthority)] ++ group_conds e w a s r og l lg).
Proof. exact transfer_answers. Qed.
Print Assumptions C76_transfer.
Definition i_trs (s g : pubkey) : list ainfo := [mkInfo kAsset false true; mkInfo s true true; mkInfo kTo false false; mkInfo g false false].
Example C76_transfer_case : told env0 (i_tr kGroup) w_grp kAsset /\ arg (i_tr kGroup) 1 kHolder /\ arg (i_tr kGroup) 2 kTo /\ optional env0 (i_tr kGroup) 3 (Some kGroup) /\
  well_formed (data (w_grp kAsset)) plain_exts /\ manager_sane plain_exts /\ royalties_sane plain_exts /\
  well_formed (data (w_grp kGroup)) (grp_exts 2 3) /\ royalties_sane (grp_exts 2 3) /\
  process env0 (i_tr kProg) w_grp ITransfer = Err ENotEnoughAccountKeys /\
  process env0 (i_tr kOther) w_grp ITransfer = Err EInvalidGroup /\
  process env0 (i_trs kOther kGroup) w_grp ITransfer = Err EInvalidTransferAuthority /\
  process env0 (i_tr kProg) (table [(kAsset, acc soul_data)]) ITransfer = Err ECannotTransferSoulbound /\
  process env0 (i_tr kProg) (table [(kAsset, acc locked_data)]) ITransfer = Err ELockedAsset.
Proof.
  split; [ok_told|]. split; [ok_arg|]. split; [ok_arg|]. split; [ok_opt|]. split; [apply mk_wf; vm_compute; reflexivity|].
  split; [intros b H; found H|]. split; [intros b H; found H|]. split; [apply mk_wf; vm_compute; reflexivity|]. split; [intros b H; found H|]. vm_compute. auto 10.
Qed.

(** [v]: Verify, else Unverify *)
Theorem C76_verify : forall (v : bool) e infos w a c l, told e infos w a -> arg infos 1 c ->
  (held e w a -> live w a -> well_formed (data (w a)) l /\ (forall b, lookup XCreators (ext_list l) = Some b -> length b = (34 * cr_count b)%nat)) ->
  answers (process e infos w (if v then IVerify else IUnverify)) (front false e infos w a ++
    [(signed infos c, EMissingRequiredSignature); (held e w a, EIllegalOwner); (live w a, EUninitialized);
     (lookup XCreators (ext_list l) <> None, EExtensionNotFound);
     (forall b, lookup XCreators (ext_list l) = Some b -> exists i, (i < cr_count b)%nat /\ cr_addr_at b i = pk_bytes c, EInvalidArgument)]).
Proof. exact verify_answers. Qed.
Print Assumptions C76_verify.
Example C76_verify_case : told env0 (i_verify kTo) w_twice kAsset /\ arg (i_verify kTo) 1 kTo /\ well_formed (data (w_twice kAsset)) (up_exts (twice x00)) /\
  (forall b, lookup XCreators (ext_list (up_exts (twice x00))) = Some b -> length b = (34 * cr_count b)%nat) /\
  process env0 (i_verify kTo) w_twice IVerify = Err EInvalidArgument /\ process env0 (i_verify kTo) w_plain IUnverify = Err EExtensionNotFound /\
  okb (process env0 (i_verify kOther) w_twice IVerify) = true.
Proof. split; [ok_told|]. split; [ok_arg|]. split; [apply mk_wf; vm_compute; reflexivity|]. split; [intros b H; found H; vm_compute; reflexivity|]. vm_compute. auto. Qed.

Theorem C76_extend : forall e infos w a auth payer sysp v, told e infos w a -> arg infos 1 auth -> arg infos 2 payer -> optional e infos 3 sysp -> e_prog e <> pk_zero -> 0 <= v ->
  answers (process e infos w (IResize (Extend v))) (front false e infos w a ++
    (signed infos auth, EMissingRequiredSignature) :: charge e infos w a auth ++ grow_conds e infos w a payer sysp (zlen (data (w a)) + v)).
Proof. exact extend_answers. Qed.
Print Assumptions C76_extend.
Example C76_extend_case : told env0 i_rz (w_rz [] 10 1000) kAsset /\ arg i_rz 1 kAuth /\ arg i_rz 2 kPayer /\ optional env0 i_rz 3 (Some kSys) /\
  process env0 i_rz (w_rz [] 10 100) (IResize (Extend 100)) = Err ECpi /\
  process env0 i_rz (w_rz [] 10 100000) (IResize (Extend 10241)) = Err EAccountDataTooSmall /\
  process env0 [mkInfo kAsset false true; mkInfo kAuth true false; mkInfo kPayer false true; mkInfo kSys false false] (w_rz [] 10 1000) (IResize (Extend 100)) = Err EMissingRequiredSignature /\
  process env0 [mkInfo kAsset false true; mkInfo kAuth true false; mkInfo kPayer true true; mkInfo kProg false false] (w_rz [] 10 1000) (IResize (Extend 100)) = Err ENotEnoughAccountKeys.
Proof. split; [ok_told|]. split; [ok_arg|]. split; [ok_arg|]. split; [ok_opt|]. vm_compute. auto. Qed.

(** Update of name and flag alone *)
Theorem C76_update_plain : forall e infos w a auth ob og op os u, told e infos w a -> arg infos 1 auth ->
  optional e infos 2 ob -> optional e infos 3 og -> optional e infos 4 op -> optional e infos 5 os -> u_ext u = None -> ob = None ->
  answers (process e infos w (IUpdate u)) (front false e infos w a ++ (signed infos auth, EMissingRequiredSignature) :: charge e infos w a auth).
Proof. exact update_plain_answers. Qed.
Print Assumptions C76_update_plain.
(** Update with an extension: what is asked for before its payload is looked at *)
Theorem C76_update : forall e infos w a auth ob og op os u, told e infos w a -> arg infos 1 auth ->
  optional e infos 2 ob -> optional e infos 3 og -> optional e infos 4 op -> optional e infos 5 os ->
  begins (process e infos w (IUpdate u)) (front false e infos w a ++ (signed infos auth, EMissingRequiredSignature) :: charge e infos w a auth ++
    [(u_ext u = None \/ ob = None, EInvalidInstructionData);
     (forall b, ob = Some b -> held e w b, EIllegalOwner);
     (ob <> Some a, EAccountBorrowFailed);
     (forall b, ob = Some b -> (184 <= length (data (w b)))%nat, EInvalidAccountLength);
     (forall b, ob = Some b -> s_disc (data (w b)) = x00, EAlreadyInitialized)]).
Proof. exact update_begins. Qed.
Print Assumptions C76_update.
Definition u_name_only : update_input := mkUpdInput (Some [x41]) None None.
Example C76_update_case : told env0 (i_up kAuth kBuf) (w_up 9000) kAsset /\ arg (i_up kAuth kBuf) 1 kAuth /\ optional env0 (i_up kAuth kBuf) 2 (Some kBuf) /\
  process env0 (i_up kAuth kBuf) (w_up 9000) (IUpdate (mkUpdInput None None (Some x_link))) = Err EInvalidInstructionData /\
  process env0 (i_up kAuth kPayer) (w_up 9000) (IUpdate u_name_only) = Err EIllegalOwner /\
  process env0 (i_up kAuth kAsset) (w_up 9000) (IUpdate u_name_only) = Err EAccountBorrowFailed /\
  process env0 (i_up kHolder kProg) (w_up 9000) (IUpdate u_name_only) = Err EInvalidAuthority /\
  okb (process env0 (i_up kAuth kProg) (w_up 9000) (IUpdate u_name_only)) = true.
Proof. split; [ok_told|]. split; [ok_arg|]. split; [ok_opt|]. vm_compute. auto. Qed.

(** Remove: what is asked for before the bytes are moved *)
Theorem C76_remove : forall e infos w a auth og dest t hd l1 b l2 tl, told e infos w a -> arg infos 1 auth -> optional e infos 2 og -> arg infos 3 dest ->
  layout (data (w a)) hd (l1 ++ b :: l2) tl -> bk_type b = t -> Forall (fun x => bk_type x <> t) l1 ->
  168 + sect_size l1 + 16 < zlen (data (w a)) -> (t = XGrouping -> (16 <= length (bk_data b) <= 48)%nat) ->
  begins (process e infos w (IRemove t)) (front false e infos w a ++ (signed infos auth, EMissingRequiredSignature) :: charge e infos w a auth ++
    [(t <> XManager /\ t <> XProxy, EExtensionDataInvalid); (t = XGrouping -> gr_size (bk_data b) = 0, EGroupNotEmpty)]).
Proof. exact remove_begins. Qed.
Print Assumptions C76_remove.
Example C76_remove_case : told env0 (i_rm kAuth) (w_rm 1) kGroup /\ arg (i_rm kAuth) 1 kAuth /\ optional env0 (i_rm kAuth) 2 None /\ arg (i_rm kAuth) 3 kTo /\
  layout (data (w_rm 1 kGroup)) (header x01 x00 x00 x01 kHolder pk_zero kAuth pk_zero x00) ([blk_of XBlob [x01]] ++ blk_of XGrouping (grp_payload 1 3) :: []) [] /\
  process env0 (i_rm kAuth) (w_rm 1) (IRemove XGrouping) = Err EGroupNotEmpty /\
  process env0 (i_rm kHolder) (w_rm 0) (IRemove XGrouping) = Err EInvalidAuthority.
Proof.
  split; [ok_told|]. split; [ok_arg|]. split; [ok_none|]. split; [ok_arg|]. split; [|vm_compute; auto].
  change (data (w_rm 1 kGroup)) with (grp_data 1 3). unfold grp_data, mk. rewrite <- (app_nil_r (enc_sect 168 (grp_exts 1 3))). apply mk_layout. vm_compute. reflexivity.
Qed.

(** Create, Allocate and Write: what is asked for first *)
Theorem C76_create : forall e infos w a auth owner og oa op os m, told e infos w a -> arg infos 1 auth -> arg infos 2 owner ->
  optional e infos 3 og -> optional e infos 4 oa -> optional e infos 5 op -> optional e infos 6 os ->
  begins (process e infos w (ICreate m)) (front false e infos w a ++
    (signed infos a, EMissingRequiredSignature) :: blank_conds e w a ++ fund_conds infos (data (w a) = []) op os).
Proof. exact create_begins. Qed.
Print Assumptions C76_create.
Theorem C76_allocate : forall e infos w a op os x, told e infos w a -> optional e infos 1 op -> optional e infos 2 os ->
  begins (process e infos w (IAllocate x)) (front false e infos w a ++
    (signed infos a, EMissingRequiredSignature) :: blank_conds e w a ++
    (data (w a) = [] -> forall bs, x_data x = Some bs -> zlen bs mod 4294967296 <= x_length x, EExtensionLengthInvalid) :: fund_conds infos (data (w a) = []) op os).
Proof. exact allocate_begins. Qed.
Print Assumptions C76_allocate.
Theorem C76_write : forall e infos w a payer sysp x, told e infos w a -> arg infos 1 payer -> arg infos 2 sysp ->
  begins (process e infos w (IWrite x)) (front false e infos w a ++
    [(sysp = pk_zero, EIncorrectProgramId); (signed infos payer, EMissingRequiredSignature); (signed infos a, EMissingRequiredSignature);
     (held e w a, EIllegalOwner); ((168 <= length (data (w a)))%nat, EInvalidAccountLength); (s_disc (data (w a)) = x00, EAlreadyInitialized)]).
Proof. exact write_begins. Qed.
Print Assumptions C76_write.
Example C76_build_case : told env0 (i_al true) (w_al raw_data 9000) kAsset /\ optional env0 (i_al true) 1 (Some kPayer) /\ optional env0 (i_al true) 2 (Some kSys) /\
  process env0 (i_al false) (w_al raw_data 9000) (IAllocate (x_al XLinks 3 [x01; x41; x00])) = Err EMissingRequiredSignature /\
  process env0 (i_al true) (w_al plain_data 9000) (IAllocate (x_al XLinks 3 [x01; x41; x00])) = Err EAlreadyInitialized /\
  process env0 (i_al true) (w_al [] 9000) (IAllocate (x_al XLinks 2 [x01; x41; x00])) = Err EExtensionLengthInvalid /\
  process env0 [mkInfo kAsset true true; mkInfo kProg false false; mkInfo kSys false false] (w_al [] 9000) (IAllocate (x_al XLinks 3 [x01; x41; x00])) = Err ENotEnoughAccountKeys /\
  process env0 [mkInfo kAsset true true; mkInfo kPayer true true; mkInfo kOther false false] (w_al [] 9000) (IAllocate (x_al XLinks 3 [x01; x41; x00])) = Err EIncorrectProgramId /\
  process env0 (i_al true) (w_al plain_data 9000) (IWrite (mkDataInput false [x02])) = Err EAlreadyInitialized /\
  process env0 (i_cr no_info no_info) (w_cr plain_data 9000) (ICreate (m_cr NonFungible [])) = Err EAlreadyInitialized.
Proof. split; [ok_raw|]. split; [ok_opt|]. split; [ok_opt|]. vm_compute. auto 10. Qed.

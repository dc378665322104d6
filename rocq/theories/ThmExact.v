(** Property theorems: when instructions go through (C58).  Each theorem says that
    an instruction succeeds if and only if its conditions hold, so a program that
    asks for more, or for less, violates it. *)
From Verif Require Import Base State Layout Constr Ext World Proc BaseL Spec SpecB SpecC SpecE WorldL LayoutL ConstrL ExactL ExactM Sample SampleE.
From Coq Require Import Strings.Byte.

(** Approve: the owner signs, nothing is locked *)
Theorem C58_approve : forall e infos w asset owner del a, ready e infos w asset -> arg infos 1 owner -> arg infos 2 del ->
  (exists w', process e infos w (IApprove a) = Ok w') <->
  gate infos w asset /\ none_locked e infos w /\ signed infos owner /\ s_owner (data (w asset)) = pk_bytes owner.
Proof. exact approve_exact. Qed.
Print Assumptions C58_approve.
Definition x3 (s : pubkey) (third : ainfo) : list ainfo := [mkInfo kAsset false true; mkInfo s true false; third].
Definition to3 : ainfo := mkInfo kOther false false.
Example C58_approve_case : ready env0 (x3 kHolder to3) w_plain kAsset /\ arg (x3 kHolder to3) 1 kHolder /\ arg (x3 kHolder to3) 2 kOther /\
  okb (process env0 (x3 kHolder to3) w_plain (IApprove (DSome [RLock]))) = true /\
  okb (process env0 (x3 kDeleg to3) w_plain (IApprove (DSome [RLock]))) = false.
Proof. split; [ok_ready|]. split; [ok_arg|]. split; [ok_arg|]. vm_compute. auto. Qed.

(** Revoke: the owner or the delegate signs, nothing is locked *)
Theorem C58_revoke : forall e infos w asset signer a, ready e infos w asset -> arg infos 1 signer ->
  (exists w', process e infos w (IRevoke a) = Ok w') <->
  gate infos w asset /\ none_locked e infos w /\ signed infos signer /\
  (s_owner (data (w asset)) = pk_bytes signer \/ s_delegate (data (w asset)) <> no_key /\ s_delegate (data (w asset)) = pk_bytes signer).
Proof. exact revoke_exact. Qed.
Print Assumptions C58_revoke.
Example C58_revoke_case : ready env0 (x3 kDeleg to3) w_plain kAsset /\ arg (x3 kDeleg to3) 1 kDeleg /\
  okb (process env0 (x3 kDeleg to3) w_plain (IRevoke DAll)) = true /\
  okb (process env0 (x3 kHolder to3) w_plain (IRevoke DAll)) = true /\
  okb (process env0 (x3 kOther to3) w_plain (IRevoke DAll)) = false.
Proof. split; [ok_ready|]. split; [ok_arg|]. vm_compute. auto. Qed.

(** Handover: the authority of a mutable asset and the new authority sign *)
Theorem C58_handover : forall e infos w asset auth new, ready e infos w asset -> arg infos 1 auth -> arg infos 2 new ->
  (exists w', process e infos w IHandover = Ok w') <->
  gate infos w asset /\ in_charge infos w asset auth /\ signed infos new.
Proof. exact handover_exact. Qed.
Print Assumptions C58_handover.
Definition new3 : ainfo := mkInfo kOther true false.
Example C58_handover_case : ready env0 (x3 kAuth new3) w_plain kAsset /\ arg (x3 kAuth new3) 1 kAuth /\ arg (x3 kAuth new3) 2 kOther /\
  okb (process env0 (x3 kAuth new3) w_plain IHandover) = true /\
  okb (process env0 (x3 kAuth to3) w_plain IHandover) = false.
Proof. split; [ok_ready|]. split; [ok_arg|]. split; [ok_arg|]. vm_compute. auto. Qed.

(** Group: someone signs for a group that has room and the asset's authority; the
    asset is in no group *)
Theorem C58_group : forall e infos w asset g auth lg, ready e infos w asset -> arg infos 1 g -> arg infos 2 auth -> writable infos g ->
  (acct_owner (w g) = e_prog e -> initialized (data (w g)) -> well_formed (data (w g)) lg /\ grouping_sane lg) ->
  (exists w', process e infos w IGroup = Ok w') <->
  gate infos w asset /\ signed infos auth /\ acct_owner (w g) = e_prog e /\ initialized (data (w g)) /\ g <> asset /\
  s_group (data (w asset)) = no_key /\ s_authority (data (w g)) = s_authority (data (w asset)) /\
  exists b, lookup XGrouping (ext_list lg) = Some b /\ group_signer (data (w g)) b auth /\ (gr_max b = 0 \/ gr_size b < gr_max b).
Proof. exact join_exact. Qed.
Print Assumptions C58_group.
Definition w_room (size : Z) : world := table [(kAsset, acc plain_data); (kGroup, acc (grp_data size 3))].
Definition ig (s : pubkey) : list ainfo := [mkInfo kAsset false true; mkInfo kGroup false true; mkInfo s true false].
Example C58_group_case : ready env0 (ig kAuth) (w_room 2) kAsset /\ arg (ig kAuth) 1 kGroup /\ arg (ig kAuth) 2 kAuth /\ writable (ig kAuth) kGroup /\
  well_formed (data (w_room 2 kGroup)) (grp_exts 2 3) /\ grouping_sane (grp_exts 2 3) /\
  okb (process env0 (ig kAuth) (w_room 2) IGroup) = true /\ okb (process env0 (ig kDeleg) (w_room 2) IGroup) = true /\
  okb (process env0 (ig kHolder) (w_room 2) IGroup) = false /\ okb (process env0 (ig kAuth) (w_room 3) IGroup) = false.
Proof.
  split; [ok_ready|]. split; [ok_arg|]. split; [ok_arg|]. split; [ok_wr|]. split; [apply mk_wf; vm_compute; reflexivity|].
  split; [intros b H; found H; vm_compute; lia|]. vm_compute. auto.
Qed.

(** Ungroup: someone signs for the group the asset is in *)
Theorem C58_ungroup : forall e infos w asset g auth lg, ready e infos w asset -> arg infos 1 g -> arg infos 2 auth -> writable infos g ->
  (acct_owner (w g) = e_prog e -> initialized (data (w g)) -> well_formed (data (w g)) lg /\ grouping_sane lg) ->
  (exists w', process e infos w IUngroup = Ok w') <->
  gate infos w asset /\ signed infos auth /\ acct_owner (w g) = e_prog e /\ initialized (data (w g)) /\ g <> asset /\
  s_group (data (w asset)) = pk_bytes g /\
  exists b, lookup XGrouping (ext_list lg) = Some b /\ group_signer (data (w g)) b auth.
Proof. exact leave_exact. Qed.
Print Assumptions C58_ungroup.
Example C58_ungroup_case : ready env0 (ig kDeleg) w_grp kAsset /\ arg (ig kDeleg) 1 kGroup /\ arg (ig kDeleg) 2 kDeleg /\ writable (ig kDeleg) kGroup /\
  well_formed (data (w_grp kGroup)) (grp_exts 2 3) /\ grouping_sane (grp_exts 2 3) /\
  okb (process env0 (ig kDeleg) w_grp IUngroup) = true /\ okb (process env0 (ig kAuth) w_grp IUngroup) = true /\
  okb (process env0 (ig kHolder) w_grp IUngroup) = false.
Proof.
  split; [ok_ready|]. split; [ok_arg|]. split; [ok_arg|]. split; [ok_wr|]. split; [apply mk_wf; vm_compute; reflexivity|].
  split; [intros b H; found H; vm_compute; lia|]. vm_compute. auto.
Qed.

(** Close: a buffer signs for itself and has somewhere to send its balance *)
Theorem C58_close : forall e infos w buffer dest, arg infos 0 buffer -> arg infos 1 dest -> writable infos buffer -> plain_accounts e infos w -> lam_ok w ->
  (exists w', process e infos w IClose = Ok w') <->
  signed infos buffer /\ acct_owner (w buffer) = e_prog e /\ (data (w buffer) = [] \/ s_disc (data (w buffer)) = x00) /\ can_empty infos w buffer dest.
Proof. exact close_exact. Qed.
Print Assumptions C58_close.
Definition t_buf (d : bytes) := [(kBuf, acc d); (kTo, wal 5)].
Definition i_cl (s : bool) : list ainfo := [mkInfo kBuf s true; mkInfo kTo false true].
Example C58_close_case : arg (i_cl true) 0 kBuf /\ arg (i_cl true) 1 kTo /\ writable (i_cl true) kBuf /\ plain_accounts env0 (i_cl true) (table (t_buf (zeros 168))) /\
  lam_ok (table (t_buf (zeros 168))) /\
  okb (process env0 (i_cl true) (table (t_buf (zeros 168))) IClose) = true /\
  okb (process env0 (i_cl false) (table (t_buf (zeros 168))) IClose) = false /\
  okb (process env0 (i_cl true) (table (t_buf plain_data)) IClose) = false.
Proof.
  split; [ok_arg|]. split; [ok_arg|]. split; [ok_wr|]. split; [apply plain_table; vm_compute; reflexivity|].
  split; [apply table_lam_ok; vm_compute; reflexivity|]. vm_compute. auto.
Qed.

(** Burn: someone with the right signs, nothing is locked, an empty group if it is
    one, and the group it is in is passed along *)
Theorem C58_burn : forall e infos w asset signer r2 g l lg, ready e infos w asset -> lam_ok w ->
  arg infos 1 signer -> arg infos 2 r2 -> arg infos 3 g -> writable infos g ->
  well_formed (data (w asset)) l -> manager_sane l -> grouping_sane l ->
  (s_group (data (w asset)) <> no_key -> acct_owner (w g) = e_prog e -> pk_bytes g = s_group (data (w asset)) -> well_formed (data (w g)) lg /\ grouping_sane lg) ->
  forall dest, (r2 = e_prog e /\ dest = signer \/ r2 <> e_prog e /\ dest = r2) ->
  (exists w', process e infos w IBurn = Ok w') <->
  gate infos w asset /\ none_locked e infos w /\ signed infos signer /\ authorized (data (w asset)) l signer RBurn /\
  can_empty infos w asset dest /\
  (forall b, lookup XGrouping (ext_list l) = Some b -> gr_size b = 0) /\
  (s_group (data (w asset)) <> no_key ->
     g <> e_prog e /\ g <> asset /\ pk_bytes g = s_group (data (w asset)) /\ acct_owner (w g) = e_prog e /\
     exists b, lookup XGrouping (ext_list lg) = Some b /\ 1 <= gr_size b).
Proof. exact burn_exact. Qed.
Print Assumptions C58_burn.
Definition i_bn (g : pubkey) : list ainfo := [mkInfo kAsset false true; mkInfo kHolder true true; mkInfo kProg false false; mkInfo g false true].
Example C58_burn_case : ready env0 (i_bn kGroup) w_grp kAsset /\ lam_ok w_grp /\ arg (i_bn kGroup) 1 kHolder /\ arg (i_bn kGroup) 2 kProg /\
  arg (i_bn kGroup) 3 kGroup /\ writable (i_bn kGroup) kGroup /\
  well_formed (data (w_grp kAsset)) plain_exts /\ manager_sane plain_exts /\ grouping_sane plain_exts /\
  well_formed (data (w_grp kGroup)) (grp_exts 2 3) /\ grouping_sane (grp_exts 2 3) /\
  okb (process env0 (i_bn kGroup) w_grp IBurn) = true /\
  okb (process env0 (i_bn kProg) w_grp IBurn) = false.
Proof.
  split; [ok_ready|]. split; [apply table_lam_ok; vm_compute; reflexivity|]. split; [ok_arg|]. split; [ok_arg|]. split; [ok_arg|].
  split; [ok_wr|]. split; [apply mk_wf; vm_compute; reflexivity|].
  split; [intros b H; found H|]. split; [intros b H; found H|]. split; [apply mk_wf; vm_compute; reflexivity|].
  split; [intros b H; found H; vm_compute; lia|]. vm_compute. auto.
Qed.

(** Transfer: someone with the right signs, nothing is locked, the asset is not
    soulbound and the royalties, its own or its group's, allow it *)
Theorem C58_transfer : forall e infos w asset signer recipient og l lg, ready e infos w asset ->
  arg infos 1 signer -> arg infos 2 recipient -> optional e infos 3 og ->
  well_formed (data (w asset)) l -> manager_sane l -> royalties_sane l ->
  (forall g, og = Some g -> acct_owner (w g) = e_prog e -> s_disc (data (w g)) = x01 -> well_formed (data (w g)) lg /\ royalties_sane lg) ->
  (exists w', process e infos w ITransfer = Ok w') <->
  gate infos w asset /\ none_locked e infos w /\ signed infos signer /\ authorized (data (w asset)) l signer RTransfer /\
  s_standard (data (w asset)) <> x02 /\ allows e w asset signer recipient l /\
  (s_owner (data (w asset)) <> pk_bytes recipient -> s_group (data (w asset)) <> no_key -> lookup XRoyalties (ext_list l) = None ->
     exists g, og = Some g /\ pk_bytes g = s_group (data (w asset)) /\ g <> asset /\ acct_owner (w g) = e_prog e /\ s_disc (data (w g)) = x01 /\
       allows e w asset signer recipient lg).
Proof. exact transfer_exact. Qed.
Print Assumptions C58_transfer.
Definition i_tr (g : pubkey) : list ainfo := [mkInfo kAsset false true; mkInfo kHolder true true; mkInfo kTo false false; mkInfo g false false].
Example C58_transfer_case : ready env0 (i_tr kGroup) w_grp kAsset /\ arg (i_tr kGroup) 1 kHolder /\ arg (i_tr kGroup) 2 kTo /\
  optional env0 (i_tr kGroup) 3 (Some kGroup) /\
  well_formed (data (w_grp kAsset)) plain_exts /\ manager_sane plain_exts /\ royalties_sane plain_exts /\
  well_formed (data (w_grp kGroup)) (grp_exts 2 3) /\ royalties_sane (grp_exts 2 3) /\
  okb (process env0 (i_tr kGroup) w_grp ITransfer) = true /\
  okb (process env0 (i_tr kProg) w_grp ITransfer) = false.
Proof.
  split; [ok_ready|]. split; [ok_arg|]. split; [ok_arg|]. split; [split; [ok_arg|intro E; apply (f_equal pk_bytes) in E; vm_compute in E; discriminate E]|].
  split; [apply mk_wf; vm_compute; reflexivity|].
  split; [intros b H; found H|]. split; [intros b H; found H|]. split; [apply mk_wf; vm_compute; reflexivity|].
  split; [intros b H; found H|]. vm_compute. auto.
Qed.

(** Resize: the authority of a mutable asset signs and the rent can be settled *)
Theorem C58_trim : forall e infos w asset auth payer sysp, ready e infos w asset ->
  arg infos 1 auth -> arg infos 2 payer -> optional e infos 3 sysp -> lam_ok w -> env_ok e -> e_prog e <> pk_zero ->
  forall hd l tl, layout (data (w asset)) hd l tl ->
  (exists w', process e infos w (IResize Trim) = Ok w') <->
  gate infos w asset /\ in_charge infos w asset auth /\
  (tl <> [] -> can_shrink e infos w asset payer (168 + sect_size l)) /\
  (tl = [] -> can_grow e infos w asset (Some payer) sysp (168 + sect_size l)).
Proof. exact trim_exact. Qed.
Print Assumptions C58_trim.
Theorem C58_extend : forall e infos w asset auth payer sysp, ready e infos w asset ->
  arg infos 1 auth -> arg infos 2 payer -> optional e infos 3 sysp -> e_prog e <> pk_zero ->
  forall v, 0 <= v ->
  (exists w', process e infos w (IResize (Extend v)) = Ok w') <->
  gate infos w asset /\ in_charge infos w asset auth /\ can_grow e infos w asset (Some payer) sysp (zlen (data (w asset)) + v).
Proof. exact extend_exact. Qed.
Print Assumptions C58_extend.
Definition i_rz : list ainfo := [mkInfo kAsset false true; mkInfo kAuth true false; mkInfo kPayer true true; mkInfo kSys false false].
Definition t_rz (tl : bytes) (lam pay : Z) := [(kAsset, mkAcct lam kProg (plain_data ++ tl)); (kPayer, wal pay)].
Definition w_rz (tl : bytes) (lam pay : Z) : world := table (t_rz tl lam pay).
Example C58_resize_case : ready env0 i_rz (w_rz (zeros 40) 300 1000) kAsset /\ arg i_rz 1 kAuth /\ arg i_rz 2 kPayer /\ optional env0 i_rz 3 (Some kSys) /\
  lam_ok (w_rz (zeros 40) 300 1000) /\ layout (data (w_rz (zeros 40) 300 1000 kAsset)) (header x01 x00 x00 x01 kHolder pk_zero kAuth kDeleg x07) plain_exts (zeros 40) /\
  okb (process env0 i_rz (w_rz (zeros 40) 400 0) (IResize Trim)) = true /\
  okb (process env0 i_rz (w_rz [] 10 1000) (IResize (Extend 100))) = true /\
  okb (process env0 i_rz (w_rz [] 10 100) (IResize (Extend 100))) = false /\
  okb (process env0 i_rz (w_rz [] 10 100000) (IResize (Extend 10241))) = false.
Proof.
  split; [ok_ready|]. split; [ok_arg|]. split; [ok_arg|]. split; [split; [ok_arg|intro E; apply (f_equal pk_bytes) in E; vm_compute in E; discriminate E]|].
  split; [apply table_lam_ok; vm_compute; reflexivity|].
  split. { change (data (w_rz (zeros 40) 300 1000 kAsset)) with (plain_data ++ zeros 40). unfold plain_data, mk. rewrite <- app_assoc. apply mk_layout. vm_compute. reflexivity. }
  vm_compute. auto.
Qed.

(** Remove: the authority of a mutable asset signs; not for managers and proxies,
    nor for groups with members; the balance no longer needed can be paid out.
    An extension of length 0 at the very end of the account is not found. *)
Theorem C58_remove : forall e infos w asset auth og recipient t hd l1 b l2 tl, ready e infos w asset -> arg infos 1 auth -> optional e infos 2 og -> arg infos 3 recipient ->
  lam_ok w -> env_ok e -> layout (data (w asset)) hd (l1 ++ b :: l2) tl -> bk_type b = t -> Forall (fun x => bk_type x <> t) l1 ->
  (t = XGrouping -> (16 <= length (bk_data b) <= 48)%nat) ->
  (exists w', process e infos w (IRemove t) = Ok w') <->
  gate infos w asset /\ in_charge infos w asset auth /\ t <> XManager /\ t <> XProxy /\ (t = XGrouping -> gr_size (bk_data b) = 0) /\
  168 + sect_size l1 + 16 < zlen (data (w asset)) /\
  can_shrink e infos w asset recipient (zlen (data (w asset)) - blk_size b).
Proof. exact remove_exact. Qed.
Print Assumptions C58_remove.
Definition i_rm (a : pubkey) : list ainfo := [mkInfo kGroup false true; mkInfo a true false; mkInfo kProg false false; mkInfo kTo false true].
Definition w_rm (n : Z) : world := table [(kGroup, acc (grp_data n 3)); (kTo, wal 5)].
Example C58_remove_case : ready env0 (i_rm kAuth) (w_rm 0) kGroup /\ arg (i_rm kAuth) 1 kAuth /\ optional env0 (i_rm kAuth) 2 None /\ arg (i_rm kAuth) 3 kTo /\
  lam_ok (w_rm 0) /\ layout (data (w_rm 0 kGroup)) (header x01 x00 x00 x01 kHolder pk_zero kAuth pk_zero x00) ([blk_of XBlob [x01]] ++ blk_of XGrouping (grp_payload 0 3) :: []) [] /\
  Forall (fun x => bk_type x <> XGrouping) [blk_of XBlob [x01]] /\
  okb (process env0 (i_rm kAuth) (w_rm 0) (IRemove XGrouping)) = true /\
  okb (process env0 (i_rm kAuth) (w_rm 1) (IRemove XGrouping)) = false /\
  okb (process env0 (i_rm kHolder) (w_rm 0) (IRemove XGrouping)) = false.
Proof.
  split; [ok_ready|]. split; [ok_arg|]. split; [ok_arg|]. split; [ok_arg|].
  split; [apply table_lam_ok; vm_compute; reflexivity|].
  split. { change (data (w_rm 0 kGroup)) with (grp_data 0 3). unfold grp_data, mk. rewrite <- (app_nil_r (enc_sect 168 (grp_exts 0 3))). apply mk_layout. vm_compute. reflexivity. }
  split; [repeat constructor; discriminate|]. vm_compute. auto.
Qed.

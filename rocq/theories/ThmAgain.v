(** The same request twice (C84). *)
From Verif Require Import Base State Layout Constr Ext World Proc Spec SpecB SpecH SpecG SpecL SpecRent SpecTake WorldL LayoutL AgainL AgainM Sample ThmAuth ThmBuild ThmFrame ThmHist ThmGroup ThmCreators ThmLive ThmUpdate ThmRemove ThmTake.
From Coq Require Import Strings.Byte.

(** C84: Create, Lock, Burn, Close, Group, Ungroup, and Handover to somebody else,
    once carried out, are refused when sent again with the same accounts. *)
Theorem C84_refused : forall e infos w w1 i, e_prog e <> pk_zero -> lam_ok w -> sized w -> once_only infos i ->
  process e infos w i = Ok w1 -> refused e infos w1 i.
Proof. exact refused_again. Qed.
Print Assumptions C84_refused.
Example C84_refused_case : lam_ok w_man /\ sized w_man /\ once_only (i_lock kMan) ILock /\ once_only (i_hand kAuth kTo) IHandover /\ once_only i_group IGroup /\
  (exists w1, process env0 (i_lock kMan) w_man ILock = Ok w1 /\ process env0 (i_lock kMan) w1 ILock = Err ELockedAsset) /\
  (exists w1, process env0 (i_hand kAuth kTo) w_plain IHandover = Ok w1 /\ process env0 (i_hand kAuth kTo) w1 IHandover = Err EInvalidAuthority) /\
  (exists w1, process env0 i_group w_join IGroup = Ok w1 /\ process env0 i_group w1 IGroup = Err EAlreadyInGroup) /\
  exists w1, process env0 i_end w_a3 IBurn = Ok w1 /\ process env0 i_end w1 IBurn = Err EIllegalOwner.
Proof.
  split; [apply table_lam_ok; vm_compute; reflexivity|]. split; [apply table_sized; vm_compute; reflexivity|]. split; [exact I|].
  split. { intros old new (a & Ha & <-) (b & Hb & <-). injection Ha as <-. injection Hb as <-. discriminate. }
  split. { intros (a & Ha & E). injection Ha as <-. discriminate E. }
  split; [eexists; split; [apply (run_ok w_man); vm_compute; reflexivity|vm_compute; reflexivity]|].
  split; [eexists; split; [apply (run_ok w_plain); vm_compute; reflexivity|vm_compute; reflexivity]|].
  split; [eexists; split; [apply (run_ok w_join); vm_compute; reflexivity|vm_compute; reflexivity]|].
  eexists; split; [apply (run_ok w_a3); vm_compute; reflexivity|vm_compute; reflexivity].
Qed.

(** Transfer, Approve, Revoke, Unlock, Handover, Verify, Unverify and an Update without
    extension set something to a value they name.  Sent again, such a request is refused
    or changes nothing: nobody can be harmed by one that arrives twice. *)
Theorem C84_settled : forall e infos w w1 i, (forall k, arg infos 0 k -> exists l, well_formed (data (w k)) l) -> assigns e infos i ->
  process e infos w i = Ok w1 -> settled e infos w1 i.
Proof. exact settled_again. Qed.
Print Assumptions C84_settled.
Example C84_settled_case : (forall k, arg (i_verify kOther) 0 k -> exists l, well_formed (data (w_twice k)) l) /\ assigns env0 (i_verify kOther) IVerify /\
  exists w1 w2, process env0 (i_verify kOther) w_twice IVerify = Ok w1 /\ process env0 (i_verify kOther) w1 IVerify = Ok w2 /\ data (w1 kAsset) <> data (w_twice kAsset).
Proof.
  split. { intros k (a & Ha & <-). injection Ha as <-. exists (up_exts (twice x00)). apply mk_wf. vm_compute. reflexivity. }
  split; [exact I|]. eexists. eexists. split; [apply (run_ok w_twice); vm_compute; reflexivity|]. split; [apply (run_ok w_twice); vm_compute; reflexivity|]. vm_compute. discriminate.
Qed.

(** So is an Update with an extension given in the request: what it stores — creators'
    flags, a group's size — it stores again. *)
Theorem C84_update : forall e infos w w1 k l u x, env_ok e -> e_prog e <> pk_zero -> sized w -> arg infos 0 k -> arg infos 2 (e_prog e) ->
  well_formed (data (w k)) l -> u_ext u = Some x -> ext_arg x -> process e infos w (IUpdate u) = Ok w1 -> settled e infos w1 (IUpdate u).
Proof. exact update_again. Qed.
Print Assumptions C84_update.
Definition more_creators : ext_input := mkExtInput XCreators 102 (Some (pk_bytes kOther ++ [x00; x14] ++ pk_bytes kAuth ++ [x00; x14] ++ pk_bytes kTo ++ [x01; x3c])).
Example C84_update_case : sized w_up /\ well_formed (data (w_up kAsset)) (up_exts cur_creators) /\ ext_arg more_creators /\
  exists w1 w2, process env0 (i_up kProg) w_up (up more_creators) = Ok w1 /\ process env0 (i_up kProg) w1 (up more_creators) = Ok w2 /\
    lookup XCreators (ext_list (up_exts cur_creators)) = Some cur_creators /\
    data (w1 kAsset) = mk up_head (up_exts (pk_bytes kOther ++ [x01; x14] ++ pk_bytes kAuth ++ [x00; x14] ++ pk_bytes kTo ++ [x00; x3c])) /\ data (w2 kAsset) = data (w1 kAsset).
Proof.
  split; [apply table_sized; vm_compute; reflexivity|]. split; [apply mk_wf; vm_compute; reflexivity|]. split; [split; [discriminate|vm_compute; repeat split; congruence]|].
  eexists. eexists. split; [apply (run_ok w_up); vm_compute; reflexivity|]. split; [apply (run_ok w_up); vm_compute; reflexivity|]. vm_compute. auto.
Qed.

(** Allocate of a type that is there already is refused, whatever its contents. *)
Theorem C84_allocate : forall e infos w w1 k t bs hd l n, arg infos 0 k -> open_account (data (w k)) hd l n -> sized w -> t <> XNone -> zlen bs <= u32_max ->
  process e infos w (IAllocate (mkExtInput t (zlen bs) (Some bs))) = Ok w1 ->
  forall x, x_type x = t -> refused e infos w1 (IAllocate x).
Proof. exact allocate_once. Qed.
Print Assumptions C84_allocate.
Example C84_allocate_case : arg i_all 0 kAsset /\ open_account (data (w_bare kAsset)) (repeat x00 168) [] 0 /\
  exists w1, process env0 i_all w_bare (IAllocate (mkExtInput XBlob 5 (Some five))) = Ok w1 /\
    process env0 i_all w1 (IAllocate (mkExtInput XBlob 3 (Some [x01; x02; x03]))) = Err EAlreadyInitialized.
Proof.
  split; [apply first_arg|]. split; [|eexists; split; [apply (run_ok w_bare); vm_compute; reflexivity|vm_compute; reflexivity]].
  left. vm_compute. auto.
Qed.

(** The last extension is removed once. *)
Theorem C84_remove : forall e infos w w1 k t hd l b tl, arg infos 0 k -> layout (data (w k)) hd (l ++ [b]) tl -> bk_type b = t ->
  Forall (fun x => bk_type x <> t) l -> t <> XNone -> process e infos w (IRemove t) = Ok w1 -> refused e infos w1 (IRemove t).
Proof. exact remove_once. Qed.
Print Assumptions C84_remove.
Example C84_remove_case : tight (data (w_two kAsset)) two_exts /\
  exists w1, process env0 (i_remove kAsset) w_two (IRemove XCreators) = Ok w1 /\ process env0 (i_remove kAsset) w1 (IRemove XCreators) = Err EExtensionNotFound.
Proof.
  split; [change (data (w_two kAsset)) with two_data; apply (mk_wf _ two_exts); vm_compute; reflexivity|].
  eexists. split; [apply (run_ok w_two); vm_compute; reflexivity|vm_compute; reflexivity].
Qed.

(** A trimmed account is not changed by trimming it again. *)
Theorem C84_trim : forall e infos w w1 k hd l tl, e_prog e <> pk_zero -> env_ok e -> rent_mono e -> lam_ok w -> paid_by (e_rent e) (e_prog e) w ->
  arg infos 0 k -> layout (data (w k)) hd l tl -> process e infos w (IResize Trim) = Ok w1 -> settled e infos w1 (IResize Trim).
Proof. exact trim_again. Qed.
Print Assumptions C84_trim.
Definition w_slack : world := table [(kAsset, mkAcct (e_rent env0 (zlen (free_data ++ repeat x00 21))) kProg (free_data ++ repeat x00 21)); (kPayer, wal 1000)].
Example C84_trim_case : env_ok env0 /\ rent_mono env0 /\ lam_ok w_slack /\ paid_by (e_rent env0) kProg w_slack /\
  layout (data (w_slack kAsset)) (firstn 168 free_data) plain_exts (repeat x00 21) /\
  exists w1 w2, process env0 i_res w_slack (IResize Trim) = Ok w1 /\ process env0 i_res w1 (IResize Trim) = Ok w2 /\ data (w1 kAsset) = free_data /\ lamports (w1 kPayer) = 1021.
Proof.
  split; [exact env0_ok|]. split; [exact env0_mono|]. split; [apply table_lam_ok; vm_compute; reflexivity|]. split.
  { intros x Hx Hd. unfold w_slack, table in *. cbn [find fst snd] in *. destruct (pk_eqb x kAsset); [cbn [snd lamports data acct_owner] in *; lia|].
    destruct (pk_eqb x kPayer); cbn [snd lamports data acct_owner] in *; [vm_compute in Hx; discriminate Hx|vm_compute in Hx; discriminate Hx]. }
  split. { assert (E : data (w_slack kAsset) = firstn 168 free_data ++ enc_sect 168 plain_exts ++ repeat x00 21) by (vm_compute; reflexivity). rewrite E. apply mk_layout. vm_compute. reflexivity. }
  eexists. eexists. split; [apply (run_ok w_slack); vm_compute; reflexivity|]. split; [apply (run_ok w_slack); vm_compute; reflexivity|]. vm_compute. auto.
Qed.

(** Extend is different: sent twice, it extends twice. *)
Theorem C84_extend : forall e infos w w1 w2 k v, arg infos 0 k -> 0 <= v ->
  process e infos w (IResize (Extend v)) = Ok w1 -> process e infos w1 (IResize (Extend v)) = Ok w2 ->
  data (w2 k) = data (w k) ++ repeat x00 (Z.to_nat (2 * v)).
Proof. exact extend_more. Qed.
Print Assumptions C84_extend.
Example C84_extend_case : exists w1 w2, process env0 i_res w_fee (IResize (Extend 21)) = Ok w1 /\ process env0 i_res w1 (IResize (Extend 21)) = Ok w2 /\
  data (w2 kAsset) = free_data ++ repeat x00 42 /\ lamports (w2 kPayer) = 958.
Proof. eexists. eexists. split; [apply (run_ok w_fee); vm_compute; reflexivity|]. split; [apply (run_ok w_fee); vm_compute; reflexivity|]. vm_compute. auto. Qed.

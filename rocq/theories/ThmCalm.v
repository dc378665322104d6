(** Property theorems: requests on sound accounts get an answer (C90). *)
From Verif Require Import Base State Layout Constr Ext World Proc BaseL Spec SpecB SpecC SpecF SpecJ SpecCalm WorldL LayoutL AcceptL CalmL CalmM Sample SampleE ThmConstr ThmExact.
From Coq Require Import Strings.Byte.

(** Every request that brings no payload ends in success or an error code, whoever
    sends it with whatever accounts, signatures and arguments: no index is out of
    range, no cast fails, no raw copy leaves the data, no walk hangs. *)
Theorem C90_answered : forall e infos w, sound_accounts e infos w -> bounded w -> forall i, bare i -> answered (process e infos w i).
Proof. exact bare_answered. Qed.
Print Assumptions C90_answered.
(** Remove, which does not ask whether its account is an asset, needs the extensions of
    that account well-formed and readable in any case. *)
Theorem C90_remove : forall e infos w asset t l, sound_accounts e infos w -> arg infos 0 asset -> well_formed (data (w asset)) l -> readable l -> t <> XNone ->
  answered (process e infos w (IRemove t)).
Proof. exact remove_p. Qed.
Print Assumptions C90_remove.

Lemma plain_readable : readable plain_exts.
Proof. constructor; [|constructor]. apply blob_goes. eexists. vm_compute. reflexivity. Qed.
Lemma roy_readable : readable roy_exts.
Proof.
  constructor; [exact (Forall_inv plain_readable)|]. constructor; [|constructor]. apply (royalties_goes 0 _ eq_refl). eexists. vm_compute. reflexivity.
Qed.
Definition void_exts : list blk := plain_exts ++ [blk_of XGrouping (grp_payload 0 3)].
Definition w_void : world := table [(kGroup, acc (roy_data pk_zero void_exts)); (kTo, wal 5)].
Lemma grp_readable : readable void_exts.
Proof. constructor; [exact (Forall_inv plain_readable)|]. constructor; [|constructor]. vm_compute. lia. Qed.
Lemma table_bounded l : forallb (fun p => lamports (snd p) <? 1000000) l = true -> bounded (table l).
Proof.
  intros H j k _. assert (B : forall x, lamports (table l x) < 1000000); [|pose proof (B j); pose proof (B k); lia].
  intro x. unfold table. destruct (find _ l) as [p|] eqn:E; [|cbn; lia]. apply find_some in E as [E _]. rewrite forallb_forall in H. specialize (H p E). lia.
Qed.
Lemma mk_sound hd l : (zlen hd =? 168) && forallb blkb l && (zlen (mk hd l) <? 2147483648) = true -> readable l -> sound (mk hd l).
Proof. intros H R. pose proof (proj1 (mk_wf _ _ H)) as W. split; [intros _|eauto]. destruct W as (h & tl & -> & L & _). rewrite app_length. unfold zlen in L. lia. Qed.
Example C90_case : let w := w_ingroup kMan in sound_accounts env0 (i_move kGroup) w /\ bounded w /\ bare ITransfer /\ bare IBurn /\
  okb (process env0 (i_move kGroup) w ITransfer) = true /\ process env0 (i_move kGroup) w IBurn = Err EExtensionNotFound /\ process env0 [] w IBurn = Err ENotEnoughAccountKeys.
Proof.
  split.
  { split.
    - intros a [<-|[<-|[<-|[<-|[]]]]] O; try (apply (f_equal pk_bytes) in O; vm_compute in O; discriminate O).
      + apply mk_sound; [vm_compute; reflexivity|exact plain_readable].
      + apply mk_sound; [vm_compute; reflexivity|exact roy_readable].
    - intros a g [<-|[<-|[<-|[<-|[]]]]] IG O _ E NZ; try (apply (f_equal pk_bytes) in O; vm_compute in O; discriminate O);
        destruct IG as [<-|[<-|[<-|[<-|[]]]]]; try (vm_compute in E; discriminate E).
      split; [reflexivity|]. split; [vm_compute; lia|reflexivity]. }
  split; [apply table_bounded; vm_compute; reflexivity|]. split; [exact I|]. split; [exact I|]. vm_compute. auto.
Qed.
Example C90_remove_case : sound_accounts env0 (i_rm kAuth) w_void /\ arg (i_rm kAuth) 0 kGroup /\ well_formed (data (w_void kGroup)) void_exts /\ readable void_exts /\
  okb (process env0 (i_rm kAuth) w_void (IRemove XGrouping)) = true.
Proof.
  split.
  { split.
    - intros a [<-|[<-|[<-|[<-|[]]]]] O; try (apply (f_equal pk_bytes) in O; vm_compute in O; discriminate O).
      apply mk_sound; [vm_compute; reflexivity|exact grp_readable].
    - intros a g [<-|[<-|[<-|[<-|[]]]]] IG O _ E NZ; try (apply (f_equal pk_bytes) in O; vm_compute in O; discriminate O);
        destruct IG as [<-|[<-|[<-|[<-|[]]]]]; vm_compute in E; discriminate E. }
  split; [ok_arg|]. split; [apply mk_wf; vm_compute; reflexivity|]. split; [exact grp_readable|vm_compute; reflexivity].
Qed.

(** Without the condition on groups a request can be aborted: Burn does not ask who
    owns the group account before it reads it.  Were the account an asset names as its
    group another program's, its data could stop the holder's Burn by an index out of
    range. *)
Definition junk : bytes := repeat x01 168 ++ le_enc 4 (ext_code XGrouping) ++ le_enc 4 48 ++ le_enc 4 232 ++ repeat x00 8.
Definition w_junk : world := table [(kAsset, acc member_data); (kGroup, mkAcct 5 kOther junk); (kHolder, wal 700); (kTo, wal 5)].
Theorem C90_burn_refuted : exists e infos w, (forall a, In a (passed infos) -> acct_owner (w (ai_key a)) = e_prog e -> sound (data (w (ai_key a)))) /\
  bounded w /\ process e infos w IBurn = Panic.
Proof.
  exists env0, (i_move kGroup), w_junk. split.
  { intros a [<-|[<-|[<-|[<-|[]]]]] O; try (apply (f_equal pk_bytes) in O; vm_compute in O; discriminate O).
    apply mk_sound; [vm_compute; reflexivity|exact plain_readable]. }
  split; [apply table_bounded; vm_compute; reflexivity|vm_compute; reflexivity].
Qed.
Print Assumptions C90_burn_refuted.
(** The readability of the stored extensions is needed as well: royalties cut short
    stop every Transfer. *)
Definition cut_exts : list blk := [blk_of XRoyalties (le_enc 8 500 ++ [x01; x02])].
Theorem C90_transfer_refuted : exists e infos w asset l, arg infos 0 asset /\ acct_owner (w asset) = e_prog e /\ well_formed (data (w asset)) l /\ bounded w /\
  process e infos w ITransfer = Panic.
Proof.
  exists env0, (i_move kProg), (table [(kAsset, acc (roy_data pk_zero cut_exts)); (kHolder, wal 700); (kTo, wal 5)]), kAsset, cut_exts.
  split; [ok_arg|]. split; [reflexivity|]. split; [apply mk_wf; vm_compute; reflexivity|]. split; [apply table_bounded; vm_compute; reflexivity|vm_compute; reflexivity].
Qed.
Print Assumptions C90_transfer_refuted.

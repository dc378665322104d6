(** C68: what the authority can take from a holder with an empty extension. *)
From Verif Require Import Base State Layout Constr Ext World Proc Spec SpecB SpecH SpecX BaseL WorldL StuntL Sample ThmAuth ThmHist.
From Coq Require Import Strings.Byte.

(** With a manager extension of fewer than 33 bytes nobody can lock or unlock the
    asset, and only the holder can transfer or burn it: the delegate's roles are void. *)
Theorem C68_manager : forall e infos w i w' asset l, arg infos 0 asset -> well_formed (data (w asset)) l -> short XManager 33 l ->
  process e infos w i = Ok w' ->
  i <> ILock /\ i <> IUnlock /\
  (i = ITransfer \/ i = IBurn -> exists signer, arg infos 1 signer /\ signed infos signer /\ s_owner (data (w asset)) = pk_bytes signer).
Proof. exact short_manager. Qed.
Print Assumptions C68_manager.
(** If the asset is locked it stays so for ever, with the same holder and delegate,
    whatever anybody does (Updates name real extension types and nothing is removed
    from the middle of the asset). *)
Theorem C68_locked_for_ever : forall p w w' k l, p <> pk_zero -> history_of (careful k) p w w' -> sized w -> lam_ok w ->
  acct_owner (w k) = p -> initialized (data (w k)) -> tidy (data (w k)) l -> short XManager 33 l -> locked (data (w k)) ->
  acct_owner (w' k) = p /\ initialized (data (w' k)) /\ locked (data (w' k)) /\ s_owner (data (w' k)) = s_owner (data (w k)) /\
  s_delegate (data (w' k)) = s_delegate (data (w k)) /\ exists l', tidy (data (w' k)) l' /\ short XManager 33 l'.
Proof. exact locked_for_ever. Qed.
Print Assumptions C68_locked_for_ever.

(** So it is false that whoever may unlock a locked asset keeps that right until the
    holder or the delegate gives it up: Update is allowed on locked assets, and the
    authority adds a manager extension without data.  The delegate could unlock before;
    afterwards no history unlocks, moves or burns the asset. *)
Definition w_lock : world := table [(kAsset, acc locked_data); (kPayer, wal 10000)].
Definition no_manager : update_input := mkUpdInput None None (Some (mkExtInput XManager 0 None)).
Definition w_froz : world := run w_lock (process env0 (i_update kAsset) w_lock (IUpdate no_manager)).
Definition froz_exts : list blk := plain_exts ++ [blk_of XManager []].
Lemma froz_tidy : tidy (data (w_froz kAsset)) froz_exts.
Proof.
  exists (header x01 x01 x00 x01 kHolder pk_zero kAuth kDeleg x07), 0%nat.
  assert (D : data (w_froz kAsset) = header x01 x01 x00 x01 kHolder pk_zero kAuth kDeleg x07 ++ enc_sect 168 froz_exts ++ []) by (vm_compute; reflexivity).
  rewrite D. apply mk_layout. vm_compute. reflexivity.
Qed.
Lemma w_lock_sized : sized w_lock /\ lam_ok w_lock.
Proof. split; [apply table_sized|apply table_lam_ok]; vm_compute; reflexivity. Qed.
Lemma froz_sized : sized w_froz /\ lam_ok w_froz.
Proof.
  assert (H : process env0 (i_update kAsset) w_lock (IUpdate no_manager) = Ok w_froz) by (apply run_ok; vm_compute; reflexivity).
  destruct w_lock_sized as [S L]. split; [eapply StepH.sized_preserved|eapply FrameL.lam_ok_preserved]; eauto using env0_ok; discriminate.
Qed.
Example C68_manager_case : arg (i_lock kDeleg) 0 kAsset /\ well_formed (data (w_froz kAsset)) froz_exts /\ short XManager 33 froz_exts /\
  locked (data (w_froz kAsset)) /\
  process env0 (i_lock kDeleg) w_froz IUnlock = Panic /\ process env0 (i_lock kHolder) w_froz IUnlock = Panic /\
  process env0 (i_update kAsset) w_froz (IUpdate (mkUpdInput None None (Some (mkExtInput XManager 33 (Some man_payload))))) = Panic /\
  process env0 [mkInfo kAsset false true; mkInfo kAuth true false; mkInfo kProg false false; mkInfo kPayer true true] w_froz (IRemove XManager) = Err EExtensionNotFound.
Proof.
  split; [eexists; split; reflexivity|]. split; [exact (StepH.tidy_wf _ _ froz_tidy)|]. split; [exists []; split; [reflexivity|cbn; lia]|]. vm_compute. auto 8.
Qed.
Theorem C68_unlock_refuted : exists w w1 l, 
  tidy (data (w kAsset)) l /\ acct_owner (w kAsset) = kProg /\ s_standard (data (w kAsset)) = x00 /\ locked (data (w kAsset)) /\
  (exists w', process env0 (i_lock kDeleg) w IUnlock = Ok w' /\ ~ locked (data (w' kAsset))) /\
  process env0 (i_update kAsset) w (IUpdate no_manager) = Ok w1 /\ ~ signed (i_update kAsset) kHolder /\ ~ signed (i_update kAsset) kDeleg /\
  (forall w2, history_of (careful kAsset) kProg w1 w2 ->
     acct_owner (w2 kAsset) = kProg /\ locked (data (w2 kAsset)) /\ s_owner (data (w2 kAsset)) = pk_bytes kHolder).
Proof.
  exists w_lock, w_froz, plain_exts. split.
  { exists (header x01 x01 x00 x01 kHolder pk_zero kAuth kDeleg x07), 0%nat. apply (mk_layout _ plain_exts []). vm_compute. reflexivity. }
  split; [reflexivity|]. split; [reflexivity|]. split; [split; reflexivity|]. split.
  { exists (run w_lock (process env0 (i_lock kDeleg) w_lock IUnlock)). split; [apply run_ok; vm_compute; reflexivity|]. intros [_ Q]. vm_compute in Q. discriminate. }
  split; [apply run_ok; vm_compute; reflexivity|]. split; [|split].
  1,2: intros (a & Ha & Ek & Es); cbn [i_update passed firstn] in Ha; repeat (destruct Ha as [<-|Ha]; [first [discriminate Es|discriminate Ek]|]); destruct Ha.
  intros w2 H. destruct froz_sized as [S L].
  assert (N : kProg <> pk_zero) by discriminate.
  destruct (locked_for_ever kProg w_froz w2 kAsset froz_exts N H S L) as (A & _ & B & C & _); [vm_compute; reflexivity|split; [vm_compute; lia|vm_compute; reflexivity]|exact froz_tidy| | |].
  - exists []. split; [reflexivity|cbn; lia].
  - split; vm_compute; reflexivity.
  - split; [exact A|]. split; [exact B|]. rewrite C. vm_compute. reflexivity.
Qed.
Print Assumptions C68_unlock_refuted.

(** With a grouping of fewer than 16 bytes the asset cannot be burned and the extension
    not removed; as a group nobody can join or leave it, and its members cannot be burned. *)
Theorem C68_grouping : forall e infos w i w' k l, sized w -> well_formed (data (w k)) l -> short XGrouping 16 l -> process e infos w i = Ok w' ->
  (arg infos 0 k -> i <> IBurn /\ i <> IRemove XGrouping) /\ (arg infos 1 k -> i <> IGroup /\ i <> IUngroup) /\
  (forall a, arg infos 0 a -> s_group (data (w a)) = pk_bytes k -> pk_bytes k <> no_key -> i <> IBurn).
Proof. exact short_grouping. Qed.
Print Assumptions C68_grouping.
(** ... for ever. *)
Theorem C68_unburnable_for_ever : forall p w w' k l, p <> pk_zero -> history_of (careful k) p w w' -> sized w -> lam_ok w ->
  acct_owner (w k) = p -> initialized (data (w k)) -> tidy (data (w k)) l -> short XGrouping 16 l ->
  acct_owner (w' k) = p /\ initialized (data (w' k)) /\ exists l', tidy (data (w' k)) l' /\ short XGrouping 16 l'.
Proof. exact unburnable_for_ever. Qed.
Print Assumptions C68_unburnable_for_ever.
(** So the holder's right to burn can be taken away: the authority adds a grouping
    without data. *)
Definition w_free : world := table [(kAsset, acc plain_data); (kPayer, wal 10000); (kHolder, wal 700)].
Definition no_grouping : update_input := mkUpdInput None None (Some (mkExtInput XGrouping 0 None)).
Definition w_keep : world := run w_free (process env0 (i_update kAsset) w_free (IUpdate no_grouping)).
Definition keep_exts : list blk := plain_exts ++ [blk_of XGrouping []].
Definition i_burn_own : list ainfo := [mkInfo kAsset false true; mkInfo kHolder true true; mkInfo kProg false false; mkInfo kProg false false].
Theorem C68_burn_refuted : exists w w1,
  (exists w', process env0 i_burn_own w IBurn = Ok w') /\
  process env0 (i_update kAsset) w (IUpdate no_grouping) = Ok w1 /\ ~ signed (i_update kAsset) kHolder /\
  process env0 i_burn_own w1 IBurn = Panic /\
  (forall w2, history_of (careful kAsset) kProg w1 w2 -> acct_owner (w2 kAsset) = kProg /\ initialized (data (w2 kAsset))).
Proof.
  exists w_free, w_keep. split; [eexists; apply (run_ok w_free); vm_compute; reflexivity|].
  assert (H : process env0 (i_update kAsset) w_free (IUpdate no_grouping) = Ok w_keep) by (apply run_ok; vm_compute; reflexivity).
  split; [exact H|]. split.
  { intros (a & Ha & Ek & Es); cbn [i_update passed firstn] in Ha; repeat (destruct Ha as [<-|Ha]; [first [discriminate Es|discriminate Ek]|]); destruct Ha. }
  split; [vm_compute; reflexivity|]. intros w2 H2.
  assert (S : sized w_keep /\ lam_ok w_keep).
  { assert (Q : sized w_free /\ lam_ok w_free) by (split; [apply table_sized|apply table_lam_ok]; vm_compute; reflexivity). destruct Q as [Q1 Q2].
    split; [eapply StepH.sized_preserved|eapply FrameL.lam_ok_preserved]; eauto using env0_ok; discriminate. }
  destruct S as [S L]. assert (N : kProg <> pk_zero) by discriminate.
  destruct (unburnable_for_ever kProg w_keep w2 kAsset keep_exts N H2 S L) as (A & B & _); [vm_compute; reflexivity|split; [vm_compute; lia|vm_compute; reflexivity]| | |auto].
  - exists (header x01 x00 x00 x01 kHolder pk_zero kAuth kDeleg x07), 0%nat.
    assert (D : data (w_keep kAsset) = header x01 x00 x00 x01 kHolder pk_zero kAuth kDeleg x07 ++ enc_sect 168 keep_exts ++ []) by (vm_compute; reflexivity).
    rewrite D. apply mk_layout. vm_compute. reflexivity.
  - exists []. split; [reflexivity|cbn; lia].
Qed.
Print Assumptions C68_burn_refuted.

(** Removing extensions (C26) and what it does to a holder's asset (C27). *)
From Verif Require Import Base State Layout Constr Ext World Proc Spec SpecB SpecH LayoutL GroupL RemoveL TheftL HistL Sample ThmAuth ThmBuild ThmHist.
From Coq Require Import Strings.Byte.

(** C26: on success the last extension is gone and everything else stands; only
    the authority of a mutable asset can do it, manager and proxy extensions and
    groups with members are refused. *)
Theorem C26_remove_last : forall e infos w t w' asset hd l1 b tl, arg infos 0 asset ->
  layout (data (w asset)) hd (l1 ++ [b]) tl -> bk_type b = t -> Forall (fun x => bk_type x <> t) l1 -> t <> XNone ->
  process e infos w (IRemove t) = Ok w' -> layout (data (w' asset)) hd l1 tl.
Proof. exact remove_last. Qed.
Print Assumptions C26_remove_last.
Definition two_exts : list blk := [blk_of XBlob [x01; x02; x03; x04; x05]; blk_of XCreators (pk_bytes kOther ++ [x00; x64])].
Definition two_data : bytes := mk (header x01 x00 x00 x01 kHolder pk_zero kAuth pk_zero x00) two_exts.
Definition w_two : world := table [(kAsset, acc two_data); (kHolder, wal 700); (kTo, wal 5)].
Definition i_remove (k : pubkey) : list ainfo :=
  [mkInfo k false true; mkInfo kAuth true false; mkInfo kProg false false; mkInfo kTo false true].
Example C26_case : exists w', process env0 (i_remove kAsset) w_two (IRemove XCreators) = Ok w' /\
  data (w' kAsset) = mk (header x01 x00 x00 x01 kHolder pk_zero kAuth pk_zero x00) [blk_of XBlob [x01; x02; x03; x04; x05]].
Proof. eexists. split; [apply (run_ok w_two); vm_compute; reflexivity|]. vm_compute. auto. Qed.

(** Any extension, as bytes: the block is cut out, who may do it and what is
    refused.  The blocks after it keep the end offsets they had before
    ([enc_sect (168 + sect_size l1 + blk_size b) l2]). *)
Theorem C26_remove_bytes_partial : forall e infos w t w' asset hd l tl, arg infos 0 asset -> layout (data (w asset)) hd l tl -> t <> XNone ->
  process e infos w (IRemove t) = Ok w' ->
  exists auth l1 b l2, arg infos 1 auth /\ signed infos auth /\ s_authority (data (w asset)) = pk_bytes auth /\ mutable (data (w asset)) /\
    t <> XManager /\ t <> XProxy /\ (t = XGrouping -> gr_size (bk_data b) = 0) /\
    l = l1 ++ b :: l2 /\ bk_type b = t /\ Forall (fun x => bk_type x <> t) l1 /\
    data (w' asset) = hd ++ enc_sect 168 l1 ++ enc_sect (168 + sect_size l1 + blk_size b) l2 ++ tl /\
    (forall k, k <> asset -> data (w' k) = data (w k)) /\ (forall k, acct_owner (w' k) = acct_owner (w k)).
Proof. exact remove_effect. Qed.
Print Assumptions C26_remove_bytes_partial.

(** So removing an earlier extension loses the later ones.  Of [blob; creators;
    links], remove the blob: the result is not the section [creators; links] — the
    links can no longer be found, although they could before. *)
Definition three_exts : list blk :=
  [blk_of XBlob [x01; x02; x03; x04; x05]; blk_of XCreators (pk_bytes kOther ++ [x00; x64]); blk_of XLinks [x01; x61; x01; x62]].
Definition three_data : bytes := mk (header x01 x00 x00 x01 kHolder pk_zero kAuth pk_zero x00) three_exts.
Definition w_three : world := table [(kAsset, acc three_data); (kHolder, wal 700); (kTo, wal 5)].
Theorem C26_earlier_refuted : exists w w' l1 b l2, l1 = [] /\ length l2 = 2%nat /\
  tight (data (w kAsset)) (l1 ++ b :: l2) /\ process env0 (i_remove kAsset) w (IRemove (bk_type b)) = Ok w' /\
  (exists x, In x (ext_list l2) /\ fst x = XLinks /\ has_ext (data (w kAsset)) XLinks (168 + 24 + 56 + 16) (snd x)) /\
  (forall off p, ~ has_ext (data (w' kAsset)) XLinks off p) /\
  ~ well_formed (data (w' kAsset)) (l1 ++ l2).
Proof.
  set (w' := run w_three (process env0 (i_remove kAsset) w_three (IRemove XBlob))).
  set (l2 := [blk_of XCreators (pk_bytes kOther ++ [x00; x64]); blk_of XLinks [x01; x61; x01; x62]]).
  exists w_three, w', [], (blk_of XBlob [x01; x02; x03; x04; x05]), l2.
  assert (N : forall off p, ~ has_ext (data (w' kAsset)) XLinks off p) by (apply asset_get_none; vm_compute; reflexivity).
  split; [reflexivity|]. split; [reflexivity|].
  split; [change (data (w_three kAsset)) with three_data; apply (mk_wf _ three_exts); vm_compute; reflexivity|].
  split; [apply (run_ok w_three); vm_compute; reflexivity|].
  split; [exists (XLinks, [x01; x61; x01; x62]); split; [right; left; reflexivity|]; split; [reflexivity|apply asset_get_some; vm_compute; reflexivity]|].
  split; [exact N|]. intros (hd & tl & L). change ([] ++ l2) with ([blk_of XCreators (pk_bytes kOther ++ [x00; x64])] ++ blk_of XLinks [x01; x61; x01; x62] :: []) in L.
  apply (block_has_ext _ _ _ _ _ _) in L; [|repeat constructor; discriminate]. exact (N _ _ L).
Qed.
Print Assumptions C26_earlier_refuted.
(** An extension of length zero at the end of the account cannot be removed at all. *)
Definition empty_exts : list blk := [blk_of XBlob [x01; x02; x03; x04; x05]; blk_of XBucket []].
Definition empty_data : bytes := mk (header x01 x00 x00 x01 kHolder pk_zero kAuth pk_zero x00) empty_exts.
Theorem C26_empty_refuted : exists w l b, tight (data (w kAsset)) (l ++ [b]) /\ bk_type b = XBucket /\ initialized (data (w kAsset)) /\
  s_authority (data (w kAsset)) = pk_bytes kAuth /\ mutable (data (w kAsset)) /\
  process env0 (i_remove kAsset) w (IRemove XBucket) = Err EExtensionNotFound.
Proof.
  exists (table [(kAsset, acc empty_data); (kTo, wal 5)]), [blk_of XBlob [x01; x02; x03; x04; x05]], (blk_of XBucket []).
  split; [change (data _) with empty_data; apply (mk_wf _ empty_exts); vm_compute; reflexivity|].
  split; [reflexivity|]. split; [split; [vm_compute; lia|reflexivity]|]. split; [reflexivity|]. split; [discriminate|]. vm_compute. reflexivity.
Qed.
Print Assumptions C26_empty_refuted.

(** C27: as long as requests are careful (real extension types; nothing removed
    from the middle), an asset without a manager stays with its holder in every
    history without signatures of the holder and the holder's delegate — it is
    not even burned. *)
Theorem C27_plain_not_taken_partial : forall p w w' k l, p <> pk_zero ->
  history_of (fun e infos w i => careful k e infos w i /\ without_holder k infos w) p w w' ->
  sized w -> lam_ok w -> acct_owner (w k) = p -> initialized (data (w k)) -> tidy (data (w k)) l -> unmanaged l ->
  acct_owner (w' k) = p /\ initialized (data (w' k)) /\ s_owner (data (w' k)) = s_owner (data (w k)) /\
  exists l', tidy (data (w' k)) l' /\ unmanaged l'.
Proof. exact plain_not_taken. Qed.
Print Assumptions C27_plain_not_taken_partial.
Example C27_case : let a := mkUpdInput None None (Some (mkExtInput XManager 33 (Some man_payload))) in
  tidy (data (w_three kAsset)) three_exts /\ unmanaged three_exts /\ careful kAsset env0 (i_update kAsset) w_three (IUpdate a) /\
  without_holder kAsset (i_update kAsset) w_three /\
  process env0 (i_update kAsset) w_three (IUpdate a) = Err EExtensionDataInvalid /\
  process env0 (i_transfer kAuth) w_three ITransfer = Err EInvalidTransferAuthority.
Proof.
  cbv zeta. split.
  { exists (header x01 x00 x00 x01 kHolder pk_zero kAuth pk_zero x00), 0%nat. apply (mk_layout _ three_exts []). vm_compute. reflexivity. }
  split; [intros b H; discriminate H|]. split; [split; [intros x E; injection E as <-; repeat split; vm_compute; congruence|discriminate]|].
  split; [|vm_compute; auto].
  intros s Hs (a & Ha & Ek & Es). 
  assert (Q : In (ai_key a) [kAuth; kPayer]).
  { cbn [i_update passed firstn] in Ha. repeat (destruct Ha as [<-|Ha]; [first [discriminate Es|cbn [ai_key In]; auto]|]). destruct Ha. }
  subst s. destruct Q as [Q|[Q|[]]]; rewrite <- Q in Hs; vm_compute in Hs; destruct Hs; discriminate.
Qed.
(** Without that it is false.  Create a plain (NonFungible) asset [blob;
    attributes; bucket] whose bucket payload contains what looks like a manager
    extension naming somebody else; remove the blob; the attributes' end offset now
    points into the bucket, and the made-up manager transfers the asset.  The
    holder never signs. *)
Definition fake_manager : bytes :=
  zeros 8 ++ le_enc 4 8 ++ le_enc 4 33 ++ le_enc 4 (216 + 16 + 40) ++ zeros 4 ++ man_payload.
Definition i_steal : list ainfo :=
  [mkInfo kBuf false true; mkInfo kMan true false; mkInfo kTo false false; mkInfo kProg false false].
Definition steal_meta : metadata_input := mkMetaInput [x41] NonFungible true
  (Some [mkExtInput XBlob 8 (Some (zeros 8)); mkExtInput XBucket (zlen fake_manager) (Some fake_manager);
         mkExtInput XAttributes 4 (Some [x01; x61; x01; x62])]).
Definition steal_before : list (env * list ainfo * instr) := [(env0, i_create kBuf, ICreate steal_meta)].
Definition steal_after : list (env * list ainfo * instr) :=
  [(env0, i_remove kBuf, IRemove XBlob); (env0, i_steal, ITransfer)].
Theorem C27_taken_refuted : exists w w1 w2 l, steps steal_before w = Ok w1 /\ steps steal_after w1 = Ok w2 /\
  sized w1 /\ lam_ok w1 /\ acct_owner (w1 kBuf) = kProg /\ initialized (data (w1 kBuf)) /\
  s_standard (data (w1 kBuf)) = x00 /\ tidy (data (w1 kBuf)) l /\ lookup XManager (ext_list l) = None /\
  s_owner (data (w1 kBuf)) = pk_bytes kHolder /\ s_delegate (data (w1 kBuf)) = no_key /\
  Forall (fun s => ~ signed (snd (fst s)) kHolder) steal_after /\
  s_owner (data (w2 kBuf)) = pk_bytes kTo.
Proof.
  set (w1 := run w_none (steps steal_before w_none)). set (w2 := run w1 (steps steal_after w1)).
  set (l := [blk_of XBlob (zeros 8); blk_of XAttributes [x01; x61; x01; x62]; blk_of XBucket fake_manager]).
  exists w_none, w1, w2, l.
  assert (E : steps steal_before w_none = Ok w1) by (apply run_ok; vm_compute; reflexivity).
  split; [exact E|]. split; [apply run_ok; vm_compute; reflexivity|].
  assert (K : sized w1 /\ lam_ok w1).
  { refine (steps_keep steal_before _ w_none w1 E _ _); [repeat constructor; try exact env0_ok; discriminate|apply table_sized; vm_compute; reflexivity|apply table_lam_ok; vm_compute; reflexivity]. }
  split; [apply K|]. split; [apply K|]. clear K E.
  split; [vm_compute; reflexivity|]. split; [split; [vm_compute; lia|vm_compute; reflexivity]|]. split; [vm_compute; reflexivity|].
  split.
  { exists (firstn 168 (data (w1 kBuf))), 0%nat.
    assert (D : data (w1 kBuf) = firstn 168 (data (w1 kBuf)) ++ enc_sect 168 l ++ []) by (vm_compute; reflexivity).
    rewrite D at 1. apply mk_layout. vm_compute. reflexivity. }
  split; [reflexivity|]. split; [vm_compute; reflexivity|]. split; [vm_compute; reflexivity|]. split.
  { repeat constructor; intros (a & Ha & Ek & Es); cbn [snd fst i_remove i_steal passed firstn] in Ha;
      repeat (destruct Ha as [<-|Ha]; [first [discriminate Es|discriminate Ek]|]); destruct Ha. }
  vm_compute. reflexivity.
Qed.
Print Assumptions C27_taken_refuted.

(** Where rights come from (C85). *)
From Verif Require Import Base State Layout Constr Ext World Proc Spec SpecB SpecH SpecG SpecSince WorldL LayoutL SinceL Sample ThmAuth ThmBuild ThmFrame ThmHist ThmGroup ThmTake.
From Coq Require Import Strings.Byte.

(** C85: whoever is a delegate with some role has it from the present owner: unless it
    was so all the time, the owner approved exactly this, and since then the owner has
    not changed and the role has not been revoked. *)
Theorem C85_delegate : forall p k w w' l, p <> pk_zero -> history_of (unharmed k) p w w' -> sized w -> lam_ok w -> asset_of p w k -> tidy (data (w k)) l ->
  forall o d r, d <> no_key -> entrusted o d r (data (w' k)) ->
  throughout (entrusted o d r) p w w' k \/ since (entrusted o d r) (grants k o d r) p w w' k.
Proof. exact delegate_since. Qed.
Print Assumptions C85_delegate.

(** A story: the holder approves a delegate, the asset joins a group, the delegate locks
    it, the authority goes to somebody else who makes it immutable, the delegate unlocks
    and transfers it. *)
Definition i_appr : list ainfo := [mkInfo kAsset false true; mkInfo kHolder true false; mkInfo kDeleg false false].
Definition i_next : list ainfo := [mkInfo kAsset false true; mkInfo kAuth true false; mkInfo kOther true false].
Definition i_fix : list ainfo :=
  [mkInfo kAsset false true; mkInfo kOther true false; mkInfo kProg false false; mkInfo kProg false false; mkInfo kProg false false; mkInfo kProg false false].
Definition i_pass : list ainfo := [mkInfo kAsset false true; mkInfo kDeleg true false; mkInfo kTo false false; mkInfo kGroup false false].
Definition fix_it : instr := IUpdate (mkUpdInput None (Some false) None).
Definition w_s1 : world := run w_join (process env0 i_appr w_join (IApprove DAll)).
Definition w_s2 : world := run w_s1 (process env0 i_group w_s1 IGroup).
Definition w_s3 : world := run w_s2 (process env0 (i_lock kDeleg) w_s2 ILock).
Definition w_s4 : world := run w_s3 (process env0 i_next w_s3 IHandover).
Definition w_s5 : world := run w_s4 (process env0 i_fix w_s4 fix_it).
Definition w_s6 : world := run w_s5 (process env0 (i_lock kDeleg) w_s5 IUnlock).
Definition w_s7 : world := run w_s6 (process env0 i_pass w_s6 ITransfer).
Lemma one_more w w1 infos i w2 : history_of (unharmed kAsset) kProg w w1 -> process env0 infos w1 i = Ok w2 ->
  match i with IBurn | IRemove _ | IUpdate (mkUpdInput _ _ (Some _)) | IResize _ => False | _ => True end -> history_of (unharmed kAsset) kProg w w2.
Proof.
  intros H HI M. apply (hof_instr _ _ w w1 env0 infos i w2 H eq_refl env0_ok); [|exact HI]. split.
  - intros [-> _]. exact M.
  - split; [|intros t l ->; destruct M]. destruct i as [| | | | | | | | | |u| | | | | | | ]; try exact I; try destruct M. destruct u as [n m [x|]]; [destruct M|]. intros x E. discriminate E.
Qed.
Lemma story1 : history_of (unharmed kAsset) kProg w_join w_s1.
Proof. apply (one_more _ w_join i_appr (IApprove DAll)); [constructor|apply (run_ok w_join); vm_compute; reflexivity|exact I]. Qed.
Lemma story5 : history_of (unharmed kAsset) kProg w_join w_s5.
Proof.
  apply (one_more _ w_s4 i_fix fix_it); [|apply (run_ok w_s4); vm_compute; reflexivity|exact I].
  apply (one_more _ w_s3 i_next IHandover); [|apply (run_ok w_s3); vm_compute; reflexivity|exact I].
  apply (one_more _ w_s2 (i_lock kDeleg) ILock); [|apply (run_ok w_s2); vm_compute; reflexivity|exact I].
  apply (one_more _ w_s1 i_group IGroup); [exact story1|apply (run_ok w_s1); vm_compute; reflexivity|exact I].
Qed.
Lemma story6 : history_of (unharmed kAsset) kProg w_join w_s6.
Proof. apply (one_more _ w_s5 (i_lock kDeleg) IUnlock); [exact story5|apply (run_ok w_s5); vm_compute; reflexivity|exact I]. Qed.
Lemma story7 : history_of (unharmed kAsset) kProg w_join w_s7.
Proof. apply (one_more _ w_s6 i_pass ITransfer); [exact story6|apply (run_ok w_s6); vm_compute; reflexivity|exact I]. Qed.
Lemma story_start : sized w_join /\ lam_ok w_join /\ asset_of kProg w_join kAsset /\ tidy (data (w_join kAsset)) plain_exts /\ s_delegate (data (w_join kAsset)) = no_key.
Proof.
  split; [apply table_sized; vm_compute; reflexivity|]. split; [apply table_lam_ok; vm_compute; reflexivity|].
  split; [split; [reflexivity|split; [vm_compute; lia|reflexivity]]|]. split; [|reflexivity].
  eexists (firstn 168 _), 0%nat. match goal with |- layout ?d ?h ?l ?t => assert (D : d = firstn 168 d ++ enc_sect 168 l ++ t) by (vm_compute; reflexivity); rewrite D at 1 end.
  apply mk_layout. vm_compute. reflexivity.
Qed.
Example C85_delegate_case : history_of (unharmed kAsset) kProg w_join w_s6 /\ entrusted (pk_bytes kHolder) (pk_bytes kDeleg) RTransfer (data (w_s6 kAsset)) /\
  ~ entrusted (pk_bytes kHolder) (pk_bytes kDeleg) RTransfer (data (w_join kAsset)) /\ s_delegate (data (w_s7 kAsset)) = no_key.
Proof.
  split; [exact story6|]. split; [repeat split; vm_compute; reflexivity|]. split; [|vm_compute; reflexivity].
  intros (_ & D & _). vm_compute in D. discriminate D.
Qed.

(** So whoever moves an asset that began without a delegate is the owner, the manager,
    or somebody whom the present owner entrusted with it and who has held the role ever since. *)
Theorem C85_mover : forall p k w w' l, p <> pk_zero -> history_of (unharmed k) p w w' -> sized w -> lam_ok w -> asset_of p w k -> tidy (data (w k)) l ->
  forall e infos w2, e_prog e = p -> env_ok e -> s_delegate (data (w k)) = no_key ->
  process e infos w' ITransfer = Ok w2 -> s_owner (data (w2 k)) <> s_owner (data (w' k)) ->
  exists s, signed infos s /\ arg infos 1 s /\
    (s_owner (data (w' k)) = pk_bytes s \/ (exists off b, has_ext (data (w' k)) XManager off b /\ manager_is b s RTransfer) \/
     since (entrusted (s_owner (data (w' k))) (pk_bytes s) RTransfer) (grants k (s_owner (data (w' k))) (pk_bytes s) RTransfer) p w w' k).
Proof. exact mover_since. Qed.
Print Assumptions C85_mover.
Example C85_mover_case : process env0 i_pass w_s6 ITransfer = Ok w_s7 /\ s_owner (data (w_s7 kAsset)) <> s_owner (data (w_s6 kAsset)) /\
  s_delegate (data (w_join kAsset)) = no_key /\ signed i_pass kDeleg /\ ~ signed i_pass kHolder.
Proof.
  split; [apply (run_ok w_s6); vm_compute; reflexivity|]. split; [vm_compute; discriminate|]. split; [reflexivity|].
  split; [exists (mkInfo kDeleg true false); vm_compute; auto|].
  intros (m & Hm & E & Hs). repeat (destruct Hm as [<-|Hm]; [first [discriminate Hs|vm_compute in E; discriminate E]|]). destruct Hm.
Qed.

(** The same for whoever burns it, *)
Theorem C85_burner : forall p k w w' l, p <> pk_zero -> history_of (unharmed k) p w w' -> sized w -> lam_ok w -> asset_of p w k -> tidy (data (w k)) l ->
  forall e infos w2, e_prog e = p -> env_ok e -> s_delegate (data (w k)) = no_key -> process e infos w' IBurn = Ok w2 -> arg infos 0 k ->
  exists s, signed infos s /\ arg infos 1 s /\
    (s_owner (data (w' k)) = pk_bytes s \/ (exists off b, has_ext (data (w' k)) XManager off b /\ manager_is b s RBurn) \/
     since (entrusted (s_owner (data (w' k))) (pk_bytes s) RBurn) (grants k (s_owner (data (w' k))) (pk_bytes s) RBurn) p w w' k).
Proof. exact burner_since. Qed.
Print Assumptions C85_burner.
Example C85_burner_case : okb (process env0 (i_burn kDeleg) w_s6 IBurn) = true /\ okb (process env0 (i_burn kDeleg) w_join IBurn) = false.
Proof. vm_compute. auto. Qed.

(** and for whoever locks or unlocks it. *)
Theorem C85_locker : forall p k w w' l, p <> pk_zero -> history_of (unharmed k) p w w' -> sized w -> lam_ok w -> asset_of p w k -> tidy (data (w k)) l ->
  forall e infos w2, e_prog e = p -> env_ok e -> s_delegate (data (w k)) = no_key ->
  process e infos w' ILock = Ok w2 \/ process e infos w' IUnlock = Ok w2 -> arg infos 0 k ->
  exists s, signed infos s /\ arg infos 1 s /\
    (s_owner (data (w' k)) = pk_bytes s \/ (exists off b, has_ext (data (w' k)) XManager off b /\ manager_is b s RLock) \/
     since (entrusted (s_owner (data (w' k))) (pk_bytes s) RLock) (grants k (s_owner (data (w' k))) (pk_bytes s) RLock) p w w' k).
Proof. exact locker_since. Qed.
Print Assumptions C85_locker.
Example C85_locker_case : history_of (unharmed kAsset) kProg w_join w_s5 /\ process env0 (i_lock kDeleg) w_s5 IUnlock = Ok w_s6 /\
  okb (process env0 (i_lock kDeleg) w_join ILock) = false.
Proof. split; [exact story5|]. split; [apply (run_ok w_s5); vm_compute; reflexivity|vm_compute; reflexivity]. Qed.

(** C85: a locked asset was locked by somebody who might lock it, and has been locked since; *)
Theorem C85_locked : forall p k w w' l, p <> pk_zero -> history_of (unharmed k) p w w' -> sized w -> lam_ok w -> asset_of p w k -> tidy (data (w k)) l ->
  s_state (data (w' k)) = x01 ->
  throughout (fun x => s_state x = x01) p w w' k \/ since (fun x => s_state x = x01) (shuts k) p w w' k.
Proof. exact lock_since. Qed.
Print Assumptions C85_locked.
(** and as long as it is, owner, delegate and roles stay. *)
Theorem C85_shut : forall p k w w' l, p <> pk_zero -> sized w -> lam_ok w -> asset_of p w k -> tidy (data (w k)) l ->
  throughout (fun x => s_state x = x01) p w w' k ->
  s_owner (data (w' k)) = s_owner (data (w k)) /\ s_delegate (data (w' k)) = s_delegate (data (w k)) /\ s_roles (data (w' k)) = s_roles (data (w k)).
Proof. exact shut_keeps. Qed.
Print Assumptions C85_shut.
Example C85_locked_case : s_state (data (w_s5 kAsset)) = x01 /\ s_state (data (w_join kAsset)) = x00 /\
  throughout (fun x => s_state x = x01) kProg w_s3 w_s4 kAsset /\ data (w_s4 kAsset) <> data (w_s3 kAsset).
Proof.
  split; [vm_compute; reflexivity|]. split; [reflexivity|]. split; [|vm_compute; discriminate]. split; [vm_compute; reflexivity|]. split; [|vm_compute; reflexivity].
  apply (hof_instr _ _ w_s3 w_s3 env0 i_next IHandover w_s4); [constructor|reflexivity|exact env0_ok| |apply (run_ok w_s3); vm_compute; reflexivity].
  split; [|vm_compute; reflexivity]. split; [intros [E _]; discriminate E|]. split; [exact I|]. intros t l E. discriminate E.
Qed.

(** C85: the owner got the asset by a Transfer of somebody who might transfer it, and has held it since; *)
Theorem C85_owner : forall p k w w' l, p <> pk_zero -> history_of (unharmed k) p w w' -> sized w -> lam_ok w -> asset_of p w k -> tidy (data (w k)) l ->
  forall o, s_owner (data (w' k)) = o -> throughout (fun x => s_owner x = o) p w w' k \/ since (fun x => s_owner x = o) (hands_to k o) p w w' k.
Proof. exact owner_since. Qed.
Print Assumptions C85_owner.
(** the authority was appointed by its predecessor, with its own signature; *)
Theorem C85_authority : forall p k w w' l, p <> pk_zero -> history_of (unharmed k) p w w' -> sized w -> lam_ok w -> asset_of p w k -> tidy (data (w k)) l ->
  forall a, s_authority (data (w' k)) = a -> throughout (fun x => s_authority x = a) p w w' k \/ since (fun x => s_authority x = a) (appoints k a) p w w' k.
Proof. exact authority_since. Qed.
Print Assumptions C85_authority.
(** a group the asset is in agreed to take it; *)
Theorem C85_group : forall p k w w' l, p <> pk_zero -> history_of (unharmed k) p w w' -> sized w -> lam_ok w -> asset_of p w k -> tidy (data (w k)) l ->
  forall g, g <> no_key -> s_group (data (w' k)) = g -> throughout (fun x => s_group x = g) p w w' k \/ since (fun x => s_group x = g) (admits p k g) p w w' k.
Proof. exact group_since. Qed.
Print Assumptions C85_group.
(** and immutable it became by an Update of its authority. *)
Theorem C85_frozen : forall p k w w' l, p <> pk_zero -> history_of (unharmed k) p w w' -> sized w -> lam_ok w -> asset_of p w k -> tidy (data (w k)) l ->
  s_mutable (data (w' k)) = x00 ->
  throughout (fun x => s_mutable x = x00) p w w' k \/ since (fun x => s_mutable x = x00) (freezes k) p w w' k.
Proof. exact frozen_since. Qed.
Print Assumptions C85_frozen.
Example C85_case : history_of (unharmed kAsset) kProg w_join w_s7 /\ s_owner (data (w_s7 kAsset)) = pk_bytes kTo /\ s_authority (data (w_s7 kAsset)) = pk_bytes kOther /\
  s_group (data (w_s7 kAsset)) = pk_bytes kGroup /\ s_mutable (data (w_s7 kAsset)) = x00 /\
  s_owner (data (w_join kAsset)) = pk_bytes kHolder /\ s_authority (data (w_join kAsset)) = pk_bytes kAuth /\
  s_group (data (w_join kAsset)) = no_key /\ s_mutable (data (w_join kAsset)) = x01.
Proof. split; [exact story7|]. vm_compute. repeat split; reflexivity. Qed.

(** Where extensions come from (C87). *)
From Verif Require Import Base State Layout Constr Ext World Proc Spec SpecB SpecH SpecG SpecSince SpecHas WorldL LayoutL RegP HasL Sample ThmAuth ThmBuild ThmFrame ThmHist ThmUpdate ThmGroup ThmCreators ThmRemove ThmTake ThmSince.
From Coq Require Import Strings.Byte.

(** C87: whatever an asset carries, other than creators and grouping, it carried all the time or
    its authority of then put it there, byte for byte, while the asset was mutable, and it
    has not changed since. *)
Theorem C87_content : forall p k w w' l, p <> pk_zero -> history_of (unharmed k) p w w' -> sized w -> lam_ok w -> asset_of p w k -> tidy (data (w k)) l ->
  forall t b, t <> XNone -> t <> XCreators -> t <> XGrouping -> carries t b (data (w' k)) ->
  throughout (carries t b) p w w' k \/ since (carries t b) (supplies p k t b) p w w' k.
Proof. exact content_since. Qed.
Print Assumptions C87_content.
(** Creators change besides only by the signature of a creator, *)
Theorem C87_creators : forall p k w w' l, p <> pk_zero -> history_of (unharmed k) p w w' -> sized w -> lam_ok w -> asset_of p w k -> tidy (data (w k)) l ->
  forall b, carries XCreators b (data (w' k)) -> throughout (carries XCreators b) p w w' k \/ since (carries XCreators b) (amends k b) p w w' k.
Proof. exact creators_since. Qed.
Print Assumptions C87_creators.
(** a grouping only by members that come and go, *)
Theorem C87_grouping : forall p k w w' l, p <> pk_zero -> history_of (unharmed k) p w w' -> sized w -> lam_ok w -> asset_of p w k -> tidy (data (w k)) l ->
  forall b, carries XGrouping b (data (w' k)) -> throughout (carries XGrouping b) p w w' k \/ since (carries XGrouping b) (recounts k b) p w w' k.
Proof. exact grouping_since. Qed.
Print Assumptions C87_grouping.
(** and what is gone the authority removed; managers and proxies stay. *)
Theorem C87_gone : forall p k w w' l, p <> pk_zero -> history_of (unharmed k) p w w' -> sized w -> lam_ok w -> asset_of p w k -> tidy (data (w k)) l ->
  forall t, t <> XNone -> lacks t (data (w' k)) -> throughout (lacks t) p w w' k \/ since (lacks t) (drops k t) p w w' k.
Proof. exact gone_since. Qed.
Print Assumptions C87_gone.

(** A story: the authority takes a blob from a buffer and removes the bucket, having verified
    itself as a creator in between. *)
Definition w_h0 : world := w_buf (mk up_head (up_exts cur_creators)) (buf_data XBlob (eleven ++ five)).
Definition i_drop : list ainfo := [mkInfo kAsset false true; mkInfo kAuth true false; mkInfo kProg false false; mkInfo kPayer false true].
Definition w_h1 : world := run w_h0 (process env0 (i_up kBuf) w_h0 up_buf).
Definition w_h2 : world := run w_h1 (process env0 (i_verify kAuth) w_h1 IVerify).
Definition w_h3 : world := run w_h2 (process env0 i_drop w_h2 (IRemove XBucket)).
Definition h_new : bytes := pk_bytes kOther ++ [x01; x28] ++ pk_bytes kAuth ++ [x01; x3c].
Definition h_exts : list blk := [blk_of XBlob (eleven ++ five); blk_of XCreators h_new; blk_of XGrouping (grp_payload 2 3)].
Ltac by_layout :=
  match goal with |- tidy ?d ?l => exists (firstn 168 d), 0%nat; assert (D : d = firstn 168 d ++ enc_sect 168 l ++ repeat x00 0) by (vm_compute; reflexivity); rewrite D at 1;
    apply mk_layout; vm_compute; reflexivity end.
Lemma n_none t : match t with XNone => false | _ => true end = true -> t <> XNone.
Proof. intros A ->. discriminate A. Qed.
Lemma h_tidy0 : tidy (data (w_h0 kAsset)) (up_exts cur_creators).
Proof. by_layout. Qed.
Lemma h_tidy2 : tidy (data (w_h2 kAsset)) (h_exts ++ [blk_of XBucket eleven]).
Proof. by_layout. Qed.
Lemma h_tidy3 : tidy (data (w_h3 kAsset)) h_exts.
Proof. by_layout. Qed.
Lemma h_story : history_of (unharmed kAsset) kProg w_h0 w_h3.
Proof.
  apply (hof_instr _ _ w_h0 w_h2 env0 i_drop (IRemove XBucket) w_h3); [|reflexivity|exact env0_ok| |apply (run_ok w_h2); vm_compute; reflexivity].
  - apply (one_more _ w_h1 (i_verify kAuth) IVerify); [|apply (run_ok w_h1); vm_compute; reflexivity|exact I].
    apply (one_more _ w_h0 (i_up kBuf) up_buf); [constructor|apply (run_ok w_h0); vm_compute; reflexivity|exact I].
  - split; [intros [E _]; discriminate E|]. split; [discriminate|]. intros t l E _ (hd & tl & L). injection E as <-.
    destruct h_tidy2 as (hd2 & n & L2). rewrite (layout_same _ _ _ _ _ _ _ L L2). exists h_exts, (blk_of XBucket eleven).
    split; [reflexivity|]. split; [reflexivity|]. repeat constructor; cbn [bk_type blk_of]; discriminate.
Qed.
Lemma h_start : sized w_h0 /\ lam_ok w_h0 /\ asset_of kProg w_h0 kAsset /\ tidy (data (w_h0 kAsset)) (up_exts cur_creators).
Proof.
  split; [apply table_sized; vm_compute; reflexivity|]. split; [apply table_lam_ok; vm_compute; reflexivity|].
  split; [split; [reflexivity|split; [vm_compute; lia|reflexivity]]|exact h_tidy0].
Qed.
Example C87_content_case : history_of (unharmed kAsset) kProg w_h0 w_h3 /\ carries XBlob (eleven ++ five) (data (w_h3 kAsset)) /\ ~ carries XBlob (eleven ++ five) (data (w_h0 kAsset)).
Proof.
  split; [exact h_story|]. split.
  - apply (carries_iff _ _ _ _ h_tidy3 (n_none XBlob eq_refl)). reflexivity.
  - intros C. apply (carries_iff _ _ _ _ h_tidy0 (n_none XBlob eq_refl)) in C. vm_compute in C. discriminate C.
Qed.
Example C87_creators_case : carries XCreators h_new (data (w_h3 kAsset)) /\ ~ carries XCreators h_new (data (w_h0 kAsset)).
Proof.
  split.
  - apply (carries_iff _ _ _ _ h_tidy3 (n_none XCreators eq_refl)). reflexivity.
  - intros C. apply (carries_iff _ _ _ _ h_tidy0 (n_none XCreators eq_refl)) in C. vm_compute in C. discriminate C.
Qed.
Example C87_gone_case : lacks XBucket (data (w_h3 kAsset)) /\ carries XBucket eleven (data (w_h0 kAsset)).
Proof.
  split.
  - apply (lacks_iff _ _ _ h_tidy3 (n_none XBucket eq_refl)). reflexivity.
  - apply (carries_iff _ _ _ _ h_tidy0 (n_none XBucket eq_refl)). reflexivity.
Qed.
(** the same for a group that an asset joins *)
Definition w_g1 : world := run w_join (process env0 i_group w_join IGroup).
Example C87_grouping_case : history_of (unharmed kGroup) kProg w_join w_g1 /\ asset_of kProg w_join kGroup /\ tidy (data (w_join kGroup)) (grp_exts 0 3) /\
  carries XGrouping (grp_payload 1 3) (data (w_g1 kGroup)) /\ ~ carries XGrouping (grp_payload 1 3) (data (w_join kGroup)).
Proof.
  assert (T0 : tidy (data (w_join kGroup)) (grp_exts 0 3)) by by_layout. assert (T1 : tidy (data (w_g1 kGroup)) (grp_exts 1 3)) by by_layout.
  split; [|split; [|split; [|split]]].
  - apply (hof_instr _ _ w_join w_join env0 i_group IGroup w_g1); [constructor|reflexivity|exact env0_ok| |apply (run_ok w_join); vm_compute; reflexivity].
    split; [intros [E _]; discriminate E|]. split; [exact I|]. intros t l E. discriminate E.
  - split; [reflexivity|split; [vm_compute; lia|reflexivity]].
  - exact T0.
  - apply (carries_iff _ _ _ _ T1 (n_none XGrouping eq_refl)). reflexivity.
  - intros C. apply (carries_iff _ _ _ _ T0 (n_none XGrouping eq_refl)) in C. vm_compute in C. discriminate C.
Qed.

(** Hence, where nobody was delegate at the start, an asset is moved, burned, locked and
    unlocked only by its owner, by somebody the present owner appointed, or by a manager
    who was there from the start or was named by the authority. *)
Theorem C87_mover : forall p k w w' l, p <> pk_zero -> history_of (unharmed k) p w w' -> sized w -> lam_ok w -> asset_of p w k -> tidy (data (w k)) l ->
  forall e infos w2, e_prog e = p -> env_ok e -> s_delegate (data (w k)) = no_key ->
  process e infos w' ITransfer = Ok w2 -> s_owner (data (w2 k)) <> s_owner (data (w' k)) ->
  exists s, signed infos s /\ arg infos 1 s /\ rooted p w w' k s RTransfer.
Proof. exact mover_rooted. Qed.
Print Assumptions C87_mover.
Theorem C87_burner : forall p k w w' l, p <> pk_zero -> history_of (unharmed k) p w w' -> sized w -> lam_ok w -> asset_of p w k -> tidy (data (w k)) l ->
  forall e infos w2, e_prog e = p -> env_ok e -> s_delegate (data (w k)) = no_key -> process e infos w' IBurn = Ok w2 -> arg infos 0 k ->
  exists s, signed infos s /\ arg infos 1 s /\ rooted p w w' k s RBurn.
Proof. exact burner_rooted. Qed.
Print Assumptions C87_burner.
Theorem C87_locker : forall p k w w' l, p <> pk_zero -> history_of (unharmed k) p w w' -> sized w -> lam_ok w -> asset_of p w k -> tidy (data (w k)) l ->
  forall e infos w2, e_prog e = p -> env_ok e -> s_delegate (data (w k)) = no_key ->
  process e infos w' ILock = Ok w2 \/ process e infos w' IUnlock = Ok w2 -> arg infos 0 k ->
  exists s, signed infos s /\ arg infos 1 s /\ rooted p w w' k s RLock.
Proof. exact locker_rooted. Qed.
Print Assumptions C87_locker.

(** A manager the authority put in the place of another moves an asset that has no delegate. *)
Definition man_pay : bytes := pk_bytes kDeleg ++ [x07].
Definition man_old : list blk := [blk_of XBlob five; blk_of XManager man_payload].
Definition man_new : list blk := [blk_of XBlob five; blk_of XManager man_pay].
Definition w_m0 : world := table [(kAsset, acc (mk up_head man_old)); (kPayer, wal 10000)].
Definition name_it : instr := up (mkExtInput XManager 33 (Some man_pay)).
Definition w_m1 : world := run w_m0 (process env0 (i_up kProg) w_m0 name_it).
Definition i_take (k : pubkey) : list ainfo := [mkInfo kAsset false true; mkInfo k true false; mkInfo kTo false false; mkInfo kGroup false false].
Example C87_mover_case : history_of (unharmed kAsset) kProg w_m0 w_m1 /\ sized w_m0 /\ lam_ok w_m0 /\ asset_of kProg w_m0 kAsset /\ tidy (data (w_m0 kAsset)) man_old /\
  s_delegate (data (w_m0 kAsset)) = no_key /\ ~ carries XManager man_pay (data (w_m0 kAsset)) /\ carries XManager man_pay (data (w_m1 kAsset)) /\
  exists w2, process env0 (i_take kDeleg) w_m1 ITransfer = Ok w2 /\ s_owner (data (w2 kAsset)) = pk_bytes kTo /\ s_owner (data (w_m1 kAsset)) = pk_bytes kHolder.
Proof.
  assert (T0 : tidy (data (w_m0 kAsset)) man_old) by by_layout. assert (T1 : tidy (data (w_m1 kAsset)) man_new) by by_layout.
  split; [|].
  { apply (hof_instr _ _ w_m0 w_m0 env0 (i_up kProg) name_it w_m1); [constructor|reflexivity|exact env0_ok| |apply (run_ok w_m0); vm_compute; reflexivity].
    split; [intros [E _]; discriminate E|]. split; [|intros t l E; discriminate E]. intros x E. injection E as <-. vm_compute; intuition discriminate. }
  split; [apply table_sized; vm_compute; reflexivity|]. split; [apply table_lam_ok; vm_compute; reflexivity|].
  split; [split; [reflexivity|split; [vm_compute; lia|reflexivity]]|]. split; [exact T0|]. split; [reflexivity|].
  split; [intros C; apply (carries_iff _ _ _ _ T0 (n_none XManager eq_refl)) in C; vm_compute in C; discriminate C|]. split; [apply (carries_iff _ _ _ _ T1 (n_none XManager eq_refl)); reflexivity|].
  eexists. split; [apply (run_ok w_m1); vm_compute; reflexivity|]. split; vm_compute; reflexivity.
Qed.
(** The same manager may lock or burn it. *)
Example C87_burner_case : exists w2 w3, process env0 (i_take kDeleg) w_m1 ILock = Ok w2 /\ process env0 (i_burn kDeleg) w_m1 IBurn = Ok w3 /\ arg (i_take kDeleg) 0 kAsset.
Proof.
  do 2 eexists. split; [apply (run_ok w_m1); vm_compute; reflexivity|]. split; [apply (run_ok w_m1); vm_compute; reflexivity|].
  exists (mkInfo kAsset false true). split; reflexivity.
Qed.

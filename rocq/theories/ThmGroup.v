(** Property theorems: groups (C28, C29, C30, C48). *)
From Verif Require Import Base State Layout Constr Ext World Proc BaseL Spec SpecB SpecH SpecG WorldL LayoutL LayoutE GroupL AuthM CreateL BuildL HistL CountL CountM CountH Sample ThmBuild ThmHist.
From Coq Require Import Strings.Byte.

(** C28: the group field of an asset changes only by Group with the group's
    consent — its authority or grouping delegate signs, both have the same
    authority, the group is not full — or by Ungroup signed for the group. *)
Theorem C28_consent : forall e infos w w' i k l, env_ok e -> e_prog e <> pk_zero -> sized w -> lam_ok w -> plain_request i ->
  asset_of (e_prog e) w k -> well_formed (data (w k)) l -> process e infos w i = Ok w' ->
  burns infos i k \/ s_group (data (w' k)) = s_group (data (w k)) \/
  (i = IGroup /\ arg infos 0 k /\ s_group (data (w k)) = no_key /\
     exists g, arg infos 1 g /\ s_group (data (w' k)) = pk_bytes g /\ consent (e_prog e) infos w (s_authority (data (w k))) g) \/
  (i = IUngroup /\ arg infos 0 k /\ s_group (data (w' k)) = no_key /\
     exists g s off b, arg infos 1 g /\ s_group (data (w k)) = pk_bytes g /\ signed infos s /\ has_ext (data (w g)) XGrouping off b /\ group_signer (data (w g)) b s).
Proof. exact consent_step. Qed.
Print Assumptions C28_consent.
Definition free_data : bytes := mk (header x01 x00 x00 x01 kHolder pk_zero kAuth pk_zero x00) plain_exts.
Definition w_join : world :=
  table [(kAsset, acc free_data); (kGroup, acc (grp_data 0 3)); (kHolder, wal 700); (kPayer, wal 100000)].
Definition i_group : list ainfo := [mkInfo kAsset false true; mkInfo kGroup false true; mkInfo kDeleg true false].
Example C28_case : exists w', asset_of kProg w_join kAsset /\ well_formed (data (w_join kAsset)) plain_exts /\
  process env0 i_group w_join IGroup = Ok w' /\ s_group (data (w' kAsset)) = pk_bytes kGroup.
Proof.
  eexists. split; [split; [vm_compute; reflexivity|split; [vm_compute; lia|vm_compute; reflexivity]]|].
  split; [apply mk_wf; vm_compute; reflexivity|]. split; [apply (run_ok w_join); vm_compute; reflexivity|]. vm_compute. reflexivity.
Qed.
(** ... and by Create, again with consent *)
Theorem C28_create : forall e infos w w' m k hd l n, env_ok e -> e_prog e <> pk_zero -> sized w ->
  arg infos 0 k -> open_account (data (w k)) hd l n -> Forall ext_arg (inline m) -> process e infos w (ICreate m) = Ok w' ->
  asset_of (e_prog e) w' k /\
  (s_group (data (w' k)) = s_group hd \/
   exists g, arg infos 3 g /\ s_group (data (w' k)) = pk_bytes g /\ consent (e_prog e) infos w (s_authority (data (w' k))) g).
Proof. exact consent_create. Qed.
Print Assumptions C28_create.
Definition i_born : list ainfo :=
  [mkInfo kBuf true true; mkInfo kAuth true false; mkInfo kHolder false false; mkInfo kGroup false true; mkInfo kDeleg true false; mkInfo kPayer true true; mkInfo kSys false false].
Definition m_born : metadata_input := mkMetaInput [x41] NonFungible true (Some [mkExtInput XBlob 5 (Some five)]).
Definition w_born : world := table [(kGroup, acc (grp_data 0 3)); (kBuf, wal 0); (kPayer, wal 100000)].
Example C28_create_case : open_account (data (w_born kBuf)) (repeat x00 168) [] 0 /\ Forall ext_arg (inline m_born) /\
  exists w', process env0 i_born w_born (ICreate m_born) = Ok w' /\ s_group (data (w' kBuf)) = pk_bytes kGroup.
Proof.
  split; [left; repeat split|]. split; [repeat constructor; unfold ext_arg; cbn; try discriminate; lia|].
  eexists. split; [apply (run_ok w_born); vm_compute; reflexivity|]. vm_compute. reflexivity.
Qed.
(** Over histories of proper requests (see [proper] in SpecG): whoever is a member
    of a group was there from the start, or the group consented at some point.
    Partial: the full claim is over all histories, and false (next theorem). *)
Theorem C28_history_partial : forall p w w' k g, p <> pk_zero -> g <> pk_zero -> history_of good_step p w w' -> sound p w ->
  member p w' g k -> member p w g k \/ joined good_step p w w' k g.
Proof. exact joined_history. Qed.
Print Assumptions C28_history_partial.

(** Without the restriction it is false.  A Write may run past the extension it
    completes and leave a made-up header with end offset 0; the next Allocate then
    writes its extension at offset 0, over the asset header.  An Allocate of type
    Attributes has code 1, the discriminator of an asset, so this makes an asset of
    any group and authority, signed only by the new account itself and a payer. *)
Definition forged_payload : bytes := x13 :: repeat x00 19 ++ pk_bytes kGroup ++ pk_bytes kAuth ++ zeros 108.
Definition forge_story : list (env * list ainfo * instr) :=
  [(env0, i_build kBuf, IAllocate (mkExtInput XBlob 8 None));
   (env0, i_build kBuf, IWrite (mkDataInput false (zeros 8 ++ le_enc 4 11 ++ zeros 12)));
   (env0, i_build kBuf, IAllocate (mkExtInput XAttributes 192 (Some forged_payload)))].
Lemma born_sound : sound kProg w_born.
Proof.
  assert (A : forall k, asset_of kProg w_born k -> k = kGroup).
  { intros k [O _]. unfold w_born, table in O. cbn [find fst snd] in O.
    destruct (pk_eqb k kGroup) eqn:E1; [now apply pk_eqb_eq|].
    destruct (pk_eqb k kBuf) eqn:E2; [discriminate|]. destruct (pk_eqb k kPayer) eqn:E3; discriminate. }
  assert (T : tidy (data (w_born kGroup)) (grp_exts 0 3)).
  { exists (header x01 x00 x00 x01 kHolder pk_zero kAuth pk_zero x00), 0%nat. apply (mk_layout _ (grp_exts 0 3) []). vm_compute. reflexivity. }
  assert (N : forall g k, g <> pk_zero -> ~ member kProg w_born g k).
  { intros g k Ng [Q M]. apply A in Q. subst k. apply Ng. apply pk_ext. rewrite <- M. reflexivity. }
  split; [apply table_sized; vm_compute; reflexivity|]. split; [apply table_lam_ok; vm_compute; reflexivity|]. split.
  - intros k Q. apply A in Q. subst k. eauto.
  - intros g n Ng R. assert (n = 0) as ->.
    { destruct R as [(Q & l & Tl & ->)|[_ Q]]; [|assumption]. apply A in Q. subst g. now rewrite (size_det _ _ _ Tl T). }
    apply counts_zero. intro. now apply N.
Qed.
Theorem C28_forged_refuted : exists w w', sound kProg w /\ history kProg w w' /\ steps forge_story w = Ok w' /\
  ~ asset_of kProg w kBuf /\ member kProg w' kGroup kBuf /\ s_authority (data (w' kBuf)) = pk_bytes kAuth /\
  (forall e infos i k, In (e, infos, i) forge_story -> signed infos k -> k = kBuf \/ k = kPayer) /\
  recorded kProg w' kGroup 0 /\ ~ counts kProg w' kGroup 0.
Proof.
  set (w' := run w_born (steps forge_story w_born)).
  assert (E : steps forge_story w_born = Ok w') by (apply run_ok; vm_compute; reflexivity).
  assert (M : member kProg w' kGroup kBuf).
  { split; [split; [vm_compute; reflexivity|split; [vm_compute; lia|vm_compute; reflexivity]]|vm_compute; reflexivity]. }
  exists w_born, w'. split; [apply born_sound|].
  split; [refine (steps_history kProg forge_story _ w_born w_born w' (hist_refl _ _) E); repeat constructor; exact env0_ok|].
  split; [exact E|]. split; [intros [Q _]; vm_compute in Q; discriminate|]. split; [exact M|]. split; [vm_compute; reflexivity|].
  split.
  { intros e infos i k Hin. assert (infos = i_build kBuf) as -> by (cbn [forge_story In] in Hin; intuition congruence).
    unfold signed, i_build. intros (x & Hx & Hk & Hsg). cbn [In] in Hx. destruct Hx as [<-|[<-|[<-|[]]]]; cbn in *; auto. discriminate. }
  split.
  { left. split; [split; [vm_compute; reflexivity|split; [vm_compute; lia|vm_compute; reflexivity]]|].
    exists (grp_exts 0 3). split; [|vm_compute; reflexivity]. replace (data (w' kGroup)) with (data (w_born kGroup)) by (vm_compute; reflexivity).
    exists (header x01 x00 x00 x01 kHolder pk_zero kAuth pk_zero x00), 0%nat. apply (mk_layout _ (grp_exts 0 3) []). vm_compute. reflexivity. }
  intro C. exact (counts_zero_inv _ _ _ C kBuf M).
Qed.
Print Assumptions C28_forged_refuted.

(** C29: what Group and Ungroup do; Burn is in C10 and Create in C28/C22. *)
Theorem C29_group : forall e infos w w', sized w -> process e infos w IGroup = Ok w' ->
  exists asset group auth off b, arg infos 0 asset /\ arg infos 1 group /\ arg infos 2 auth /\ signed infos auth /\
    asset <> group /\ acct_owner (w asset) = e_prog e /\ acct_owner (w group) = e_prog e /\
    initialized (data (w asset)) /\ initialized (data (w group)) /\
    s_group (data (w asset)) = no_key /\ s_authority (data (w asset)) = s_authority (data (w group)) /\
    has_ext (data (w group)) XGrouping off b /\ group_signer (data (w group)) b auth /\
    (gr_max b = 0 \/ gr_size b < gr_max b) /\
    (forall k, k <> asset -> k <> group -> w' k = w k) /\
    (forall k, lamports (w' k) = lamports (w k) /\ acct_owner (w' k) = acct_owner (w k)) /\
    same_except (data (w asset)) (data (w' asset)) 36 32 /\ s_group (data (w' asset)) = pk_bytes group /\
    same_except (data (w group)) (data (w' group)) (Z.to_nat off) 8 /\
    le_dec (sub (data (w' group)) (Z.to_nat off) 8) = (gr_size b + 1) mod two64.
Proof. exact group_effect. Qed.
Print Assumptions C29_group.
Theorem C29_ungroup : forall e infos w w', sized w -> process e infos w IUngroup = Ok w' ->
  exists asset group auth off b, arg infos 0 asset /\ arg infos 1 group /\ arg infos 2 auth /\ signed infos auth /\
    asset <> group /\ acct_owner (w asset) = e_prog e /\ acct_owner (w group) = e_prog e /\
    initialized (data (w asset)) /\ initialized (data (w group)) /\
    s_group (data (w asset)) = pk_bytes group /\
    has_ext (data (w group)) XGrouping off b /\ group_signer (data (w group)) b auth /\
    (forall k, k <> asset -> k <> group -> w' k = w k) /\
    (forall k, lamports (w' k) = lamports (w k) /\ acct_owner (w' k) = acct_owner (w k)) /\
    same_except (data (w asset)) (data (w' asset)) 36 32 /\ s_group (data (w' asset)) = no_key /\
    same_except (data (w group)) (data (w' group)) (Z.to_nat off) 8 /\
    le_dec (sub (data (w' group)) (Z.to_nat off) 8) = (gr_size b - 1) mod two64 /\
    data (w' asset) = put (data (w asset)) 36 no_key /\
    data (w' group) = put (data (w group)) off (le_enc 8 ((gr_size b - 1) mod two64)) /\ (16 <= length b <= 48)%nat.
Proof. exact ungroup_effect. Qed.
Print Assumptions C29_ungroup.
Example C29_case : exists w1 w2, process env0 i_group w_join IGroup = Ok w1 /\ data (w1 kGroup) = grp_data 1 3 /\
  process env0 i_group w1 IUngroup = Ok w2 /\ data (w2 kGroup) = grp_data 0 3 /\ s_group (data (w2 kAsset)) = no_key.
Proof.
  eexists. eexists. split; [apply (run_ok w_join); vm_compute; reflexivity|]. split; [vm_compute; reflexivity|].
  split; [apply (run_ok w_join); vm_compute; reflexivity|]. vm_compute. auto.
Qed.
(** The recorded size counts the members, over every history of proper requests
    and outside events, of any length and with any number of assets.  [sound] says
    this of the first world; it holds if there is no asset yet.  Partial: the full
    claim has no restriction to proper requests ([proper], [roomy] in SpecG); it is
    false without it (C29_size_refuted below, C28_forged_refuted, C31_buffer_refuted). *)
Theorem C29_size_counts_partial : forall p w w', p <> pk_zero -> history_of good_step p w w' -> sound p w ->
  forall g n, g <> pk_zero -> recorded p w' g n -> counts p w' g n.
Proof. intros p w w' Hp H S. exact (proj2 (proj2 (proj2 (sound_history p w w' Hp H S)))). Qed.
Print Assumptions C29_size_counts_partial.
Theorem C29_from_nothing_partial : forall p w w' g n, p <> pk_zero -> sized w -> lam_ok w -> (forall k, ~ asset_of p w k) ->
  history_of good_step p w w' -> g <> pk_zero -> recorded p w' g n -> counts p w' g n.
Proof. intros p w w' g n Hp Hs Hl N H. exact (C29_size_counts_partial p w w' Hp H (sound_empty p w Hs Hl N) g n). Qed.
Print Assumptions C29_from_nothing_partial.
Lemma born_roomy : roomy kProg w_born.
Proof.
  intros g n [(A & l & T & ->)|[_ ->]]; [|lia].
  assert (A0 : g = kGroup).
  { destruct A as [O _]. unfold w_born, table in O. cbn [find fst snd] in O.
    destruct (pk_eqb g kGroup) eqn:E1; [now apply pk_eqb_eq|].
    destruct (pk_eqb g kBuf) eqn:E2; [discriminate|]. destruct (pk_eqb g kPayer) eqn:E3; discriminate. }
  subst g. assert (T2 : tidy (data (w_born kGroup)) (grp_exts 0 3)).
  { exists (header x01 x00 x00 x01 kHolder pk_zero kAuth pk_zero x00), 0%nat. apply (mk_layout _ (grp_exts 0 3) []). vm_compute. reflexivity. }
  rewrite (size_det _ _ _ T T2). vm_compute. reflexivity.
Qed.
Example C29_history_case : exists w', sound kProg w_born /\ history_of good_step kProg w_born w' /\
  recorded kProg w' kGroup 1 /\ member kProg w' kGroup kBuf.
Proof.
  eexists. split; [apply born_sound|].
  assert (R : process env0 i_born w_born (ICreate m_born) = Ok (run w_born (process env0 i_born w_born (ICreate m_born)))) by (apply run_ok; vm_compute; reflexivity).
  split.
  { refine (hof_instr _ _ _ w_born env0 i_born (ICreate m_born) _ (hof_refl _ _ _) eq_refl env0_ok _ R).
    split; [|apply born_roomy]. cbn [proper]. split; [repeat constructor; unfold ext_arg; cbn; try discriminate; lia|].
    intros a (x & Hx & <-). assert (x = mkInfo kBuf true true) as -> by (cbn [nth_error passed firstn i_born MAX_ACCOUNTS] in Hx; congruence). cbn [ai_key].
    exists [], 0. left. repeat split. }
  set (w1 := run w_born (process env0 i_born w_born (ICreate m_born))).
  split.
  - left. split; [split; [vm_compute; reflexivity|split; [vm_compute; lia|vm_compute; reflexivity]]|].
    exists (grp_exts 1 3). split; [|vm_compute; reflexivity]. replace (data (w1 kGroup)) with (grp_data 1 3) by (vm_compute; reflexivity).
    exists (header x01 x00 x00 x01 kHolder pk_zero kAuth pk_zero x00), 0%nat. apply (mk_layout _ (grp_exts 1 3) []). vm_compute. reflexivity.
  - split; [split; [vm_compute; reflexivity|split; [vm_compute; lia|vm_compute; reflexivity]]|vm_compute; reflexivity].
Qed.

(** Without the restriction the claim is false: an Update of the grouping extension
    without data empties it while the group has a member. *)
Theorem C29_size_refuted : exists p w w' g n, p <> pk_zero /\ sound p w /\ history_of (fun _ _ _ _ => True) p w w' /\ g <> pk_zero /\
  recorded p w' g n /\ ~ counts p w' g n.
Proof.
  set (w1 := run w_born (process env0 i_born w_born (ICreate m_born))).
  set (i := IUpdate (mkUpdInput None None (Some (mkExtInput XGrouping 0 None)))).
  set (l := [mkInfo kGroup false true; mkInfo kAuth true false; mkInfo kProg false false; mkInfo kProg false false; mkInfo kPayer true true; mkInfo pk_zero false false]).
  set (w2 := run w1 (process env0 l w1 i)).
  exists kProg, w_born, w2, kGroup, 0. split; [discriminate|]. split; [apply born_sound|]. split.
  { refine (hof_instr _ _ _ w1 env0 l i w2 _ eq_refl env0_ok I _); [|apply run_ok; vm_compute; reflexivity].
    refine (hof_instr _ _ _ w_born env0 i_born (ICreate m_born) w1 (hof_refl _ _ _) eq_refl env0_ok I _). apply run_ok. vm_compute. reflexivity. }
  split; [discriminate|]. split.
  - left. split; [split; [vm_compute; reflexivity|split; [vm_compute; lia|vm_compute; reflexivity]]|].
    exists [blk_of XBlob [x01]; blk_of XGrouping []]. split; [|vm_compute; reflexivity].
    replace (data (w2 kGroup)) with (mk (header x01 x00 x00 x01 kHolder pk_zero kAuth pk_zero x00) [blk_of XBlob [x01]; blk_of XGrouping []]) by (vm_compute; reflexivity).
    exists (header x01 x00 x00 x01 kHolder pk_zero kAuth pk_zero x00), 0%nat. apply (mk_layout _ [blk_of XBlob [x01]; blk_of XGrouping []] []). vm_compute. reflexivity.
  - intros (ks & _ & N & H). destruct ks; [|cbn [length] in N; lia].
    assert (M : member kProg w2 kGroup kBuf) by (split; [split; [vm_compute; reflexivity|split; [vm_compute; lia|vm_compute; reflexivity]]|vm_compute; reflexivity]).
    exact (proj2 (H kBuf) M).
Qed.
Print Assumptions C29_size_refuted.

(** C30: with a limit, Group and Create stay within it, whatever the world; *)
Theorem C30_group : forall e infos w w' g off b, sized w -> process e infos w IGroup = Ok w' -> arg infos 1 g ->
  has_ext (data (w g)) XGrouping off b -> gr_max b <> 0 ->
  le_dec (sub (data (w' g)) (Z.to_nat off) 8) = gr_size b + 1 /\ gr_size b + 1 <= gr_max b.
Proof. exact group_limit. Qed.
Print Assumptions C30_group.
Theorem C30_create : forall e infos w w' m asset hd l n g off b, env_ok e -> e_prog e <> pk_zero -> sized w ->
  arg infos 0 asset -> open_account (data (w asset)) hd l n -> Forall ext_arg (inline m) ->
  process e infos w (ICreate m) = Ok w' -> arg infos 3 g -> g <> e_prog e ->
  has_ext (data (w g)) XGrouping off b -> gr_max b <> 0 ->
  data (w' g) = put (data (w g)) off (le_enc 8 (gr_size b + 1)) /\ gr_size b + 1 <= gr_max b.
Proof. exact create_limit. Qed.
Print Assumptions C30_create.
(** and over histories the size never exceeds the limit. *)
Theorem C30_history : forall p w w', p <> pk_zero -> history_of good_step p w w' -> sound p w -> within_limits p w -> within_limits p w'.
Proof. exact limit_history. Qed.
Print Assumptions C30_history.
Definition w_full : world := table [(kAsset, acc free_data); (kGroup, acc (grp_data 3 3)); (kHolder, wal 700); (kPayer, wal 100000)].
Example C30_case : exists w', process env0 i_group w_join IGroup = Ok w' /\
  process env0 i_group w_full IGroup = Err EExtensionDataInvalid /\ (exists off, has_ext (data (w_full kGroup)) XGrouping off (grp_payload 3 3)).
Proof.
  eexists. split; [apply (run_ok w_join); vm_compute; reflexivity|]. split; [vm_compute; reflexivity|].
  exists 208. apply asset_get_some. vm_compute. reflexivity.
Qed.

(** C48.  Burn never wraps; Group does not with a limit (C30_group); over histories
    nothing does: the size stays, or moves by one as an integer.  Partial: the full
    claim is over all worlds, and false (C48_ungroup_refuted, C48_group_refuted). *)
Theorem C48_burn : forall e infos w w' a, lam_ok w -> process e infos w IBurn = Ok w' -> arg infos 0 a -> s_group (data (w a)) <> no_key ->
  exists g off b, arg infos 3 g /\ pk_bytes g = s_group (data (w a)) /\ has_ext (data (w g)) XGrouping off b /\ 1 <= gr_size b /\
    data (w' g) = put (data (w g)) off (le_enc 8 (gr_size b - 1)).
Proof. exact burn_no_wrap. Qed.
Print Assumptions C48_burn.
Theorem C48_history_partial : forall e infos w w' i g n n', env_ok e -> e_prog e <> pk_zero -> sound (e_prog e) w -> proper e infos w i -> roomy (e_prog e) w ->
  process e infos w i = Ok w' -> g <> pk_zero -> recorded (e_prog e) w g n -> recorded (e_prog e) w' g n' ->
  n' = n \/ (n' = n + 1 /\ ((i = IGroup /\ arg infos 1 g) \/ exists m, i = ICreate m /\ arg infos 3 g)) \/
  (n' = n - 1 /\ ((i = IUngroup /\ arg infos 1 g) \/ (i = IBurn /\ arg infos 3 g))).
Proof. exact size_change. Qed.
Print Assumptions C48_history_partial.
Example C48_case : exists w', process env0 [mkInfo kAsset false true; mkInfo kHolder true true; mkInfo kTo false true; mkInfo kGroup false true] w_grp IBurn = Ok w' /\
  s_group (data (w_grp kAsset)) = pk_bytes kGroup /\ data (w' kGroup) = grp_data 1 3.
Proof. eexists. split; [apply (run_ok w_grp); vm_compute; reflexivity|]. vm_compute. auto. Qed.
(** In other worlds Ungroup and Group do wrap: a member of a group whose recorded
    size is 0 (the authority can bring that about, C31_buffer_refuted), and a group
    without limit at the largest size. *)
Theorem C48_ungroup_refuted : exists w w', member kProg w kGroup kAsset /\ process env0 i_group w IUngroup = Ok w' /\
  data (w kGroup) = grp_data 0 3 /\ data (w' kGroup) = grp_data 18446744073709551615 3.
Proof.
  exists (table [(kAsset, acc member_data); (kGroup, acc (grp_data 0 3))]). eexists.
  split; [split; [split; [vm_compute; reflexivity|split; [vm_compute; lia|vm_compute; reflexivity]]|vm_compute; reflexivity]|].
  split; [apply (run_ok w_join); vm_compute; reflexivity|]. vm_compute. auto.
Qed.
Print Assumptions C48_ungroup_refuted.
Theorem C48_group_refuted : exists w w', process env0 i_group w IGroup = Ok w' /\
  data (w kGroup) = grp_data 18446744073709551615 0 /\ data (w' kGroup) = grp_data 0 0.
Proof.
  exists (table [(kAsset, acc free_data); (kGroup, acc (grp_data 18446744073709551615 0))]). eexists.
  split; [apply (run_ok w_join); vm_compute; reflexivity|]. vm_compute. auto.
Qed.
Print Assumptions C48_group_refuted.

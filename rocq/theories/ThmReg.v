(** Property theorems: the program keeps a registry of assets (C77). *)
From Verif Require Import Base State Layout Constr Ext World Proc BaseL Spec SpecB SpecC SpecE SpecF SpecH SpecG SpecW SpecS WorldL LayoutL LayoutE GroupL AuthM CreateL BuildL HistL CountL CountM CountH RegL RegM RegN RegO RegP ExactL Sample SampleE ThmBuild ThmHist ThmGroup.
From Coq Require Import Strings.Byte.

(** C77: read as a registry (SpecS), the accounts change as the registry does: every
    instruction that succeeds is a step of the registry, and the accounts then show
    the registry after it. *)
Theorem C77_step : forall e infos w w' R i, env_ok e -> e_prog e <> pk_zero -> sound (e_prog e) w -> pictures (e_prog e) w R -> proper e infos w i ->
  process e infos w i = Ok w' -> exists R', act e w infos R i R' /\ pictures (e_prog e) w' R'.
Proof. intros e infos w w' R i He Hp HS HI HP H. exact (act_step e infos w w' R He Hp HS HI i HP H). Qed.
Print Assumptions C77_step.
(** Over histories: whatever happens between, the accounts show a registry that
    evolved by such steps from the one shown at the start. *)
Theorem C77_history : forall p w w' R, p <> pk_zero -> sound p w -> pictures p w R -> history_of good_step p w w' ->
  exists R', evolves p R R' /\ pictures p w' R' /\ sound p w'.
Proof. exact registry_history. Qed.
Print Assumptions C77_history.
Theorem C77_from_nothing : forall p w w', p <> pk_zero -> sized w -> lam_ok w -> (forall k, ~ asset_of p w k) -> history_of good_step p w w' ->
  exists R', evolves p (fun _ => None) R' /\ pictures p w' R'.
Proof. exact registry_born. Qed.
Print Assumptions C77_from_nothing.
(** Accounts show one registry only. *)
Theorem C77_one : forall p w R R', pictures p w R -> pictures p w R' -> forall k, R' k = R k.
Proof. exact pictures_det. Qed.
Print Assumptions C77_one.
(** And conversely: whatever step the registry allows, the program carries out if the
    accounts are in place ([well_placed]), and the outcome is that step's. *)
Theorem C77_complete : forall e infos w R i R', env_ok e -> e_prog e <> pk_zero -> sound (e_prog e) w -> pictures (e_prog e) w R ->
  (forall k v, R k = Some v -> readable v) -> act e w infos R i R' -> well_placed e w infos R i ->
  exists w', process e infos w i = Ok w' /\ pictures (e_prog e) w' R'.
Proof. intros e infos w R i R' He Hp HS HI HQ A W. exact (act_complete e infos w R HS HI HQ He Hp i R' A W). Qed.
Print Assumptions C77_complete.
(** A request is a step to one registry only. *)
Theorem C77_determined : forall e w infos R i R1 R2, act e w infos R i R1 -> act e w infos R i R2 -> forall k, R1 k = R2 k.
Proof. exact act_determined. Qed.
Print Assumptions C77_determined.

(** a free asset and an empty group *)
Definition v_free : asset := mkAsset (pk_bytes kHolder) None (pk_bytes kAuth) None false x00 true (s_name free_data) (ext_list plain_exts).
Definition v_grp (n : Z) : asset := mkAsset (pk_bytes kHolder) None (pk_bytes kAuth) None false x00 true (s_name free_data) (ext_list (grp_exts n 3)).
Definition R_join : registry := fun k => if pk_eqb k kAsset then Some v_free else if pk_eqb k kGroup then Some (v_grp 0) else None.
(** ... the asset in the group *)
Definition v_in : asset := mkAsset (pk_bytes kHolder) (Some (pk_bytes kGroup)) (pk_bytes kAuth) None false x00 true (s_name free_data) (ext_list plain_exts).
Definition R_in : registry := fun k => if pk_eqb k kAsset then Some v_in else if pk_eqb k kGroup then Some (v_grp 1) else None.
Lemma join_assets k : asset_of kProg w_join k -> k = kAsset \/ k = kGroup.
Proof.
  intros [O _]. unfold w_join, table in O. cbn [find fst snd] in O.
  destruct (pk_eqb k kAsset) eqn:E0; [left; now apply pk_eqb_eq|]. destruct (pk_eqb k kGroup) eqn:E1; [right; now apply pk_eqb_eq|].
  destruct (pk_eqb k kHolder) eqn:E2; [discriminate|]. destruct (pk_eqb k kPayer) eqn:E3; discriminate.
Qed.
Lemma join_asset : tidy (data (w_join kAsset)) plain_exts.
Proof. exists (header x01 x00 x00 x01 kHolder pk_zero kAuth pk_zero x00), 0%nat. apply (mk_layout _ plain_exts []). vm_compute. reflexivity. Qed.
Lemma join_group : tidy (data (w_join kGroup)) (grp_exts 0 3).
Proof. exists (header x01 x00 x00 x01 kHolder pk_zero kAuth pk_zero x00), 0%nat. apply (mk_layout _ (grp_exts 0 3) []). vm_compute. reflexivity. Qed.
Lemma join_sound : sound kProg w_join.
Proof.
  split; [apply table_sized; vm_compute; reflexivity|]. split; [apply table_lam_ok; vm_compute; reflexivity|]. split.
  - intros k Q. apply join_assets in Q as [-> | ->]; eauto using join_asset, join_group.
  - intros g n Ng R. assert (n = 0) as ->.
    { destruct R as [(Q & l & Tl & ->)|[_ Q]]; [|assumption]. apply join_assets in Q as [-> | ->].
      - now rewrite (size_det _ _ _ Tl join_asset).
      - now rewrite (size_det _ _ _ Tl join_group). }
    apply counts_zero. intros k [Q M]. apply Ng. apply pk_ext. rewrite <- M. apply join_assets in Q as [-> | ->]; reflexivity.
Qed.
Lemma join_pictures : pictures kProg w_join R_join.
Proof.
  intro k. unfold R_join. destruct (pk_eqb k kAsset) eqn:E0.
  - apply pk_eqb_eq in E0. subst k. split; [split; [vm_compute; reflexivity|split; [vm_compute; lia|vm_compute; reflexivity]]|].
    split; [split; [vm_compute; lia|vm_compute; reflexivity]|]. split; [vm_compute; reflexivity|]. exists plain_exts. split; [apply join_asset|vm_compute; reflexivity].
  - destruct (pk_eqb k kGroup) eqn:E1.
    + apply pk_eqb_eq in E1. subst k. split; [split; [vm_compute; reflexivity|split; [vm_compute; lia|vm_compute; reflexivity]]|].
      split; [split; [vm_compute; lia|vm_compute; reflexivity]|]. split; [vm_compute; reflexivity|]. exists (grp_exts 0 3). split; [apply join_group|vm_compute; reflexivity].
    + intro Q. apply join_assets in Q as [-> | ->]; vm_compute in E0, E1; discriminate.
Qed.
Lemma join_act : act env0 w_join i_group R_join IGroup R_in.
Proof.
  apply (act_join env0 w_join i_group R_join kAsset v_free kGroup (v_grp 0) (grp_payload 0 3) kDeleg).
  - split; [ok_arg|]. split; [reflexivity|discriminate].
  - ok_arg.
  - ok_arg.
  - intro Q. apply (f_equal pk_bytes) in Q. vm_compute in Q. discriminate.
  - reflexivity.
  - split; [reflexivity|]. split; [reflexivity|]. split; [vm_compute; reflexivity|]. split; [right; split; [vm_compute; discriminate|vm_compute; reflexivity]|].
    split; [exists (mkInfo kDeleg true false); repeat split; cbn; tauto|]. right. vm_compute. reflexivity.
  - split; [vm_compute; reflexivity|]. split; [vm_compute; reflexivity|]. intros k N1 N2. unfold R_in, R_join.
    apply pk_eqb_neq in N1, N2. now rewrite N1, N2.
Qed.
Lemma join_readable k v : R_join k = Some v -> readable v.
Proof.
  unfold R_join. destruct (pk_eqb k kAsset); [|destruct (pk_eqb k kGroup); [|discriminate]]; intro E; apply some_inj in E; subst v; (split; [|split]); intros b H; found H; vm_compute; lia.
Qed.
Example C77_case : sound kProg w_join /\ pictures kProg w_join R_join /\ (forall k v, R_join k = Some v -> readable v) /\
  act env0 w_join i_group R_join IGroup R_in /\ well_placed env0 w_join i_group R_join IGroup /\
  okb (process env0 i_group w_join IGroup) = true /\ R_join kAsset = Some v_free /\ R_in kAsset = Some v_in /\ R_in kGroup = Some (v_grp 1).
Proof.
  split; [apply join_sound|]. split; [apply join_pictures|]. split; [apply join_readable|]. split; [apply join_act|]. split.
  { split; [apply plain_table; vm_compute; reflexivity|]. split; intros k (x & Hx & <-).
    - assert (x = mkInfo kAsset false true) as -> by (cbn [nth_error passed firstn i_group MAX_ACCOUNTS] in Hx; congruence). ok_wr.
    - assert (x = mkInfo kGroup false true) as -> by (cbn [nth_error passed firstn i_group MAX_ACCOUNTS] in Hx; congruence). ok_wr. }
  vm_compute. auto.
Qed.
(** an Update that adds an extension and a Remove that takes it away *)
Definition q_add : update_input := mkUpdInput (Some [x51]) None (Some (mkExtInput XBucket 2 (Some [x07; x09]))).
Definition R_add : registry := fun k => if pk_eqb k kAsset then Some (with_exts (as_exts v_free ++ [(XBucket, [x07; x09])]) (with_face (name_field [x51]) true v_free)) else R_join k.
Lemma add_act : act env0 w_join (i_update kAsset) R_join (IUpdate q_add) R_add.
Proof.
  apply (act_update env0 w_join (i_update kAsset) R_join kAsset v_free kAuth q_add (as_exts v_free ++ [(XBucket, [x07; x09])])).
  - split; [split; [ok_arg|split; [reflexivity|discriminate]]|]. split; [ok_arg|]. split; [exists (mkInfo kAuth true false); repeat split; cbn; tauto|]. split; reflexivity.
  - cbn [u_ext q_add]. exists [x07; x09], [x07; x09]. split; [reflexivity|]. split; [reflexivity|]. split; [|reflexivity].
    split; [discriminate|]. split; [discriminate|]. repeat split; try discriminate.
  - split; [reflexivity|]. intros k N. unfold R_add. apply pk_eqb_neq in N. now rewrite N.
Qed.
Lemma add_placed : well_placed env0 w_join (i_update kAsset) R_join (IUpdate q_add).
Proof.
  split; [apply plain_table; vm_compute; reflexivity|]. split.
  { intros k (x & Hx & <-). assert (x = mkInfo kAsset false true) as -> by (cbn [nth_error passed firstn i_update MAX_ACCOUNTS] in Hx; congruence). ok_wr. }
  exists None, (Some kPayer), (Some kSys). split; [ok_arg|]. split; [ok_arg|]. split; [split; [ok_arg|intro Q; apply (f_equal pk_bytes) in Q; vm_compute in Q; discriminate]|].
  split; [split; [ok_arg|intro Q; apply (f_equal pk_bytes) in Q; vm_compute in Q; discriminate]|]. split; [reflexivity|].
  intros k v (x & Hx & <-). assert (x = mkInfo kAsset false true) as -> by (cbn [nth_error passed firstn i_update MAX_ACCOUNTS] in Hx; congruence). cbn [ai_key].
  intro Ev. assert (v = v_free) as -> by (unfold R_join in Ev; rewrite pk_eqb_refl in Ev; congruence). split; [cbn; lia|].
  intros x Ex. assert (x = mkExtInput XBucket 2 (Some [x07; x09])) as -> by (cbn in Ex; congruence). cbn [x_type x_length].
  split; [split; [discriminate|split; [cbn; lia|vm_compute; reflexivity]]|]. split.
  { unfold fits. cbn. split; [discriminate|]. split; [discriminate|]. split; [discriminate|]. repeat split; discriminate. }
  intros hd l tl F _. pose proof (mk_layout (header x01 x00 x00 x01 kHolder pk_zero kAuth pk_zero x00) plain_exts [] ltac:(vm_compute; reflexivity)) as F2.
  assert (E : l = plain_exts /\ tl = []) by exact (layout_same_all _ _ _ _ _ _ _ F F2). destruct E as [-> ->].
  split.
  - intros _. split; [now left|]. split; [|intro C; vm_compute in C; discriminate]. intros _. split; [vm_compute; discriminate|]. split; [vm_compute; discriminate|].
    intro C. vm_compute in C. discriminate.
  - intros l1 b l2 E T _. destruct l1 as [|b1 l1]; [inversion E; subst; discriminate|]. inversion E as [[E1 E2]]. destruct l1; discriminate.
Qed.
Definition i_rm : list ainfo := [mkInfo kAsset false true; mkInfo kAuth true false; mkInfo kProg false false; mkInfo kPayer false true].
Definition R_rm : registry := fun k => if pk_eqb k kAsset then Some (with_exts [] v_free) else R_join k.
Lemma rm_act : act env0 w_join i_rm R_join (IRemove XBlob) R_rm.
Proof.
  apply (act_remove env0 w_join i_rm R_join kAsset v_free kAuth XBlob [] [x01; x02; x03; x04; x05]); try discriminate; try reflexivity.
  - split; [split; [ok_arg|split; [reflexivity|discriminate]]|]. split; [ok_arg|]. split; [exists (mkInfo kAuth true false); repeat split; cbn; tauto|]. split; reflexivity.
  - split; [reflexivity|]. intros k N. unfold R_rm. apply pk_eqb_neq in N. now rewrite N.
Qed.
Lemma rm_placed : well_placed env0 w_join i_rm R_join (IRemove XBlob).
Proof.
  split; [apply plain_table; vm_compute; reflexivity|]. split.
  { intros k (x & Hx & <-). assert (x = mkInfo kAsset false true) as -> by (cbn [nth_error passed firstn i_rm MAX_ACCOUNTS] in Hx; congruence). ok_wr. }
  exists None, kPayer. split; [ok_arg|]. split; [ok_arg|].
  intros k (x & Hx & <-). assert (x = mkInfo kAsset false true) as -> by (cbn [nth_error passed firstn i_rm MAX_ACCOUNTS] in Hx; congruence). cbn [ai_key]. split.
  - intros v b Ev. assert (v = v_free) as -> by (unfold R_join in Ev; rewrite pk_eqb_refl in Ev; congruence). intro H. found H. discriminate.
  - intros size Hs _ _. split; [ok_wr|]. cbn [e_rent env0]. change (lamports (w_join kPayer)) with 100000. change (lamports (w_join kAsset)) with 5000. lia.
Qed.
Example C77_rent_case : act env0 w_join (i_update kAsset) R_join (IUpdate q_add) R_add /\ well_placed env0 w_join (i_update kAsset) R_join (IUpdate q_add) /\
  act env0 w_join i_rm R_join (IRemove XBlob) R_rm /\ well_placed env0 w_join i_rm R_join (IRemove XBlob) /\
  okb (process env0 (i_update kAsset) w_join (IUpdate q_add)) = true /\ okb (process env0 i_rm w_join (IRemove XBlob)) = true.
Proof. split; [apply add_act|]. split; [apply add_placed|]. split; [apply rm_act|]. split; [apply rm_placed|]. vm_compute. auto. Qed.
(** a history from no asset at all: an asset is created *)
Definition w_void : world := table [(kBuf, wal 0); (kPayer, wal 100000)].
Definition i_new : list ainfo :=
  [mkInfo kBuf true true; mkInfo kAuth true false; mkInfo kHolder false false; mkInfo kProg false false; mkInfo kProg false false; mkInfo kPayer true true; mkInfo kSys false false].
Definition w_new : world := run w_void (process env0 i_new w_void (ICreate m_born)).
Lemma void_empty k : ~ asset_of kProg w_void k.
Proof.
  intros [O _]. unfold w_void, table in O. cbn [find fst snd] in O.
  destruct (pk_eqb k kBuf) eqn:E2; [discriminate|]. destruct (pk_eqb k kPayer) eqn:E3; discriminate.
Qed.
Example C77_history_case : sized w_void /\ lam_ok w_void /\ (forall k, ~ asset_of kProg w_void k) /\ history_of good_step kProg w_void w_new /\
  asset_of kProg w_new kBuf /\ s_owner (data (w_new kBuf)) = pk_bytes kHolder.
Proof.
  split; [apply table_sized; vm_compute; reflexivity|]. split; [apply table_lam_ok; vm_compute; reflexivity|]. split; [apply void_empty|].
  assert (R : process env0 i_new w_void (ICreate m_born) = Ok w_new) by (apply run_ok; vm_compute; reflexivity).
  split.
  { refine (hof_instr _ _ _ w_void env0 i_new (ICreate m_born) _ (hof_refl _ _ _) eq_refl env0_ok _ R).
    split; [|intros g n [(A & _)|[_ ->]]; [elim (void_empty g A)|lia]]. cbn [proper]. split; [repeat constructor; unfold ext_arg; cbn; try discriminate; lia|].
    intros a (x & Hx & <-). assert (x = mkInfo kBuf true true) as -> by (cbn [nth_error passed firstn i_new MAX_ACCOUNTS] in Hx; congruence). cbn [ai_key].
    exists [], 0. left. repeat split. }
  split; [split; [vm_compute; reflexivity|split; [vm_compute; lia|vm_compute; reflexivity]]|vm_compute; reflexivity].
Qed.
(** ... and the registry's own step for it *)
Definition v_born : asset := newborn m_born (pk_bytes kHolder) (pk_bytes kAuth) None (map (fun x => (x_type x, given x)) (inline m_born)).
Lemma born_placed : well_placed env0 w_void i_new (fun _ => None) (ICreate m_born).
Proof.
  split; [apply plain_table; vm_compute; reflexivity|]. split.
  { intros k (x & Hx & <-). assert (x = mkInfo kBuf true true) as -> by (cbn [nth_error passed firstn i_new MAX_ACCOUNTS] in Hx; congruence). ok_wr. }
  split; [repeat constructor; unfold ext_arg; cbn; try discriminate; lia|]. split; [repeat constructor|]. split.
  { cbn. repeat (apply NoDup_cons; [cbn; intuition discriminate|]). apply NoDup_nil. }
  split.
  { intros k (x & Hx & <-) N. assert (x = mkInfo kProg false false) as -> by (cbn [nth_error passed firstn i_new MAX_ACCOUNTS] in Hx; congruence). now elim N. }
  exists None, (Some kPayer), (Some kSys). split; [ok_arg|]. split; [split; [ok_arg|intro Q; apply (f_equal pk_bytes) in Q; vm_compute in Q; discriminate]|].
  split; [split; [ok_arg|intro Q; apply (f_equal pk_bytes) in Q; vm_compute in Q; discriminate]|].
  intros k (x & Hx & <-). assert (x = mkInfo kBuf true true) as -> by (cbn [nth_error passed firstn i_new MAX_ACCOUNTS] in Hx; congruence). cbn [ai_key].
  exists [], 0. split; [left; repeat split|]. split; [now left|]. split; [repeat constructor|]. split.
  { constructor; [|constructor]. split; [|repeat split; discriminate]. cbn [fst snd parses x_type]. exists [x02], [x01; x02], [x03; x04; x05]. split; [split; [vm_compute; discriminate|vm_compute; reflexivity]|reflexivity]. }
  split; [|intro C; now elim C]. intros _. split; [reflexivity|]. split; [reflexivity|]. split; [vm_compute; discriminate|]. split; [vm_compute; reflexivity|].
  split; [reflexivity|]. exists kPayer. split; [reflexivity|]. split; [intro Q; apply (f_equal pk_bytes) in Q; vm_compute in Q; discriminate|].
  split; [exists (mkInfo kPayer true true); repeat split; cbn; tauto|]. split; [ok_wr|]. split; [reflexivity|]. split; [reflexivity|]. vm_compute. discriminate.
Qed.
Example C77_birth_case : act env0 w_void i_new (fun _ => None) (ICreate m_born) (fun k => if pk_eqb k kBuf then Some v_born else None) /\
  well_placed env0 w_void i_new (fun _ => None) (ICreate m_born) /\ okb (process env0 i_new w_void (ICreate m_born)) = true.
Proof.
  split; [|split; [apply born_placed|vm_compute; reflexivity]].
  apply (act_create env0 w_void i_new (fun _ => None) kBuf kAuth kHolder m_born [] (map (fun x => (x_type x, given x)) (inline m_born))); try ok_arg; try reflexivity.
  - exists (mkInfo kBuf true true). repeat split; cbn; tauto.
  - exists [], 0. split; [left; repeat split|reflexivity].
  - split; [repeat constructor; discriminate|]. split; [cbn; intuition discriminate|]. split; [discriminate|reflexivity].
  - split; [reflexivity|]. intros k N. apply pk_eqb_neq in N. now rewrite N.
Qed.

(** Property theorems: requests after a history get an answer (C90). *)
From Verif Require Import Base State Layout Constr Ext World Proc BaseL Spec SpecB SpecC SpecF SpecH SpecG SpecJ SpecCalm WorldL FrameL LayoutL HistL HeadL AcceptL CalmN CalmO CalmP Sample SampleE ThmExactB ThmBuild ThmHist ThmGroup ThmExact ThmReg ThmView ThmUpdate.
From Coq Require Import Strings.Byte.

(** Whatever has happened since the program was deployed, as long as requests were
    made as clients make them (SpecG: good_step): a request that brings no payload gets
    an answer, whatever it is and whoever sends it, provided the program's accounts
    passed with it have no data or at least a header's length. *)
Theorem C90_history : forall p w w', p <> pk_zero -> sized w -> lam_ok w -> (forall x, acct_owner (w x) <> p) -> history_of good_step p w w' -> bounded w' ->
  forall e infos i, e_prog e = p ->
  (forall a, In a (passed infos) -> acct_owner (w' (ai_key a)) = p -> data (w' (ai_key a)) = [] \/ (168 <= length (data (w' (ai_key a))))%nat) ->
  bare i -> answered (process e infos w' i).
Proof. exact history_answered. Qed.
Print Assumptions C90_history.
Definition i_pass : list ainfo := [mkInfo kBuf false true; mkInfo kHolder true false; mkInfo kTo false false; mkInfo kProg false false].
Lemma roy_bounded : bounded w_roy.
Proof.
  assert (R1 : process env0 i_new w_void (ICreate m_born) = Ok w_new) by (apply run_ok; vm_compute; reflexivity).
  assert (R2 : process env0 (i_update kBuf) w_new (IUpdate q_roy) = Ok w_roy) by (apply run_ok; vm_compute; reflexivity).
  assert (L1 : lam_ok w_new) by (refine (proj2 (HistL.steps_keep [(env0, i_new, ICreate m_born)] _ w_void w_new _ _ _));
    [repeat constructor; [exact env0_ok|discriminate]|cbn [steps]; rewrite R1; reflexivity|apply table_sized; vm_compute; reflexivity|apply table_lam_ok; vm_compute; reflexivity]).
  assert (B : forall x, lamports (w_roy x) < 1000000).
  { intro x. destruct (pk_eqb x kBuf) eqn:E; [apply pk_eqb_eq in E; subst x; vm_compute; reflexivity|].
    destruct (pk_eqb x kPayer) eqn:E2; [apply pk_eqb_eq in E2; subst x; vm_compute; reflexivity|]. apply pk_eqb_neq in E, E2.
    rewrite (frame_untouched env0 (i_update kBuf) w_new (IUpdate q_roy) w_roy x env0_ok ltac:(discriminate) L1 R2).
    2: { intros (y & Hx & <- & Hw). cbn in Hx. repeat (destruct Hx as [<- |Hx]; [cbn [ai_key ai_writable] in *; congruence|]). contradiction. }
    rewrite (frame_untouched env0 i_new w_void (ICreate m_born) w_new x env0_ok ltac:(discriminate) ltac:(apply table_lam_ok; vm_compute; reflexivity) R1).
    2: { intros (y & Hx & <- & Hw). cbn in Hx. repeat (destruct Hx as [<- |Hx]; [cbn [ai_key ai_writable] in *; congruence|]). contradiction. }
    unfold w_void, table. cbn [find fst]. destruct (pk_eqb x kBuf); [|destruct (pk_eqb x kPayer)]; cbn; lia. }
  intros j k _. pose proof (B j). pose proof (B k). lia.
Qed.
Example C90_history_case : sized w_void /\ lam_ok w_void /\ (forall x, acct_owner (w_void x) <> kProg) /\ history_of good_step kProg w_void w_roy /\ bounded w_roy /\
  (forall a, In a (passed i_pass) -> acct_owner (w_roy (ai_key a)) = kProg -> data (w_roy (ai_key a)) = [] \/ (168 <= length (data (w_roy (ai_key a))))%nat) /\
  okb (process env0 i_pass w_roy ITransfer) = true /\ acct_owner (w_roy kBuf) = kProg.
Proof.
  split; [apply table_sized; vm_compute; reflexivity|]. split; [apply table_lam_ok; vm_compute; reflexivity|]. split; [apply void_unowned|]. split; [apply roy_history|].
  split; [exact roy_bounded|]. split; [|split; vm_compute; reflexivity].
  intros a [<-|[<-|[<-|[<-|[]]]]] O; try (apply (f_equal pk_bytes) in O; vm_compute in O; discriminate O). right. vm_compute. lia.
Qed.
(** The length is needed: an account of one byte given to the program stops any request
    it is passed with. *)
Theorem C90_short_refuted : exists e infos w, bounded w /\ (forall k, ~ asset_of (e_prog e) w k) /\ forall i, process e infos w i = Panic.
Proof.
  exists env0, [mkInfo kBuf true true], (table [(kBuf, mkAcct 5 kProg [x00])]).
  assert (T : forall x, table [(kBuf, mkAcct 5 kProg [x00])] x = mkAcct 5 kProg [x00] \/ table [(kBuf, mkAcct 5 kProg [x00])] x = mkAcct 0 pk_zero []).
  { intro x. unfold table. cbn [find fst snd]. destruct (pk_eqb x kBuf); auto. }
  split; [intros j k _; destruct (T j) as [-> | ->], (T k) as [-> | ->]; cbn; lia|].
  split; [intros k (_ & L & _); destruct (T k) as [E|E]; rewrite E in L; cbn in L; lia|]. intro i. reflexivity.
Qed.
Print Assumptions C90_short_refuted.

(** Allocate, whatever its payload, of an account without data or with complete
    extensions and spare zero bytes *)
Theorem C90_allocate : forall e infos w x asset hd l n, sound_accounts e infos w -> arg infos 0 asset -> open_account (data (w asset)) hd l n ->
  x_type x <> XNone -> 0 <= x_length x -> zlen (given x) < 4294967296 -> answered (process e infos w (IAllocate x)).
Proof. exact allocate_p. Qed.
Print Assumptions C90_allocate.
(** Write, as long as no more bytes arrive than were announced and a payload that
    becomes complete can be read *)
Theorem C90_write : forall e infos w a asset hd l t len bs, sound_accounts e infos w -> arg infos 0 asset -> partial_account (data (w asset)) hd l t len bs ->
  let p := if w_overwrite a then w_bytes a else bs ++ w_bytes a in
  zlen p <= len -> (zlen p = len -> parses t p) -> answered (process e infos w (IWrite a)).
Proof. exact write_p. Qed.
Print Assumptions C90_write.
Lemma al_sound d pay : s_disc d <> x01 -> (168 <= length d)%nat -> sound_accounts env0 (i_al true) (w_al d pay).
Proof.
  intros D L. split.
  - intros a [<-|[<-|[<-|[]]]] O; try (apply (f_equal pk_bytes) in O; vm_compute in O; discriminate O).
    unfold w_al, table in *. cbn [find fst snd ai_key] in *. replace (pk_eqb kAsset kAsset) with true in * by reflexivity. cbn [snd] in *.
    destruct (zlen d =? 0) eqn:E; [apply (f_equal pk_bytes) in O; vm_compute in O; discriminate O|]. cbn [acc data]. split; [auto|contradiction].
  - intros a g [<-|[<-|[<-|[]]]] _ O X; try (apply (f_equal pk_bytes) in O; vm_compute in O; discriminate O).
    exfalso. revert X. unfold w_al, table. cbn [find fst snd ai_key]. replace (pk_eqb kAsset kAsset) with true by reflexivity. cbn [snd].
    destruct (zlen d =? 0) eqn:E; [vm_compute; discriminate|exact D].
Qed.
Example C90_allocate_case : sound_accounts env0 (i_al true) (w_al raw_data 9000) /\ arg (i_al true) 0 kAsset /\ open_account (data (w_al raw_data 9000 kAsset)) (repeat x00 168) plain_exts 0 /\
  okb (process env0 (i_al true) (w_al raw_data 9000) (IAllocate (x_al XLinks 3 [x01; x41; x00]))) = true.
Proof.
  split; [apply al_sound; [vm_compute; discriminate|vm_compute; lia]|]. split; [ok_arg|]. split; [right; split; [lia|exact raw_layout]|vm_compute; reflexivity].
Qed.
Example C90_write_case : sound_accounts env0 (i_al true) (w_al part_data 9000) /\ arg (i_al true) 0 kAsset /\
  partial_account (data (w_al part_data 9000 kAsset)) (repeat x00 168) plain_exts XLinks 5 [x01; x41] /\ parses XLinks ([x01; x41] ++ [x02; x42; x43]) /\
  okb (process env0 (i_al true) (w_al part_data 9000) (IWrite (mkDataInput false [x02; x42; x43]))) = true.
Proof.
  split; [apply al_sound; [vm_compute; discriminate|vm_compute; lia]|]. split; [ok_arg|].
  split. { split; [reflexivity|]. split; [reflexivity|]. split; [constructor; [apply blkb_ok; vm_compute; reflexivity|constructor]|]. split; [discriminate|]. vm_compute. intuition discriminate. }
  split; [apply pairs_goes; eexists; vm_compute; reflexivity|vm_compute; reflexivity].
Qed.
(** A payload that cannot be read aborts the Write that completes it. *)
Theorem C90_write_refuted : exists e infos w a asset hd l t len bs, sound_accounts e infos w /\ arg infos 0 asset /\ partial_account (data (w asset)) hd l t len bs /\
  zlen (bs ++ w_bytes a) = len /\ w_overwrite a = false /\ process e infos w (IWrite a) = Panic.
Proof.
  exists env0, (i_al true), (w_al part_data 9000), (mkDataInput false [x09; x42; x43]), kAsset, (repeat x00 168), plain_exts, XLinks, 5, [x01; x41].
  destruct C90_write_case as (H1 & H2 & H3 & _). split; [exact H1|]. split; [exact H2|]. split; [exact H3|]. split; [reflexivity|]. split; [reflexivity|vm_compute; reflexivity].
Qed.
Print Assumptions C90_write_refuted.

(** Create, with complete payloads that can be read, of an account without data or
    with complete readable extensions *)
Theorem C90_create : forall e infos w m asset hd l n, sound_accounts e infos w -> env_ok e -> e_prog e <> pk_zero -> arg infos 0 asset -> sized w ->
  open_account (data (w asset)) hd l n -> readable l ->
  Forall (fun x => ext_arg x /\ x_length x = zlen (given x) /\ parses (x_type x) (given x)) (inline m) ->
  answered (process e infos w (ICreate m)).
Proof. exact create_p. Qed.
Print Assumptions C90_create.
Example C90_create_case : sound_accounts env0 (i_cr no_info no_info) (w_cr [] 9000) /\ arg (i_cr no_info no_info) 0 kAsset /\ sized (w_cr [] 9000) /\
  open_account (data (w_cr [] 9000 kAsset)) (repeat x00 168) [] 0 /\
  Forall (fun x => ext_arg x /\ x_length x = zlen (given x) /\ parses (x_type x) (given x)) (inline (m_cr Managed [x_link; x_mgr])) /\
  okb (process env0 (i_cr no_info no_info) (w_cr [] 9000) (ICreate (m_cr Managed [x_link; x_mgr]))) = true /\
  process env0 (i_cr no_info no_info) (w_cr [] 9000) (ICreate (m_cr NonFungible [x_link; x_mgr])) = Err EExtensionDataInvalid.
Proof.
  split. { split.
    - intros a [<-|[<-|[<-|[<-|[<-|[<-|[<-|[]]]]]]]] O; apply (f_equal pk_bytes) in O; vm_compute in O; discriminate O.
    - intros a g [<-|[<-|[<-|[<-|[<-|[<-|[<-|[]]]]]]]] _ O; apply (f_equal pk_bytes) in O; vm_compute in O; discriminate O. }
  split; [ok_arg|]. split; [ok_sized|]. split; [left; repeat split|].
  split. { constructor; [|constructor; [|constructor]]; (split; [split; [discriminate|split; vm_compute; intuition discriminate]|]); (split; [reflexivity|]).
    - apply pairs_goes. eexists. vm_compute. reflexivity.
    - vm_compute. lia. }
  split; vm_compute; reflexivity.
Qed.

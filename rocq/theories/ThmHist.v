(** What any instruction, and any history of instructions, leaves alone
    (C12, C13, C14, C51). *)
From Verif Require Import Base State Layout Constr Ext World Proc Spec SpecB SpecH StepH HistL Sample ThmAuth ThmBuild.
From Coq Require Import Strings.Byte.

(** C12: the authority of a well-formed asset changes only by a Handover signed by
    the current and the new authority, while the asset is mutable. *)
Theorem C12_authority_stable : forall e infos w i w' k l, env_ok e -> e_prog e <> pk_zero -> sized w -> lam_ok w ->
  plain_request i -> acct_owner (w k) = e_prog e -> initialized (data (w k)) -> well_formed (data (w k)) l ->
  process e infos w i = Ok w' ->
  burns infos i k \/ s_authority (data (w' k)) = s_authority (data (w k)) \/
  (i = IHandover /\ arg infos 0 k /\ mutable (data (w k)) /\
   exists a n, signed infos a /\ signed infos n /\ s_authority (data (w k)) = pk_bytes a /\ s_authority (data (w' k)) = pk_bytes n).
Proof. exact authority_stable. Qed.
Print Assumptions C12_authority_stable.
Example C12_stable_case : exists w', sized w_plain /\ lam_ok w_plain /\ plain_request ITransfer /\
  acct_owner (w_plain kAsset) = kProg /\ initialized (data (w_plain kAsset)) /\ well_formed (data (w_plain kAsset)) plain_exts /\
  process env0 (i_transfer kHolder) w_plain ITransfer = Ok w' /\ s_authority (data (w' kAsset)) = pk_bytes kAuth.
Proof.
  eexists. split; [apply table_sized; vm_compute; reflexivity|]. split; [apply table_lam_ok; vm_compute; reflexivity|]. split; [exact I|].
  split; [reflexivity|]. split; [split; [vm_compute; lia|reflexivity]|]. split; [exact plain_wf|].
  split; [apply (run_ok w_plain); vm_compute; reflexivity|]. vm_compute. reflexivity.
Qed.

(** C13: in any history of instructions by anybody, interleaved with anything
    other programs may do, an immutable well-formed asset keeps name, standard,
    authority, immutability and the content of its extensions (up to creators'
    flags and the group size), or is burned. *)
Theorem C13_immutable : forall p w w' k l, p <> pk_zero -> history p w w' -> sized w -> lam_ok w -> acct_owner (w k) = p ->
  initialized (data (w k)) -> s_mutable (data (w k)) = x00 -> well_formed (data (w k)) l ->
  burned_in p w w' k \/
  (acct_owner (w' k) = p /\ initialized (data (w' k)) /\
   s_name (data (w' k)) = s_name (data (w k)) /\ s_standard (data (w' k)) = s_standard (data (w k)) /\
   s_authority (data (w' k)) = s_authority (data (w k)) /\ s_mutable (data (w' k)) = x00 /\
   exists l', well_formed (data (w' k)) l' /\ Forall2 kept (ext_list l) (ext_list l')).
Proof. exact immutable_history. Qed.
Print Assumptions C13_immutable.
(** a history of two instructions on an immutable asset: it changes hands and the
    new holder approves a delegate; the extension list stays *)
Definition fixed_data : bytes := mk (header x01 x00 x00 x00 kHolder pk_zero kAuth kDeleg x07) plain_exts.
Definition w_fixed : world := table [(kAsset, acc fixed_data); (kHolder, wal 700); (kTo, wal 5)].
Definition i_approve : list ainfo := [mkInfo kAsset false true; mkInfo kTo true false; mkInfo kOther false false].
Definition fixed_story : list (env * list ainfo * instr) := [(env0, i_transfer kHolder, ITransfer); (env0, i_approve, IApprove DAll)].
Example C13_case : exists w', history kProg w_fixed w' /\ sized w_fixed /\ lam_ok w_fixed /\ acct_owner (w_fixed kAsset) = kProg /\
  initialized (data (w_fixed kAsset)) /\ s_mutable (data (w_fixed kAsset)) = x00 /\ well_formed (data (w_fixed kAsset)) plain_exts /\
  data (w' kAsset) = mk (header x01 x00 x00 x00 kTo pk_zero kAuth kOther x07) plain_exts /\
  process env0 (i_three (mkInfo kAsset false true) (mkInfo kAuth true false) (mkInfo kOther true false)) w_fixed IHandover = Err EImmutableAsset.
Proof.
  exists (run w_fixed (steps fixed_story w_fixed)). split.
  { apply (steps_history kProg fixed_story) with (w := w_fixed); [repeat constructor; exact env0_ok|apply hist_refl|]. apply run_ok. vm_compute. reflexivity. }
  split; [apply table_sized; vm_compute; reflexivity|]. split; [apply table_lam_ok; vm_compute; reflexivity|].
  split; [reflexivity|]. split; [split; [vm_compute; lia|reflexivity]|]. split; [reflexivity|].
  split; [apply mk_wf; vm_compute; reflexivity|]. vm_compute. auto.
Qed.

(** C14: the owner changes only by Transfer and Burn, the delegate only by those,
    Approve and Revoke — for requests of real extension types ... *)
Theorem C14_holder_stable : forall e infos w i w' k l, env_ok e -> e_prog e <> pk_zero -> sized w -> lam_ok w ->
  plain_request i -> acct_owner (w k) = e_prog e -> initialized (data (w k)) -> well_formed (data (w k)) l ->
  process e infos w i = Ok w' ->
  (s_owner (data (w' k)) = s_owner (data (w k)) \/ (arg infos 0 k /\ (i = ITransfer \/ i = IBurn))) /\
  ((s_delegate (data (w' k)) = s_delegate (data (w k)) /\ s_roles (data (w' k)) = s_roles (data (w k))) \/
   (arg infos 0 k /\ (i = ITransfer \/ i = IBurn \/ exists a, i = IApprove a \/ i = IRevoke a))).
Proof. exact holder_stable. Qed.
Print Assumptions C14_holder_stable.
Definition i_update (k : pubkey) : list ainfo :=
  [mkInfo k false true; mkInfo kAuth true false; mkInfo kProg false false; mkInfo kProg false false;
   mkInfo kPayer true true; mkInfo kSys false false].
Example C14_case : let a := mkUpdInput (Some [x42]) None (Some (mkExtInput XBlob 3 (Some [x00; x00; x00]))) in
  exists w', plain_request (IUpdate a) /\ process env0 (i_update kAsset) w_plain (IUpdate a) = Ok w' /\
    s_owner (data (w' kAsset)) = pk_bytes kHolder /\ s_delegate (data (w' kAsset)) = pk_bytes kDeleg /\
    s_name (data (w' kAsset)) <> s_name (data (w_plain kAsset)).
Proof.
  cbv zeta. eexists. split; [intros x E; injection E as <-; repeat split; vm_compute; congruence|].
  split; [apply (run_ok w_plain); vm_compute; reflexivity|]. vm_compute. repeat split; congruence.
Qed.
(** ... and over histories. *)
Theorem C14_owner_history : forall p w w' k l, p <> pk_zero ->
  history_of (fun e infos w i => careful k e infos w i /\ ~ (arg infos 0 k /\ (i = ITransfer \/ i = IBurn))) p w w' ->
  sized w -> lam_ok w -> acct_owner (w k) = p -> initialized (data (w k)) -> tidy (data (w k)) l ->
  acct_owner (w' k) = p /\ s_owner (data (w' k)) = s_owner (data (w k)).
Proof. exact holder_history. Qed.
Print Assumptions C14_owner_history.
(** Without the restriction on requests it is false.  Allocate, an overlong Write
    that leaves a header of type None with a made-up end offset after the last
    extension, and Create give an asset with a well-formed section; one Update of
    "extension type None" then follows the made-up offset and rewrites bytes of the
    owner field. *)
Definition w_none : world := table [(kBuf, wal 0); (kPayer, wal 100000)].
Definition none_tail : bytes :=
  le_enc 4 0 ++ le_enc 4 0 ++ le_enc 4 209 ++ zeros 4 ++ le_enc 4 11 ++ le_enc 4 0 ++ le_enc 4 1 ++ zeros 4.
Definition none_story : list (env * list ainfo * instr) :=
  [(env0, i_build kBuf, IAllocate (mkExtInput XBlob 8 None));
   (env0, i_build kBuf, IWrite (mkDataInput false (zeros 8 ++ none_tail)));
   (env0, i_create kBuf, ICreate (mkMetaInput [x41] NonFungible true None))].
Theorem C14_none_refuted : exists w a w' l, steps none_story w_none = Ok w /\
  sized w /\ lam_ok w /\ acct_owner (w kBuf) = kProg /\ initialized (data (w kBuf)) /\ well_formed (data (w kBuf)) l /\
  process env0 (i_update kBuf) w (IUpdate a) = Ok w' /\ s_owner (data (w kBuf)) = pk_bytes kHolder /\
  s_owner (data (w' kBuf)) = repeat x11 4 ++ x10 :: repeat x11 27.
Proof.
  set (w := run w_none (steps none_story w_none)). set (a := mkUpdInput None None (Some (mkExtInput XNone 0 None))).
  exists w, a. eexists. exists [blk_of XBlob (zeros 8)].
  assert (E : steps none_story w_none = Ok w) by (apply run_ok; vm_compute; reflexivity).
  split; [exact E|].
  assert (K : sized w /\ lam_ok w).
  { refine (steps_keep none_story _ w_none w E _ _); [repeat constructor; try exact env0_ok; discriminate|apply table_sized; vm_compute; reflexivity|apply table_lam_ok; vm_compute; reflexivity]. }
  split; [apply K|]. split; [apply K|]. clear K E.
  split; [vm_compute; reflexivity|]. split; [split; [vm_compute; lia|vm_compute; reflexivity]|].
  split.
  { exists (firstn 168 (data (w kBuf))), none_tail.
    assert (D : data (w kBuf) = firstn 168 (data (w kBuf)) ++ enc_sect 168 [blk_of XBlob (zeros 8)] ++ none_tail) by (vm_compute; reflexivity).
    rewrite D at 1. apply mk_layout. vm_compute. reflexivity. }
  split; [apply (run_ok w); vm_compute; reflexivity|]. vm_compute. auto.
Qed.
Print Assumptions C14_none_refuted.

(** C51: a soulbound asset stays with its holder for life, whatever is done to it *)
Theorem C51_soulbound_immutable : forall p w w' k l, p <> pk_zero -> history p w w' -> sized w -> lam_ok w -> acct_owner (w k) = p ->
  initialized (data (w k)) -> s_mutable (data (w k)) = x00 -> s_standard (data (w k)) = x02 -> well_formed (data (w k)) l ->
  burned_in p w w' k \/ (acct_owner (w' k) = p /\ s_owner (data (w' k)) = s_owner (data (w k))).
Proof. exact soulbound_immutable. Qed.
Print Assumptions C51_soulbound_immutable.
Theorem C51_soulbound : forall p w w' k l, p <> pk_zero ->
  history_of (fun e infos w i => ~ burns infos i k /\ careful k e infos w i) p w w' -> sized w -> lam_ok w -> acct_owner (w k) = p ->
  initialized (data (w k)) -> s_standard (data (w k)) = x02 -> tidy (data (w k)) l ->
  acct_owner (w' k) = p /\ s_standard (data (w' k)) = x02 /\ s_owner (data (w' k)) = s_owner (data (w k)).
Proof. exact soulbound_history. Qed.
Print Assumptions C51_soulbound.
Definition w_soul : world := table [(kAsset, acc soul_data); (kHolder, wal 700); (kPayer, wal 100000)].
Example C51_case : let a := mkUpdInput None None (Some (mkExtInput XBlob 3 (Some [x00; x00; x00]))) in
  exists w', tidy (data (w_soul kAsset)) [] /\ s_standard (data (w_soul kAsset)) = x02 /\
    careful kAsset env0 (i_update kAsset) w_soul (IUpdate a) /\
    process env0 (i_update kAsset) w_soul (IUpdate a) = Ok w' /\ s_owner (data (w' kAsset)) = pk_bytes kHolder /\ zlen (data (w' kAsset)) = 192.
Proof.
  cbv zeta. eexists. split.
  { exists soul_data, 0%nat. change (data (w_soul kAsset)) with (soul_data ++ enc_sect 168 [] ++ []). apply mk_layout. vm_compute. reflexivity. }
  split; [reflexivity|]. split; [split; [intros x E; injection E as <-; repeat split; vm_compute; congruence|discriminate]|].
  split; [apply (run_ok w_soul); vm_compute; reflexivity|]. vm_compute. auto.
Qed.

(** What can be taken back (C83). *)
From Verif Require Import Base State Layout Constr Ext World Proc Spec SpecH SpecG SpecL SpecRent SpecTake WorldL LayoutL TakeL Sample ThmAuth ThmBuild ThmFrame ThmHist ThmGroup ThmCreators ThmLive ThmUpdate.
From Verif Require AuthL.
From Coq Require Import Strings.Byte.

(** C83: an account made and worked on at one payer's expense and given back to that
    payer — an asset by Burn, a buffer by Close — leaves no trace: every account,
    the payer's included, is as it was. *)
Theorem C83_no_cost : forall pr k p e infos w w1 w2, pr <> pk_zero -> p <> k -> lam_ok w -> vacant w k -> works pr k p w w1 ->
  given_back e infos w1 w2 k p -> unchanged w w2.
Proof. exact no_cost. Qed.
Print Assumptions C83_no_cost.
Definition w_bare : world := table [(kPayer, wal 100000); (kHolder, wal 700)].
Definition i_all : list ainfo := [mkInfo kAsset true true; mkInfo kPayer true true; mkInfo kSys false false].
Definition i_cre : list ainfo :=
  [mkInfo kAsset true true; mkInfo kAuth true false; mkInfo kHolder false false; mkInfo kProg false false; mkInfo kProg false false; mkInfo kPayer true true; mkInfo kSys false false].
Definition i_res : list ainfo := [mkInfo kAsset false true; mkInfo kAuth true false; mkInfo kPayer true true; mkInfo kSys false false].
Definition i_end : list ainfo := [mkInfo kAsset false true; mkInfo kHolder true true; mkInfo kPayer false true; mkInfo kProg false false].
Definition w_a1 : world := run w_bare (process env0 i_all w_bare (IAllocate (mkExtInput XBlob 5 (Some five)))).
Definition w_a2 : world := run w_a1 (process env0 i_cre w_a1 (ICreate (mkMetaInput [x41] NonFungible true None))).
Definition w_a3 : world := run w_a2 (process env0 i_res w_a2 (IResize (Extend 21))).
Definition w_a4 : world := run w_a3 (process env0 i_end w_a3 IBurn).
Lemma first_arg a l : arg (a :: l) 0 (ai_key a). Proof. exists a. split; reflexivity. Qed.
Example C83_no_cost_case : lam_ok w_bare /\ vacant w_bare kAsset /\ works kProg kAsset kPayer w_bare w_a3 /\ given_back env0 i_end w_a3 w_a4 kAsset kPayer /\
  lamports (w_a3 kPayer) = 100000 - e_rent env0 (zlen (data (w_a3 kAsset))) /\ zlen (data (w_a3 kAsset)) = 213.
Proof.
  split; [apply table_lam_ok; vm_compute; reflexivity|]. split; [repeat split|]. split; [|split; [|split; vm_compute; reflexivity]].
  - apply (works_step _ _ _ _ w_a2 env0 i_res (IResize (Extend 21))); [|reflexivity|exact env0_ok| |apply (run_ok w_a2); vm_compute; reflexivity].
    2: { split; [apply first_arg|]. eexists. split; reflexivity. }
    apply (works_step _ _ _ _ w_a1 env0 i_cre (ICreate (mkMetaInput [x41] NonFungible true None))); [|reflexivity|exact env0_ok| |apply (run_ok w_a1); vm_compute; reflexivity].
    2: { split; [apply first_arg|]. split; (eexists; split; reflexivity). }
    apply (works_step _ _ _ _ w_bare env0 i_all (IAllocate (mkExtInput XBlob 5 (Some five)))); [constructor|reflexivity|exact env0_ok| |apply (run_ok w_bare); vm_compute; reflexivity].
    split; [apply first_arg|]. eexists. split; reflexivity.
  - split; [apply first_arg|]. left. split; [apply (run_ok w_a3); vm_compute; reflexivity|]. split; [vm_compute; reflexivity|].
    left. split; [eexists; split; reflexivity|discriminate].
Qed.

(** Lock by Unlock — and whoever could lock with some account list can unlock with the same one. *)
Theorem C83_lock : forall e1 e2 infos1 infos2 w w1 w2 k, arg infos1 0 k -> arg infos2 0 k -> s_state (data (w k)) = x00 -> initialized (data (w k)) ->
  process e1 infos1 w ILock = Ok w1 -> process e2 infos2 w1 IUnlock = Ok w2 -> unchanged w w2.
Proof. exact lock_unlock. Qed.
Print Assumptions C83_lock.
Theorem C83_lock_live : forall e infos w w1 k s l, arg infos 0 k -> arg infos 1 s -> well_formed (data (w k)) l ->
  (forall b, lookup XManager (ext_list l) = Some b -> (33 <= length b)%nat) -> plain_accounts e infos w -> sized w ->
  acct_owner (w k) = e_prog e -> initialized (data (w k)) -> writable infos k ->
  process e infos w ILock = Ok w1 -> exists w2, process e infos w1 IUnlock = Ok w2.
Proof. exact lock_live. Qed.
Print Assumptions C83_lock_live.
Example C83_lock_case : s_state (data (w_man kAsset)) = x00 /\ initialized (data (w_man kAsset)) /\ sized w_man /\ acct_owner (w_man kAsset) = e_prog env0 /\
  exists w1 w2, process env0 (i_lock kMan) w_man ILock = Ok w1 /\ process env0 (i_lock kMan) w1 IUnlock = Ok w2 /\ data (w1 kAsset) <> data (w_man kAsset).
Proof.
  split; [reflexivity|]. split; [split; [vm_compute; lia|reflexivity]|]. split; [apply table_sized; vm_compute; reflexivity|]. split; [reflexivity|].
  eexists. eexists. split; [apply (run_ok w_man); vm_compute; reflexivity|]. split; [apply (run_ok w_man); vm_compute; reflexivity|]. vm_compute. discriminate.
Qed.

(** Handover by Handover to the old authority. *)
Theorem C83_handover : forall e1 e2 infos1 infos2 w w1 w2 k old, arg infos1 0 k -> arg infos2 0 k -> arg infos1 1 old -> arg infos2 2 old ->
  process e1 infos1 w IHandover = Ok w1 -> process e2 infos2 w1 IHandover = Ok w2 -> unchanged w w2.
Proof. exact handover_back. Qed.
Print Assumptions C83_handover.
Definition i_hand (a b : pubkey) : list ainfo := [mkInfo kAsset false true; mkInfo a true false; mkInfo b true false].
Example C83_handover_case : exists w1 w2, process env0 (i_hand kAuth kTo) w_plain IHandover = Ok w1 /\ process env0 (i_hand kTo kAuth) w1 IHandover = Ok w2 /\
  data (w1 kAsset) <> data (w_plain kAsset).
Proof.
  eexists. eexists. split; [apply (run_ok w_plain); vm_compute; reflexivity|]. split; [apply (run_ok w_plain); vm_compute; reflexivity|]. vm_compute. discriminate.
Qed.

(** Approve by Revoke of everything, if there was no delegate before. *)
Theorem C83_approve : forall e1 e2 infos1 infos2 w w1 w2 k x, arg infos1 0 k -> arg infos2 0 k -> s_delegate (data (w k)) = no_key -> s_roles (data (w k)) = x00 ->
  process e1 infos1 w (IApprove x) = Ok w1 -> process e2 infos2 w1 (IRevoke DAll) = Ok w2 ->
  (exists del, arg infos1 2 del /\ pk_bytes del <> no_key) -> unchanged w w2.
Proof. exact approve_revoke. Qed.
Print Assumptions C83_approve.
Definition i_app (o d : pubkey) : list ainfo := [mkInfo kAsset false true; mkInfo o true false; mkInfo d false false].
Definition i_rev (o : pubkey) : list ainfo := [mkInfo kAsset false true; mkInfo o true false].
Example C83_approve_case : exists w1 w2, s_delegate (data (w_join kAsset)) = no_key /\ s_roles (data (w_join kAsset)) = x00 /\
  process env0 (i_app kHolder kDeleg) w_join (IApprove (DSome [RLock])) = Ok w1 /\ process env0 (i_rev kHolder) w1 (IRevoke DAll) = Ok w2 /\
  data (w1 kAsset) <> data (w_join kAsset).
Proof.
  eexists. eexists. split; [vm_compute; reflexivity|]. split; [vm_compute; reflexivity|]. split; [apply (run_ok w_join); vm_compute; reflexivity|].
  split; [apply (run_ok w_join); vm_compute; reflexivity|]. vm_compute. discriminate.
Qed.
(** A delegate there was before is not taken back: it is gone. *)
Theorem C83_delegate_lost : exists w w1 w2, process env0 (i_app kHolder kTo) w (IApprove (DSome [RLock])) = Ok w1 /\
  process env0 (i_rev kHolder) w1 (IRevoke DAll) = Ok w2 /\ s_delegate (data (w kAsset)) = pk_bytes kDeleg /\ s_delegate (data (w2 kAsset)) = no_key.
Proof.
  exists w_plain. eexists. eexists. split; [apply (run_ok w_plain); vm_compute; reflexivity|]. split; [apply (run_ok w_plain); vm_compute; reflexivity|].
  split; vm_compute; reflexivity.
Qed.
Print Assumptions C83_delegate_lost.

(** Transfer by Transfer to the old owner, if there was no delegate. *)
Theorem C83_transfer : forall e1 e2 infos1 infos2 w w1 w2 k old, arg infos1 0 k -> arg infos2 0 k -> arg infos2 2 old -> s_owner (data (w k)) = pk_bytes old ->
  initialized (data (w k)) -> s_delegate (data (w k)) = no_key -> s_roles (data (w k)) = x00 ->
  process e1 infos1 w ITransfer = Ok w1 -> process e2 infos2 w1 ITransfer = Ok w2 -> unchanged w w2.
Proof. exact transfer_back. Qed.
Print Assumptions C83_transfer.
Definition i_home : list ainfo := [mkInfo kAsset false true; mkInfo kTo true false; mkInfo kHolder false false; mkInfo kProg false false].
Example C83_transfer_case : exists w1 w2, s_owner (data (w_join kAsset)) = pk_bytes kHolder /\ initialized (data (w_join kAsset)) /\
  s_delegate (data (w_join kAsset)) = no_key /\ s_roles (data (w_join kAsset)) = x00 /\
  process env0 (i_transfer kHolder) w_join ITransfer = Ok w1 /\ process env0 i_home w1 ITransfer = Ok w2 /\ data (w1 kAsset) <> data (w_join kAsset).
Proof.
  eexists. eexists. split; [vm_compute; reflexivity|]. split; [split; [vm_compute; lia|reflexivity]|]. split; [vm_compute; reflexivity|]. split; [vm_compute; reflexivity|].
  split; [apply (run_ok w_join); vm_compute; reflexivity|]. split; [apply (run_ok w_join); vm_compute; reflexivity|]. vm_compute. discriminate.
Qed.

(** Group by Ungroup: the member and the group's counter. *)
Theorem C83_group : forall e1 e2 infos1 infos2 w w1 w2 k g l, sized w -> arg infos1 0 k -> arg infos2 0 k -> arg infos1 1 g -> arg infos2 1 g ->
  well_formed (data (w g)) l -> process e1 infos1 w IGroup = Ok w1 -> process e2 infos2 w1 IUngroup = Ok w2 -> unchanged w w2.
Proof. exact group_ungroup. Qed.
Print Assumptions C83_group.
Example C83_group_case : exists w1 w2, sized w_join /\ well_formed (data (w_join kGroup)) (grp_exts 0 3) /\
  process env0 i_group w_join IGroup = Ok w1 /\ process env0 i_group w1 IUngroup = Ok w2 /\ data (w1 kGroup) <> data (w_join kGroup).
Proof.
  eexists. eexists. split; [apply table_sized; vm_compute; reflexivity|].
  split; [apply mk_wf; vm_compute; reflexivity|]. split; [apply (run_ok w_join); vm_compute; reflexivity|].
  split; [apply (run_ok w_join); vm_compute; reflexivity|]. vm_compute. discriminate.
Qed.

(** Verify by Unverify, if the creator was unverified in all its entries. *)
Theorem C83_verify : forall e1 e2 infos1 infos2 w w1 w2 k cr l b, arg infos1 0 k -> arg infos2 0 k -> arg infos1 1 cr -> arg infos2 1 cr ->
  well_formed (data (w k)) l -> lookup XCreators (ext_list l) = Some b ->
  (forall i, (i < cr_count b)%nat -> cr_addr_at b i = pk_bytes cr -> cr_flag_at b i = x00) ->
  process e1 infos1 w IVerify = Ok w1 -> process e2 infos2 w1 IUnverify = Ok w2 -> unchanged w w2.
Proof. exact verify_unverify. Qed.
Print Assumptions C83_verify.
Example C83_verify_case : exists w1 w2, well_formed (data (w_twice kAsset)) (up_exts (twice x00)) /\ lookup XCreators (ext_list (up_exts (twice x00))) = Some (twice x00) /\
  (forall i, (i < cr_count (twice x00))%nat -> cr_addr_at (twice x00) i = pk_bytes kOther -> cr_flag_at (twice x00) i = x00) /\
  process env0 (i_verify kOther) w_twice IVerify = Ok w1 /\ process env0 (i_verify kOther) w1 IUnverify = Ok w2 /\ data (w1 kAsset) <> data (w_twice kAsset).
Proof.
  eexists. eexists. split; [apply mk_wf; vm_compute; reflexivity|]. split; [vm_compute; reflexivity|].
  split; [intros i Hi _; do 3 (destruct i as [|i]; [vm_compute; reflexivity|]); vm_compute in Hi; lia|].
  split; [apply (run_ok w_twice); vm_compute; reflexivity|]. split; [apply (run_ok w_twice); vm_compute; reflexivity|]. vm_compute. discriminate.
Qed.

(** Extend by Trim, with the money: if the account had just its rent, the payer has
    every lamport back. *)
Theorem C83_extend : forall e infos1 infos2 w w1 w2 k p l v, arg infos1 0 k -> arg infos2 0 k -> arg infos1 2 p -> arg infos2 2 p -> p <> k -> 0 < v <= 65535 ->
  env_ok e -> rent_mono e -> e_prog e <> pk_zero -> lam_ok w -> sized w -> tight (data (w k)) l ->
  paid_by (e_rent e) (e_prog e) w -> lamports (w k) = e_rent e (zlen (data (w k))) ->
  process e infos1 w (IResize (Extend v)) = Ok w1 -> process e infos2 w1 (IResize Trim) = Ok w2 -> unchanged w w2.
Proof. exact extend_trim_money. Qed.
Print Assumptions C83_extend.
Definition w_fee : world := table [(kAsset, mkAcct (e_rent env0 (zlen free_data)) kProg free_data); (kPayer, wal 1000)].
Example C83_extend_case : exists w1 w2, tight (data (w_fee kAsset)) plain_exts /\ paid_by (e_rent env0) kProg w_fee /\
  lamports (w_fee kAsset) = e_rent env0 (zlen (data (w_fee kAsset))) /\ lam_ok w_fee /\ sized w_fee /\
  process env0 i_res w_fee (IResize (Extend 21)) = Ok w1 /\ process env0 i_res w1 (IResize Trim) = Ok w2 /\ lamports (w1 kPayer) = 979.
Proof.
  eexists. eexists. split; [change (data (w_fee kAsset)) with free_data; apply (mk_wf _ plain_exts); vm_compute; reflexivity|].
  split.
  { intros x Hx Hd. unfold w_fee, table in *. cbn [find fst snd] in *. destruct (pk_eqb x kAsset); [cbn [snd lamports data acct_owner] in *; lia|].
    destruct (pk_eqb x kPayer); cbn [snd lamports data acct_owner] in *; [vm_compute in Hx; discriminate Hx|vm_compute in Hx; discriminate Hx]. }
  split; [vm_compute; reflexivity|]. split; [apply table_lam_ok; vm_compute; reflexivity|]. split; [apply table_sized; vm_compute; reflexivity|].
  split; [apply (run_ok w_fee); vm_compute; reflexivity|]. split; [apply (run_ok w_fee); vm_compute; reflexivity|]. vm_compute. reflexivity.
Qed.

(** Property theorems: verified creators (C32, C35). *)
From Verif Require Import Base State Layout Constr Ext World Proc BaseL Spec SpecB SpecH SpecG WorldL LayoutL CreateL StepH HistL VerifyL Sample ThmAuth ThmBuild ThmUpdate ThmHist.
From Coq Require Import Strings.Byte.

(** C32: at creation only the recorded authority can be a verified creator,
    whatever flags the allocated or inline payloads claim ... *)
Theorem C32_create : forall e infos w m w' asset hd l n, env_ok e -> e_prog e <> pk_zero ->
  arg infos 0 asset -> open_account (data (w asset)) hd l n -> sized w -> Forall ext_arg (inline m) ->
  process e infos w (ICreate m) = Ok w' ->
  exists auth l', arg infos 1 auth /\ s_authority (data (w' asset)) = pk_bytes auth /\ well_formed (data (w' asset)) l' /\
    forall b c, In (XCreators, b) (ext_list l') -> verified_in b c -> c = pk_bytes auth.
Proof. exact created_verified. Qed.
Print Assumptions C32_create.
Definition claimed : bytes := pk_bytes kOther ++ [x01; x28] ++ pk_bytes kAuth ++ [x00; x3c].
Definition granted : bytes := pk_bytes kOther ++ [x00; x28] ++ pk_bytes kAuth ++ [x01; x3c].
Definition m_claim := mkMetaInput [x41] NonFungible true (Some [mkExtInput XCreators 68 (Some claimed)]).
Example C32_create_case : open_account (data (w_build kBuf)) (zeros 168) [] 0 /\ Forall ext_arg (inline m_claim) /\
  exists w', process env0 (i_create kBuf) w_build (ICreate m_claim) = Ok w' /\
    skipn 184 (data (w' kBuf)) = granted ++ zeros 4.
Proof.
  split; [left; repeat split|]. split; [repeat constructor; vm_compute; congruence|].
  eexists. split; [apply (run_ok w_build); vm_compute; reflexivity|]. vm_compute. reflexivity.
Qed.
(** ... afterwards one instruction makes a creator verified only with its word:
    a Verify it signed, or an Update it signed as the recorded authority ... *)
Theorem C32_step_partial : forall e infos w i w' k l c, env_ok e -> e_prog e <> pk_zero -> sized w -> lam_ok w ->
  careful k e infos w i -> no_buffer k e infos i ->
  asset_of (e_prog e) w k -> tidy (data (w k)) l -> process e infos w i = Ok w' ->
  burns infos i k \/ exists l', tidy (data (w' k)) l' /\ (has_verified l' c -> has_verified l c \/ vouches infos w i k c).
Proof. exact verified_step. Qed.
Print Assumptions C32_step_partial.
(** ... and so in any history without such buffers: who is verified in the end was
    verified in the beginning or vouched for the asset in between. *)
Theorem C32_history_partial : forall p w w' k l l' c, p <> pk_zero ->
  history_of (fun e infos w i => ~ burns infos i k /\ careful k e infos w i /\ no_buffer k e infos i) p w w' ->
  sized w -> lam_ok w -> asset_of p w k -> tidy (data (w k)) l -> tidy (data (w' k)) l' ->
  has_verified l' c -> has_verified l c \/
    vouched (fun e infos w i => ~ burns infos i k /\ careful k e infos w i /\ no_buffer k e infos i) p w w' k c.
Proof. exact verified_history. Qed.
Print Assumptions C32_history_partial.
Definition i_verify (k : pubkey) : list ainfo := [mkInfo kAsset false true; mkInfo k true false].
Example C32_case : asset_of kProg w_up kAsset /\ sized w_up /\ lam_ok w_up /\ tidy (data (w_up kAsset)) (up_exts cur_creators) /\
  ~ has_verified (up_exts cur_creators) (pk_bytes kAuth) /\
  exists w', process env0 (i_verify kAuth) w_up IVerify = Ok w' /\
    data (w' kAsset) = mk up_head (up_exts (pk_bytes kOther ++ [x01; x28] ++ pk_bytes kAuth ++ [x01; x3c])) /\
    vouches (i_verify kAuth) w_up IVerify kAsset (pk_bytes kAuth).
Proof.
  split; [split; [reflexivity|split; [vm_compute; lia|reflexivity]]|].
  split; [apply table_sized; vm_compute; reflexivity|]. split; [apply table_lam_ok; vm_compute; reflexivity|].
  split. { exists up_head, 0%nat. change (data (w_up kAsset)) with (up_head ++ enc_sect 168 (up_exts cur_creators) ++ []). apply mk_layout. vm_compute. reflexivity. }
  split. { intros (b & Lb & i & Hi & Ha & Hv). vm_compute in Lb. injection Lb as <-. vm_compute in Hi.
           destruct i as [|[|i]]; [vm_compute in Ha; discriminate Ha|apply Hv; reflexivity|lia]. }
  eexists. split; [apply (run_ok w_up); vm_compute; reflexivity|]. split; [vm_compute; reflexivity|].
  split; [eexists; split; reflexivity|]. exists kAuth. split; [exists (mkInfo kAuth true false); vm_compute; auto|]. split; [reflexivity|].
  left. split; [reflexivity|]. eexists. split; reflexivity.
Qed.
(** With buffers the claim is false: validation clears the flags 16 bytes off, so a
    creator who signed nothing, and is not the authority, is stored as verified. *)
Definition never : bytes := repeat x13 16 ++ [x00; x64] ++ repeat x13 14.
Theorem C32_buffer_refuted : exists w w' l l', tidy (data (w kAsset)) l /\ tidy (data (w' kAsset)) l' /\
  process env0 (i_up kBuf) w up_buf = Ok w' /\ lookup XCreators (ext_list l) = None /\ has_verified l' never /\
  s_authority (data (w kAsset)) <> never /\ (forall s, signed (i_up kBuf) s -> pk_bytes s <> never).
Proof.
  exists (w_buf (mk up_head plain_exts) (buf_data XCreators (never ++ [x01; x64]))). eexists. exists plain_exts, (plain_exts ++ [blk_of XCreators (never ++ [x01; x64])]).
  split. { exists up_head, 0%nat. match goal with |- layout ?d ?h ?l ?t => replace d with (h ++ enc_sect 168 l ++ t) by (vm_compute; reflexivity) end. apply mk_layout. vm_compute. reflexivity. }
  split; [|split; [apply (run_ok w_up); vm_compute; reflexivity|]].
  { exists up_head, 0%nat. match goal with |- layout ?d ?h ?l ?t => replace d with (h ++ enc_sect 168 l ++ t) by (vm_compute; reflexivity) end. apply mk_layout. vm_compute. reflexivity. }
  split; [reflexivity|]. split.
  { exists (never ++ [x01; x64]). split; [reflexivity|]. exists 0%nat. split; [vm_compute; lia|]. split; [reflexivity|discriminate]. }
  split; [vm_compute; discriminate|]. intros s (m & Hm & <- & Hs).
  repeat (destruct Hm as [<-|Hm]; [first [discriminate Hs|vm_compute; discriminate]|]). destruct Hm.
Qed.
Print Assumptions C32_buffer_refuted.
(** And the exception for the authority does not need its signature: Create signed
    by the new account and a payer records any key as authority and marks it a
    verified creator. *)
Definition i_unsigned : list ainfo :=
  [mkInfo kBuf true true; mkInfo kOther false false; mkInfo kHolder false false; mkInfo kProg false false; mkInfo kProg false false;
   mkInfo kPayer true true; mkInfo kSys false false].
Definition m_unsigned := mkMetaInput [x41] NonFungible true (Some [mkExtInput XCreators 34 (Some one_creator)]).
Theorem C32_unsigned_refuted : exists w w' l', process env0 i_unsigned w (ICreate m_unsigned) = Ok w' /\
  tidy (data (w' kBuf)) l' /\ has_verified l' (pk_bytes kOther) /\ ~ signed i_unsigned kOther.
Proof.
  exists w_build. eexists. exists [blk_of XCreators one_creator]. split; [apply (run_ok w_build); vm_compute; reflexivity|].
  split. { eexists (firstn 168 _), 0%nat. match goal with |- layout ?d ?h ?l ?t => assert (D : d = firstn 168 d ++ enc_sect 168 l ++ t) by (vm_compute; reflexivity); rewrite D at 1 end. apply mk_layout. vm_compute. reflexivity. }
  split. { exists one_creator. split; [reflexivity|]. exists 0%nat. split; [vm_compute; lia|]. split; [reflexivity|discriminate]. }
  intros (m & Hm & E & Hs). repeat (destruct Hm as [<-|Hm]; [first [discriminate Hs|vm_compute in E; discriminate E]|]). destruct Hm.
Qed.
Print Assumptions C32_unsigned_refuted.

(** C35: Verify (Unverify) sets (clears) exactly the flags of the entries naming
    the signer; nothing else in the account changes and no other account does. *)
Theorem C35_effect : forall (v : bool) e infos w w', process e infos w (if v then IVerify else IUnverify) = Ok w' ->
  exists asset cr off b b', arg infos 0 asset /\ arg infos 1 cr /\ signed infos cr /\ asset_of (e_prog e) w asset /\
    has_ext (data (w asset)) XCreators off b /\ set_flags v (pk_bytes cr) b b' /\
    data (w' asset) = put (data (w asset)) off b' /\
    (forall k, k <> asset -> w' k = w k) /\ (forall k, lamports (w' k) = lamports (w k) /\ acct_owner (w' k) = acct_owner (w k)).
Proof. exact verify_effect. Qed.
Print Assumptions C35_effect.
(** It succeeds exactly when the creator signs and is in the list (a proxied asset
    has to sign too). *)
Theorem C35_exact : forall (v : bool) e infos w asset cr l, arg infos 0 asset -> arg infos 1 cr ->
  acct_owner (w asset) = e_prog e -> initialized (data (w asset)) -> well_formed (data (w asset)) l ->
  writable infos asset -> plain_accounts e infos w -> sized w ->
  (exists w', process e infos w (if v then IVerify else IUnverify) = Ok w') <->
  signed infos cr /\ (s_standard (data (w asset)) = x03 -> signed infos asset) /\
  exists b, lookup XCreators (ext_list l) = Some b /\ length b = (34 * cr_count b)%nat /\
    exists i, (i < cr_count b)%nat /\ cr_addr_at b i = pk_bytes cr.
Proof. exact verify_exact. Qed.
Print Assumptions C35_exact.
Definition twice (f : byte) : bytes := pk_bytes kOther ++ [f; x28] ++ pk_bytes kAuth ++ [x00; x1e] ++ pk_bytes kOther ++ [f; x1e].
Definition w_twice : world := table [(kAsset, acc (mk up_head (up_exts (twice x00))))].
Example C35_case : (exists w', process env0 (i_verify kOther) w_twice IVerify = Ok w' /\ data (w' kAsset) = mk up_head (up_exts (twice x01)) /\
    exists w2, process env0 (i_verify kOther) w' IUnverify = Ok w2 /\ data (w2 kAsset) = mk up_head (up_exts (twice x00))) /\
  process env0 (i_verify kTo) w_twice IVerify = Err EInvalidArgument /\
  process env0 [mkInfo kAsset false true; mkInfo kOther false false] w_twice IVerify = Err EMissingRequiredSignature.
Proof.
  split; [|vm_compute; auto]. eexists. split; [apply (run_ok w_twice); vm_compute; reflexivity|]. split; [vm_compute; reflexivity|].
  eexists. split; [apply (run_ok w_twice); vm_compute; reflexivity|]. vm_compute. reflexivity.
Qed.
Example C35_exact_case : plain_accounts env0 (i_verify kOther) w_twice /\ writable (i_verify kOther) kAsset /\ sized w_twice /\
  well_formed (data (w_twice kAsset)) (up_exts (twice x00)).
Proof.
  split; [|split; [eexists; split; [left; reflexivity|auto]|split; [apply table_sized; vm_compute; reflexivity|apply mk_wf; vm_compute; reflexivity]]].
  intros a [<-|[<-|[]]] Q; [right; vm_compute; lia|discriminate Q].
Qed.

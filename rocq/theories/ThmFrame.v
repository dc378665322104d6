(** Property theorems: balances and frame (C16, C17). *)
From Verif Require Import Base State Layout Constr Ext World Proc Spec WorldL FrameL Sample.
From Coq Require Import Strings.Byte.

(** C16: over any duplicate-free list of accounts containing the passed ones the
    sum of balances is unchanged ... *)
Theorem C16_conservation : forall e infos w i w' ks, env_ok e -> e_prog e <> pk_zero -> lam_ok w ->
  NoDup ks -> (forall k i, arg infos i k -> In k ks) ->
  process e infos w i = Ok w' -> total ks w' = total ks w.
Proof. exact conserve. Qed.
Print Assumptions C16_conservation.
(** ... an account pays only when it belongs to the program or signed ... *)
Theorem C16_payer_signed : forall e infos w i w' k, env_ok e -> e_prog e <> pk_zero -> lam_ok w ->
  process e infos w i = Ok w' -> lamports (w' k) < lamports (w k) ->
  acct_owner (w k) = e_prog e \/ signed infos k.
Proof. exact pay_signed. Qed.
Print Assumptions C16_payer_signed.
(** ... and no balance becomes negative. *)
Theorem C16_nonnegative : forall e infos w i w', env_ok e -> e_prog e <> pk_zero -> lam_ok w ->
  process e infos w i = Ok w' -> lam_ok w'.
Proof. exact lam_ok_preserved. Qed.
Print Assumptions C16_nonnegative.
(** A new account is funded by a payer: 8 bytes of blob, rent 128+192 = 320. *)
Definition w_pay : world := table [(kPayer, wal 1000)].
Definition i_alloc : list ainfo :=
  [mkInfo kAsset true true; mkInfo kPayer true true; mkInfo kSys false false].
Definition a_alloc : instr := IAllocate (mkExtInput XBlob 8 (Some [x01; x02; x03; x04; x05; x06; x07; x08])).
Definition ks_alloc : list pubkey := [kAsset; kPayer; kSys].
Lemma prog_nonzero : e_prog env0 <> pk_zero.
Proof. intro H. apply (f_equal pk_bytes) in H. vm_compute in H. discriminate. Qed.
Example C16_case : env_ok env0 /\ e_prog env0 <> pk_zero /\ lam_ok w_pay /\
  exists w', process env0 i_alloc w_pay a_alloc = Ok w' /\
    lamports (w_pay kPayer) = 1000 /\ lamports (w' kPayer) = 680 /\ lamports (w' kAsset) = 320 /\
    total ks_alloc w_pay = 1000 /\ total ks_alloc w' = 1000 /\ signed i_alloc kPayer.
Proof.
  split; [exact env0_ok|]. split; [exact prog_nonzero|].
  split; [apply table_lam_ok; vm_compute; reflexivity|].
  eexists. split; [apply (run_ok w_pay); vm_compute; reflexivity|].
  split; [|split; [|split; [|split; [|split]]]]; try (vm_compute; reflexivity).
  exists (mkInfo kPayer true true). split; [right; left; reflexivity|]. split; reflexivity.
Qed.

(** C17: accounts not passed as writable are unchanged ... *)
Theorem C17_untouched : forall e infos w i w' k, env_ok e -> e_prog e <> pk_zero -> lam_ok w ->
  process e infos w i = Ok w' -> ~ writable infos k -> w' k = w k.
Proof. exact frame_untouched. Qed.
Print Assumptions C17_untouched.
(** ... data changes only in writable accounts of the program, or in a signing,
    empty system account that becomes one ... *)
Theorem C17_data : forall e infos w i w' k, env_ok e -> e_prog e <> pk_zero -> lam_ok w ->
  process e infos w i = Ok w' -> data (w' k) <> data (w k) ->
  writable infos k /\
  (acct_owner (w k) = e_prog e \/ (signed infos k /\ acct_owner (w k) = pk_zero /\ data (w k) = [])).
Proof. exact frame_data. Qed.
Print Assumptions C17_data.
(** ... and a failing instruction changes nothing: by the runtime's semantics,
    which [exec] writes down (part of the trusted base, not a fact about the code). *)
Theorem C17_failure : forall e infos w i, (forall w', process e infos w i <> Ok w') ->
  forall k, exec e infos w i k = w k.
Proof. exact exec_failure. Qed.
Print Assumptions C17_failure.
Example C17_case : exists w', process env0 i_alloc w_pay a_alloc = Ok w' /\
  ~ writable i_alloc kSys /\ w' kSys = w_pay kSys /\
  data (w_pay kAsset) = [] /\ zlen (data (w' kAsset)) = 192 /\
  exec env0 (skipn 1 i_alloc) w_pay a_alloc kPayer = w_pay kPayer.
Proof.
  eexists. split; [apply (run_ok w_pay); vm_compute; reflexivity|].
  split; [|vm_compute; auto].
  intros (a & Ha & E & Hw). cbn in Ha. destruct Ha as [Ha|[Ha|[Ha|[]]]]; subst a; try discriminate Hw; discriminate E.
Qed.

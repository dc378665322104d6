(** Property theorems: every fitting request gets an answer (C90). *)
From Verif Require Import Base State Layout Constr Ext World Proc BaseL Spec SpecB SpecC SpecF SpecH SpecG SpecJ SpecCalm SpecCalmB WorldL FrameL LayoutL HeadL AcceptL CalmR Sample SampleE ThmExactB ThmBuild ThmReg ThmView ThmUpdate ThmCalmB ThmCalmC.
From Verif Require ThmCalm.
From Coq Require Import Strings.Byte.

(** All eighteen requests: with sound accounts, and payloads that fit where a request
    brings one, the outcome is success or an error code. *)
Theorem C90_fitting : forall e infos w, sound_accounts e infos w -> bounded w -> env_ok e -> e_prog e <> pk_zero -> sized w ->
  forall i, fitting e infos w i -> answered (process e infos w i).
Proof. exact fitting_answered. Qed.
Print Assumptions C90_fitting.
Example C90_fitting_case : let i := ThmUpdate.up (mkExtInput XCreators 102 (Some new_creators)) in
  sound_accounts env0 (ThmUpdate.i_up kProg) w_calm /\ bounded w_calm /\ sized w_calm /\ fitting env0 (ThmUpdate.i_up kProg) w_calm i /\
  okb (process env0 (ThmUpdate.i_up kProg) w_calm i) = true /\ ~ fitting env0 (ThmUpdate.i_up kProg) w_calm (ThmUpdate.up (mkExtInput XCreators 33 (Some (zeros 33)))).
Proof.
  destruct C90_update_case as (H1 & H2 & H3 & H4 & H5 & H6 & H7 & H8 & H9 & H10 & _). intro i. split; [exact H1|].
  split; [apply ThmCalm.table_bounded; vm_compute; reflexivity|]. split; [exact H7|]. split.
  - split; [exact H3|]. split; [exact H8|]. split.
    + intros x E. injection E as <-. split; [discriminate|]. split; [vm_compute; discriminate|]. intros _. exact H9.
    + intros k A _. rewrite (arg_det _ _ _ _ A H2). exists up_head, calm_exts. split; [exact H4|exact H6].
  - split; [exact H10|]. intros (_ & _ & F & _). destruct (F _ eq_refl) as (_ & _ & P). specialize (P ltac:(discriminate)). vm_compute in P. discriminate P.
Qed.
(** The same after any history of requests as clients make them. *)
Theorem C90_all : forall p w w', p <> pk_zero -> sized w -> lam_ok w -> (forall x, acct_owner (w x) <> p) -> history_of good_step p w w' -> bounded w' ->
  forall e infos i, e_prog e = p -> env_ok e ->
  (forall a, In a (passed infos) -> acct_owner (w' (ai_key a)) = p -> data (w' (ai_key a)) = [] \/ (168 <= length (data (w' (ai_key a))))%nat) ->
  fitting e infos w' i -> answered (process e infos w' i).
Proof. exact history_fitting. Qed.
Print Assumptions C90_all.
Example C90_all_case : history_of good_step kProg w_void w_roy /\ bounded w_roy /\
  (forall a, In a (passed (i_cr no_info no_info)) -> acct_owner (w_roy (ai_key a)) = kProg -> data (w_roy (ai_key a)) = [] \/ (168 <= length (data (w_roy (ai_key a))))%nat) /\
  fitting env0 (i_cr no_info no_info) w_roy (ICreate (m_cr Managed [x_link; x_mgr])) /\
  okb (process env0 (i_cr no_info no_info) w_roy (ICreate (m_cr Managed [x_link; x_mgr]))) = true.
Proof.
  split; [apply roy_history|]. split; [exact roy_bounded|].
  split. { intros a [<-|[<-|[<-|[<-|[<-|[<-|[<-|[]]]]]]]] O; apply (f_equal pk_bytes) in O; vm_compute in O; discriminate O. }
  split; [|vm_compute; reflexivity]. destruct C90_create_case as (_ & H2 & _ & _ & H5 & _). split; [|exact H5].
  intros k A. rewrite (arg_det _ _ _ _ A H2). exists (repeat x00 168), [], 0. split; [left; repeat split; vm_compute; reflexivity|constructor].
Qed.

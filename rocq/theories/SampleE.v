(** Checking the hypotheses of the exactness theorems on concrete accounts. *)
From Verif Require Import Base State Layout Constr Ext World Proc BaseL Spec SpecB SpecC SpecE WorldL LayoutL ExactL Sample.
From Coq Require Import Strings.Byte.

Lemma plain_table e infos l :
  forallb (fun a => negb (pk_eqb (acct_owner (table l (ai_key a))) (e_prog e)) ||
    (zlen (data (table l (ai_key a))) =? 0) || (168 <=? zlen (data (table l (ai_key a))))) (passed infos) = true ->
  plain_accounts e infos (table l).
Proof.
  intros H a Ha Ho. rewrite forallb_forall in H. specialize (H a Ha). apply orb_true_iff in H as [H|H].
  - apply orb_true_iff in H as [H|H].
    + rewrite Ho, pk_eqb_refl in H. discriminate.
    + left. apply Z.eqb_eq in H. destruct (data (table l (ai_key a))); [reflexivity|]. unfold zlen in H. cbn [length] in H. lia.
  - right. apply Z.leb_le in H. unfold zlen in H. lia.
Qed.
Lemma ready_table e infos l asset :
  match nth_error (passed infos) 0 with Some a => pk_eqb (ai_key a) asset | None => false end
  && pk_eqb (acct_owner (table l asset)) (e_prog e)
  && (168 <=? zlen (data (table l asset))) && Byte.eqb (nth 0 (data (table l asset)) x00) x01
  && existsb (fun a => pk_eqb (ai_key a) asset && ai_writable a) (passed infos)
  && forallb (fun p => zlen (data (snd p)) <=? 10485760) l
  && forallb (fun a => negb (pk_eqb (acct_owner (table l (ai_key a))) (e_prog e)) ||
    (zlen (data (table l (ai_key a))) =? 0) || (168 <=? zlen (data (table l (ai_key a))))) (passed infos) = true ->
  ready e infos (table l) asset.
Proof.
  intro H. repeat match goal with H : _ && _ = true |- _ => apply andb_true_iff in H as [? ?] end.
  unfold ready. split.
  { destruct (nth_error (passed infos) 0) as [a|] eqn:E; [|discriminate]. exists a. split; [exact E|]. now apply pk_eqb_eq. }
  split; [now apply pk_eqb_eq|]. split.
  { split; [unfold zlen in *; lia|]. apply Byte.byte_dec_bl. assumption. }
  split.
  { match goal with H : existsb _ _ = true |- _ => apply existsb_exists in H as (a & Ha & Hb) end.
    apply andb_true_iff in Hb as [Hb Hc]. exists a. split; [assumption|]. split; [now apply pk_eqb_eq|assumption]. }
  split; [now apply plain_table|now apply table_sized].
Qed.
Lemma argb infos i k : match nth_error (passed infos) i with Some a => pk_eqb (ai_key a) k | None => false end = true -> arg infos i k.
Proof. intro H. destruct (nth_error (passed infos) i) as [a|] eqn:E; [|discriminate]. exists a. split; [exact E|]. now apply pk_eqb_eq. Qed.
Lemma writableb infos k : existsb (fun a => pk_eqb (ai_key a) k && ai_writable a) (passed infos) = true -> writable infos k.
Proof.
  intro H. apply existsb_exists in H as (a & Ha & Hb). apply andb_true_iff in Hb as [Hb Hc].
  exists a. split; [assumption|]. split; [now apply pk_eqb_eq|assumption].
Qed.
Ltac ok_arg := apply argb; vm_compute; reflexivity.
Ltac ok_wr := apply writableb; vm_compute; reflexivity.
Ltac ok_ready := apply ready_table; vm_compute; reflexivity.
Ltac found H := vm_compute in H; first [discriminate H|apply some_inj in H; rewrite <- H].

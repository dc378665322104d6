(** Proofs about the interface descriptions: whole programs. *)
From Verif Require Import Base State Layout Constr Ext World Proc Borsh BorshL Js Rs Cpi Codes Client Proxy ProxyC Bridge BridgeC Desc DescData Spec SpecI SpecJ SpecDesc BaseL DescL DescM.
From Coq Require Import Strings.Byte Strings.String Lia.
Open Scope string_scope.
Open Scope list_scope.
Open Scope Z_scope.

Lemma cdata_iff hooks p s args b : cdata hooks p s args = Some b <->
  exists i r, cinstr_of p s = Some i /\ 0 <= ci_disc i < 256 /\ F hooks (cp_types p) 9 (ci_args i) args = Some r /\ b = le_enc 1 (ci_disc i) ++ r.
Proof.
  unfold cdata. destruct (cinstr_of p s) as [i|].
  - split.
    + intros H. apply cseq_two in H. destruct H as (x & y & H1 & H2 & ->). apply cnum_iff in H1. destruct H1 as [H1 ->].
      apply (E_struct hooks (cp_types p) 9) in H2. destruct H2 as (vs & H & H2). injection H as <-. exists i, y. auto.
    + intros (i' & r & H & D & H2 & ->). injection H as <-. apply cseq_two. exists (le_enc 1 (ci_disc i)), r. split; [apply cnum_iff; auto|].
      split; [|reflexivity]. apply (E_struct hooks (cp_types p) 9). eauto.
  - split; [discriminate|intros (i & r & H & _); discriminate].
Qed.
Lemma codama_knows : knows (cp_types codama_asset).
Proof. split; reflexivity. Qed.
Definition shank_whole : cprog := mkCProg (cp_instrs shank_asset) (cp_types shank_asset ++ kinobi_types) (cp_errors shank_asset).
Lemma shank_knows : knows (cp_types shank_asset ++ kinobi_types).
Proof. split; reflexivity. Qed.

Ltac rows H :=
  match type of H with
  | (if String.eqb ?x ?s then _ else _) = _ => destruct (String.eqb_spec x s) as [<-|_]; [injection H as <-|rows H]
  | None = Some _ => discriminate H
  end.
Ltac plain j := let A := fresh in let B := fresh in
  match goal with H : F _ _ _ [] _ = Some _ |- _ => apply F_nil in H; destruct H as [A B]; subst; exists j; split; [reflexivity|split; [exact I|reflexivity]] end.
Ltac one H lem con := apply (fields_one _ _ _ _ _ _ _ _ _ _ lem) in H; destruct H as (x & -> & O & ->); exists (con x);
  split; [reflexivity|split; [exact O|reflexivity]].

Lemma codama_exact hooks s args b : cdata hooks codama_asset s args = Some b <-> exists i, told i = (s, args) /\ instr_ok i /\ b = write_instr i.
Proof.
  pose proof codama_knows as K. rewrite cdata_iff. split.
  - intros (i & r & H & _ & R & ->). unfold cinstr_of in H. cbn [codama_asset cp_instrs map ci_name cfind] in H.
    rows H; cbn [ci_args ci_disc] in R |- *.
    + plain IClose.
    + plain IBurn.
    + apply (fields_meta hooks _ K 2) in R. destruct R as (m & -> & O & ->). exists (ICreate m). auto.
    + one R (codes_delegate hooks _ K 4) IApprove.
    + one R (codes_ext hooks _ K 4) IAllocate.
    + plain ILock.
    + one R (codes_delegate hooks _ K 4) IRevoke.
    + plain ITransfer.
    + plain IUnlock.
    + plain IUnverify.
    + apply (fields_upd hooks _ K 3) in R. destruct R as (m & -> & O & ->). exists (IUpdate m). auto.
    + plain IVerify.
    + apply (fields_data hooks (cp_types codama_asset) 7) in R. destruct R as (m & -> & O & ->). exists (IWrite m). auto.
    + plain IGroup.
    + plain IUngroup.
    + plain IHandover.
    + one R (codes_kind hooks _ K 7) IRemove.
    + one R (codes_strategy hooks _ K 6) IResize.
  - intros (i & T & O & ->).
    destruct i; cbn [told] in T; injection T as <- <-;
      (eexists; eexists; split; [reflexivity|]; cbn [ci_disc ci_args]; split; [lia|]); cbn [instr_ok] in O.
    all: match goal with
         | |- F _ _ _ [] _ = _ /\ _ => split; [apply F_nil; split; reflexivity|reflexivity]
         | _ => idtac
         end.
    + split; [apply (fields_meta hooks _ K 2); exists m; auto|reflexivity].
    + split; [apply (fields_one _ _ _ _ _ _ _ _ _ _ (codes_delegate hooks _ K 4)); exists d; auto|reflexivity].
    + split; [apply (fields_one _ _ _ _ _ _ _ _ _ _ (codes_ext hooks _ K 4)); exists x; auto|reflexivity].
    + split; [apply (fields_one _ _ _ _ _ _ _ _ _ _ (codes_delegate hooks _ K 4)); exists d; auto|reflexivity].
    + split; [apply (fields_upd hooks _ K 3); exists u; auto|reflexivity].
    + split; [apply (fields_data hooks (cp_types codama_asset) 7); exists d; auto|reflexivity].
    + split; [apply (fields_one _ _ _ _ _ _ _ _ _ _ (codes_kind hooks _ K 7)); exists t; unfold always; auto|reflexivity].
    + split; [apply (fields_one _ _ _ _ _ _ _ _ _ _ (codes_strategy hooks _ K 6)); exists s0; auto|reflexivity].
Qed.

Ltac rec_ H name := apply (fields_rec _ _ 7 _ _ _ _ _ (eq_refl : cfind (cp_types shank_whole) name = Some (CStruct _))) in H;
  destruct H as (us & -> & H).
Lemma shank_exact hooks s args b : cdata hooks shank_whole s args = Some b <-> exists i, told_shank i = (s, args) /\ instr_ok i /\ b = write_instr i.
Proof.
  pose proof shank_knows as K. change (cp_types shank_asset ++ kinobi_types) with (cp_types shank_whole) in K. rewrite cdata_iff. split.
  - intros (i & r & H & _ & R & ->). unfold cinstr_of in H. cbn [shank_whole shank_asset cp_instrs map ci_name cfind] in H.
    rows H; cbn [ci_args ci_disc] in R |- *.
    + plain IClose.
    + plain IBurn.
    + rec_ R "metadataInput". apply (fields_meta hooks _ K 0) in R. destruct R as (m & -> & O & ->). exists (ICreate m). auto.
    + one R (codes_delegate hooks _ K 4) IApprove.
    + rec_ R "allocateInput". apply (fields_one _ _ _ _ _ _ _ _ _ _ (codes_ext hooks _ K 2)) in R. destruct R as (m & -> & O & ->). exists (IAllocate m). auto.
    + plain ILock.
    + one R (codes_delegate hooks _ K 4) IRevoke.
    + plain ITransfer.
    + plain IUnlock.
    + plain IUnverify.
    + rec_ R "updateInput". apply (fields_upd hooks _ K 1) in R. destruct R as (m & -> & O & ->). exists (IUpdate m). auto.
    + plain IVerify.
    + rec_ R "dataInput". apply (fields_data hooks (cp_types shank_whole) 5) in R. destruct R as (m & -> & O & ->). exists (IWrite m). auto.
    + plain IGroup.
    + plain IUngroup.
    + plain IHandover.
    + one R (codes_kind hooks _ K 7) IRemove.
    + one R (codes_strategy hooks _ K 6) IResize.
  - intros (i & T & O & ->).
    destruct i; unfold told_shank in T; cbn [told fst snd] in T; injection T as <- <-;
      (eexists; eexists; split; [reflexivity|]; cbn [ci_disc ci_args]; split; [lia|]); cbn [instr_ok] in O.
    all: match goal with
         | |- F _ _ _ [] _ = _ /\ _ => split; [apply F_nil; split; reflexivity|reflexivity]
         | _ => idtac
         end.
    + split; [apply (fields_rec _ _ 7 _ _ _ _ _ (eq_refl : cfind (cp_types shank_whole) "metadataInput" = Some (CStruct _)))|reflexivity].
      eexists. split; [reflexivity|]. apply (fields_meta hooks _ K 0); exists m; auto.
    + split; [apply (fields_one _ _ _ _ _ _ _ _ _ _ (codes_delegate hooks _ K 4)); exists d; auto|reflexivity].
    + split; [apply (fields_rec _ _ 7 _ _ _ _ _ (eq_refl : cfind (cp_types shank_whole) "allocateInput" = Some (CStruct _)))|reflexivity].
      eexists. split; [reflexivity|]. apply (fields_one _ _ _ _ _ _ _ _ _ _ (codes_ext hooks _ K 2)); exists x; auto.
    + split; [apply (fields_one _ _ _ _ _ _ _ _ _ _ (codes_delegate hooks _ K 4)); exists d; auto|reflexivity].
    + split; [apply (fields_rec _ _ 7 _ _ _ _ _ (eq_refl : cfind (cp_types shank_whole) "updateInput" = Some (CStruct _)))|reflexivity].
      eexists. split; [reflexivity|]. apply (fields_upd hooks _ K 1); exists u; auto.
    + split; [apply (fields_rec _ _ 7 _ _ _ _ _ (eq_refl : cfind (cp_types shank_whole) "dataInput" = Some (CStruct _)))|reflexivity].
      eexists. split; [reflexivity|]. apply (fields_data hooks (cp_types shank_whole) 5); exists d; auto.
    + split; [apply (fields_one _ _ _ _ _ _ _ _ _ _ (codes_kind hooks _ K 7)); exists t; unfold always; auto|reflexivity].
    + split; [apply (fields_one _ _ _ _ _ _ _ _ _ _ (codes_strategy hooks _ K 6)); exists s0; auto|reflexivity].
Qed.

(** Proofs about the interface descriptions: the instructions. *)
From Verif Require Import Base State Layout Constr Ext World Proc Borsh BorshL Js Rs Cpi Codes Desc DescData Spec SpecI SpecJ SpecDesc BaseL DescL.
From Coq Require Import Strings.Byte Strings.String Lia.
Open Scope string_scope.
Open Scope list_scope.
Open Scope Z_scope.

Lemma cplace_in {A} (l : list (string * A)) : forall n s r, cplace l n s = Some r -> In s (map fst l).
Proof.
  induction l as [|[x a] l IH]; intros n s r; cbn [cplace]; [discriminate|]. destruct (String.eqb_spec x s) as [->|N]; intros H.
  - left. reflexivity.
  - right. exact (IH _ _ _ H).
Qed.
Lemma named_by {A B} (l : list (string * B)) (name : A -> string) all : map fst l = map name all ->
  forall s k ts, cplace l 0 s = Some (k, ts) -> exists a, s = name a.
Proof. intros M s k ts H. apply cplace_in in H. rewrite M in H. apply in_map_iff in H. destruct H as (a & <- & _). eauto. Qed.

Definition kinds : list ext_type :=
  [XNone; XAttributes; XBlob; XCreators; XLinks; XMetadata; XGrouping; XRoyalties; XManager; XProxy; XProperties; XBucket].
Definition t_kind : cty := CEnum (map (fun t => (kind_name t, [])) kinds).
Definition t_role : cty := CEnum (map (fun r => (role_name r, [])) [RNone; RTransfer; RLock; RBurn]).
Definition t_standard : cty := CEnum (map (fun s => (standard_name s, [])) [NonFungible; Managed; Soulbound; Proxied]).
Definition t_ext : cty := CStruct [("extensionType", CLink "extensionType"); ("length", CNum 4); ("data", COpt (CSized 4 CBytes))].
Definition t_delegate : cty := CEnum [("all", []); ("some", [("roles", CVec 4 (CLink "delegateRole"))])].
Definition t_strategy : cty := CEnum [("trim", []); ("extend", [("value", CNum 2)])].

Record knows (d : cdefs) : Prop := mkKnows {
  kn_kind : cfind d "extensionType" = Some t_kind; kn_role : cfind d "delegateRole" = Some t_role; kn_std : cfind d "standard" = Some t_standard;
  kn_ext : cfind d "extensionInput" = Some t_ext; kn_del : cfind d "delegateInput" = Some t_delegate; kn_str : cfind d "strategy" = Some t_strategy }.

Section Instr.
Variable hooks defs : cdefs.
Hypothesis K : knows defs.
Notation codes := (codes hooks defs).

Lemma codes_kind n : codes (S (S n)) (CLink "extensionType") (fun t => word (kind_name t)) always write_ext_type.
Proof.
  apply (codes_link hooks defs _ _ _ _ _ _ (kn_kind defs K)).
  apply (codes_words hooks defs n _ kind_name (fun t => z2b (ext_code t))).
  - intros a. destruct a; reflexivity.
  - apply (named_by _ kind_name kinds). reflexivity.
Qed.
Lemma codes_role n : codes (S (S n)) (CLink "delegateRole") (fun t => word (role_name t)) always write_role.
Proof.
  apply (codes_link hooks defs _ _ _ _ _ _ (kn_role defs K)).
  pose proof (codes_words hooks defs n (map (fun r => (role_name r, [])) [RNone; RTransfer; RLock; RBurn]) role_name
    (fun r => match r with RNone => x00 | RTransfer => x01 | RLock => x02 | RBurn => x03 end)) as W.
  intros v b. unfold t_role. etransitivity; [apply W|].
  - intros a. destruct a; reflexivity.
  - apply (named_by _ role_name [RNone; RTransfer; RLock; RBurn]). reflexivity.
  - split; intros (r & -> & _ & ->); exists r; destruct r; (split; [reflexivity|split; [exact I|reflexivity]]).
Qed.
Lemma codes_standard n : codes (S (S n)) (CLink "standard") (fun t => word (standard_name t)) always (fun s => [standard_code s]).
Proof.
  apply (codes_link hooks defs _ _ _ _ _ _ (kn_std defs K)).
  apply (codes_words hooks defs n _ standard_name standard_code).
  - intros a. destruct a; reflexivity.
  - apply (named_by _ standard_name [NonFungible; Managed; Soulbound; Proxied]). reflexivity.
Qed.
Lemma codes_bytes4 n : codes (S (S n)) (CSized 4 CBytes) VRaw (@SpecI.fits byte) write_bytes.
Proof.
  intros v b. rewrite (codes_sized hooks defs (S n) 4 CBytes _ _ _ (codes_bytes hooks defs n) v b). unfold SpecI.fits, always.
  change (256 ^ Z.of_nat 4) with 4294967296. split; intros (x & -> & H & ->); exists x; tauto.
Qed.
Lemma codes_text4 n : codes (S (S n)) (CSized 4 CStr) VRaw text_ok write_bytes.
Proof.
  intros v b. rewrite (codes_sized hooks defs (S n) 4 CStr _ _ _ (codes_str hooks defs n) v b). unfold text_ok, SpecI.fits.
  change (256 ^ Z.of_nat 4) with 4294967296. split; intros (x & -> & H & ->); exists x; tauto.
Qed.
Lemma codes_ext n : codes (S (S (S (S (S n))))) (CLink "extensionInput") ext_value ext_ok write_ext_input.
Proof.
  apply (codes_link hooks defs _ _ _ _ _ _ (kn_ext defs K)). intros v b. unfold t_ext. rewrite (E_struct hooks defs (S (S (S n)))). split.
  - intros (vs & -> & H). apply F_cons in H. destruct H as (v1 & vs1 & b1 & r1 & -> & H1 & H & ->).
    apply F_cons in H. destruct H as (v2 & vs2 & b2 & r2 & -> & H2 & H & ->).
    apply F_cons in H. destruct H as (v3 & vs3 & b3 & r3 & -> & H3 & H & ->).
    apply F_nil in H. destruct H as [-> ->].
    apply codes_kind in H1. destruct H1 as (t & -> & _ & ->). apply codes_num in H2. destruct H2 as (z & -> & Hz & ->).
    apply (codes_opt hooks defs _ _ _ _ _ (codes_bytes4 n)) in H3. destruct H3 as (o & -> & Ho & ->).
    exists (mkExtInput t z o). split; [reflexivity|]. split; [split; [exact Hz|exact Ho]|]. unfold write_ext_input. cbn [x_type x_length x_data].
    rewrite app_nil_r. reflexivity.
  - intros ([t z o] & -> & [Hz Ho] & ->). cbn [x_length x_data] in Hz, Ho. eexists. split; [reflexivity|].
    apply F_cons. exists (word (kind_name t)), [VNum z; maybe VRaw o], (write_ext_type t), (le_enc 4 z ++ write_option write_bytes o ++ []).
    split; [reflexivity|]. split; [apply codes_kind; exists t; unfold always; auto|]. split; [|rewrite app_nil_r; reflexivity].
    apply F_cons. exists (VNum z), [maybe VRaw o], (le_enc 4 z), (write_option write_bytes o ++ []).
    split; [reflexivity|]. split; [apply codes_num; exists z; auto|]. split; [|reflexivity].
    apply F_cons. exists (maybe VRaw o), [], (write_option write_bytes o), [].
    split; [reflexivity|]. split; [apply (codes_opt hooks defs _ _ _ _ _ (codes_bytes4 n)); exists o; auto|]. split; [apply F_nil; auto|reflexivity].
Qed.
Lemma Forall_always {A} (l : list A) : Forall always l.
Proof. apply Forall_forall. intros x _. exact I. Qed.
Lemma codes_delegate n : codes (S (S (S (S (S n))))) (CLink "delegateInput") roles_value roles_ok write_delegate_input.
Proof.
  apply (codes_link hooks defs _ _ _ _ _ _ (kn_del defs K)). intros v b. unfold t_delegate. rewrite (E_enum hooks defs (S (S (S n)))). split.
  - intros (s & vs & k & ts & r & -> & P & _ & H & ->). cbn [cplace] in P.
    destruct (String.eqb_spec "all" s) as [<-|_].
    + injection P as <- <-. apply F_nil in H. destruct H as [-> ->]. exists DAll. cbn. auto.
    + destruct (String.eqb_spec "some" s) as [<-|_]; [|discriminate P]. injection P as <- <-.
      apply F_cons in H. destruct H as (v1 & vs1 & b1 & r1 & -> & H1 & H & ->). apply F_nil in H. destruct H as [-> ->].
      apply (codes_vec hooks defs _ _ _ _ _ (codes_role n)) in H1. destruct H1 as (l & -> & [L _] & ->).
      exists (DSome l). split; [reflexivity|]. split; [exact L|]. rewrite app_nil_r. reflexivity.
  - intros ([|l] & -> & O & ->).
    + exists "all", [], 0, [], []. split; [reflexivity|]. split; [reflexivity|]. split; [lia|]. split; [apply F_nil; auto|reflexivity].
    + exists "some", [VSeq (map (fun r => word (role_name r)) l)], 1, [("roles", CVec 4 (CLink "delegateRole"))], (write_vec write_role l ++ []).
      split; [reflexivity|]. split; [reflexivity|]. split; [lia|]. split; [|rewrite app_nil_r; reflexivity].
      apply F_cons. do 4 eexists. split; [reflexivity|]. split; [|split; [apply F_nil; auto|reflexivity]].
      apply (codes_vec hooks defs _ _ _ _ _ (codes_role n)). exists l. split; [reflexivity|]. split; [|reflexivity]. split; [exact O|apply Forall_always].
Qed.
Lemma codes_strategy n : codes (S (S (S n))) (CLink "strategy") strategy_value strat_ok write_strategy.
Proof.
  apply (codes_link hooks defs _ _ _ _ _ _ (kn_str defs K)). intros v b. unfold t_strategy. rewrite (E_enum hooks defs (S n)). split.
  - intros (s & vs & k & ts & r & -> & P & _ & H & ->). cbn [cplace] in P.
    destruct (String.eqb_spec "trim" s) as [<-|_].
    + injection P as <- <-. apply F_nil in H. destruct H as [-> ->]. exists Trim. cbn. auto.
    + destruct (String.eqb_spec "extend" s) as [<-|_]; [|discriminate P]. injection P as <- <-.
      apply F_cons in H. destruct H as (v1 & vs1 & b1 & r1 & -> & H1 & H & ->). apply F_nil in H. destruct H as [-> ->].
      apply codes_num in H1. destruct H1 as (z & -> & Hz & ->). exists (Extend z). split; [reflexivity|]. split; [exact Hz|].
      rewrite app_nil_r. reflexivity.
  - intros ([|z] & -> & O & ->).
    + exists "trim", [], 0, [], []. split; [reflexivity|]. split; [reflexivity|]. split; [lia|]. split; [apply F_nil; auto|reflexivity].
    + exists "extend", [VNum z], 1, [("value", CNum 2)], (le_enc 2 z ++ []).
      split; [reflexivity|]. split; [reflexivity|]. split; [lia|]. split; [|rewrite app_nil_r; reflexivity].
      apply F_cons. do 4 eexists. split; [reflexivity|]. split; [apply codes_num; exists z; split; [reflexivity|split; [exact O|reflexivity]]|].
      split; [apply F_nil; auto|reflexivity].
Qed.

(** The fields of the records, by the depth left. *)
Definition f_meta := [("name", CSized 4 CStr); ("standard", CLink "standard"); ("mutable", CBool); ("extensions", COpt (CVec 4 (CLink "extensionInput")))].
Definition f_upd := [("name", COpt (CSized 4 CStr)); ("mutable", COpt CBool); ("extension", COpt (CLink "extensionInput"))].
Definition f_data := [("overwrite", CBool); ("bytes", CSized 4 CBytes)].
Notation F := (F hooks defs).
Lemma fields_meta n vs b : F (S (S (S (S (S (S (S n))))))) f_meta vs = Some b <->
  exists m, vs = snd (told (ICreate m)) /\ meta_ok m /\ b = write_metadata_input m.
Proof.
  pose proof (codes_opt hooks defs _ _ _ _ _ (codes_vec hooks defs _ _ _ _ _ (codes_ext n))) as X. unfold f_meta. split.
  - intros H. apply F_cons in H. destruct H as (v1 & vs1 & b1 & r1 & -> & H1 & H & ->).
    apply F_cons in H. destruct H as (v2 & vs2 & b2 & r2 & -> & H2 & H & ->).
    apply F_cons in H. destruct H as (v3 & vs3 & b3 & r3 & -> & H3 & H & ->).
    apply F_cons in H. destruct H as (v4 & vs4 & b4 & r4 & -> & H4 & H & ->). apply F_nil in H. destruct H as [-> ->].
    apply codes_text4 in H1. destruct H1 as (s & -> & Os & ->). apply codes_standard in H2. destruct H2 as (st & -> & _ & ->).
    apply codes_bool in H3. destruct H3 as (m & -> & _ & ->). apply X in H4. destruct H4 as (o & -> & Oo & ->).
    exists (mkMetaInput s st m o). split; [reflexivity|]. split; [split; [exact Os|exact Oo]|].
    unfold write_metadata_input. cbn [m_name m_standard m_mutable m_exts]. rewrite app_nil_r. reflexivity.
  - intros ([s st m o] & -> & [Os Oo] & ->). cbn [m_name m_exts] in Os, Oo. unfold told, snd, write_metadata_input. cbn [m_name m_standard m_mutable m_exts].
    apply F_cons. do 4 eexists. split; [reflexivity|]. split; [apply codes_text4; exists s; split; [reflexivity|split; [exact Os|reflexivity]]|].
    split; [|reflexivity]. apply F_cons. do 4 eexists. split; [reflexivity|].
    split; [apply codes_standard; exists st; split; [reflexivity|split; [exact I|reflexivity]]|]. split; [|reflexivity].
    apply F_cons. do 4 eexists. split; [reflexivity|]. split; [apply codes_bool; exists m; split; [reflexivity|split; [exact I|reflexivity]]|]. split; [|reflexivity].
    apply F_cons. do 4 eexists. split; [reflexivity|]. split; [apply X; exists o; split; [reflexivity|split; [exact Oo|reflexivity]]|].
    split; [apply F_nil; auto|]. rewrite app_nil_r. reflexivity.
Qed.
Lemma fields_upd n vs b : F (S (S (S (S (S (S n)))))) f_upd vs = Some b <->
  exists u, vs = snd (told (IUpdate u)) /\ upd_ok u /\ b = write_update_input u.
Proof.
  pose proof (codes_opt hooks defs _ _ _ _ _ (codes_ext n)) as X.
  pose proof (codes_opt hooks defs _ _ _ _ _ (codes_text4 (S (S (S n))))) as Y.
  pose proof (codes_opt hooks defs _ _ _ _ _ (codes_bool hooks defs (S (S (S (S n)))))) as B. unfold f_upd. split.
  - intros H. apply F_cons in H. destruct H as (v1 & vs1 & b1 & r1 & -> & H1 & H & ->).
    apply F_cons in H. destruct H as (v2 & vs2 & b2 & r2 & -> & H2 & H & ->).
    apply F_cons in H. destruct H as (v3 & vs3 & b3 & r3 & -> & H3 & H & ->). apply F_nil in H. destruct H as [-> ->].
    apply Y in H1. destruct H1 as (s & -> & Os & ->). apply B in H2. destruct H2 as (m & -> & _ & ->). apply X in H3. destruct H3 as (o & -> & Oo & ->).
    exists (mkUpdInput s m o). split; [reflexivity|]. split; [split; [exact Os|exact Oo]|].
    unfold write_update_input. cbn [u_name u_mutable u_ext]. rewrite app_nil_r. reflexivity.
  - intros ([s m o] & -> & [Os Oo] & ->). cbn [u_name u_ext] in Os, Oo. unfold told, snd, write_update_input. cbn [u_name u_mutable u_ext].
    apply F_cons. do 4 eexists. split; [reflexivity|]. split; [apply Y; exists s; split; [reflexivity|split; [exact Os|reflexivity]]|].
    split; [|reflexivity].
    apply F_cons. do 4 eexists. split; [reflexivity|].
    split; [apply B; exists m; split; [reflexivity|split; [destruct m; exact I|reflexivity]]|]. split; [|reflexivity].
    apply F_cons. do 4 eexists. split; [reflexivity|]. split; [apply X; exists o; split; [reflexivity|split; [exact Oo|reflexivity]]|].
    split; [apply F_nil; auto|]. rewrite app_nil_r. reflexivity.
Qed.
Lemma fields_data n vs b : F (S (S n)) f_data vs = Some b <->
  exists d, vs = snd (told (IWrite d)) /\ SpecI.fits (w_bytes d) /\ b = write_data_input d.
Proof.
  unfold f_data. split.
  - intros H. apply F_cons in H. destruct H as (v1 & vs1 & b1 & r1 & -> & H1 & H & ->).
    apply F_cons in H. destruct H as (v2 & vs2 & b2 & r2 & -> & H2 & H & ->). apply F_nil in H. destruct H as [-> ->].
    apply codes_bool in H1. destruct H1 as (m & -> & _ & ->). apply codes_bytes4 in H2. destruct H2 as (s & -> & Os & ->).
    exists (mkDataInput m s). split; [reflexivity|]. split; [exact Os|]. rewrite app_nil_r. reflexivity.
  - intros ([m s] & -> & Os & ->). cbn [w_bytes] in Os. unfold told, snd, write_data_input. cbn [w_overwrite w_bytes].
    apply F_cons. do 4 eexists. split; [reflexivity|]. split; [apply codes_bool; exists m; split; [reflexivity|split; [exact I|reflexivity]]|]. split; [|reflexivity].
    apply F_cons. do 4 eexists. split; [reflexivity|]. split; [apply codes_bytes4; exists s; split; [reflexivity|split; [exact Os|reflexivity]]|].
    split; [apply F_nil; auto|]. rewrite app_nil_r. reflexivity.
Qed.
Lemma fields_one {A} n s t (val : A -> cval) ok wr vs b : codes n t val ok wr ->
  (F n [(s, t)] vs = Some b <-> exists x, vs = [val x] /\ ok x /\ b = wr x).
Proof.
  intros C. rewrite F_cons. split.
  - intros (v & vs' & b1 & b2 & -> & H & N & ->). apply F_nil in N. destruct N as [-> ->]. apply C in H. destruct H as (x & -> & O & ->).
    exists x. rewrite app_nil_r. auto.
  - intros (x & -> & O & ->). exists (val x), [], (wr x), []. split; [reflexivity|]. split; [apply C; eauto|]. split; [apply F_nil; auto|].
    rewrite app_nil_r. reflexivity.
Qed.
(** the record with one record in it *)
Lemma fields_rec n s name ts vs b : cfind defs name = Some (CStruct ts) ->
  (F (S (S n)) [(s, CLink name)] vs = Some b <-> exists us, vs = [VRec us] /\ F n ts us = Some b).
Proof.
  intros D. rewrite F_cons. split.
  - intros (v & vs' & b1 & b2 & -> & H & N & ->). apply F_nil in N. destruct N as [-> ->]. cbn [cenc] in H. rewrite D in H.
    assert (G : cenc (S n) hooks defs (CStruct ts) v = Some b1) by (destruct v; exact H). apply E_struct in G. destruct G as (us & -> & G).
    exists us. rewrite app_nil_r. auto.
  - intros (us & -> & G). exists (VRec us), [], b, []. split; [reflexivity|]. split; [|split; [apply F_nil; auto|rewrite app_nil_r; reflexivity]].
    cbn [cenc]. rewrite D. exact G.
Qed.
End Instr.

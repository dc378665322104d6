(** Proofs about the interface descriptions. *)
From Verif Require Import Base State Layout Constr Ext World Proc Borsh BorshL Js Rs Cpi Codes Desc DescData Spec SpecI SpecJ SpecDesc BaseL.
From Coq Require Import Strings.Byte Strings.String Lia.
Open Scope string_scope.
Open Scope list_scope.
Open Scope Z_scope.

Section Enc.
Variable hooks defs : cdefs.
Notation E := (fun n => cenc n hooks defs).

(** The fields of a record. *)
Definition F (n : nat) (ts : list (string * cty)) (vs : list cval) : option bytes :=
  if Nat.eqb (List.length ts) (List.length vs) then cseq (map (fun p => cenc n hooks defs (snd (fst p)) (snd p)) (combine ts vs)) else None.
Lemma F_nil n vs b : F n [] vs = Some b <-> vs = [] /\ b = [].
Proof.
  unfold F. destruct vs; cbn [List.length Nat.eqb combine map cseq].
  - split; [intros H; injection H as <-; auto|intros [_ ->]; auto].
  - split; [discriminate|intros [H _]; discriminate].
Qed.
Lemma F_cons n s t ts vs b : F n ((s, t) :: ts) vs = Some b <->
  exists v vs' b1 b2, vs = v :: vs' /\ cenc n hooks defs t v = Some b1 /\ F n ts vs' = Some b2 /\ b = b1 ++ b2.
Proof.
  unfold F. destruct vs as [|v vs]; cbn [List.length Nat.eqb combine map cseq fst snd].
  - split; [discriminate|intros (v & vs' & b1 & b2 & H & _); discriminate].
  - split.
    + destruct (Nat.eqb (List.length ts) (List.length vs)) eqn:L; [|discriminate].
      destruct (cenc n hooks defs t v) as [b1|] eqn:E1; [|discriminate].
      destruct (cseq _) as [b2|] eqn:E2; [|discriminate]. intros H. injection H as <-.
      exists v, vs, b1, b2. rewrite L. auto.
    + intros (v' & vs' & b1 & b2 & H & E1 & E2 & ->). injection H as <- <-.
      destruct (Nat.eqb (List.length ts) (List.length vs)); [|discriminate]. rewrite E1, E2. reflexivity.
Qed.
Lemma E_struct n ts v b : cenc (S n) hooks defs (CStruct ts) v = Some b <-> exists vs, v = VRec vs /\ F n ts vs = Some b.
Proof.
  cbn [cenc]. split.
  - destruct v; try discriminate. intros H. exists l. split; [reflexivity|exact H].
  - intros (vs & -> & H). exact H.
Qed.

(** [codes n t val ok wr]: the values of type [t] that can be written are the [val x] with
    [ok x], written as [wr x]. *)
Definition codes {A} (n : nat) (t : cty) (val : A -> cval) (ok : A -> Prop) (wr : A -> bytes) : Prop :=
  forall v b, cenc n hooks defs t v = Some b <-> exists x, v = val x /\ ok x /\ b = wr x.
Definition always {A} (_ : A) : Prop := True.

Lemma cnum_iff n z b : cnum n z = Some b <-> 0 <= z < 256 ^ Z.of_nat n /\ b = le_enc n z.
Proof.
  unfold cnum. destruct (0 <=? z) eqn:L; destruct (z <? 256 ^ Z.of_nat n) eqn:U; cbn [andb]; split; intros H; try discriminate H;
    try (injection H as <-; split; [split; lia|reflexivity]); destruct H as [H ->]; try lia; reflexivity.
Qed.
Lemma cseq_two a c b : cseq [a; c] = Some b <-> exists x y, a = Some x /\ c = Some y /\ b = x ++ y.
Proof.
  cbn [cseq]. destruct a as [x|]; [destruct c as [y|]|]; split; intros H; try discriminate H;
    try (destruct H as (x' & y' & H1 & H2 & _); discriminate).
  - injection H as <-. exists x, y. rewrite app_nil_r. auto.
  - destruct H as (x' & y' & H1 & H2 & ->). injection H1 as <-. injection H2 as <-. rewrite app_nil_r. reflexivity.
Qed.
Lemma cseq_map_iff {A} (val : A -> cval) (ok : A -> Prop) (wr : A -> bytes) n t : codes n t val ok wr ->
  forall l b, cseq (map (cenc n hooks defs t) l) = Some b <-> exists xs, l = map val xs /\ Forall ok xs /\ b = List.concat (map wr xs).
Proof.
  intros C l. induction l as [|v l IH]; intros b; cbn [map cseq].
  - split.
    + intros H. injection H as <-. exists []. auto.
    + intros (xs & H & _ & ->). destruct xs; [reflexivity|discriminate H].
  - split.
    + destruct (cenc n hooks defs t v) as [a|] eqn:Ea; [|discriminate]. destruct (cseq _) as [r|] eqn:Er; [|discriminate].
      intros H. injection H as <-. apply C in Ea. destruct Ea as (x & -> & O & ->). pose proof (proj1 (IH r) eq_refl) as Er2. destruct Er2 as (xs & -> & Os & ->).
      exists (x :: xs). cbn [map List.concat]. auto.
    + intros (xs & H & Os & ->). destruct xs as [|x xs]; [discriminate H|]. cbn [map] in H. injection H as -> ->.
      inversion Os as [|? ? O Os']; subst. cbn [map List.concat].
      rewrite (proj2 (C (val x) (wr x))) by (exists x; auto). rewrite (proj2 (IH (List.concat (map wr xs)))) by (exists xs; auto). reflexivity.
Qed.

Lemma codes_num n k : codes (S n) (CNum k) VNum (fun z => 0 <= z < 256 ^ Z.of_nat k) (le_enc k).
Proof.
  intros v b. cbn [cenc]. split.
  - destruct v; try discriminate. intros H. apply cnum_iff in H. exists z. tauto.
  - intros (z & -> & H & ->). apply cnum_iff. auto.
Qed.
Lemma codes_bool n : codes (S n) CBool VBool always (fun b => [bool_byte b]).
Proof.
  intros v b. cbn [cenc]. split.
  - destruct v; try discriminate. intros H. injection H as <-. eexists; unfold always; eauto.
  - intros (z & -> & _ & ->). reflexivity.
Qed.
Lemma codes_key n : codes (S n) CKey VRaw key32 (fun b => b).
Proof.
  intros v b. cbn [cenc]. unfold key32. split.
  - destruct v; try discriminate. destruct (Nat.eqb _ _) eqn:L; [|discriminate]. apply Nat.eqb_eq in L. intros H. injection H as <-. eauto.
  - intros (z & -> & H & ->). apply Nat.eqb_eq in H. rewrite H. reflexivity.
Qed.
Lemma codes_bytes n : codes (S n) CBytes VRaw always (fun b => b).
Proof.
  intros v b. cbn [cenc]. split.
  - destruct v; try discriminate. intros H. injection H as <-. unfold always; eauto.
  - intros (z & -> & _ & ->). reflexivity.
Qed.
Lemma codes_str n : codes (S n) CStr VRaw utf8_text (fun b => b).
Proof.
  intros v b. cbn [cenc]. split.
  - destruct v; try discriminate. destruct (utf8 b0) eqn:U; [|discriminate]. intros H. injection H as <-. apply utf8_iff in U. eauto.
  - intros (z & -> & H & ->). apply utf8_iff in H. rewrite H. reflexivity.
Qed.
Lemma codes_sized {A} n k t (val : A -> cval) ok wr : codes n t val ok wr ->
  codes (S n) (CSized k t) val (fun x => ok x /\ zlen (wr x) < 256 ^ Z.of_nat k) (fun x => le_enc k (zlen (wr x)) ++ wr x).
Proof.
  intros C v b. cbn [cenc]. split.
  - intros H. destruct (cenc n hooks defs t v) as [a|] eqn:Ea; [|destruct v; discriminate H].
    assert (G : cseq [cnum k (zlen a); Some a] = Some b) by (destruct v; exact H). clear H.
    apply C in Ea. destruct Ea as (x & -> & O & ->). apply cseq_two in G. destruct G as (p & q & G1 & G2 & ->).
    injection G2 as <-. apply cnum_iff in G1. destruct G1 as [G1 ->]. exists x. split; [reflexivity|]. split; [split; [exact O|lia]|reflexivity].
  - intros (x & -> & [O L] & ->). rewrite (proj2 (C (val x) (wr x))) by (exists x; auto).
    assert (G : cseq [cnum k (zlen (wr x)); Some (wr x)] = Some (le_enc k (zlen (wr x)) ++ wr x)).
    { apply cseq_two. exists (le_enc k (zlen (wr x))), (wr x). split; [|auto]. apply cnum_iff. unfold zlen in *. split; [lia|reflexivity]. }
    destruct (val x); exact G.
Qed.
Lemma codes_opt {A} n t (val : A -> cval) ok wr : codes n t val ok wr ->
  codes (S n) (COpt t) (maybe val) (opt_valid ok) (write_option wr).
Proof.
  intros C v b. cbn [cenc]. split.
  - destruct v; try discriminate.
    + intros H. injection H as <-. exists None. cbn. auto.
    + intros H. apply cseq_two in H. destruct H as (p & q & H1 & H2 & ->). injection H1 as <-. apply C in H2. destruct H2 as (x & -> & O & ->).
      exists (Some x). auto.
  - intros (o & -> & O & ->). destruct o as [x|]; cbn [maybe]; [|reflexivity]. apply cseq_two. exists [x01], (wr x). cbn [opt_valid] in O.
    split; [reflexivity|]. split; [|reflexivity]. apply C. eauto.
Qed.
Lemma codes_vec {A} n t (val : A -> cval) ok wr : codes n t val ok wr ->
  codes (S n) (CVec 4 t) (fun l => VSeq (map val l)) (fun l => SpecI.fits l /\ Forall ok l) (write_vec wr).
Proof.
  intros C v b. cbn [cenc]. split.
  - destruct v; try discriminate. intros H. apply cseq_two in H. destruct H as (p & q & H1 & H2 & ->). apply cnum_iff in H1. destruct H1 as [H1 ->].
    apply (cseq_map_iff val ok wr n t C) in H2. destruct H2 as (xs & -> & O & ->). exists xs. unfold zlen in H1. rewrite map_length in H1.
    split; [reflexivity|]. split; [split; [unfold SpecI.fits, zlen; change (256 ^ Z.of_nat 4) with 4294967296 in H1; lia|exact O]|].
    unfold write_vec, zlen. rewrite map_length. reflexivity.
  - intros (l & -> & [L O] & ->). apply cseq_two. exists (le_enc 4 (zlen l)), (List.concat (map wr l)). split.
    + apply cnum_iff. unfold SpecI.fits, zlen in *. rewrite map_length. change (256 ^ Z.of_nat 4) with 4294967296. split; [lia|reflexivity].
    + split; [|reflexivity]. apply (cseq_map_iff val ok wr n t C). eauto.
Qed.
Lemma codes_rest {A} n t (val : A -> cval) ok wr : codes n t val ok wr ->
  codes (S n) (CRest t) (fun l => VSeq (map val l)) (Forall ok) (fun l => List.concat (map wr l)).
Proof.
  intros C v b. cbn [cenc]. split.
  - destruct v; try discriminate. intros H. apply (cseq_map_iff val ok wr n t C) in H. destruct H as (xs & -> & O & ->). eauto.
  - intros (l & -> & O & ->). apply (cseq_map_iff val ok wr n t C). eauto.
Qed.
Lemma codes_arr {A} n k t (val : A -> cval) ok wr : codes n t val ok wr ->
  codes (S n) (CArr k t) (fun l => VSeq (map val l)) (fun l => List.length l = k /\ Forall ok l) (fun l => List.concat (map wr l)).
Proof.
  intros C v b. cbn [cenc]. split.
  - destruct v; try discriminate. destruct (Nat.eqb _ _) eqn:L; [|discriminate]. apply Nat.eqb_eq in L.
    intros H. apply (cseq_map_iff val ok wr n t C) in H. destruct H as (xs & -> & O & ->). rewrite map_length in L. eauto.
  - intros (l & -> & [L O] & ->). rewrite map_length. apply Nat.eqb_eq in L. rewrite L. apply (cseq_map_iff val ok wr n t C). eauto.
Qed.
Lemma codes_link {A} n s t (val : A -> cval) ok wr : cfind defs s = Some t -> codes n t val ok wr -> codes (S n) (CLink s) val ok wr.
Proof. intros D C v b. cbn [cenc]. rewrite D. rewrite <- (C v b). destruct v; reflexivity. Qed.
Lemma codes_hook {A} n s t (val : A -> cval) ok wr : cfind hooks s = Some t -> codes n t val ok wr -> codes (S n) (CHook s) val ok wr.
Proof. intros D C v b. cbn [cenc]. rewrite D. rewrite <- (C v b). destruct v; reflexivity. Qed.
Lemma no_link n s v : cfind defs s = None -> cenc n hooks defs (CLink s) v = None.
Proof. intros D. destruct n; [reflexivity|]. cbn [cenc]. rewrite D. destruct v; reflexivity. Qed.
Lemma no_hook n s v : cfind hooks s = None -> cenc n hooks defs (CHook s) v = None.
Proof. intros D. destruct n; [reflexivity|]. cbn [cenc]. rewrite D. destruct v; reflexivity. Qed.
Lemma E_enum n l v b : cenc (S n) hooks defs (CEnum l) v = Some b <->
  exists s vs k ts r, v = VVar s vs /\ cplace l 0 s = Some (k, ts) /\ 0 <= k < 256 /\ F n ts vs = Some r /\ b = le_enc 1 k ++ r.
Proof.
  cbn [cenc]. split.
  - destruct v; try discriminate. destruct (cplace l 0 s) as [[k ts]|] eqn:P; [|discriminate]. intros H. apply cseq_two in H.
    destruct H as (p & q & H1 & H2 & ->). apply cnum_iff in H1. change (256 ^ Z.of_nat 1) with 256 in H1. destruct H1 as [H1 ->].
    exists s, l0, k, ts, q. auto.
  - intros (s & vs & k & ts & r & -> & P & K & H & ->). rewrite P. apply cseq_two. exists (le_enc 1 k), r. split; [|auto]. apply cnum_iff. auto.
Qed.
(** an enum of plain words *)
Lemma codes_words {A} n l (name : A -> string) (code : A -> byte) :
  (forall a, cplace l 0 (name a) = Some (b2z (code a), [])) ->
  (forall s k ts, cplace l 0 s = Some (k, ts) -> exists a, s = name a) ->
  codes (S n) (CEnum l) (fun a => word (name a)) always (fun a => [code a]).
Proof.
  intros P Q v b. rewrite E_enum. split.
  - intros (s & vs & k & ts & r & -> & H & K & R & ->). destruct (Q s k ts H) as [a ->]. rewrite P in H. injection H as <- <-.
    apply F_nil in R. destruct R as [-> ->]. exists a. split; [reflexivity|]. split; [exact I|]. cbn [le_enc app].
    f_equal. destruct (code a); reflexivity.
  - intros (a & -> & _ & ->). exists (name a), [], (b2z (code a)), [], []. split; [reflexivity|]. split; [apply P|].
    split; [destruct (code a); cbv; split; congruence|]. split; [apply F_nil; auto|]. cbn [le_enc app]. f_equal. destruct (code a); reflexivity.
Qed.
End Enc.

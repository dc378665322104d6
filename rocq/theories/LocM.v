(** Requests that do not concern each other commute (C78). *)
From Verif Require Import Base State Layout Constr Ext World Proc Spec SpecLoc BaseL WorldL FrameL LocL.
From Coq Require Import Strings.Byte Permutation.

Lemma names_in infos a : In a (passed infos) -> names infos (ai_key a).
Proof. intros H. apply In_nth_error in H as [n H]. exists n, a. auto. Qed.
Lemma names_map infos k : names infos k <-> In k (map ai_key (passed infos)).
Proof.
  split.
  - intros (n & a & Ha & <-). apply in_map. eapply nth_error_In; eauto.
  - intros H. apply in_map_iff in H as (a & <- & H). now apply names_in.
Qed.
Lemma local e infos w v i : agree_for infos w v ->
  same_outcome infos (process e infos w i) (process e infos v i).
Proof.
  intros H. pose proof (process_rel e infos w v i (map ai_key (passed infos)) (in_map ai_key _)) as P.
  assert (S : so (map ai_key (passed infos)) w v) by (intros k Hk; apply H; now apply names_map).
  specialize (P S). unfold same_outcome, rel in *. destruct (process e infos w i), (process e infos v i); auto.
  intros k Hk. apply P. now apply names_map.
Qed.
(** success carries over, other accounts keep their difference *)
Lemma process_ext e infos w v i w' : agree w v -> process e infos w i = Ok w' ->
  exists v', process e infos v i = Ok v' /\ agree w' v'.
Proof.
  intros H E. assert (L := local e infos w v i (fun k _ => H k)). rewrite E in L.
  destruct (process e infos v i) as [v'| | | |] eqn:E2; cbn in L; try contradiction. exists v'. split; [reflexivity|].
  intros k. pose proof (process_rel e infos w v i (k :: map ai_key (passed infos))) as P.
  rewrite E, E2 in P. cbn [rel] in P. apply P; [|intros ? _; apply H|now left].
  intros a Ha. right. now apply in_map.
Qed.

Lemma unseen r s w w1 : valid r -> lam_ok w -> apart r s -> process (fst (fst r)) (accounts r) w (snd r) = Ok w1 ->
  same_outcome (accounts s) (process (fst (fst s)) (accounts s) w (snd s)) (process (fst (fst s)) (accounts s) w1 (snd s)).
Proof.
  intros [He Hp] Hl Ha E. apply local. intros k Hk. symmetry. eapply frame_untouched; eauto.
  intros Hw. now apply (proj1 (Ha k)) in Hw.
Qed.
Lemma writable_dec infos k : writable infos k \/ ~ writable infos k.
Proof.
  destruct (is_writable (passed infos) k) eqn:E; [left|right]; rewrite <- writable_spec; congruence.
Qed.
Lemma swap r s w w1 w2 : valid r -> valid s -> lam_ok w -> apart r s ->
  process (fst (fst r)) (accounts r) w (snd r) = Ok w1 ->
  process (fst (fst s)) (accounts s) w1 (snd s) = Ok w2 ->
  exists v1 v2, process (fst (fst s)) (accounts s) w (snd s) = Ok v1 /\
    process (fst (fst r)) (accounts r) v1 (snd r) = Ok v2 /\ agree w2 v2.
Proof.
  intros Vr Vs Hl Ha E1 E2. assert (U := unseen r s w w1 Vr Hl Ha E1). rewrite E2 in U.
  destruct (process (fst (fst s)) (accounts s) w (snd s)) as [v1| | | |] eqn:F1; cbn in U; try contradiction.
  assert (Ha' : apart s r) by (intros k; split; apply Ha).
  assert (T := unseen s r w v1 Vs Hl Ha' F1). rewrite E1 in T.
  destruct (process (fst (fst r)) (accounts r) v1 (snd r)) as [v2| | | |] eqn:F2; cbn in T; try contradiction.
  exists v1, v2. split; [reflexivity|]. split; [exact F2|]. intros k.
  destruct Vr as [Er Pr], Vs as [Es Ps].
  assert (L1 := lam_ok_preserved _ _ _ _ _ Er Pr Hl E1).
  assert (L2 := lam_ok_preserved _ _ _ _ _ Es Ps Hl F1).
  pose proof (fun H => frame_untouched _ _ _ _ _ k Er Pr Hl E1 H) as A1.
  pose proof (fun H => frame_untouched _ _ _ _ _ k Es Ps L1 E2 H) as A2.
  pose proof (fun H => frame_untouched _ _ _ _ _ k Es Ps Hl F1 H) as A3.
  pose proof (fun H => frame_untouched _ _ _ _ _ k Er Pr L2 F2 H) as A4.
  assert (NW : forall infos, writable infos k -> names infos k).
  { intros infos (a & Hi & <- & _). now apply names_in. }
  destruct (writable_dec (accounts r) k) as [Wr|Wr].
  - assert (Ns : ~ names (accounts s) k) by now apply (Ha k).
    rewrite A2 by (intros ?; apply Ns; auto). apply T. auto.
  - destruct (writable_dec (accounts s) k) as [Ws|Ws].
    + rewrite A4 by assumption. symmetry. apply U. auto.
    + rewrite A2, A1, A4, A3 by assumption. reflexivity.
Qed.

Lemma agree_trans u v w : agree u v -> agree v w -> agree u w.
Proof. intros H1 H2 k. now rewrite H1. Qed.
Lemma steps_ext l : forall w v w', agree w v -> steps l w = Ok w' -> exists v', steps l v = Ok v' /\ agree w' v'.
Proof.
  induction l as [|[[e infos] i] l IH]; intros w v w' H E; cbn [steps] in *.
  - injection E as <-. eauto.
  - destruct (process e infos w i) as [w1| | | |] eqn:E1; try discriminate. cbn [bind] in E.
    destruct (process_ext _ _ _ _ _ _ H E1) as (v1 & -> & A). cbn [bind]. eauto.
Qed.
Lemma steps_swap r s l w w' : valid r -> valid s -> lam_ok w -> apart r s -> steps (r :: s :: l) w = Ok w' ->
  exists v', steps (s :: r :: l) w = Ok v' /\ agree w' v'.
Proof.
  intros Vr Vs Hl Ha E. destruct r as [[e1 a1] i1], s as [[e2 a2] i2]. cbn [steps] in *.
  destruct (process e1 a1 w i1) as [w1| | | |] eqn:E1; try discriminate. cbn [bind] in E.
  destruct (process e2 a2 w1 i2) as [w2| | | |] eqn:E2; try discriminate. cbn [bind] in E.
  destruct (swap (e1, a1, i1) (e2, a2, i2) w w1 w2 Vr Vs Hl Ha E1 E2) as (v1 & v2 & F1 & F2 & A).
  cbn [fst snd accounts] in F1, F2. unfold accounts in F1, F2. cbn [fst snd] in F1, F2.
  rewrite F1. cbn [bind]. rewrite F2. cbn [bind]. eapply steps_ext; eauto.
Qed.
Lemma apart_sym r s : apart r s -> apart s r.
Proof. intros H k. split; apply H. Qed.
Lemma steps_move r l1 : forall l2 w w', valid r -> Forall valid l1 -> lam_ok w -> Forall (apart r) l1 ->
  steps (r :: l1 ++ l2) w = Ok w' -> exists v', steps (l1 ++ r :: l2) w = Ok v' /\ agree w' v'.
Proof.
  induction l1 as [|s l1 IH]; intros l2 w w' Vr Vl Hl Ha E; cbn [app] in *; [exists w'; split; [assumption|easy]|].
  inversion Vl as [|? ? Vs Vl']; subst. inversion Ha as [|? ? As Ha']; subst.
  destruct (steps_swap r s (l1 ++ l2) w w' Vr Vs Hl As E) as (v & Ev & A). clear E.
  destruct s as [[es as_] is_]. cbn [steps] in Ev. cbn [steps].
  destruct (process es as_ w is_) as [w1| | | |] eqn:E1; try discriminate. cbn [bind] in *.
  assert (L1 : lam_ok w1) by (destruct Vs as [Vs1 Vs2]; exact (lam_ok_preserved _ _ _ _ _ Vs1 Vs2 Hl E1)).
  destruct (IH l2 w1 v Vr Vl' L1 Ha' Ev) as (v' & Ev' & A'). exists v'. split; [assumption|]. eapply agree_trans; eauto.
Qed.
Lemma steps_move_back r l1 : forall l2 w w', valid r -> Forall valid l1 -> lam_ok w -> Forall (apart r) l1 ->
  steps (l1 ++ r :: l2) w = Ok w' -> exists v', steps (r :: l1 ++ l2) w = Ok v' /\ agree w' v'.
Proof.
  induction l1 as [|s l1 IH]; intros l2 w w' Vr Vl Hl Ha E; cbn [app] in *; [exists w'; split; [assumption|easy]|].
  inversion Vl as [|? ? Vs Vl']; subst. inversion Ha as [|? ? As Ha']; subst.
  destruct s as [[es as_] is_]. cbn [steps] in E.
  destruct (process es as_ w is_) as [w1| | | |] eqn:E1; try discriminate. cbn [bind] in E.
  assert (L1 : lam_ok w1) by (destruct Vs as [Vs1 Vs2]; exact (lam_ok_preserved _ _ _ _ _ Vs1 Vs2 Hl E1)).
  destruct (IH l2 w1 w' Vr Vl' L1 Ha' E) as (v & Ev & A).
  destruct (steps_swap (es, as_, is_) r (l1 ++ l2) w v Vs Vr Hl (apart_sym _ _ As)) as (v' & Ev' & A').
  { cbn [steps]. rewrite E1. cbn [bind]. exact Ev. }
  exists v'. split; [assumption|]. eapply agree_trans; eauto.
Qed.
Lemma mix_order l1 l2 l : mix l1 l2 l -> forall w w', Forall valid l1 -> Forall valid l2 -> lam_ok w ->
  (forall r s, In r l1 -> In s l2 -> apart r s) -> steps l w = Ok w' ->
  exists v', steps (l1 ++ l2) w = Ok v' /\ agree w' v'.
Proof.
  induction 1 as [|r l1 l2 l M IH|r l1 l2 l M IH]; intros w w' V1 V2 Hl Ha E.
  - exists w'. split; [assumption|easy].
  - inversion V1 as [|? ? Vr V1']; subst. destruct r as [[e a] i]. cbn [app steps] in *.
    destruct (process e a w i) as [w1| | | |] eqn:E1; try discriminate. cbn [bind] in *.
    apply IH; auto; [destruct Vr as [Vr1 Vr2]; exact (lam_ok_preserved _ _ _ _ _ Vr1 Vr2 Hl E1)|]. intros r s Hr Hs. apply Ha; [now right|assumption].
  - inversion V2 as [|? ? Vr V2']; subst.
    assert (R : exists v', steps (r :: l1 ++ l2) w = Ok v' /\ agree w' v').
    { destruct r as [[e a] i]. cbn [steps] in *.
      destruct (process e a w i) as [w1| | | |] eqn:E1; try discriminate. cbn [bind] in *.
      apply IH; auto; [destruct Vr as [Vr1 Vr2]; exact (lam_ok_preserved _ _ _ _ _ Vr1 Vr2 Hl E1)|]. intros r s Hr Hs. apply Ha; [assumption|now right]. }
    destruct R as (v & Ev & A). destruct (steps_move r l1 l2 w v Vr V1 Hl) as (v' & Ev' & A'); [|assumption|].
    { apply Forall_forall. intros x Hx. apply apart_sym, Ha; [assumption|now left]. }
    exists v'. split; [assumption|]. eapply agree_trans; eauto.
Qed.
Lemma mix_disorder l1 l2 l : mix l1 l2 l -> forall w w', Forall valid l1 -> Forall valid l2 -> lam_ok w ->
  (forall r s, In r l1 -> In s l2 -> apart r s) -> steps (l1 ++ l2) w = Ok w' ->
  exists v', steps l w = Ok v' /\ agree w' v'.
Proof.
  induction 1 as [|r l1 l2 l M IH|r l1 l2 l M IH]; intros w w' V1 V2 Hl Ha E.
  - exists w'. split; [assumption|easy].
  - inversion V1 as [|? ? Vr V1']; subst. destruct r as [[e a] i]. cbn [app steps] in *.
    destruct (process e a w i) as [w1| | | |] eqn:E1; try discriminate. cbn [bind] in *.
    apply IH; auto; [destruct Vr as [Vr1 Vr2]; exact (lam_ok_preserved _ _ _ _ _ Vr1 Vr2 Hl E1)|]. intros r s Hr Hs. apply Ha; [now right|assumption].
  - inversion V2 as [|? ? Vr V2']; subst.
    destruct (steps_move_back r l1 l2 w w' Vr V1 Hl) as (v & Ev & A); [|assumption|].
    { apply Forall_forall. intros x Hx. apply apart_sym, Ha; [assumption|now left]. }
    destruct r as [[e a] i]. cbn [steps] in *.
    destruct (process e a w i) as [w1| | | |] eqn:E1; try discriminate. cbn [bind] in *.
    destruct (IH w1 v) as (v' & Ev' & A'); auto; [destruct Vr as [Vr1 Vr2]; exact (lam_ok_preserved _ _ _ _ _ Vr1 Vr2 Hl E1)| |].
    { intros r s Hr Hs. apply Ha; [assumption|now right]. }
    exists v'. split; [assumption|]. eapply agree_trans; eauto.
Qed.
Lemma mixes l1 l2 l l' w w' : mix l1 l2 l -> mix l1 l2 l' -> Forall valid l1 -> Forall valid l2 -> lam_ok w ->
  (forall r s, In r l1 -> In s l2 -> apart r s) -> steps l w = Ok w' ->
  exists v', steps l' w = Ok v' /\ agree w' v'.
Proof.
  intros M M' V1 V2 Hl Ha E. destruct (mix_order _ _ _ M _ _ V1 V2 Hl Ha E) as (v & Ev & A).
  destruct (mix_disorder _ _ _ M' _ _ V1 V2 Hl Ha Ev) as (v' & Ev' & A'). exists v'. split; [assumption|].
  eapply agree_trans; eauto.
Qed.
(** what others did meanwhile, without writing to the accounts named, does not matter *)
Lemma meanwhile l : forall w w' s, Forall valid l -> lam_ok w -> steps l w = Ok w' ->
  (forall r k, In r l -> writable (accounts r) k -> ~ names (accounts s) k) ->
  same_outcome (accounts s) (process (fst (fst s)) (accounts s) w (snd s)) (process (fst (fst s)) (accounts s) w' (snd s)).
Proof.
  intros w w' s V Hl E Ha. apply local. revert w V Hl E Ha. induction l as [|[[e a] i] l IH]; intros w V Hl E Ha; cbn [steps] in E.
  - injection E as <-. easy.
  - destruct (process e a w i) as [w1| | | |] eqn:E1; try discriminate. cbn [bind] in E.
    inversion V as [|? ? [He Hp] V']; subst. assert (L1 := lam_ok_preserved _ _ _ _ _ He Hp Hl E1).
    intros k Hk. rewrite <- (IH w1 V' L1 E) by (try assumption; intros r k' Hr; apply Ha; now right).
    symmetry. eapply (frame_untouched e a w i w1); eauto. intros Hw.
    apply (Ha (e, a, i) k (or_introl eq_refl)) in Hw. contradiction.
Qed.

(** The registry over Close, Allocate, Write and Create, and over histories (C77). *)
From Verif Require Import Base State Layout Constr Ext World Proc BaseL Spec SpecB SpecC SpecH SpecG SpecS WorldL ProcSteps FrameL LayoutL LayoutE HeadL CreatorsL AuthL AuthM GroupL ResizeL UpdateL UpdateM AllocL AllocM AllocC CreateL BuildL RemoveL StepL StepH BornL TheftL CountL CountM CountH RoyalL VerifyL RegL RegM.
From Coq Require Import Strings.Byte.

Section Step.
Variables (e : env) (infos : list ainfo) (w w' : world) (R : registry).
Let p := e_prog e.
Hypothesis (He : env_ok e) (Hp : p <> pk_zero) (HS : sound p w) (HR : roomy p w) (HI : pictures p w R).

Lemma quiet i a : process e infos w i = Ok w' -> proper e infos w i -> (forall m, i <> ICreate m) -> ~ asset_of p w a ->
  (forall k, k <> a -> data (w' k) = data (w k) /\ acct_owner (w' k) = acct_owner (w k)) -> pictures p w' R.
Proof.
  intros H PX NC NA F k. change (drawn p w' k (R k)). destruct (pk_dec k a) as [->|N].
  - rewrite (unpictured p w R a HI NA). intro A'. destruct (CountM.fresh e infos w w' i He Hp HS PX H a NA A') as (_ & m & Q). elim (NC m Q).
  - destruct (F k N) as [D O]. apply (drawn_same p w w' k (R k) D O). apply HI.
Qed.
Lemma building_no_asset a l n : building w a l n -> ~ asset_of p w a.
Proof.
  intros [(D & _)|(_ & (D & _))] [_ [Z1 Q]].
  - rewrite D in Z1. cbn [length] in Z1. lia.
  - rewrite D in Q. rewrite zero_head in Q. discriminate.
Qed.
Lemma step_close : process e infos w IClose = Ok w' -> exists R', act e w infos R IClose R' /\ pictures p w' R'.
Proof.
  intro H. destruct (close_effect e infos w w' (proj1 (proj2 HS)) H) as (a & r & A0 & A1 & Nr & Sg & O1 & D & Ba & Br & F).
  assert (NA : ~ asset_of p w a). { intros [_ [Z1 Q]]. destruct D as [D|D]; [rewrite D in Z1; cbn [length] in Z1; lia|congruence]. }
  exists R. split; [eapply (act_close e w infos R a); auto; [eapply unpictured; eauto|intro; reflexivity]|].
  apply (quiet IClose a); auto; [exact I|discriminate|]. intros k N. destruct (pk_dec k r) as [->|N2]; [rewrite Br; auto|rewrite F by assumption; auto].
Qed.
Lemma step_allocate x : proper e infos w (IAllocate x) -> process e infos w (IAllocate x) = Ok w' -> exists R', act e w infos R (IAllocate x) R' /\ pictures p w' R'.
Proof.
  intros PX H. assert (exists a, arg infos 0 a) as [a A0].
  { pose proof H as H0. apply process_dispatch in H0. cbn [dispatch] in H0. unfold process_allocate in H0. apply bind_ok in H0 as (a & A0 & _). apply acct_arg in A0. eauto. }
  pose proof PX as [(X1 & X2 & X3) HB]. destruct (HB a A0) as (l & n & B).
  destruct (allocate_effect _ _ _ _ _ _ _ _ _ A0 B (proj1 HS a) X1 ltac:(unfold u32_max; lia) ltac:(unfold two32; lia) H) as (Sg & _ & _ & _ & _ & F & _).
  pose proof (building_no_asset a l n B) as NA.
  exists R. split; [eapply (act_allocate e w infos R a); auto; [eapply unpictured; eauto|intro; reflexivity]|].
  apply (quiet (IAllocate x) a); auto. discriminate.
Qed.
Lemma step_write x : proper e infos w (IWrite x) -> process e infos w (IWrite x) = Ok w' -> exists R', act e w infos R (IWrite x) R' /\ pictures p w' R'.
Proof.
  intros PX H. assert (exists a, arg infos 0 a) as [a A0].
  { pose proof H as H0. apply process_dispatch in H0. cbn [dispatch] in H0. unfold process_write in H0. apply bind_ok in H0 as (a & A0 & _). apply acct_arg in A0. eauto. }
  pose proof PX as [Wo HB]. destruct (HB a A0) as (l & t & len & bs & B1 & B2 & B3).
  destruct (write_effect _ _ _ _ _ _ _ _ _ _ _ A0 B1 B2 Wo B3 H) as (Sg & _ & _ & _ & F & O).
  assert (NA : ~ asset_of p w a). { intros [_ [_ Q]]. destruct B1 as (D & _). rewrite D, zero_head in Q. discriminate. }
  exists R. split; [eapply (act_write e w infos R a); auto; [eapply unpictured; eauto|intro; reflexivity]|].
  apply (quiet (IWrite x) a); auto. discriminate.
Qed.

Lemma births m auth l l' : Forall2 (created auth) (l ++ inline_blks (inline m)) l' ->
  Forall2 (fun x y => fst y = fst x /\ fresh_payload (fst x) (Some auth) (snd x) (snd y) /\ valid_new (fst y) (snd y))
    (ext_list l ++ map (fun x => (x_type x, given x)) (inline m)) (ext_list l').
Proof.
  intro H. assert (E : ext_list l ++ map (fun x => (x_type x, given x)) (inline m) = ext_list (l ++ inline_blks (inline m))).
  { unfold ext_list, inline_blks. rewrite map_app, map_map. reflexivity. }
  rewrite E. clear E. pose proof (created_valid _ _ _ H) as V. induction H as [|b b' k k' C _ IH]; [constructor|].
  apply Forall_cons_iff in V as [V1 V]. destruct (created_fresh _ _ _ C) as [T F]. cbn [ext_list map]. constructor; [cbn [fst snd]; auto|now apply IH].
Qed.
Lemma step_create m : proper e infos w (ICreate m) -> process e infos w (ICreate m) = Ok w' -> exists R', act e w infos R (ICreate m) R' /\ pictures p w' R'.
Proof.
  intros PX H. assert (exists a, arg infos 0 a) as [a A0].
  { pose proof H as H0. apply process_dispatch in H0. cbn [dispatch] in H0. unfold process_create in H0. apply bind_ok in H0 as (a & A0 & _). apply acct_arg in A0. eauto. }
  pose proof PX as [HF HB]. destruct (HB a A0) as (l & n & B). pose proof (building_no_asset a l n B) as NA. unfold building in B.
  destruct (create_effect _ _ _ _ _ _ _ _ _ He Hp A0 B (proj1 HS) HF H) as (auth & o & l' & hd' & A1 & A2 & Sg & HL & HC & Hx & Ow & D1 & D2 & D3 & D4 & D5 & D6 & D7 & D8 & D9 & X1 & X2 & X3 & HG & HO).
  destruct (hd_fields _ _ _ _ HL) as (F1 & F2 & F3 & F4 & F5 & F6 & F7 & F8 & F9 & F10).
  pose proof (unpictured p w R a HI NA) as Ra.
  assert (Bi : birth e m (pk_bytes auth) a (ext_list l) (ext_list l')).
  { split; [now apply births|]. split; [|split; assumption]. rewrite X1. unfold ext_list. rewrite map_map. reflexivity. }
  assert (Sd : staged w a (ext_list l)) by (exists l, n; auto).
  assert (S' : forall g, s_group hd' = g -> shows (data (w' a)) (newborn m (pk_bytes o) (pk_bytes auth) (key_opt g) (ext_list l'))).
  { intros g Eg. split; [pose proof (layout_zlen_ge _ _ _ _ HL) as Z'; unfold zlen in Z'; split; [lia|congruence]|].
    split; [rewrite F9, D9; reflexivity|]. exists l'. split; [exists hd'; eexists; exact HL|].
    unfold newborn, view. rewrite F2, F3, F4, F5, F6, F7, F8, F9, F10, D2, D3, D4, D5, D6, D7, D8, D9, Eg. change (s_delegate (repeat x00 168)) with no_key.
    destruct (key_opt no_key) eqn:K; [apply key_opt_some in K as [Q1 Q2]; congruence|]. f_equal. destruct (m_mutable m); reflexivity. }
  assert (Dr : forall g, s_group hd' = g -> drawn p w' a (Some (newborn m (pk_bytes o) (pk_bytes auth) (key_opt g) (ext_list l')))).
  { intros g Eg. pose proof (S' g Eg) as Q. split; [split; [exact Ow|apply Q]|exact Q]. }
  destruct HG as [(A3 & G1 & G2)|(g & s & off & b & A3 & Ng & Na & G1 & G2 & A4 & Sa & Og & Ig & Ga & HE & Hb & Gs & Gm & Dg & G3)].
  - specialize (Dr no_key G1). assert (K : key_opt no_key = None) by (now apply key_opt_none). rewrite K in Dr.
    eexists. split; [eapply (act_create e w infos R a auth o m (ext_list l) (ext_list l')); auto; apply rset_sets|].
    apply (pictures_upd p w); [assumption| |exact Dr]. intros k N. auto.
  - destruct (pictured p w R g HI (conj Og Ig)) as (u & Eu & Su).
    destruct (resized _ _ off b (gr_size b + 1) Su HE ltac:(lia)) as [Lk Su'].
    eexists. split; [eapply (act_create_member e w infos R a auth o m (ext_list l) (ext_list l') g u b s); auto; [|apply rset_sets2; assumption]|].
    + split; [assumption|]. split; [destruct (shown _ _ Su) as (lu & _ & _ & ->); exact Ga|]. split; [assumption|].
      split; [destruct (shown _ _ Su) as (lu & _ & _ & ->); exact Gs|]. auto.
    + apply (pictures_upd2 p w); [assumption|assumption| |apply Dr; exact G2|].
      * intros k N1 N2. auto.
      * split; [split; [rewrite HO by assumption; exact Og|rewrite Dg; apply Su']|]. now rewrite Dg.
Qed.

Theorem act_step i : proper e infos w i -> process e infos w i = Ok w' -> exists R', act e w infos R i R' /\ pictures p w' R'.
Proof.
  intros PX H. destruct i as [| | | | | | | | | | | | | | | | |].
  all: try (first [eapply step_close; eauto; fail | eapply step_burn; eauto; fail | eapply step_create; eauto; fail | eapply step_approve; eauto; fail | eapply step_allocate; eauto; fail
    | eapply (step_state e infos w w' R HI true); eauto; fail | eapply step_revoke; eauto; fail | eapply step_write; eauto; fail
    | eapply (step_state e infos w w' R HI false); eauto; fail | eapply (step_verify e infos w w' R HI true); eauto; fail | eapply (step_verify e infos w w' R HI false); eauto; fail
    | eapply step_transfer; eauto; fail | eapply step_update; eauto; fail | eapply step_group; eauto; fail | eapply step_ungroup; eauto; fail
    | eapply step_handover; eauto; fail | eapply step_remove; eauto; fail | eapply step_resize; eauto; fail ]).
Qed.
End Step.

(** Every fitting request after a history gets an answer (C90). *)
From Verif Require Import Base State Layout Constr Ext World Proc BaseL Spec SpecB SpecF SpecH SpecG SpecJ SpecCalm SpecCalmB WorldL LayoutL HeadL HistL AuthL TopL RegP CountH RegO CalmL CalmM CalmN CalmO CalmP CalmQ.
From Verif Require ViewL.
From Coq Require Import Strings.Byte.

Lemma arg_or infos : (exists k, arg infos 0 k) \/ forall e w i, sound_accounts e infos w -> (bare i -> False) -> answered (process e infos w i).
Proof.
  destruct (acct (passed infos) 0) as [k|er| | |] eqn:E.
  - left. exists k. now apply acct_arg.
  - right. intros e w i HS HB. apply p_process; [exact HS|].
    destruct i; cbn [dispatch bare] in *; try (exfalso; apply HB; exact I);
      unfold process_create, process_allocate, process_write, process_update, process_remove; rewrite E; exact I.
  - exfalso. pose proof (p_acct (passed infos) 0) as P. rewrite E in P. exact P.
  - exfalso. pose proof (p_acct (passed infos) 0) as P. rewrite E in P. exact P.
  - exfalso. pose proof (p_acct (passed infos) 0) as P. rewrite E in P. exact P.
Qed.
Section Fit.
Variables (e : env) (infos : list ainfo) (w : world).
Hypothesis (HS : sound_accounts e infos w) (HB : bounded w) (He : env_ok e) (Hp : e_prog e <> pk_zero) (Hz : sized w).

(** the first account is an asset with readable extensions, or Update and Remove refuse it *)
Lemma first_or k : arg infos 0 k -> (asset_of (e_prog e) w k /\ exists l, well_formed (data (w k)) l /\ readable l) \/
  ((forall a, answered (process e infos w (IUpdate a))) /\ forall t, answered (process e infos w (IRemove t))).
Proof.
  intro A. assert (AC := proj2 (acct_arg infos 0 k) A).
  destruct (owned_by_prog e w k) eqn:O; [destruct (is_asset (data (w k))) eqn:D|].
  - left. pose proof (own e w k O) as O'. pose proof (asset_disc _ D) as D'. split; [split; [exact O'|split; [|exact D']]|exact (at_asset e infos w HS k (in_acct infos 0 k AC) O' D')].
    unfold is_asset, ASSET_LEN, zlen in D. apply andb_prop in D as [D _]. lia.
  - right. split; intros; (apply p_process; [exact HS|]); cbn [dispatch]; [unfold process_update|unfold process_remove]; rewrite AC; cbn [bind]; pf;
      match goal with X : is_asset (data (w k)) = true |- _ => rewrite D in X; discriminate X end.
  - right. split; intros; (apply p_process; [exact HS|]); cbn [dispatch]; [unfold process_update|unfold process_remove]; rewrite AC; cbn [bind]; pf;
      match goal with X : owned_by_prog e w k = true |- _ => rewrite O in X; discriminate X end.
Qed.
Theorem fitting_answered i : fitting e infos w i -> answered (process e infos w i).
Proof.
  intro F. assert (Q : bare i \/ (bare i -> False)) by (destruct i; cbn [bare]; auto). destruct Q as [Q|Q]; [now apply bare_answered|].
  destruct (arg_or infos) as [[k A]|N]; [|now apply N]. destruct i; cbn [bare] in Q; try (exfalso; apply Q; exact I); cbn [fitting] in F.
  - destruct F as [F1 F2]. destruct (F1 k A) as (hd & l & n & F3 & F4). eapply create_p; eauto.
  - destruct F as (F1 & F2 & F3 & F4). destruct (F1 k A) as (hd & l & n & F5). eapply allocate_p; eauto.
  - destruct F as (F1 & F2 & F3 & F4). destruct (first_or k A) as [[AS (l & (hd & tl & W) & R)]|[N _]]; [|apply N].
    destruct (F4 k A AS) as (hd' & l' & W' & Hf). rewrite (layout_same _ _ _ _ _ _ _ W W') in R. eapply update_p; eauto.
  - destruct (F k A) as (hd & l & t & len & bs & F1 & F2 & F3). eapply write_p; eauto.
  - destruct (first_or k A) as [[_ (l & W & R)]|[_ N]]; [|apply N]. eapply remove_p; eauto.
Qed.
End Fit.
Lemma history_fitting p w w' : p <> pk_zero -> sized w -> lam_ok w -> (forall x, acct_owner (w x) <> p) -> history_of good_step p w w' -> bounded w' ->
  forall e infos i, e_prog e = p -> env_ok e ->
  (forall a, In a (passed infos) -> acct_owner (w' (ai_key a)) = p -> data (w' (ai_key a)) = [] \/ (168 <= length (data (w' (ai_key a))))%nat) ->
  fitting e infos w' i -> answered (process e infos w' i).
Proof.
  intros Np Hs Hl N H B e infos i Ep He HL F. apply fitting_answered; auto.
  - eapply history_sound; eauto.
  - congruence.
  - exact (proj1 (sound_history p w w' Np H (sound_empty p w Hs Hl (ViewL.unowned_none p w N)))).
Qed.

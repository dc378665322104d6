(** Requests after a history get an answer (C90). *)
From Verif Require Import Base State Layout Constr Ext World Proc BaseL Spec SpecB SpecF SpecH SpecG SpecJ SpecS SpecView SpecCalm WorldL LayoutL HistL CountH RegO ViewL CalmL.
From Verif Require ViewM.
From Coq Require Import Strings.Byte.

Lemma history_sound p w w' e infos : p <> pk_zero -> sized w -> lam_ok w -> (forall x, acct_owner (w x) <> p) -> history_of good_step p w w' ->
  e_prog e = p -> (forall a, In a (passed infos) -> acct_owner (w' (ai_key a)) = p -> data (w' (ai_key a)) = [] \/ (168 <= length (data (w' (ai_key a))))%nat) ->
  sound_accounts e infos w'.
Proof.
  intros Np Hs Hl N H Ep HL. pose proof (unowned_none p w N) as N'.
  destruct (legible_history p w w' (fun _ => None) Np (sound_empty p w Hs Hl N') N' ltac:(intros k v E; discriminate E) H) as (R' & _ & P & S & L).
  assert (AS : forall k, acct_owner (w' k) = p -> s_disc (data (w' k)) = x01 -> (168 <= length (data (w' k)))%nat -> asset_of p w' k).
  { intros k O D Ln. split; [exact O|]. split; [exact Ln|exact D]. }
  assert (LN : forall a, In a (passed infos) -> acct_owner (w' (ai_key a)) = p -> s_disc (data (w' (ai_key a))) = x01 -> (168 <= length (data (w' (ai_key a))))%nat).
  { intros a IA O D. destruct (HL a IA O) as [E|E]; [|exact E]. rewrite E in D. vm_compute in D. discriminate D. }
  split.
  - intros a IA O. rewrite Ep in O. split; [intro Nn; destruct (HL a IA O); [contradiction|assumption]|]. intro D.
    pose proof (AS _ O D (LN a IA O D)) as A. pose proof (P (ai_key a)) as Q. destruct (R' (ai_key a)) as [v|] eqn:Ev; [|contradiction].
    destruct Q as (_ & _ & _ & l & (hd & n & Hlay) & Vv). exists l. split; [exists hd, (repeat x00 n); exact Hlay|].
    apply ViewM.readable_of. pose proof (L _ _ Ev) as LG. rewrite Vv in LG. exact LG.
  - intros a g IA IG O D G NZ. rewrite Ep in *. pose proof (AS _ O D (LN a IA O D)) as A. destruct S as (_ & _ & _ & C).
    destruct (R' (ai_key g)) as [v|] eqn:Ev.
    + pose proof (P (ai_key g)) as Q. rewrite Ev in Q. destruct Q as [(Q1 & Q2) _]. split; assumption.
    + exfalso. pose proof (P (ai_key g)) as Q. rewrite Ev in Q. destruct (C (ai_key g) 0 NZ (or_intror (conj Q eq_refl))) as (ks & _ & E & M).
      assert (I0 : In (ai_key a) ks) by (apply M; split; assumption). destruct ks; [destruct I0|cbn [length] in E; lia].
Qed.
Lemma history_answered p w w' : p <> pk_zero -> sized w -> lam_ok w -> (forall x, acct_owner (w x) <> p) -> history_of good_step p w w' -> bounded w' ->
  forall e infos i, e_prog e = p ->
  (forall a, In a (passed infos) -> acct_owner (w' (ai_key a)) = p -> data (w' (ai_key a)) = [] \/ (168 <= length (data (w' (ai_key a))))%nat) ->
  bare i -> answered (process e infos w' i).
Proof. intros Np Hs Hl N H B e infos i Ep HL Hi. eapply bare_answered; eauto. eapply history_sound; eauto. Qed.

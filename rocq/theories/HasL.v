(** Proofs about the origin of extensions (C87). *)
From Verif Require Import Base State Layout Constr Ext World Proc BaseL Spec SpecB SpecG SpecH SpecSince SpecHas WorldL ProcSteps FrameL LayoutL LayoutE HeadL AuthL AuthM LayoutM UpdateM RemoveL
  StepL StepH HistL GroupL CountL CountH TheftL RegM SinceL.
From Coq Require Import Strings.Byte.

Section Since.
Variables (p k : pubkey).
Hypothesis (Hp : p <> pk_zero).
Variables (H : bytes -> Prop) (act : list ainfo -> world -> instr -> Prop).
Hypothesis (Hdec : forall d l, tidy d l -> H d \/ ~ H d).
Hypothesis (Hstep : forall e infos v i v' l l', e_prog e = p -> env_ok e -> unharmed k e infos v i ->
  asset_of p v k -> tidy (data (v k)) l -> process e infos v i = Ok v' -> tidy (data (v' k)) l' -> ext_step e v v' i k infos (ext_list l) (ext_list l') ->
  ~ H (data (v k)) -> H (data (v' k)) -> act infos v i).

Lemma since_exts w w' l : history_of (unharmed k) p w w' -> sized w -> lam_ok w -> asset_of p w k -> tidy (data (w k)) l ->
  (sized w' /\ lam_ok w' /\ asset_of p w' k /\ exists l', tidy (data (w' k)) l') /\
  (H (data (w' k)) -> throughout H p w w' k \/ since H act p w w' k).
Proof.
  intros HH Hs Hl Ha HT. induction HH as [w|w w1 e infos i w2 HH IH E He HP HI|w w1 w2 HH IH HO].
  - split; [eauto 6|]. intro h. left. split; [exact h|]. split; [constructor|exact h].
  - destruct (IH Hs Hl Ha HT) as ((Hs1 & Hl1 & [Ho1 Hi1] & l1 & T1) & K1). clear IH. pose proof HP as [Hb Hc].
    assert (Hp' : e_prog e <> pk_zero) by congruence. assert (Ho1' : acct_owner (w1 k) = e_prog e) by congruence.
    destruct (tidy_step _ _ _ _ _ _ _ He Hp' Hs1 Hl1 Hc Ho1' Hi1 T1 HI) as [[B _]|(G1 & G2 & G3 & l2 & G4 & G5)]; [contradiction|].
    split.
    { split; [eapply sized_preserved; eauto|]. split; [eapply lam_ok_preserved; eauto|]. split; [split; [congruence|assumption]|eauto]. }
    intro h. destruct (Hdec _ _ T1) as [h1|h1].
    + destruct (K1 h1) as [(U0 & U1 & U2)|(v1 & e1 & f1 & i1 & v2 & V1 & V2 & V3 & V4 & V5 & V6 & V7 & V0 & V8 & V9)].
      * left. split; [exact U0|]. split; [|exact h]. exact (hof_instr _ _ _ _ e infos i _ U1 E He (conj HP U2) HI).
      * right. exists v1, e1, f1, i1, v2. repeat (split; [assumption|]). split; [|exact h]. exact (hof_instr _ _ _ _ e infos i _ V8 E He (conj HP V9) HI).
    + right. exists w1, e, infos, i, w2. repeat (split; [assumption|]). split.
      { exact (Hstep _ _ _ _ _ _ _ E He HP (conj Ho1 Hi1) T1 HI G4 G5 h1 h). }
      split; [exact h|]. split; [constructor|exact h].
  - destruct (IH Hs Hl Ha HT) as ((Hs1 & Hl1 & [Ho1 Hi1] & l1 & T1) & K1). pose proof HO as (O1 & O2 & O3 & O4). destruct (O1 k Ho1) as [P1 P2].
    split. { split; [assumption|]. split; [assumption|]. split; [split; [assumption|now rewrite P2]|]. rewrite P2. eauto. }
    rewrite P2. intro h.
    destruct (K1 h) as [(U0 & U1 & U2)|(v1 & e1 & f1 & i1 & v2 & V1 & V2 & V3 & V4 & V5 & V6 & V7 & V0 & V8 & V9)].
    + left. split; [exact U0|]. split; [exact (hof_outside _ _ _ _ _ U1 HO)|rewrite P2; exact h].
    + right. exists v1, e1, f1, i1, v2. repeat (split; [assumption|]). split; [exact (hof_outside _ _ _ _ _ V8 HO)|rewrite P2; exact h].
Qed.
End Since.

(** ** On a tidy asset: what [lookup] finds *)
Lemma carries_iff d l t b : tidy d l -> t <> XNone -> (carries t b d <-> lookup t (ext_list l) = Some b).
Proof.
  intros (hd & n & L) N. split.
  - intros (off & X). exact (has_ext_lookup _ _ _ _ _ _ _ L N X).
  - intros X. exact (lookup_has_ext _ _ _ _ _ _ L X).
Qed.
Lemma lacks_iff d l t : tidy d l -> t <> XNone -> (lacks t d <-> lookup t (ext_list l) = None).
Proof.
  intros T N. split.
  - intros X. destruct (lookup t (ext_list l)) as [b|] eqn:Q; [|reflexivity]. elim (X b). apply (carries_iff _ _ _ _ T N). exact Q.
  - intros X b C. apply (carries_iff _ _ _ _ T N) in C. congruence.
Qed.
Lemma carries_dec t b : t <> XNone -> forall d l, tidy d l -> carries t b d \/ ~ carries t b d.
Proof.
  intros N d l T. destruct (lookup t (ext_list l)) as [b0|] eqn:Q.
  - destruct (list_eq_dec Byte.byte_eq_dec b0 b) as [->|D]; [left|right].
    + now apply (carries_iff _ _ _ _ T N).
    + intro C. apply (carries_iff _ _ _ _ T N) in C. congruence.
  - right. intro C. apply (carries_iff _ _ _ _ T N) in C. congruence.
Qed.
Lemma lacks_dec t : t <> XNone -> forall d l, tidy d l -> lacks t d \/ ~ lacks t d.
Proof.
  intros N d l T. destruct (lookup t (ext_list l)) as [b0|] eqn:Q.
  - right. intro C. apply (lacks_iff _ _ _ T N) in C. congruence.
  - left. now apply (lacks_iff _ _ _ T N).
Qed.

(** ** Which payload an Update stores, when it is taken as supplied *)
Lemma stored_plain t auth cur b b' : t <> XCreators -> t <> XGrouping -> stored t auth cur b b' -> b' = b.
Proof.
  intros N1 N2. destruct cur as [c|]; cbn [stored].
  - intros ((_ & X & _) & _). now apply X.
  - intros (_ & _ & (_ & X & _) & _). now apply X.
Qed.
Lemma put_sub_same d o n : (o <= length d)%nat -> put d (Z.of_nat o) (sub d o n) = d.
Proof.
  intros L. unfold put, sub. rewrite Nat2Z.id, firstn_length, skipn_length.
  assert (Q : firstn n (skipn o d) ++ skipn (o + Nat.min n (length d - o)) d = skipn o d).
  { rewrite <- (firstn_skipn n (skipn o d)) at 2. f_equal. rewrite skipn_skipn.
    destruct (Nat.le_gt_cases n (length d - o)) as [Q|Q].
    - rewrite Nat.min_l by lia. reflexivity.
    - rewrite Nat.min_r by lia. rewrite !skipn_all2 by lia. reflexivity. }
  rewrite Q. apply firstn_skipn.
Qed.
Lemma source_plain e w k auth bf x t cur b w' infos a : t <> XCreators -> t <> XGrouping ->
  u_ext a = x -> (bf = None /\ arg infos 2 (e_prog e) \/ exists bk, bf = Some bk /\ arg infos 2 bk /\ bk <> e_prog e) ->
  source_spec e w k auth bf x t cur b w' -> inline_payload t b a \/ buffer_payload (e_prog e) k t b a infos w.
Proof.
  intros N1 N2 Ex Hbf. destruct Hbf as [[-> _]|(bk & -> & A2 & _)]; cbn [source_spec].
  - intros (x0 & E0 & Et & El & S1 & S2 & _). left. exists x0. split; [congruence|]. split; [congruence|]. split; [exact El|].
    destruct (x_data x0) as [bs|] eqn:Q; [left|right]; [|auto]. rewrite (stored_plain _ _ _ _ _ N1 N2 (S1 bs eq_refl)). reflexivity.
  - intros (N & E0 & O & Z1 & D & T & inp & S & Zb & W & B & _). right. split; [congruence|]. exists bk. repeat (split; [assumption|]). split; [congruence|].
    rewrite (stored_plain _ _ _ _ _ N1 N2 S) in W. change 168 with (Z.of_nat 168) in W. rewrite put_sub_same in W by (unfold zlen in Z1; lia).
    rewrite W in B. exact B.
Qed.

Section Origin.
Variables (p k : pubkey) (w w' : world) (l : list blk).
Hypothesis (Hp : p <> pk_zero).
Hypothesis (HH : history_of (unharmed k) p w w').
Hypothesis (Hs : sized w).
Hypothesis (Hl : lam_ok w).
Hypothesis (Ha : asset_of p w k).
Hypothesis (HT : tidy (data (w k)) l).

Lemma content_since t b : t <> XNone -> t <> XCreators -> t <> XGrouping -> carries t b (data (w' k)) ->
  throughout (carries t b) p w w' k \/ since (carries t b) (supplies p k t b) p w w' k.
Proof.
  intros N0 N1 N2. apply (since_exts p k Hp (carries t b) (supplies p k t b) (carries_dec t b N0)) with (l := l); try assumption.
  clear - N0 N1 N2. intros e infos v i v' l l' E He HU Ha HT HI T' X h h'. apply (carries_iff _ _ _ _ T' N0) in h'.
  assert (h0 : lookup t (ext_list l) <> Some b) by (intro Q; apply h, (carries_iff _ _ _ _ HT N0), Q).
  destruct X as [K|[(A0 & a & auth & bf & t0 & b0 & Ei & Sa & Aa & Mu & Hbf & Ht & EL & Src)|(A0 & x & EL & Ei & Hno & _)]].
  - destruct K as [Q|b0 n HC Hk Hb Q|f cr b0 b1 Ei A0 A1 Sc Hk Hf Q]; rewrite Q in h'.
    + contradiction.
    + rewrite lookup_replaced_other in h' by congruence. contradiction.
    + rewrite lookup_replaced_other in h' by congruence. contradiction.
  - rewrite EL in h'. destruct (ext_type_eqb t t0) eqn:Q.
    + apply ext_type_eqb_eq in Q. subst t0. rewrite lookup_put_same in h'. injection h' as ->. exists a.
      split; [split; [exact Ei|]; split; [exact A0|]; exists auth; auto|]. rewrite <- E. exact (source_plain _ _ _ _ _ _ _ _ _ _ _ a N1 N2 eq_refl Hbf Src).
    + rewrite lookup_put_other in h' by (intros ->; rewrite ext_type_eqb_refl in Q; discriminate). contradiction.
  - elim h0. rewrite EL. destruct (ext_type_eqb t (fst x)) eqn:Q.
    + apply ext_type_eqb_eq in Q. rewrite <- Q in Hno. congruence.
    + rewrite lookup_app_none; [assumption|]. intros Q'. rewrite Q', ext_type_eqb_refl in Q. discriminate.
Qed.
Lemma creators_since b : carries XCreators b (data (w' k)) ->
  throughout (carries XCreators b) p w w' k \/ since (carries XCreators b) (amends k b) p w w' k.
Proof.
  assert (N0 : XCreators <> XNone) by discriminate.
  apply (since_exts p k Hp (carries XCreators b) (amends k b) (carries_dec XCreators b N0)) with (l := l); try assumption.
  clear - N0. intros e infos v i v' l l' E He HU Ha HT HI T' X h h'. apply (carries_iff _ _ _ _ T' N0) in h'.
  assert (h0 : lookup XCreators (ext_list l) <> Some b) by (intro Q; apply h, (carries_iff _ _ _ _ HT N0), Q).
  destruct X as [K|[(A0 & a & auth & bf & t0 & b0 & Ei & Sa & Aa & Mu & Hbf & Ht & EL & Src)|(A0 & x & EL & Ei & Hno & _)]].
  - destruct K as [Q|b0 n HC Hk Hb Q|f cr b0 b1 Ei A0 A1 Sc Hk Hf Q]; rewrite Q in h'.
    + contradiction.
    + rewrite lookup_replaced_other in h' by discriminate. contradiction.
    + rewrite (lookup_replaced_same _ _ _ _ Hk) in h'. injection h' as ->. right. exists f, cr, b0. repeat (split; [assumption|]).
      split; [apply (carries_iff _ _ _ _ HT N0); exact Hk|exact Hf].
  - left. exists a. split; [exact Ei|]. split; [exact A0|]. exists auth. auto.
  - elim h0. rewrite EL. destruct (ext_type_eqb XCreators (fst x)) eqn:Q.
    + apply ext_type_eqb_eq in Q. rewrite <- Q in Hno. congruence.
    + rewrite lookup_app_none; [assumption|]. intros Q'. rewrite Q' in Q. discriminate.
Qed.
Lemma size_range b : 0 <= gr_size b < two64.
Proof.
  unfold gr_size. pose proof (le_dec_range (sub b 0 8)) as R. assert (Q : zlen (sub b 0 8) <= 8) by (unfold zlen, sub; rewrite firstn_length; lia).
  assert (M : 256 ^ zlen (sub b 0 8) <= 256 ^ 8) by (apply Z.pow_le_mono_r; lia). change (256 ^ 8) with two64 in M. lia.
Qed.
Lemma with_size_facts n b : (16 <= length b)%nat -> length (with_size n b) = length b /\ gr_max (with_size n b) = gr_max b /\
  skipn 16 (with_size n b) = skipn 16 b /\ (0 <= n < two64 -> gr_size (with_size n b) = n).
Proof.
  intros L. assert (Q : length (le_enc 8 n) = 8%nat) by apply le_enc_length. unfold with_size. split; [|split; [|split]].
  - rewrite app_length, skipn_length. lia.
  - reflexivity.
  - rewrite skipn_app, Q, skipn_all2 by lia. rewrite skipn_skipn. reflexivity.
  - intros R. unfold gr_size, sub. rewrite skipn_O, firstn_app, Q, Nat.sub_diag, firstn_O, app_nil_r, firstn_all2 by lia. apply le_dec_enc8. exact R.
Qed.
Lemma grouping_since b : carries XGrouping b (data (w' k)) ->
  throughout (carries XGrouping b) p w w' k \/ since (carries XGrouping b) (recounts k b) p w w' k.
Proof.
  assert (N0 : XGrouping <> XNone) by discriminate.
  apply (since_exts p k Hp (carries XGrouping b) (recounts k b) (carries_dec XGrouping b N0)) with (l := l); try assumption.
  clear - N0. intros e infos v i v' l l' E He HU Ha HT HI T' X h h'. apply (carries_iff _ _ _ _ T' N0) in h'.
  assert (h0 : lookup XGrouping (ext_list l) <> Some b) by (intro Q; apply h, (carries_iff _ _ _ _ HT N0), Q).
  destruct X as [K|[(A0 & a & auth & bf & t0 & b0 & Ei & Sa & Aa & Mu & Hbf & Ht & EL & Src)|(A0 & x & EL & Ei & Hno & _)]].
  - destruct K as [Q|b0 n HC Hk Hb Q|f cr b0 b1 Ei A0 A1 Sc Hk Hf Q]; rewrite Q in h'.
    + contradiction.
    + rewrite (lookup_replaced_same _ _ _ _ Hk) in h'. injection h' as <-. right. exists b0. split; [apply (carries_iff _ _ _ _ HT N0); exact Hk|].
      destruct (with_size_facts n b0 ltac:(lia)) as (F1 & F2 & F3 & F4). split; [exact F1|]. split; [exact F2|]. split; [exact F3|].
      change (2 ^ 64) with two64. assert (B0 : 0 <= gr_size b0 < two64) by (apply size_range).
      destruct HC as [(C1 & C2 & C3 & C4)|[(m & C1 & C2 & C3 & C4)|[(C1 & C2 & C3)|(C1 & C2 & C3 & C4)]]].
      * left. split; [auto|]. split; [|exact C4]. rewrite F4; [exact C3|]. rewrite C3. apply Z.mod_pos_bound. reflexivity.
      * left. split; [eauto|]. split; [|exact C4]. rewrite F4; [exact C3|]. rewrite C3. apply Z.mod_pos_bound. reflexivity.
      * right. split; [auto|]. rewrite F4; [exact C3|]. rewrite C3. apply Z.mod_pos_bound. reflexivity.
      * right. split; [auto|]. rewrite F4 by lia. rewrite Z.mod_small by lia. exact C3.
    + rewrite lookup_replaced_other in h' by discriminate. contradiction.
  - left. exists a. split; [exact Ei|]. split; [exact A0|]. exists auth. auto.
  - elim h0. rewrite EL. destruct (ext_type_eqb XGrouping (fst x)) eqn:Q.
    + apply ext_type_eqb_eq in Q. rewrite <- Q in Hno. congruence.
    + rewrite lookup_app_none; [assumption|]. intros Q'. rewrite Q' in Q. discriminate.
Qed.
Lemma gone_since t : t <> XNone -> lacks t (data (w' k)) -> throughout (lacks t) p w w' k \/ since (lacks t) (drops k t) p w w' k.
Proof.
  intros N0. apply (since_exts p k Hp (lacks t) (drops k t) (lacks_dec t N0)) with (l := l); try assumption.
  clear - N0. intros e infos v i v' l l' E He HU Ha HT HI T' X h h'. apply (lacks_iff _ _ _ T' N0) in h'.
  assert (h0 : lookup t (ext_list l) <> None) by (intro Q; apply h, (lacks_iff _ _ _ HT N0), Q).
  destruct X as [K|[(A0 & a & auth & bf & t0 & b0 & Ei & Sa & Aa & Mu & Hbf & Ht & EL & Src)|(A0 & x & EL & Ei & Hno & R1 & R2 & _)]].
  - exfalso. destruct K as [Q|b0 n HC Hk Hb Q|f cr b0 b1 Ei A0 A1 Sc Hk Hf Q]; rewrite Q in h'.
    + contradiction.
    + destruct (ext_type_eqb t XGrouping) eqn:D.
      * apply ext_type_eqb_eq in D. subst t. rewrite (lookup_replaced_same _ _ _ _ Hk) in h'. discriminate.
      * rewrite lookup_replaced_other in h' by (intros <-; discriminate D). contradiction.
    + destruct (ext_type_eqb t XCreators) eqn:D.
      * apply ext_type_eqb_eq in D. subst t. rewrite (lookup_replaced_same _ _ _ _ Hk) in h'. discriminate.
      * rewrite lookup_replaced_other in h' by (intros <-; discriminate D). contradiction.
  - exfalso. rewrite EL in h'. destruct (ext_type_eqb t t0) eqn:Q.
    + apply ext_type_eqb_eq in Q. subst t0. rewrite lookup_put_same in h'. discriminate.
    + rewrite lookup_put_other in h' by (intros ->; rewrite ext_type_eqb_refl in Q; discriminate). contradiction.
  - destruct (ext_type_eqb (fst x) t) eqn:Q.
    + apply ext_type_eqb_eq in Q. rewrite Q in *. split; [exact Ei|]. split; [exact A0|]. split; [|auto].
      destruct HT as (hd & n & HL). rewrite Ei in HI. destruct (remove_effect _ _ _ _ _ _ _ _ _ A0 HL N0 HI) as (auth & _ & _ & _ & _ & S1 & S2 & S3 & _). exists auth. auto.
    + exfalso. apply h0. rewrite EL. rewrite lookup_app_none; [assumption|]. intros Q'. rewrite Q', ext_type_eqb_refl in Q. discriminate.
Qed.
Lemma rooted_from s r : s_owner (data (w' k)) = pk_bytes s \/ (exists off b, has_ext (data (w' k)) XManager off b /\ manager_is b s r) \/
     since (entrusted (s_owner (data (w' k))) (pk_bytes s) r) (grants k (s_owner (data (w' k))) (pk_bytes s) r) p w w' k -> rooted p w w' k s r.
Proof.
  intros [A|[(off & b & A & M)|A]]; [left; exact A| |right; left; exact A]. right. right. exists b. split; [exact M|].
  apply content_since; try discriminate. exists off. exact A.
Qed.
Lemma mover_rooted e infos w2 : e_prog e = p -> env_ok e -> s_delegate (data (w k)) = no_key ->
  process e infos w' ITransfer = Ok w2 -> s_owner (data (w2 k)) <> s_owner (data (w' k)) ->
  exists s, signed infos s /\ arg infos 1 s /\ rooted p w w' k s RTransfer.
Proof.
  intros E He D HI N. destruct (mover_since p k w w' l Hp HH Hs Hl Ha HT e infos w2 E He D HI N) as (s & A1 & A2 & A3).
  exists s. split; [exact A1|]. split; [exact A2|]. apply rooted_from. exact A3.
Qed.
Lemma burner_rooted e infos w2 : e_prog e = p -> env_ok e -> s_delegate (data (w k)) = no_key ->
  process e infos w' IBurn = Ok w2 -> arg infos 0 k -> exists s, signed infos s /\ arg infos 1 s /\ rooted p w w' k s RBurn.
Proof.
  intros E He D HI N. destruct (burner_since p k w w' l Hp HH Hs Hl Ha HT e infos w2 E He D HI N) as (s & A1 & A2 & A3).
  exists s. split; [exact A1|]. split; [exact A2|]. apply rooted_from. exact A3.
Qed.
Lemma locker_rooted e infos w2 : e_prog e = p -> env_ok e -> s_delegate (data (w k)) = no_key ->
  process e infos w' ILock = Ok w2 \/ process e infos w' IUnlock = Ok w2 -> arg infos 0 k -> exists s, signed infos s /\ arg infos 1 s /\ rooted p w w' k s RLock.
Proof.
  intros E He D HI N. destruct (locker_since p k w w' l Hp HH Hs Hl Ha HT e infos w2 E He D HI N) as (s & A1 & A2 & A3).
  exists s. split; [exact A1|]. split; [exact A2|]. apply rooted_from. exact A3.
Qed.
End Origin.

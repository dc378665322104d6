(** Groups over histories (C28, C29, C30). *)
From Verif Require Import Base State Layout Constr Ext World Proc BaseL Spec SpecB SpecH SpecG WorldL ProcSteps FrameL LayoutL LayoutE HeadL AuthL AuthM AllocL GroupL CreateL StepL StepH BornL CountL CountM.
From Coq Require Import Strings.Byte.

Lemma outside_asset p w w' k : outside p w w' -> asset_of p w' k <-> asset_of p w k.
Proof.
  intros (H1 & H2 & _). split; intros [O I].
  - destruct (pk_dec (acct_owner (w k)) p) as [Q|Q].
    + destruct (H1 k Q) as [_ D]. rewrite D in I. split; assumption.
    + destruct (H2 k Q O) as [n D]. destruct I as [I1 I2]. rewrite D in I1, I2. rewrite repeat_length in I1.
      destruct n; [lia|]. discriminate.
  - destruct (H1 k O) as [O' D]. split; [assumption|]. now rewrite D.
Qed.
Lemma outside_data p w w' k : outside p w w' -> asset_of p w k -> data (w' k) = data (w k).
Proof. intros (H1 & _) [O _]. apply H1. assumption. Qed.
Lemma outside_member p w w' g k : outside p w w' -> member p w' g k <-> member p w g k.
Proof.
  intro H. unfold member. rewrite (outside_asset _ _ _ k H). split; intros [A M]; (split; [assumption|]).
  - now rewrite <- (outside_data _ _ _ _ H A).
  - now rewrite (outside_data _ _ _ _ H A).
Qed.
Lemma outside_recorded p w w' g n : outside p w w' -> recorded p w' g n -> recorded p w g n.
Proof.
  intros H [(A & l & T & E)|[A E]].
  - apply (outside_asset _ _ _ _ H) in A. rewrite (outside_data _ _ _ _ H A) in T. left. eauto.
  - right. rewrite (outside_asset _ _ _ _ H) in A. auto.
Qed.
Lemma sound_outside p w w' : outside p w w' -> sound p w -> sound p w'.
Proof.
  intros H (_ & _ & HT & HC). split; [apply H|]. split; [apply H|]. split.
  - intros k A. apply (outside_asset _ _ _ _ H) in A. rewrite (outside_data _ _ _ _ H A). auto.
  - intros g n Ng R. apply (counts_same p w w'); [intro; now apply outside_member|]. apply HC; [assumption|].
    now apply (outside_recorded p w w').
Qed.
Lemma sound_history p w w' : p <> pk_zero -> history_of good_step p w w' -> sound p w -> sound p w'.
Proof.
  intros Hp. induction 1 as [w|w w1 e infos i w2 H1 IH E He [HP HR] HI|w w1 w2 H1 IH HO]; intro S; [assumption| |].
  - subst p. exact (sound_step e infos w1 w2 i He Hp (IH S) HP HR HI).
  - eapply sound_outside; eauto.
Qed.
Lemma sound_empty p w : sized w -> lam_ok w -> (forall k, ~ asset_of p w k) -> sound p w.
Proof.
  intros Hs Hl N. split; [assumption|]. split; [assumption|]. split; [intros k A; elim (N k A)|].
  intros g n _ [(A & _)|[_ ->]]; [elim (N g A)|]. apply counts_zero. intros k [A _]. elim (N k A).
Qed.

(** limits *)
Lemma limit_step e infos w w' i : env_ok e -> e_prog e <> pk_zero -> sound (e_prog e) w -> proper e infos w i -> roomy (e_prog e) w ->
  process e infos w i = Ok w' -> within_limits (e_prog e) w -> within_limits (e_prog e) w'.
Proof.
  intros He Hp HS HP HR H HW g l' Ng A' T'. destruct (asset_dec (e_prog e) w g) as [A|A].
  - pose proof HS as (_ & _ & HT & _). destruct (HT g A) as [l T].
    destruct (old e infos w w' i He Hp HS HP H g l A T) as [[_ E]|(_ & _ & l2 & T2 & X)].
    + destruct A' as [_ [Q _]]. rewrite E in Q. cbn [data length] in Q. lia.
    + assert (EM : max_in l' = max_in l2) by (unfold max_in; now rewrite (tidy_lookup _ _ _ XGrouping T' T2)).
      rewrite EM, (size_det _ _ _ T' T2). specialize (HW g l Ng A T).
      destruct (grouping_step _ _ _ _ _ _ _ _ HP X) as [[Q1 [Q2|[Q2|Q2]]]|(b & n & Q1 & _ & Q2 & Q3 & Q4)]; [rewrite Q1, Q2; exact HW|auto|auto|].
      unfold size_in, max_in in HW. unfold the_grouping in Q1. rewrite Q1 in HW. rewrite Q3, Q4.
      pose proof (gr_size_range b). pose proof (gr_max_range b).
      destruct (Z.eq_dec (gr_max b) 0) as [Z0|NZ]; [auto|right].
      assert (R : recorded (e_prog e) w g (gr_size b)). { left. split; [assumption|]. exists l. unfold size_in. rewrite Q1. auto. }
      destruct Q2 as [(_ & _ & -> & M)|[(m & _ & _ & -> & M)|[(Ei & A1 & ->)|(_ & _ & -> & M)]]].
      * rewrite Zmod_mod. pose proof (Z.mod_le (gr_size b + 1) two64 ltac:(lia) ltac:(reflexivity)). lia.
      * rewrite Zmod_mod. pose proof (Z.mod_le (gr_size b + 1) two64 ltac:(lia) ltac:(reflexivity)). lia.
      * (* ungroup: a member leaves, so the size is at least one *)
        assert (P1 : 1 <= gr_size b).
        { pose proof H as HU. rewrite Ei in HU. apply ungroup_effect in HU as (a & gg & s & off & b0 & A0 & A1' & _ & _ & _ & O1 & _ & I1 & _ & Hg & _); [|apply HS].
          rewrite (arg_det _ _ _ _ A1' A1) in Hg.
          pose proof HS as (_ & _ & _ & HC). apply (counts_pos (e_prog e) w g (gr_size b) a); [now apply HC|]. split; [split; assumption|assumption]. }
        rewrite Zmod_mod, Z.mod_small; lia.
      * rewrite Z.mod_small; lia.
  - destruct (fresh e infos w w' i He Hp HS HP H g A A') as (A0 & m & Ei).
    destruct (created_asset e infos w w' i He Hp HS HP H m g Ei A0) as (_ & _ & (l2 & T2 & Z0 & _) & _).
    rewrite (size_det _ _ _ T' T2), Z0. unfold max_in. destruct (lookup XGrouping (ext_list l')); [pose proof (gr_max_range b); lia|auto].
Qed.

Lemma limit_outside p w w' : outside p w w' -> within_limits p w -> within_limits p w'.
Proof.
  intros H HW g l Ng A T. apply (outside_asset _ _ _ _ H) in A. rewrite (outside_data _ _ _ _ H A) in T. eauto.
Qed.
Lemma limit_history p w w' : p <> pk_zero -> history_of good_step p w w' -> sound p w -> within_limits p w -> within_limits p w'.
Proof.
  intros Hp. induction 1 as [w|w w1 e infos i w2 H1 IH E He [HP HR] HI|w w1 w2 H1 IH HO]; intros S W; [assumption| |].
  - subst p. exact (limit_step e infos w1 w2 i He Hp (sound_history _ _ _ Hp H1 S) HP HR HI (IH S W)).
  - eapply limit_outside; eauto.
Qed.

(** consent *)
Lemma consent_step e infos w w' i k l : env_ok e -> e_prog e <> pk_zero -> sized w -> lam_ok w -> plain_request i ->
  asset_of (e_prog e) w k -> well_formed (data (w k)) l -> process e infos w i = Ok w' ->
  burns infos i k \/ s_group (data (w' k)) = s_group (data (w k)) \/
  (i = IGroup /\ arg infos 0 k /\ s_group (data (w k)) = no_key /\
     exists g, arg infos 1 g /\ s_group (data (w' k)) = pk_bytes g /\ consent (e_prog e) infos w (s_authority (data (w k))) g) \/
  (i = IUngroup /\ arg infos 0 k /\ s_group (data (w' k)) = no_key /\
     exists g s off b, arg infos 1 g /\ s_group (data (w k)) = pk_bytes g /\ signed infos s /\ has_ext (data (w g)) XGrouping off b /\ group_signer (data (w g)) b s).
Proof.
  intros He Hp Hs Hl Hr [Ho Hi] HL H.
  destruct (header_changes _ _ _ _ _ _ _ He Hp Hs Hl Hr Ho Hi HL H) as [[B _]|[_ (_ & _ & _ & _ & _ & _ & HG & _)]]; [auto|right].
  destruct HG as [HG|(A0 & g & A1 & Ng & [(-> & G1 & G2)|(-> & G1 & G2)])]; [auto| |].
  - right. left. split; [reflexivity|]. split; [assumption|]. split; [assumption|]. exists g. split; [assumption|]. split; [assumption|].
    pose proof H as H0. apply process_dispatch in H0. cbn [dispatch] in H0. unfold process_group in H0.
    apply bind_ok in H0 as (a & B0 & H0). apply bind_ok in H0 as (gg & B1 & H0). apply bind_ok in H0 as (au & B2 & H0).
    apply acct_arg in B0, B1, B2. rewrite (arg_det _ _ _ _ B0 A0), (arg_det _ _ _ _ B1 A1) in H0.
    apply do_group_inv in H0 as (S & O1 & O2 & I1 & I2 & Hne & _ & Ha & off & b & HE & Hb & _ & Gs & Hm & _); [|assumption].
    apply signed_acct in S. split; [split; assumption|]. split; [assumption|]. exists au, off, b. auto 6.
  - right. right. split; [reflexivity|]. split; [assumption|]. split; [assumption|].
    apply ungroup_effect in H as (a & gg & s & off & b & B0 & B1 & B2 & S & _ & _ & _ & _ & _ & G & HE & Gs & _); [|assumption].
    rewrite (arg_det _ _ _ _ B1 A1) in *. exists g, s, off, b. auto 6.
Qed.

Lemma consent_create e infos w w' m k hd l n : env_ok e -> e_prog e <> pk_zero -> sized w ->
  arg infos 0 k -> open_account (data (w k)) hd l n -> Forall ext_arg (inline m) -> process e infos w (ICreate m) = Ok w' ->
  asset_of (e_prog e) w' k /\
  (s_group (data (w' k)) = s_group hd \/
   exists g, arg infos 3 g /\ s_group (data (w' k)) = pk_bytes g /\ consent (e_prog e) infos w (s_authority (data (w' k))) g).
Proof.
  intros He Hp Hs A0 B HF H.
  destruct (create_effect _ _ _ _ _ _ _ _ _ He Hp A0 B Hs HF H) as (auth & owner & l' & hd' & A1 & A2 & Sg & HL & HC & Hx & Ow & D1 & D2 & D3 & D4 & D5 & D6 & D7 & D8 & D9 & _ & _ & _ & HG & HO).
  destruct (hd_fields _ _ _ _ HL) as (F1 & F2 & F3 & F4 & F5 & F6 & F7 & F8 & F9 & F10).
  split.
  { split; [assumption|]. pose proof (layout_zlen_ge _ _ _ _ HL) as Z'. unfold zlen in Z'. split; [lia|congruence]. }
  destruct HG as [(A3 & G1 & G2)|(g & a & off & b & A3 & Ng & Na & G1 & G2 & A4 & Sa & Og & Ig & Ga & HE & Hb & Gs & Gm & Dg & G3)].
  - left. congruence.
  - right. exists g. split; [assumption|]. split; [congruence|].
    split; [split; assumption|]. split; [congruence|]. exists a, off, b. auto 8.
Qed.

(** every member joined with consent *)
Lemma joined_history p w w' k g : p <> pk_zero -> g <> pk_zero -> history_of good_step p w w' -> sound p w ->
  member p w' g k -> member p w g k \/ joined good_step p w w' k g.
Proof.
  intros Hp Ng. induction 1 as [w|w w1 e infos i w2 H1 IH E He HPi HI|w w1 w2 H1 IH HO]; intros S M; [auto| |].
  - destruct HPi as [HP HR]. subst p. pose proof (sound_history _ _ _ Hp H1 S) as S1.
    assert (G : member (e_prog e) w1 g k -> member (e_prog e) w g k \/ joined good_step (e_prog e) w w2 k g).
    { intro M1. destruct (IH S M1) as [Q|(v1 & e' & infos' & i' & v2 & J1 & J2 & J3 & J4 & J5 & J6 & J7)]; [auto|right].
      exists v1, e', infos', i', v2. repeat (split; [assumption|]). split; [|assumption].
      exact (hof_instr _ _ _ w1 e infos i w2 J6 eq_refl He (conj HP HR) HI). }
    assert (J : arg infos 0 k -> ((i = IGroup /\ arg infos 1 g) \/ (exists m, i = ICreate m /\ arg infos 3 g)) ->
      consent (e_prog e) infos w1 (s_authority (data (w2 k))) g -> joined good_step (e_prog e) w w2 k g).
    { intros A0 Ei C. exists w1, e, infos, i, w2. repeat (split; [assumption || reflexivity || (split; assumption)|]).
      split; [apply hof_refl|]. auto. }
    destruct (asset_dec (e_prog e) w1 k) as [A|A].
    + destruct (member_step e infos w1 w2 i He Hp S1 HP HI g k Ng A (proj1 M) M) as [M1|(Ei & A0 & A1)]; [auto|].
      right. apply J; [assumption|auto|].
      pose proof S1 as (Hs1 & Hl1 & HT & _). destruct (HT k A) as (l & hd & n & HL).
      assert (Hpl : plain_request i) by (rewrite Ei; exact I).
      destruct (consent_step e infos w1 w2 i k l He Hp Hs1 Hl1 Hpl A ltac:(exists hd; eexists; exact HL) HI) as [[Q _]|[Q|[(_ & _ & Q1 & g' & B1 & _ & C)|(Q & _)]]]; try congruence.
      * exfalso. pose proof HI as H0. rewrite Ei in H0. apply group_effect in H0 as (a & gg & au & off & b & B0 & B1 & _ & _ & _ & _ & _ & _ & _ & G0 & _); [|assumption].
        rewrite (arg_det _ _ _ _ B0 A0) in G0. apply Ng. apply pk_ext. destruct M as [_ M]. rewrite <- M, Q, G0. reflexivity.
      * rewrite <- (arg_det _ _ _ _ B1 A1).
        replace (s_authority (data (w2 k))) with (s_authority (data (w1 k))); [assumption|].
        destruct (old e infos w1 w2 i He Hp S1 HP HI k l A ltac:(exists hd, n; exact HL)) as [[[Q _] _]|(_ & (_ & _ & _ & _ & _ & [Q|(_ & Q & _)] & _) & _)]; congruence.
    + right. destruct (fresh e infos w1 w2 i He Hp S1 HP HI k A (proj1 M)) as (A0 & m & Ei).
      destruct (created_asset e infos w1 w2 i He Hp S1 HP HI m k Ei A0) as (_ & _ & _ & auth & _ & Sa & [[G1 _]|(gg & off & b & A3 & _ & Sg & C & _)]).
      * exfalso. apply Ng, pk_ext. destruct M as [_ M]. now rewrite <- M, G1.
      * assert (gg = g) as -> by (apply pk_ext; destruct M as [_ M]; congruence).
        apply J; [assumption|eauto|]. now rewrite Sa.
  - apply (outside_member _ _ _ _ _ HO) in M. destruct (IH S M) as [Q|(v1 & e' & infos' & i' & v2 & J1 & J2 & J3 & J4 & J5 & J6 & J7)]; [auto|right].
    exists v1, e', infos', i', v2. repeat (split; [assumption|]). split; [|assumption]. eapply hof_outside; eauto.
Qed.

(** the counter moves by at most one and never wraps *)
Lemma size_change e infos w w' i g n n' : env_ok e -> e_prog e <> pk_zero -> sound (e_prog e) w -> proper e infos w i -> roomy (e_prog e) w ->
  process e infos w i = Ok w' -> g <> pk_zero -> recorded (e_prog e) w g n -> recorded (e_prog e) w' g n' ->
  n' = n \/ (n' = n + 1 /\ ((i = IGroup /\ arg infos 1 g) \/ exists m, i = ICreate m /\ arg infos 3 g)) \/
  (n' = n - 1 /\ ((i = IUngroup /\ arg infos 1 g) \/ (i = IBurn /\ arg infos 3 g))).
Proof.
  intros He Hp HS HP HR H Ng R R'. destruct (size_after e infos w w' i He Hp HS HP H g n' R') as (n1 & R1 & Q).
  rewrite (recorded_det e w g n n1 R R1). destruct Q as [Q|(b & m & A & _ & Eb & C & Em)]; [auto|right].
  pose proof (gr_size_range b) as B. pose proof R1 as R2. apply HR in R2. subst n1.
  assert (X : (gr_size b + 1) mod two64 = gr_size b + 1) by (apply Z.mod_small; unfold two64 in *; lia).
  destruct C as [(Ei & A1 & -> & _)|[(mm & Ei & A1 & -> & _)|[(Ei & A1 & ->)|(Ei & A1 & -> & M)]]].
  - left. rewrite X, X in Em. auto.
  - left. rewrite X, X in Em. split; [assumption|]. right. eauto.
  - right. pose proof H as HU. rewrite Ei in HU. apply ungroup_effect in HU as (a & gg & s & off & b0 & A0 & A1' & _ & _ & _ & O1 & _ & I1 & _ & Hg & _); [|apply HS].
    rewrite (arg_det _ _ _ _ A1' A1) in Hg. pose proof HS as (_ & _ & _ & HC).
    assert (P1 : 1 <= gr_size b) by (apply (counts_pos (e_prog e) w g (gr_size b) a); [now apply HC|]; split; [split; assumption|assumption]).
    assert (Y : (gr_size b - 1) mod two64 = gr_size b - 1) by (apply Z.mod_small; unfold two64 in *; lia).
    rewrite Y, Y in Em. auto.
  - right. rewrite Z.mod_small in Em by lia. auto.
Qed.

(** Group and Create respect the limit, whatever the world *)
Lemma group_limit e infos w w' g off b : sized w -> process e infos w IGroup = Ok w' -> arg infos 1 g ->
  has_ext (data (w g)) XGrouping off b -> gr_max b <> 0 ->
  le_dec (sub (data (w' g)) (Z.to_nat off) 8) = gr_size b + 1 /\ gr_size b + 1 <= gr_max b.
Proof.
  intros Hs H A1 HE NZ.
  apply group_effect in H as (a & gg & au & off' & b' & _ & B1 & _ & _ & _ & _ & _ & _ & _ & _ & _ & HE' & _ & M & _ & _ & _ & _ & _ & E); [|assumption].
  rewrite (arg_det _ _ _ _ B1 A1) in *. destruct (has_ext_det _ _ _ _ _ _ HE HE') as [-> ->].
  destruct M as [M|M]; [contradiction|]. split; [|lia]. rewrite E. apply Z.mod_small.
  pose proof (gr_size_range b'). pose proof (gr_max_range b'). lia.
Qed.
Lemma create_limit e infos w w' m asset hd l n g off b : env_ok e -> e_prog e <> pk_zero -> sized w ->
  arg infos 0 asset -> open_account (data (w asset)) hd l n -> Forall ext_arg (inline m) ->
  process e infos w (ICreate m) = Ok w' -> arg infos 3 g -> g <> e_prog e ->
  has_ext (data (w g)) XGrouping off b -> gr_max b <> 0 ->
  data (w' g) = put (data (w g)) off (le_enc 8 (gr_size b + 1)) /\ gr_size b + 1 <= gr_max b.
Proof.
  intros He Hp Hs A0 B HF H A1 Ng HE NZ.
  destruct (create_effect _ _ _ _ _ _ _ _ _ He Hp A0 B Hs HF H) as (auth & owner & l' & hd' & _ & _ & _ & _ & _ & _ & _ & _ & _ & _ & _ & _ & _ & _ & _ & _ & _ & _ & _ & HG & _).
  destruct HG as [(A3 & _)|(g' & a & off' & b' & A3 & _ & _ & _ & _ & _ & _ & _ & _ & _ & HE' & _ & _ & M & E & _)]; [elim Ng; eapply arg_det; eauto|].
  rewrite (arg_det _ _ _ _ A3 A1) in *. destruct (has_ext_det _ _ _ _ _ _ HE HE') as [-> ->].
  destruct M as [M|M]; [contradiction|]. split; [|lia]. rewrite E. f_equal. f_equal. apply Z.mod_small.
  pose proof (gr_size_range b'). pose proof (gr_max_range b'). lia.
Qed.
(** Burn never wraps *)
Lemma burn_no_wrap e infos w w' a : lam_ok w -> process e infos w IBurn = Ok w' -> arg infos 0 a -> s_group (data (w a)) <> no_key ->
  exists g off b, arg infos 3 g /\ pk_bytes g = s_group (data (w a)) /\ has_ext (data (w g)) XGrouping off b /\ 1 <= gr_size b /\
    data (w' g) = put (data (w g)) off (le_enc 8 (gr_size b - 1)).
Proof.
  intros Hl H A0 NG. apply process_dispatch in H. cbn [dispatch] in H.
  apply burn_inv in H as (a' & signer & rec & grp & w1 & B0 & B1 & B2 & B3 & O1 & _ & I1 & _ & Hg & _ & Hc).
  apply acct_arg in B0. rewrite (arg_det _ _ _ _ B0 A0) in *.
  destruct Hg as [[G0 _]|(gg & off & b & gr & G1 & -> & Nga & Hge & Hgr & H1 & Hset)]; [elim NG; now apply nullable_none in G0|].
  apply opt_acct_some in B3 as [B3 _]. apply asset_get_some in Hge. apply grouping_ok in Hgr as (Hb & -> & _). cbn [g_size] in *.
  apply nullable_some in G1 as [G1 _]. exists gg, off, b. split; [assumption|]. split; [symmetry; exact G1|]. split; [assumption|]. split; [exact H1|].
  assert (W1 : lamports (w1 a) = lamports (w a)) by (eapply set_data_lam; eauto).
  apply close_account_spec in Hc as (C1 & C2 & C3 & C4); [|rewrite W1; apply Hl].
  apply set_data_world in Hset as (D1 & _ & _).
  destruct (pk_dec gg (match rec with Some r => r | None => signer end)) as [Q|Nd].
  - rewrite Q at 1. rewrite C3. cbn [data]. rewrite <- Q. exact D1.
  - rewrite C4 by assumption. exact D1.
Qed.

(** Groups over one instruction and over histories (C28, C29, C30). *)
From Verif Require Import Base State Layout Constr Ext World Proc BaseL Spec SpecB SpecH SpecG WorldL ProcSteps FrameL LayoutL LayoutE HeadL CreatorsL AuthL AuthM GroupL ResizeL UpdateL UpdateM AllocL AllocM AllocC CreateL BuildL RemoveL StepL StepH BornL TheftL CountL.
From Coq Require Import Strings.Byte.

Lemma proper_careful k e infos w i : proper e infos w i -> careful k e infos w i.
Proof.
  intro H. split.
  - destruct i as [| | | | | | | | | |u| | | | | |t|[|v]]; cbn [proper plain_request] in *; auto; [|apply H].
    intros x Hx. destruct H as [_ H]. apply (H x Hx).
  - intros t l -> A0 HL. cbn [proper] in H. destruct H as [_ H]. eauto.
Qed.

Lemma zero_head X : s_disc (repeat x00 168 ++ X) = x00.
Proof. reflexivity. Qed.

Lemma asset_data p w w' k : data (w' k) = data (w k) -> acct_owner (w' k) = acct_owner (w k) -> asset_of p w' k <-> asset_of p w k.
Proof. intros D O. unfold asset_of. now rewrite D, O. Qed.
Lemma member_data p w w' g k : data (w' k) = data (w k) -> acct_owner (w' k) = acct_owner (w k) -> member p w' g k <-> member p w g k.
Proof. intros D O. unfold member. rewrite D. now rewrite (asset_data p w w' k D O). Qed.

Section Step.
Variables (e : env) (infos : list ainfo) (w w' : world) (i : instr).
Let p := e_prog e.
Hypothesis (He : env_ok e) (Hp : p <> pk_zero) (HS : sound p w) (HP : proper e infos w i) (HR : roomy p w).
Hypothesis (H : process e infos w i = Ok w').

Lemma snd_sized : sized w. Proof. apply HS. Qed.
Lemma snd_lam : lam_ok w. Proof. apply HS. Qed.

(** existing assets *)
Lemma old k l : asset_of p w k -> tidy (data (w k)) l ->
  (burns infos i k /\ w' k = mkAcct 0 pk_zero []) \/
  (asset_of p w' k /\ header_step infos w w' k i /\ exists l', tidy (data (w' k)) l' /\ ext_step e w w' i k infos (ext_list l) (ext_list l')).
Proof.
  intros [O I1] T.
  destruct (tidy_step e infos w i w' k l He Hp snd_sized snd_lam (proper_careful k _ _ _ _ HP) O I1 T H) as [B|(A & B & C & D)]; [left; exact B|right].
  split; [split; assumption|]. auto.
Qed.
(** a new asset comes from Create *)
Lemma fresh k : ~ asset_of p w k -> asset_of p w' k -> arg infos 0 k /\ exists m, i = ICreate m.
Proof.
  intros N A. destruct (born e infos w w' k He Hp snd_sized snd_lam N A i H) as [(A0 & [C|[(x & E)|(x & E)]])|[(E & A3 & Nz & a & A0 & Aa & G)|(x & E & A2 & Nx)]].
  - auto.
  - exfalso. pose proof H as H0. pose proof HP as HP0. rewrite E in H0, HP0. cbn [proper] in HP0. destruct HP0 as [(X1 & X2 & X3) HB].
    destruct (HB k A0) as (l & n & B). unfold building in B.
    destruct (allocate_effect _ _ _ _ _ _ _ _ _ A0 B (snd_sized k) X1 ltac:(unfold u32_max; lia) ltac:(unfold two32; lia) H0) as (_ & _ & L0 & L1 & L2 & _).
    assert (D : s_disc (data (w' k)) = x00).
    { destruct (Z.eq_dec (x_length x) (zlen (given x))) as [Q|Q].
      - destruct (L1 Q) as [-> _]. apply zero_head.
      - rewrite L2 by lia. apply zero_head. }
    destruct A as [_ [_ A]]. rewrite D in A. discriminate.
  - exfalso. pose proof H as H0. pose proof HP as HP0. rewrite E in H0, HP0. cbn [proper] in HP0. destruct HP0 as [Wo HB].
    destruct (HB k A0) as (l & t & len & bs & B1 & B2 & B3).
    destruct (write_effect _ _ _ _ _ _ _ _ _ _ _ A0 B1 B2 Wo B3 H0) as (_ & _ & L1 & L2 & _).
    assert (D : s_disc (data (w' k)) = x00).
    { destruct (Z.eq_dec (zlen bs + zlen (w_bytes x)) len) as [Q|Q].
      - destruct (L2 Q) as (b' & _ & _ & -> & _). apply zero_head.
      - destruct (L1 ltac:(lia)) as (-> & _). apply zero_head. }
    destruct A as [_ [_ A]]. rewrite D in A. discriminate.
  - exfalso. destruct HS as (_ & _ & _ & HC). assert (C : counts p w k 0) by (apply HC; [assumption|right; auto]).
    apply (counts_zero_inv _ _ _ C a). split; assumption.
  - exfalso. pose proof HP as HP0. rewrite E in HP0. cbn [proper] in HP0. apply Nx. exact (arg_det _ _ _ _ A2 (proj1 HP0)).
Qed.

(** the created asset *)
Lemma created_asset m k : i = ICreate m -> arg infos 0 k ->
  ~ asset_of p w k /\ asset_of p w' k /\ (exists l', tidy (data (w' k)) l' /\ size_in l' = 0 /\ Forall (fun b => valid_new (bk_type b) (bk_data b)) l') /\
  exists auth, arg infos 1 auth /\ s_authority (data (w' k)) = pk_bytes auth /\
  ((s_group (data (w' k)) = no_key /\ forall x, x <> k -> data (w' x) = data (w x) /\ acct_owner (w' x) = acct_owner (w x)) \/
   (exists g off b, arg infos 3 g /\ g <> k /\ s_group (data (w' k)) = pk_bytes g /\ consent p infos w (pk_bytes auth) g /\
      has_ext (data (w g)) XGrouping off b /\ (16 <= length b <= 48)%nat /\ (gr_max b = 0 \/ gr_size b < gr_max b) /\
      data (w' g) = put (data (w g)) off (le_enc 8 ((gr_size b + 1) mod two64)) /\ acct_owner (w' g) = acct_owner (w g) /\
      forall x, x <> k -> x <> g -> data (w' x) = data (w x) /\ acct_owner (w' x) = acct_owner (w x))).
Proof.
  intros Ei A0. pose proof H as H0. pose proof HP as HP0. rewrite Ei in H0, HP0. cbn [proper] in HP0. destruct HP0 as [HF HB].
  destruct (HB k A0) as (l & n & B). unfold building in B.
  destruct (create_effect _ _ _ _ _ _ _ _ _ He Hp A0 B snd_sized HF H0) as (auth & owner & l' & hd' & A1 & A2 & Sg & HL & HC & Hx & Ow & D1 & D2 & D3 & D4 & D5 & D6 & D7 & D8 & D9 & _ & _ & _ & HG & HO).
  destruct (hd_fields _ _ _ _ HL) as (F1 & F2 & F3 & F4 & F5 & F6 & F7 & F8 & F9 & F10).
  split.
  { intros [_ Q]. refine (no_reinit _ _ _ _ _ _ A0 Q _ H0). exact I. }
  split.
  { split; [assumption|]. pose proof (layout_zlen_ge _ _ _ _ HL) as Z'. unfold zlen in Z'. split; [lia|congruence]. }
  split.
  { exists l'. split; [exists hd'; eexists; exact HL|]. pose proof (created_valid _ _ _ HC) as V. split; [|exact V]. unfold size_in.
    destruct (lookup XGrouping (ext_list l')) as [b|] eqn:E; [|reflexivity].
    assert (In (XGrouping, b) (ext_list l')) as Hin.
    { clear - E. induction (ext_list l') as [|[t0 x] L IH]; cbn [lookup] in E; [discriminate|]. destruct (ext_type_eqb t0 XGrouping) eqn:Q; [apply ext_type_eqb_eq in Q; left; congruence|right; auto]. }
    apply in_map_iff in Hin as (bk & Q & Hin). rewrite Forall_forall in V. destruct (V bk Hin) as [_ V2]. injection Q as Q1 Q2. rewrite <- Q2. auto. }
  exists auth. split; [assumption|]. split; [congruence|].
  destruct HG as [(A3 & G1 & G2)|(g & a & off & b & A3 & Ng & Na & G1 & G2 & A4 & Sa & Og & Ig & Ga & HE & Hb & Gs & Gm & Dg & G3)].
  - left. split; [rewrite F6, G1; reflexivity|]. intros x N. auto.
  - right. exists g, off, b. split; [assumption|]. split; [assumption|]. split; [congruence|].
    split; [split; [split; assumption|split; [assumption|exists a, off, b; auto 8]]|].
    repeat (split; [assumption|]). split; [now apply HO|]. intros x N1 N2. auto.
Qed.

Lemma recorded_of k l : asset_of p w k -> tidy (data (w k)) l -> k <> pk_zero -> counts p w k (size_in l).
Proof. intros A T N. apply HS; [assumption|]. left. eauto. Qed.

Lemma one_arg n a b : arg infos n a -> arg infos n b -> a = b.
Proof. apply arg_det. Qed.

(** membership of assets that stay *)
Lemma member_step g k : g <> pk_zero -> asset_of p w k -> asset_of p w' k -> member p w' g k ->
  member p w g k \/ (i = IGroup /\ arg infos 0 k /\ arg infos 1 g).
Proof.
  intros Ng A A' [_ M]. destruct HS as (_ & _ & HT & _). destruct (HT k A) as [l T].
  destruct (old k l A T) as [[_ E]|(_ & (_ & _ & _ & _ & _ & _ & HG & _) & _)].
  - destruct A' as [_ [A' _]]. rewrite E in A'. cbn [data length] in A'. lia.
  - destruct HG as [HG|(A0 & g' & A1 & _ & [(Ei & _ & G)|(_ & _ & G)])].
    + left. split; [assumption|congruence].
    + right. rewrite G in M. apply pk_ext in M. subst g'. auto.
    + exfalso. apply Ng. apply pk_ext. rewrite <- M, G. reflexivity.
Qed.
Lemma member_keeps g k : g <> pk_zero -> member p w g k -> ~ burns infos i k -> i <> IUngroup -> member p w' g k.
Proof.
  intros Ng [A M] Nb Nu. destruct HS as (_ & _ & HT & _). destruct (HT k A) as [l T].
  destruct (old k l A T) as [[B _]|(A' & (_ & _ & _ & _ & _ & _ & HG & _) & _)]; [contradiction|].
  split; [assumption|]. destruct HG as [HG|(A0 & g' & A1 & _ & [(_ & G & _)|(Ei & _)])]; [congruence| |contradiction].
  exfalso. apply Ng. apply pk_ext. rewrite <- M, G. reflexivity.
Qed.

(** sizes *)
Lemma burn_empty k l : burns infos i k -> tidy (data (w k)) l -> size_in l = 0.
Proof.
  intros [Ei A0] (hd & n & HL). pose proof H as H0. rewrite Ei in H0. apply process_dispatch in H0. cbn [dispatch] in H0.
  apply burn_inv in H0 as (asset & signer & rec & grp & w1 & B0 & _ & _ & _ & _ & _ & _ & _ & _ & HG & _).
  apply acct_arg in B0. rewrite (arg_det _ _ _ _ B0 A0) in *. unfold size_in.
  destruct HG as [HG|(off & b & gr & HG & Hgr & Hz)].
  - destruct (lookup XGrouping (ext_list l)) as [b|] eqn:E; [|reflexivity]. destruct (lookup_has_ext _ _ _ _ _ _ HL E) as [off HE].
    elim (asset_get_none _ _ HG _ _ HE).
  - apply asset_get_some in HG. assert (NX : XGrouping <> XNone) by discriminate. rewrite (has_ext_lookup _ _ _ _ _ _ _ HL NX HG).
    apply grouping_ok in Hgr as (_ & -> & _). exact Hz.
Qed.
Lemma not_gone k : w' k = mkAcct 0 pk_zero [] -> ~ asset_of p w' k.
Proof. intros E [_ [Q _]]. rewrite E in Q. cbn [data length] in Q. lia. Qed.
Lemma size_after g n' : recorded p w' g n' -> exists n, recorded p w g n /\
  (n' = n \/ (exists b m, asset_of p w g /\ (exists l, tidy (data (w g)) l /\ the_grouping l = Some b) /\ n = gr_size b /\ size_cause infos i g b m /\ n' = m mod two64)).
Proof.
  intro R. destruct HS as (_ & _ & HT & _). destruct (asset_dec p w g) as [A|A].
  - destruct (HT g A) as [l T]. exists (size_in l). split; [left; eauto|].
    destruct (old g l A T) as [[B E]|(A' & _ & l' & T' & X)].
    + rewrite (burn_empty g l B T). destruct R as [[A' _]|[_ R]]; [|auto]. elim (not_gone g E A').
    + destruct R as [(_ & l2 & T2 & ->)|[N _]]; [|contradiction]. rewrite (size_det _ _ _ T2 T').
      destruct (grouping_step _ _ _ _ _ _ _ _ HP X) as [[Q _]|(b & m & Q1 & _ & Q2 & Q3 & _)]; [auto|].
      right. exists b, m. split; [assumption|]. split; [eauto|]. split; [|auto]. unfold size_in. unfold the_grouping in Q1. now rewrite Q1.
  - exists 0. split; [right; auto|]. left. destruct R as [(A' & l2 & T2 & ->)|[_ R]]; [|assumption].
    destruct (fresh g A A') as (A0 & m & Ei). destruct (created_asset m g Ei A0) as (_ & _ & (l' & T' & Z & _) & _).
    now rewrite (size_det _ _ _ T2 T').
Qed.
Lemma recorded_det v g n1 n2 : recorded p v g n1 -> recorded p v g n2 -> n1 = n2.
Proof.
  intros [(A & l1 & T1 & ->)|[A ->]] [(B & l2 & T2 & ->)|[B ->]]; try contradiction; [|reflexivity]. eapply size_det; eauto.
Qed.
(** the counter of [g] after rewriting it *)
Lemma rewritten g off b m : asset_of p w g -> has_ext (data (w g)) XGrouping off b -> (16 <= length b)%nat -> 0 <= m < two64 ->
  data (w' g) = put (data (w g)) off (le_enc 8 m) -> acct_owner (w' g) = acct_owner (w g) -> initialized (data (w' g)) ->
  recorded p w g (gr_size b) /\ recorded p w' g m.
Proof.
  intros A HE Hb Hm D O In'. destruct HS as (_ & _ & HT & _). destruct (HT g A) as [l T].
  destruct (tidy_put _ _ _ _ m T HE Hb Hm) as (Z & _ & l' & T' & Z' & _). split.
  - left. split; [assumption|]. exists l. auto.
  - left. split; [split; [destruct A; congruence|assumption]|]. exists l'. rewrite D. auto.
Qed.
Lemma still g : asset_of p w g -> ~ burns infos i g -> asset_of p w' g.
Proof.
  intros A N. destruct HS as (_ & _ & HT & _). destruct (HT g A) as [l T].
  destruct (old g l A T) as [[B _]|(A' & _)]; [contradiction|assumption].
Qed.
Lemma no_wrap g b : asset_of p w g -> recorded p w g (gr_size b) -> (gr_size b + 1) mod two64 = gr_size b + 1.
Proof. intros A R. apply HR in R. pose proof (gr_size_range b). unfold two64 in *. apply Z.mod_small. lia. Qed.

Lemma count_step g n' : g <> pk_zero -> recorded p w' g n' -> counts p w' g n'.
Proof.
  intros Ng R. destruct (size_after g n' R) as (n & R0 & HN). assert (C : counts p w g n) by (apply HS; assumption).
  assert (CS : i = IGroup \/ i = IUngroup \/ i = IBurn \/ (exists m, i = ICreate m) \/ (i <> IGroup /\ i <> IUngroup /\ i <> IBurn /\ forall m, i <> ICreate m)).
  { destruct i; try (right; right; right; right; repeat split; discriminate); auto. do 3 right. left. eauto. }
  destruct CS as [Ei|[Ei|[Ei|[(m & Ei)|(E1 & E2 & E3 & E4)]]]].
  - (* Group *)
    assert (NB : forall k, ~ burns infos i k) by (intros k [Q _]; congruence).
    pose proof H as H0. rewrite Ei in H0. apply process_dispatch in H0. cbn [dispatch] in H0. unfold process_group in H0.
    apply bind_ok in H0 as (a & A0 & H0). apply bind_ok in H0 as (gg & A1 & H0). apply bind_ok in H0 as (au & A2 & H0).
    apply acct_arg in A0, A1, A2.
    apply do_group_inv in H0 as (_ & O1 & O2 & I1 & I2 & Hne & Hg & Ha & off & b & HE & Hb & Ho & Gs & Hm & (T1 & T2) & D1 & D2); [|apply snd_sized].
    assert (Agg : asset_of p w gg) by (split; assumption). assert (Aa : asset_of p w a) by (split; assumption).
    pose proof (still gg Agg (NB gg)) as Agg'. pose proof (still a Aa (NB a)) as Aa'.
    assert (Sg : s_group (data (w' a)) = pk_bytes gg) by (rewrite D1; apply put_group_field; now apply initialized_len).
    assert (MX : forall x k, k <> a -> member p w' x k <-> member p w x k).
    { intros x k Nk. destruct (pk_dec k gg) as [->|Ngg].
      - destruct HS as (_ & _ & HT & _). destruct (HT gg Agg) as [l T].
        destruct (old gg l Agg T) as [[B _]|(_ & (_ & _ & _ & _ & _ & _ & HG & _) & _)]; [elim (NB gg B)|].
        destruct HG as [HG|(Q & _)]; [|elim Nk; eapply one_arg; eauto]. unfold member. rewrite HG. tauto.
      - apply member_data; [now rewrite T1|apply T2]. }
    destruct (pk_dec g gg) as [->|Nggg].
    + destruct (rewritten gg off b ((gr_size b + 1) mod two64) Agg HE ltac:(lia) ltac:(apply Z.mod_pos_bound; reflexivity) D2 ltac:(apply T2) (proj2 Agg')) as [R1 R2].
      rewrite (no_wrap gg b Agg R1) in R2. rewrite (recorded_det _ _ _ _ R R2), <- (recorded_det _ _ _ _ R0 R1).
      apply (counts_add p w w' gg n a); [| |assumption].
      * intro k. destruct (pk_dec k a) as [->|Nk].
        -- split; [auto|]. intros _. split; assumption.
        -- rewrite (MX gg k Nk). split; [auto|intros [Q|Q]; [assumption|contradiction]].
      * intros [_ Q]. rewrite Hg in Q. apply Ng. apply pk_ext. now rewrite <- Q.
    + assert (n' = n) as ->.
      { destruct HN as [HN|(b0 & m & _ & _ & _ & [(_ & Q & _)|[(? & Q & _)|[(Q & _)|(Q & _)]]] & _)]; try congruence. elim Nggg. eapply one_arg; eauto. }
      apply (counts_same p w w'); [|assumption]. intro k. destruct (pk_dec k a) as [->|Nk]; [|now apply MX].
      split; intros [_ Q]; [rewrite Sg in Q; elim Nggg; now apply pk_ext|rewrite Hg in Q; elim Ng; apply pk_ext; now rewrite <- Q].
  - (* Ungroup *)
    assert (NB : forall k, ~ burns infos i k) by (intros k [Q _]; congruence).
    pose proof H as H0. rewrite Ei in H0.
    apply ungroup_effect in H0 as (a & gg & s & off & b & A0 & A1 & A2 & _ & Hne & O1 & O2 & I1 & I2 & Hg & HE & _ & F1 & F2 & _ & Sg & _ & _ & D1 & D2 & Hb); [|apply snd_sized].
    assert (Agg : asset_of p w gg) by (split; assumption). assert (Aa : asset_of p w a) by (split; assumption).
    pose proof (still gg Agg (NB gg)) as Agg'. pose proof (still a Aa (NB a)) as Aa'.
    assert (MX : forall x k, k <> a -> member p w' x k <-> member p w x k).
    { intros x k Nk. destruct (pk_dec k gg) as [->|Ngg].
      - destruct HS as (_ & _ & HT & _). destruct (HT gg Agg) as [l T].
        destruct (old gg l Agg T) as [[B _]|(_ & (_ & _ & _ & _ & _ & _ & HG & _) & _)]; [elim (NB gg B)|].
        destruct HG as [HG|(Q & _)]; [|elim Nk; eapply one_arg; eauto]. unfold member. rewrite HG. tauto.
      - apply member_data; now rewrite F1. }
    destruct (pk_dec g gg) as [->|Nggg].
    + destruct (rewritten gg off b ((gr_size b - 1) mod two64) Agg HE ltac:(lia) ltac:(apply Z.mod_pos_bound; reflexivity) D2 ltac:(apply F2) (proj2 Agg')) as [R1 R2].
      assert (Q1 : 1 <= gr_size b). { rewrite <- (recorded_det _ _ _ _ R0 R1). apply (counts_pos p w gg n a C). split; assumption. }
      pose proof (gr_size_range b). rewrite (Z.mod_small (gr_size b - 1)) in R2 by lia.
      rewrite (recorded_det _ _ _ _ R R2), <- (recorded_det _ _ _ _ R0 R1).
      apply (counts_remove p w w' gg n a); [|split; assumption|assumption].
      intro k. destruct (pk_dec k a) as [->|Nk].
      * split; [|intros [_ Q]; contradiction]. intros [_ Q]. rewrite Sg in Q. elim Ng. apply pk_ext. now rewrite <- Q.
      * rewrite (MX gg k Nk). tauto.
    + assert (n' = n) as ->.
      { destruct HN as [HN|(b0 & m & _ & _ & _ & [(Q & _)|[(? & Q & _)|[(_ & Q & _)|(Q & _)]]] & _)]; try congruence. elim Nggg. eapply one_arg; eauto. }
      apply (counts_same p w w'); [|assumption]. intro k. destruct (pk_dec k a) as [->|Nk]; [|now apply MX].
      split; intros [_ Q]; [rewrite Sg in Q; elim Ng; apply pk_ext; now rewrite <- Q|rewrite Hg in Q; elim Nggg; now apply pk_ext].
  - (* Burn *)
    pose proof H as H0. rewrite Ei in H0. apply process_dispatch in H0. cbn [dispatch] in H0.
    apply burn_inv in H0 as (a & signer & rec & grp & w1 & A0 & A1 & A2 & A3 & O1 & _ & I1 & _ & Hg & _ & Hc).
    apply acct_arg in A0, A1.
    assert (W1 : lamports (w1 a) = lamports (w a)).
    { destruct Hg as [[_ ->]|(ga & off & b & gr & _ & _ & _ & _ & _ & _ & Hset)]; [reflexivity|]. eapply set_data_lam; eauto. }
    apply close_account_spec in Hc as (C1 & C2 & C3 & C4); [|rewrite W1; apply snd_lam].
    assert (Hsame : forall k, k <> a -> data (w' k) = data (w1 k) /\ acct_owner (w' k) = acct_owner (w1 k)).
    { intros k Na. destruct (pk_dec k (match rec with Some r => r | None => signer end)) as [->|Nd]; [rewrite C3; auto|rewrite C4 by assumption; auto]. }
    assert (Aa : asset_of p w a) by (split; assumption). pose proof (not_gone a C2) as NA'.
    assert (MA : forall x, ~ member p w' x a) by (intros x [Q _]; contradiction).
    destruct Hg as [[G0 ->]|(gg & off & b & gr & G1 & -> & Nga & Hge & Hgr & H1 & Hset)].
    + assert (Gn : s_group (data (w a)) = no_key) by (now apply nullable_none in G0).
      assert (n' = n) as ->.
      { destruct HN as [HN|(b0 & m & Q0 & _ & Q1 & [(Q & _)|[(? & Q & _)|[(Q & _)|(_ & Q & -> & Q2)]]] & Q3)]; try congruence.
        (* the group passed although the asset has none: nothing written to it *)
        destruct (pk_dec g a) as [->|Nga].
        - destruct R as [[Q4 _]|[_ ->]]; [contradiction|]. destruct HS as (_ & _ & HT & _). destruct (HT a Aa) as [l T].
          symmetry. rewrite <- (burn_empty a l ltac:(split; assumption) T). apply (recorded_det w a); [assumption|]. left. eauto.
        - destruct (Hsame g Nga) as [S1 S2]. destruct HS as (_ & _ & HT & _). destruct (HT g Q0) as [l T].
          assert (R2 : recorded p w' g (size_in l)). { left. split; [apply (asset_data p w w' g S1 S2); assumption|]. exists l. rewrite S1. auto. }
          rewrite (recorded_det _ _ _ _ R R2). apply (recorded_det w g); [left; eauto|assumption]. }
      apply (counts_same p w w'); [|assumption]. intro k. destruct (pk_dec k a) as [->|Nk].
      * split; [intro Q; elim (MA g Q)|]. intros [_ Q]. rewrite Gn in Q. elim Ng. apply pk_ext. now rewrite <- Q.
      * destruct (Hsame k Nk) as [S1 S2]. now apply member_data.
    + apply opt_acct_some in A3 as [A3 _]. apply asset_get_some in Hge. apply grouping_ok in Hgr as (Hb & -> & _). cbn [g_size] in *.
      apply nullable_some in G1 as [G1 G2]. change (s_group (data (w a)) = pk_bytes gg) in G1.
      assert (Ngg : gg <> pk_zero) by (intro Q; apply G2; change (s_group (data (w a)) = no_key); rewrite G1, Q; reflexivity).
      assert (Mg : member p w gg a) by (split; assumption).
      assert (Agg : asset_of p w gg).
      { destruct (asset_dec p w gg) as [Q|Q]; [assumption|exfalso]. destruct HS as (_ & _ & _ & HC).
        apply (counts_zero_inv p w gg (HC gg 0 Ngg (or_intror (conj Q eq_refl))) a Mg). }
      assert (Nbg : ~ burns infos i gg) by (intros [_ Q]; apply Nga; eapply one_arg; eauto).
      pose proof (still gg Agg Nbg) as Agg'.
      apply set_data_world in Hset as (D1 & F1 & O2).
      assert (HX : forall k, k <> a -> k <> gg -> data (w' k) = data (w k) /\ acct_owner (w' k) = acct_owner (w k)).
      { intros k N1 N2. destruct (Hsame k N1) as [S1 S2]. rewrite S1, S2, O2, F1 by assumption. auto. }
      destruct (Hsame gg Nga) as [S1 S2]. rewrite O2 in S2. rewrite D1 in S1.
      assert (MX : forall x k, k <> a -> member p w' x k <-> member p w x k).
      { intros x k Nk. destruct (pk_dec k gg) as [->|Nkg]; [|destruct (HX k Nk Nkg); now apply member_data].
        destruct HS as (_ & _ & HT & _). destruct (HT gg Agg) as [l T].
        destruct (old gg l Agg T) as [[B _]|(_ & (_ & _ & _ & _ & _ & _ & HG & _) & _)]; [contradiction|].
        destruct HG as [HG|(Q & _)]; [|elim Nk; eapply one_arg; eauto]. unfold member. rewrite HG. tauto. }
      destruct (pk_dec g gg) as [->|Nggg].
      * pose proof (gr_size_range b).
        destruct (rewritten gg off b (gr_size b - 1) Agg Hge ltac:(lia) ltac:(lia) S1 S2 (proj2 Agg')) as [R1 R2].
        rewrite (recorded_det _ _ _ _ R R2), <- (recorded_det _ _ _ _ R0 R1).
        apply (counts_remove p w w' gg n a); [|assumption|assumption].
        intro k. destruct (pk_dec k a) as [->|Nk]; [split; [intro Q; elim (MA gg Q)|intros [_ Q]; contradiction]|].
        rewrite (MX gg k Nk). tauto.
      * assert (n' = n) as ->.
        { destruct HN as [HN|(b0 & m & _ & _ & _ & [(Q & _)|[(? & Q & _)|[(Q & _)|(_ & Q & _)]]] & _)]; try congruence. elim Nggg. eapply one_arg; eauto. }
        apply (counts_same p w w'); [|assumption]. intro k. destruct (pk_dec k a) as [->|Nk]; [|now apply MX].
        split; [intro Q; elim (MA g Q)|]. intros [_ Q]. rewrite G1 in Q. elim Nggg. now apply pk_ext.
  - (* Create *)
    assert (NB : forall k, ~ burns infos i k) by (intros k [Q _]; congruence).
    assert (exists a, arg infos 0 a) as [a A0].
    { pose proof H as H0. rewrite Ei in H0. apply process_dispatch in H0. cbn [dispatch] in H0. unfold process_create in H0.
      apply bind_ok in H0 as (a & A0 & _). apply acct_arg in A0. eauto. }
    destruct (created_asset m a Ei A0) as (Na & Aa' & _ & auth & _ & _ & HG).
    assert (Nm : forall x, ~ member p w x a) by (intros x [Q _]; contradiction).
    destruct HG as [[G1 F1]|(gg & off & b & A3 & Nga & Sg & Hcon & HE & Hb & Hm & D2 & O2 & F1)].
    + assert (n' = n) as ->.
      { destruct HN as [HN|(b0 & m0 & Q0 & _ & Q1 & [(Q & _)|[(? & Q & Q' & -> & Q2)|[(Q & _)|(Q & _)]]] & Q3)]; try congruence.
        assert (Nga : g <> a) by congruence. destruct (F1 g Nga) as [S1 S2]. destruct HS as (_ & _ & HT & _). destruct (HT g Q0) as [l T].
        assert (R2 : recorded p w' g (size_in l)). { left. split; [apply (asset_data p w w' g S1 S2); assumption|]. exists l. rewrite S1. auto. }
        rewrite (recorded_det _ _ _ _ R R2). apply (recorded_det w g); [left; eauto|assumption]. }
      apply (counts_same p w w'); [|assumption]. intro k. destruct (pk_dec k a) as [->|Nk].
      * split; [|intro Q; elim (Nm g Q)]. intros [_ Q]. rewrite G1 in Q. elim Ng. apply pk_ext. now rewrite <- Q.
      * destruct (F1 k Nk). now apply member_data.
    + pose proof Hcon as (Agg & _). pose proof (still gg Agg (NB gg)) as Agg'.
      assert (MX : forall x k, k <> a -> member p w' x k <-> member p w x k).
      { intros x k Nk. destruct (pk_dec k gg) as [->|Nkg]; [|destruct (F1 k Nk Nkg); now apply member_data].
        destruct HS as (_ & _ & HT & _). destruct (HT gg Agg) as [l T].
        destruct (old gg l Agg T) as [[B _]|(_ & (_ & _ & _ & _ & _ & _ & HG & _) & _)]; [elim (NB gg B)|].
        destruct HG as [HG|(Q & _)]; [|elim Nk; eapply one_arg; eauto]. unfold member. rewrite HG. tauto. }
      destruct (pk_dec g gg) as [->|Nggg].
      * destruct (rewritten gg off b ((gr_size b + 1) mod two64) Agg HE ltac:(lia) ltac:(apply Z.mod_pos_bound; reflexivity) D2 O2 (proj2 Agg')) as [R1 R2].
        rewrite (no_wrap gg b Agg R1) in R2. rewrite (recorded_det _ _ _ _ R R2), <- (recorded_det _ _ _ _ R0 R1).
        apply (counts_add p w w' gg n a); [|apply Nm|assumption].
        intro k. destruct (pk_dec k a) as [->|Nk]; [split; [auto|intros _; split; assumption]|].
        rewrite (MX gg k Nk). split; [auto|intros [Q|Q]; [assumption|contradiction]].
      * assert (n' = n) as ->.
        { destruct HN as [HN|(b0 & m0 & _ & _ & _ & [(Q & _)|[(? & _ & Q & _)|[(Q & _)|(Q & _)]]] & _)]; try congruence. elim Nggg. eapply one_arg; eauto. }
        apply (counts_same p w w'); [|assumption]. intro k. destruct (pk_dec k a) as [->|Nk]; [|now apply MX].
        split; [|intro Q; elim (Nm g Q)]. intros [_ Q]. rewrite Sg in Q. elim Nggg. now apply pk_ext.
  - (* everything else *)
    assert (n' = n) as ->.
    { destruct HN as [HN|(b0 & m & _ & _ & _ & [(Q & _)|[(? & Q & _)|[(Q & _)|(Q & _)]]] & _)]; try congruence. }
    apply (counts_same p w w'); [|assumption]. intro k. split; intro M.
    + pose proof M as [A' _]. destruct (asset_dec p w k) as [A|A].
      * destruct (member_step g k Ng A A' M) as [Q|(Q & _)]; [assumption|contradiction].
      * destruct (fresh k A A') as (_ & m & Q). elim (E4 _ Q).
    + apply member_keeps; auto. intros [Q _]. contradiction.
Qed.

Lemma sound_step : sound p w'.
Proof.
  split; [eapply sized_preserved; eauto; apply HS|]. split; [eapply lam_ok_preserved; eauto; apply HS|].
  split; [|intros; now apply count_step].
  intros k A'. destruct (asset_dec p w k) as [A|A].
  - destruct HS as (_ & _ & HT & _). destruct (HT k A) as [l T].
    destruct (old k l A T) as [[_ E]|(_ & _ & l' & T' & _)]; [elim (not_gone k E A')|eauto].
  - destruct (fresh k A A') as (A0 & m & Ei). destruct (created_asset m k Ei A0) as (_ & _ & (l' & T' & _) & _). eauto.
Qed.
End Step.

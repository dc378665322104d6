(** The registry over histories, and requests the registry allows (C77). *)
From Verif Require Import Base State Layout Constr Ext World Proc BaseL Spec SpecB SpecC SpecE SpecH SpecG SpecS WorldL ProcSteps FrameL LayoutL LayoutE HeadL CreatorsL AuthL AuthM GroupL ResizeL UpdateL UpdateM AllocL AllocM AllocC CreateL BuildL RemoveL StepL StepH BornL TheftL CountL CountM CountH RoyalL VerifyL ReadsL ExactL ExactM RegL RegM RegN.
From Coq Require Import Strings.Byte.

(** ** Histories *)
Lemma pictures_outside p w w' R : outside p w w' -> pictures p w R -> pictures p w' R.
Proof.
  intros O H k. specialize (H k). destruct (R k) as [v|].
  - destruct H as [A S]. split; [now apply (outside_asset p w w' k O)|]. now rewrite (outside_data p w w' k O A).
  - intro A. apply H. now apply (outside_asset p w w' k O).
Qed.
Lemma registry_history p w w' R : p <> pk_zero -> sound p w -> pictures p w R -> history_of good_step p w w' ->
  exists R', evolves p R R' /\ pictures p w' R' /\ sound p w'.
Proof.
  intros Np HS HI H. induction H as [w|w w1 e infos i w2 Hh IH Ep He [HP HR] H|w w1 w2 Hh IH Ho].
  - exists R. split; [apply ev_start; reflexivity|]. auto.
  - destruct (IH HS HI) as (R1 & E1 & P1 & S1). subst p.
    destruct (act_step e infos w1 w2 R1 He Np S1 P1 i HP H) as (R2 & A2 & P2).
    exists R2. split; [eapply ev_step; eauto|]. split; [assumption|]. eapply sound_step; eauto.
  - destruct (IH HS HI) as (R1 & E1 & P1 & S1). exists R1. split; [assumption|]. split; [eapply pictures_outside; eauto|eapply sound_outside; eauto].
Qed.

(** ** A world is read in one way only *)
Lemma sect_det tl tl2 : tail_ok tl -> tail_ok tl2 -> forall l l2 c, 0 <= c -> Forall blk_ok l -> Forall blk_ok l2 -> c + sect_size l < 2147483648 -> c + sect_size l2 < 2147483648 ->
  enc_sect c l ++ tl = enc_sect c l2 ++ tl2 -> l = l2 /\ tl = tl2.
Proof.
  intros T1 T2.
  assert (X : forall b (x y : bytes) c, blk_ok b -> zlen (enc_blk c b ++ x) < 16 \/ le32 (enc_blk c b ++ x) 0 = 0 -> False).
  { intros b x y c B [Q|Q].
    - rewrite zlen_app, zlen_enc_blk in Q by assumption. unfold blk_size in Q. pose proof (zlen_nonneg (bk_data b)). pose proof (zlen_nonneg (bk_pad b)). pose proof (zlen_nonneg x). lia.
    - apply (proj1 B). apply ext_code_0. assert (E : le32 (enc_blk c b ++ x) 0 = ext_code (bk_type b)); [|congruence].
      unfold enc_blk. rewrite <- app_assoc. unfold le32, sub. rewrite skipn_O, firstn_app, firstn_all2 by (rewrite le_enc_length; lia).
      rewrite le_enc_length, Nat.sub_diag, firstn_O, app_nil_r. rewrite le_dec_enc. destruct (bk_type b); reflexivity. }
  induction l as [|b l IH]; intros [|b2 l2] c Hc F1 F2 S1 S2 E.
  - cbn [enc_sect app] in E. auto.
  - exfalso. cbn [enc_sect app] in E. apply Forall_cons_iff in F2 as [B _]. unfold tail_ok in T1. rewrite E, <- app_assoc in T1. exact (X _ _ [] _ B T1).
  - exfalso. cbn [enc_sect app] in E. apply Forall_cons_iff in F1 as [B _]. unfold tail_ok in T2. rewrite <- E, <- app_assoc in T2. exact (X _ _ [] _ B T2).
  - apply Forall_cons_iff in F1 as [B1 F1]. apply Forall_cons_iff in F2 as [B2 F2]. cbn [sect_size enc_sect] in *.
    pose proof (sect_size_nonneg l). pose proof (sect_size_nonneg l2).
    pose proof (zlen_nonneg (bk_data b)). pose proof (zlen_nonneg (bk_pad b)). pose proof (zlen_nonneg (bk_data b2)). pose proof (zlen_nonneg (bk_pad b2)).
    unfold enc_blk in E. rewrite <- !app_assoc in E. unfold blk_size in S1, S2.
    apply app_inj_len in E as [E1 E]; [|now rewrite !le_enc_length]. apply app_inj_len in E as [E2 E]; [|now rewrite !le_enc_length].
    apply app_inj_len in E as [E3 E]; [|now rewrite !le_enc_length].
    apply le4_inj in E1; [|destruct (bk_type b); vm_compute; split; congruence|destruct (bk_type b2); vm_compute; split; congruence].
    apply le4_inj in E2; [|unfold u32_max; lia|unfold u32_max; lia]. apply le4_inj in E3; [|unfold u32_max, blk_size; lia|unfold u32_max, blk_size; lia].
    assert (E0 : bk_type b = bk_type b2) by (destruct (bk_type b), (bk_type b2); try reflexivity; discriminate E1).
    apply app_inj_len in E as [E4 E]; [|destruct B1 as (_ & -> & _), B2 as (_ & -> & _); reflexivity].
    apply app_inj_len in E as [E5 E]; [|unfold zlen in *; lia].
    unfold blk_size in E3. apply app_inj_len in E as [E6 E]; [|unfold zlen in *; lia].
    assert (Q : b = b2) by (clear - E0 E4 E5 E6; destruct b, b2; cbn in *; congruence). subst b2.
    destruct (IH l2 (c + blk_size b)) as [-> ->]; auto; unfold blk_size; lia.
Qed.
Lemma tidy_det d l l2 : tidy d l -> tidy d l2 -> l = l2.
Proof.
  intros (hd & n & H1) (hd2 & n2 & H2). pose proof (layout_len _ _ _ _ H1) as L1. pose proof (layout_len _ _ _ _ H2) as L2.
  destruct H1 as (E1 & Z1 & F1 & T1 & U1), H2 as (E2 & Z2 & F2 & T2 & U2). rewrite E1 in E2 at 1.
  apply app_inj_len in E2 as [_ E2]; [|unfold zlen in *; lia]. pose proof (zlen_nonneg (repeat x00 n)). pose proof (zlen_nonneg (repeat x00 n2)).
  eapply sect_det in E2; [apply E2|assumption|assumption| |assumption|assumption| |]; lia.
Qed.
Lemma pictures_det p w R R' : pictures p w R -> pictures p w R' -> forall k, R' k = R k.
Proof.
  intros H H' k. specialize (H k). specialize (H' k). destruct (R k) as [v|], (R' k) as [v'|]; try tauto.
  destruct H as [_ (_ & _ & l & L & ->)], H' as [_ (_ & _ & l' & L' & ->)].
  now rewrite (tidy_det _ _ _ L L').
Qed.

(** ** The request determines the step, unless it brings extensions *)
Definition light (i : instr) : Prop :=
  match i with
  | IApprove _ | IRevoke _ | ILock | IUnlock | ITransfer | IBurn | IHandover | IGroup | IUngroup | IVerify | IUnverify => True
  | _ => False
  end.
Lemma flags_det y c b b1 b2 : set_flags y c b b1 -> set_flags y c b b2 -> b1 = b2.
Proof.
  intros (L1 & N1 & _ & F1) (L2 & _ & _ & F2). apply (nth_ext _ _ x00 x00); [congruence|]. intros j Hj. rewrite L1 in Hj.
  pose proof (Nat.div_mod j 34 ltac:(lia)) as D. set (i := (j / 34)%nat) in *. set (r := (j mod 34)%nat) in *.
  assert (Hr : (r < 34)%nat) by (apply Nat.mod_upper_bound; lia). assert (Hi : (i < cr_count b)%nat) by lia.
  destruct (F1 i Hi) as (A1 & S1 & G1 & G1'), (F2 i Hi) as (A2 & S2 & G2 & G2').
  assert (C : (r < 32)%nat \/ r = 32%nat \/ r = 33%nat) by lia. destruct C as [C|[C|C]].
  - rewrite <- A2 in A1. unfold cr_addr_at, sub in A1. apply (f_equal (fun l => nth r l x00)) in A1.
    rewrite !nth_firstn_lt, !nth_skipn in A1 by lia. now rewrite D.
  - assert (Q : cr_flag_at b1 i = cr_flag_at b2 i).
    { destruct (list_eq_dec Byte.byte_eq_dec (cr_addr_at b i) c) as [E|E]; [now rewrite G1, G2|now rewrite G1', G2']. }
    unfold cr_flag_at in Q. now rewrite D, C.
  - rewrite <- S2 in S1. unfold cr_share_at in S1. now rewrite D, C.
Qed.
Lemma sets_det R a o R1 R2 : sets R a o R1 -> sets R a o R2 -> forall k, R1 k = R2 k.
Proof. intros [A1 B1] [A2 B2] k. destruct (pk_eqb k a) eqn:E; [apply pk_eqb_eq in E; congruence|]. apply pk_eqb_neq in E. now rewrite B1, B2. Qed.
Lemma sets2_det R a o g u R1 R2 : sets2 R a o g u R1 -> sets2 R a o g u R2 -> forall k, R1 k = R2 k.
Proof.
  intros (A1 & G1 & B1) (A2 & G2 & B2) k. destruct (pk_eqb k a) eqn:E; [apply pk_eqb_eq in E; congruence|]. apply pk_eqb_neq in E.
  destruct (pk_eqb k g) eqn:F; [apply pk_eqb_eq in F; congruence|]. apply pk_eqb_neq in F. now rewrite B1, B2.
Qed.
Lemma known_det infos R a v a2 v2 : known infos R a v -> known infos R a2 v2 -> a2 = a /\ v2 = v.
Proof. intros (A & B & _) (A2 & B2 & _). assert (a2 = a) by (eapply arg_det; eauto). subst a2. split; congruence. Qed.
Lemma pk_bytes_key_opt k : key_opt (pk_bytes k) = Some (pk_bytes k) \/ pk_bytes k = no_key.
Proof. destruct (list_eq_dec Byte.byte_eq_dec (pk_bytes k) no_key); [now right|left; now apply key_opt_same]. Qed.
Lemma act_det e w infos R i R1 R2 : light i -> act e w infos R i R1 -> act e w infos R i R2 -> forall k, R1 k = R2 k.
Proof.
  intros Li H1 H2. destruct H1; cbn [light] in Li; try contradiction;
    try match goal with y : bool |- _ => destruct y end;
    inversion H2; subst; try match goal with y : bool |- _ => destruct y; try discriminate end;
    repeat match goal with
    | H : commands _ _ _ _ _ |- _ => destruct H as (? & ? & ? & ? & ?)
    end;
    match goal with K1 : known _ _ ?a ?v, K2 : known _ _ ?a2 ?v2 |- _ => assert (a2 = a /\ v2 = v) as [-> ->] by (eapply known_det; eauto) end;
    repeat match goal with
    | A1 : arg infos ?i ?x, A2 : arg infos ?i ?y |- _ => first [constr_eq x y; fail 1 | assert (y = x) as -> by (eapply arg_det; eauto); clear A2]
    end; try contradiction; try congruence; eauto using sets_det.
  - assert (u0 = u) as -> by congruence. assert (b0 = b) as -> by congruence. eauto using sets2_det.
  - match goal with T1 : takes _ _ _ _ _ _ _, T2 : takes _ _ _ _ _ _ _ |- _ => destruct T1 as (? & _ & ? & _), T2 as (? & _ & ? & _) end.
    assert (u0 = u) as -> by congruence. assert (b0 = b) as -> by congruence. eauto using sets2_det.
  - assert (u0 = u) as -> by congruence. assert (b0 = b) as -> by congruence. eauto using sets2_det.
  - assert (b0 = b) as -> by congruence. assert (b'0 = b') as -> by (eapply flags_det; eauto). eauto using sets_det.
  - assert (b0 = b) as -> by congruence. assert (b'0 = b') as -> by (eapply flags_det; eauto). eauto using sets_det.
Qed.

(** ** Whatever the registry allows, the program does *)
Section Go.
Variables (e : env) (infos : list ainfo) (w : world) (R : registry).
Let p := e_prog e.
Hypothesis (HS : sound p w) (HI : pictures p w R) (HQ : forall k v, R k = Some v -> readable v).

Lemma stands a v i : known infos R a v -> well_placed e w infos R i ->
  ready e infos w a /\ gate infos w a /\ exists l, well_formed (data (w a)) l /\ v = view (data (w a)) (ext_list l) /\ manager_sane l /\ grouping_sane l /\ royalties_sane l.
Proof.
  intros (A0 & E & G) (P & W & _). pose proof (HI a) as Q. rewrite E in Q. destruct Q as [[O I] S].
  destruct (shown _ _ S) as (l & T & F & ->). destruct (HQ a _ E) as (Q1 & Q2 & Q3).
  split; [|split; [exact G|exists l; auto]]. unfold ready. pose proof (proj1 HS). auto 10.
Qed.
Lemma locks i : unlocked infos R -> well_placed e w infos R i -> none_locked e infos w.
Proof.
  intros U (P & _) x Hx O [D S]. destruct (P x Hx O) as [N|N]; [rewrite N in D; discriminate|].
  destruct (pictured p w R (ai_key x) HI (conj O (conj N D))) as (v & E & Sh). specialize (U x v Hx E).
  destruct (shown _ _ Sh) as (l & _ & _ & ->). cbn [view as_locked] in U. rewrite S in U. discriminate.
Qed.
Lemma party g u : R g = Some u -> asset_of p w g /\ exists l, well_formed (data (w g)) l /\ u = view (data (w g)) (ext_list l) /\ manager_sane l /\ grouping_sane l /\ royalties_sane l.
Proof.
  intro E. pose proof (HI g) as Q. rewrite E in Q. destruct Q as [A S]. split; [assumption|].
  destruct (shown _ _ S) as (l & T & F & ->). destruct (HQ g _ E) as (Q1 & Q2 & Q3). exists l. auto.
Qed.
Lemma goes_approve q R' : act e w infos R (IApprove q) R' -> well_placed e w infos R (IApprove q) -> exists w', process e infos w (IApprove q) = Ok w'.
Proof.
  intros H W. inversion H; subst; try match goal with y : bool |- _ => destruct y; discriminate end.
  destruct (stands a v _ ltac:(eassumption) W) as (Rd & G & l & F & -> & _). rewrite (approve_exact e infos w a o d q); eauto using locks.
Qed.
Lemma no_delegate d l s : (exists r, as_delegate (view d l) = Some (pk_bytes s, r)) -> s_delegate d <> no_key /\ s_delegate d = pk_bytes s.
Proof.
  intros (r & E). cbn [view as_delegate] in E. destruct (key_opt (s_delegate d)) as [k|] eqn:K; [|discriminate]. apply key_opt_some in K as [-> N]. inversion E; subst. auto.
Qed.
Lemma goes_revoke q R' : act e w infos R (IRevoke q) R' -> well_placed e w infos R (IRevoke q) -> exists w', process e infos w (IRevoke q) = Ok w'.
Proof.
  intros H W. inversion H; subst; try match goal with y : bool |- _ => destruct y; discriminate end.
  destruct (stands a v _ ltac:(eassumption) W) as (Rd & G & l & F & -> & _). rewrite (revoke_exact e infos w a s q); auto.
  split; [assumption|]. split; [eauto using locks|]. split; [assumption|].
  match goal with Q : _ \/ _ |- _ => destruct Q as [Q|Q]; [now left|right; eapply no_delegate; exact Q] end.
Qed.
Lemma goes_lock R' : act e w infos R ILock R' -> well_placed e w infos R ILock -> exists w', process e infos w ILock = Ok w'.
Proof.
  intros H W. inversion H; subst; try match goal with y : bool |- _ => destruct y; discriminate end.
  destruct (stands a v _ ltac:(eassumption) W) as (Rd & G & l & F & -> & M & _). pose proof Rd as (A0 & O & I & Wr & P & S).
  apply (lock_exact e infos w a s l); auto. split; [assumption|]. split; [now apply lockable_iff|]. split; [eauto using locks|assumption].
Qed.
Lemma goes_unlock R' : act e w infos R IUnlock R' -> well_placed e w infos R IUnlock -> exists w', process e infos w IUnlock = Ok w'.
Proof.
  intros H W. inversion H; subst; try match goal with y : bool |- _ => destruct y; discriminate end.
  destruct (stands a v _ ltac:(eassumption) W) as (Rd & G & l & F & -> & M & _). pose proof Rd as (A0 & O & I & Wr & P & S).
  apply (unlock_exact e infos w a s l); auto. split; [assumption|]. split; [now apply lockable_iff|assumption].
Qed.
Lemma goes_handover R' : act e w infos R IHandover R' -> well_placed e w infos R IHandover -> exists w', process e infos w IHandover = Ok w'.
Proof.
  intros H W. inversion H; subst; try match goal with y : bool |- _ => destruct y; discriminate end.
  match goal with C : commands _ _ _ _ _ |- _ => destruct C as (K & A1 & S1 & Q1 & Q2) end.
  destruct (stands a v _ K W) as (Rd & G & l & F & -> & _). rewrite (handover_exact e infos w a auth n); auto.
  split; [assumption|]. split; [|assumption]. split; [assumption|]. split; [exact Q1|]. cbn [view as_mutable] in Q2. unfold mutable.
  intro C. rewrite C in Q2. discriminate.
Qed.
Lemma goes_verify (y : bool) R' : act e w infos R (if y then IVerify else IUnverify) R' -> well_placed e w infos R (if y then IVerify else IUnverify) ->
  exists w', process e infos w (if y then IVerify else IUnverify) = Ok w'.
Proof.
  intros H W. remember (if y then IVerify else IUnverify) as i eqn:Ei. destruct H; try (destruct y; discriminate Ei).
  assert (y0 = y) by (destruct y, y0; try reflexivity; discriminate Ei). subst y0.
  destruct (stands a v _ ltac:(eassumption) W) as (Rd & G & l & F & -> & _). pose proof Rd as (A0 & O & I & Wr & P & S).
  apply (verify_exact y e infos w a c l); auto. split; [assumption|]. split; [assumption|]. exists b. split; [assumption|].
  match goal with Q : set_flags _ _ _ _ |- _ => destruct Q as (Q1 & Q2 & Q3 & _) end. auto.
Qed.
Lemma goes_group R' : act e w infos R IGroup R' -> well_placed e w infos R IGroup -> exists w', process e infos w IGroup = Ok w'.
Proof.
  intros H W. inversion H; subst; try match goal with y : bool |- _ => destruct y; discriminate end.
  destruct (stands a v _ ltac:(eassumption) W) as (Rd & G & l & F & -> & _). destruct W as (_ & _ & W). cbn in W.
  match goal with T : takes _ _ _ _ _ _ _ |- _ => destruct T as (Eg & Au & Lk & Go & Sg & Mx) end.
  destruct (party g u Eg) as ([Og Ig] & lg & Fg & -> & _ & Gg & _).
  apply (join_exact e infos w a g s lg); auto. do 5 (split; [assumption|]).
  split; [apply key_opt_none; assumption|]. split; [exact Au|]. exists b. auto.
Qed.
Lemma goes_ungroup R' : act e w infos R IUngroup R' -> well_placed e w infos R IUngroup -> exists w', process e infos w IUngroup = Ok w'.
Proof.
  intros H W. inversion H; subst; try match goal with y : bool |- _ => destruct y; discriminate end.
  destruct (stands a v _ ltac:(eassumption) W) as (Rd & G & l & F & -> & _). destruct W as (_ & _ & W). cbn in W.
  match goal with T : R g = Some u |- _ => destruct (party g u T) as ([Og Ig] & lg & Fg & -> & _ & Gg & _) end.
  apply (leave_exact e infos w a g s lg); auto. do 5 (split; [assumption|]).
  split; [|exists b; auto]. match goal with K : as_group _ = key_opt _ |- _ => cbn [view as_group] in K; unfold key_opt in K end.
  destruct (list_eq_dec _ (s_group _) _), (list_eq_dec _ (pk_bytes g) _); congruence.
Qed.
Lemma group_none d l : as_group (view d l) = None -> s_group d = no_key.
Proof. intro H. now apply key_opt_none. Qed.
Lemma group_some d l k : as_group (view d l) = Some k -> s_group d = k /\ k <> no_key.
Proof. intro H. now apply key_opt_some. Qed.
Lemma goes_burn R' : act e w infos R IBurn R' -> well_placed e w infos R IBurn -> exists w', process e infos w IBurn = Ok w'.
Proof.
  intros H W. pose proof W as (_ & _ & W3). cbn in W3. destruct W3 as [(g0 & A3 & Wg) W3].
  assert (X : forall a v s, known infos R a v -> unlocked infos R -> arg infos 1 s -> signed infos s -> entitled v s RBurn ->
    (forall b, lookup XGrouping (as_exts v) = Some b -> gr_size b = 0) ->
    (forall gk, as_group v = Some gk -> exists u b, gk = pk_bytes g0 /\ g0 <> e_prog e /\ g0 <> a /\ R g0 = Some u /\ lookup XGrouping (as_exts u) = Some b /\ 1 <= gr_size b) ->
    exists w', process e infos w IBurn = Ok w').
  { intros a v s K U A1 Sg En Z0 Gr. destruct (stands a v _ K W) as (Rd & G & l & F & -> & M & Gs & _). pose proof Rd as (A0 & O & I & Wr & P & S).
    destruct (W3 a s A0 A1) as (r & A2 & D). pose proof (proj1 (proj2 HS)) as La.
    assert (Y : exists dest, (r = e_prog e /\ dest = s \/ r <> e_prog e /\ dest = r) /\ can_empty infos w a dest).
    { destruct D as [[D1 D2]|[D1 D2]]; eauto 6. } destruct Y as (dest & Y1 & Y2).
    assert (V : exists lg, (s_group (data (w a)) <> no_key -> acct_owner (w g0) = e_prog e -> pk_bytes g0 = s_group (data (w a)) -> well_formed (data (w g0)) lg /\ grouping_sane lg) /\
      (s_group (data (w a)) <> no_key -> g0 <> e_prog e /\ g0 <> a /\ pk_bytes g0 = s_group (data (w a)) /\ acct_owner (w g0) = e_prog e /\
         exists b, lookup XGrouping (ext_list lg) = Some b /\ 1 <= gr_size b)).
    { cbn [view as_group] in Gr. destruct (key_opt (s_group (data (w a)))) as [gk|] eqn:Kg.
      - destruct (Gr gk eq_refl) as (u & b & Q0 & Q1 & Q2 & Q3 & Q4 & Q5). apply key_opt_some in Kg as [Kg _].
        destruct (party g0 u Q3) as ([Og Ig] & lg & Fg & -> & _ & Gg & _). exists lg. split; [auto|]. intros _. do 2 (split; [assumption|]). split; [congruence|]. split; [assumption|]. exists b. auto.
      - apply key_opt_none in Kg. exists []. split; intro C; contradiction. }
    destruct V as (lg & V1 & V2).
    apply (burn_exact e infos w a s r g0 l lg Rd La A1 A2 A3 Wg F M Gs V1 dest Y1). split; [assumption|]. split; [eauto using locks|]. split; [assumption|].
    split; [now apply entitled_iff|]. auto. }
  inversion H; subst; try match goal with y : bool |- _ => destruct y; discriminate end.
  - eapply X; eauto. intros gk C. congruence.
  - assert (g0 = g) as -> by (eapply arg_det; eauto). eapply X; eauto. intros gk C. exists u, b. repeat split; auto. congruence.
Qed.
Lemma goes_transfer R' : act e w infos R ITransfer R' -> well_placed e w infos R ITransfer -> exists w', process e infos w ITransfer = Ok w'.
Proof.
  intros H W. pose proof W as (PA & _ & W3). cbn in W3. destruct W3 as (k & A3).
  assert (X : forall a v s r, known infos R a v -> unlocked infos R -> arg infos 1 s -> arg infos 2 r -> signed infos s -> entitled v s RTransfer -> as_standard v <> x02 ->
    (forall b, lookup XRoyalties (as_exts v) = Some b -> permits e w a s r b) ->
    (as_owner v <> pk_bytes r -> royalties e w infos R v a s r) ->
    exists w', process e infos w ITransfer = Ok w').
  { intros a v s r K U A1 A2 Sg En St Al Ry. destruct (stands a v _ K W) as (Rd & G & l & F & -> & M & _ & Rs). pose proof Rd as (A0 & O & I & Wr & P & S).
    cbn [view as_exts as_standard as_owner] in Al, St, Ry.
    set (og := if pk_eqb k (e_prog e) then None else Some k).
    assert (AO : optional e infos 3 og).
    { unfold optional, og. destruct (pk_eqb k (e_prog e)) eqn:Q; [apply pk_eqb_eq in Q; subst k; exact A3|apply pk_eqb_neq in Q; auto]. }
    assert (Ino : In k (map ai_key (passed infos))).
    { destruct A3 as (x & Ex & <-). apply in_map. eapply nth_error_In; eauto. }
    assert (V : exists lg, (forall g, og = Some g -> acct_owner (w g) = e_prog e -> s_disc (data (w g)) = x01 -> well_formed (data (w g)) lg /\ royalties_sane lg) /\
      (forall u, R k = Some u -> u = view (data (w k)) (ext_list lg))).
    { destruct (R k) as [u|] eqn:Eu.
      - destruct (party k u Eu) as ([Ok1 Ik] & lg & Fg & -> & _ & _ & Rg). exists lg. split; [|intros u E; congruence].
        intros g Eg _ _. unfold og in Eg. destruct (pk_eqb k (e_prog e)); [discriminate|]. inversion Eg. subst g. auto.
      - exists []. split; [|discriminate]. intros g Eg Og Dg. exfalso. unfold og in Eg. destruct (pk_eqb k (e_prog e)); [discriminate|]. inversion Eg. subst g.
        apply in_map_iff in Ino as (x & Ex & Hx). pose proof (HI k) as Q. rewrite Eu in Q. apply Q. split; [exact Og|].
        rewrite <- Ex in *. destruct (PA x Hx Og) as [N|N]; [rewrite N in Dg; discriminate|split; assumption]. }
    destruct V as (lg & V1 & V2).
    apply (transfer_exact e infos w a s r og l lg Rd A1 A2 AO F M Rs V1). split; [assumption|]. split; [eauto using locks|]. split; [assumption|].
    split; [now apply entitled_iff|]. split; [exact St|]. split; [exact Al|]. intros No Ng Nr. specialize (Ry No). unfold royalties in Ry.
    cbn [view as_exts as_group] in Ry. rewrite Nr in Ry. rewrite key_opt_same in Ry by assumption.
    destruct Ry as (g & u & Gk & Ag & Np & Na & Eu & Pm). assert (g = k) as -> by (eapply arg_det; eauto).
    exists k. split; [unfold og; apply pk_eqb_neq in Np; now rewrite Np|]. split; [now symmetry|]. split; [assumption|].
    destruct (party k u Eu) as ([Og [_ Ig]] & _). split; [exact Og|]. split; [exact Ig|].
    rewrite (V2 u Eu) in Pm. exact Pm. }
  inversion H; subst; try match goal with y : bool |- _ => destruct y; discriminate end.
  - eapply X; eauto. intro C. contradiction.
  - eapply X; eauto. intros b Lb. match goal with Q : royalties _ _ _ _ _ _ _ _ |- _ => unfold royalties in Q; rewrite Lb in Q; exact Q end.
Qed.
End Go.
Lemma registry_born p w w' : p <> pk_zero -> sized w -> lam_ok w -> (forall k, ~ asset_of p w k) -> history_of good_step p w w' ->
  exists R', evolves p (fun _ => None) R' /\ pictures p w' R'.
Proof.
  intros Np Hs Hl N H. destruct (registry_history p w w' (fun _ => None) Np (sound_empty p w Hs Hl N) N H) as (R' & E & P & _). eauto.
Qed.

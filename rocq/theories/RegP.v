(** Requests the registry allows are carried out, with those that move rent (C77). *)
From Verif Require Import Base State Layout Constr Ext World Proc BaseL Spec SpecB SpecC SpecE SpecF SpecH SpecG SpecW SpecS WorldL ProcSteps FrameL LayoutL LayoutM LayoutE HeadL CreatorsL AuthL AuthM GroupL ResizeL UpdateL UpdateM AllocL AllocM AllocC CreateL BuildL RemoveL StepL StepH BornL TheftL CountL CountM CountH RoyalL VerifyL ReadsL ExactL ExactM AcceptL ExactN ExactO ExactP TailL RegL RegM RegN RegO.
From Coq Require Import Strings.Byte.

(** ** What is stored for a payload is determined *)
Lemma creators_det (b b1 b2 : bytes) : length b1 = length b -> length b2 = length b -> length b = (34 * cr_count b)%nat ->
  (forall i, (i < cr_count b)%nat -> cr_addr_at b1 i = cr_addr_at b2 i /\ cr_share_at b1 i = cr_share_at b2 i /\ cr_flag_at b1 i = cr_flag_at b2 i) -> b1 = b2.
Proof.
  intros L1 L2 N1 F. apply (nth_ext _ _ x00 x00); [congruence|]. intros j Hj. rewrite L1 in Hj.
  pose proof (Nat.div_mod j 34 ltac:(lia)) as D. set (i := (j / 34)%nat) in *. set (r := (j mod 34)%nat) in *.
  assert (Hr : (r < 34)%nat) by (apply Nat.mod_upper_bound; lia). assert (Hi : (i < cr_count b)%nat) by lia.
  destruct (F i Hi) as (A1 & S1 & G1).
  assert (C : (r < 32)%nat \/ r = 32%nat \/ r = 33%nat) by lia. destruct C as [C|[C|C]].
  - unfold cr_addr_at, sub in A1. apply (f_equal (fun l => nth r l x00)) in A1.
    rewrite !nth_firstn_lt, !nth_skipn in A1 by lia. now rewrite D.
  - unfold cr_flag_at in G1. now rewrite D, C.
  - unfold cr_share_at in S1. now rewrite D, C.
Qed.
Lemma xt_dec : forall a b : ext_type, {a = b} + {a <> b}.
Proof. decide equality. Defined.
Lemma count_len (b c : bytes) : length b = length c -> cr_count b = cr_count c.
Proof. intro E. unfold cr_count. now rewrite E. Qed.
Lemma stored_det t auth cur b b1 b2 : stored t auth cur b b1 -> stored t auth cur b b2 -> b1 = b2.
Proof.
  unfold stored. destruct cur as [c|].
  - intros ((L1 & O1 & G1 & _ & C1 & _) & V1 & _) ((L2 & O2 & G2 & _ & C2 & _) & V2 & _).
    destruct (xt_dec t XCreators) as [->|N1].
    + cbn [valid_payload] in V1. destruct V1 as [V1 _]. rewrite (count_len b1 b L1) in V1.
      apply (creators_det b); try congruence. intros i Hi.
      destruct (C1 eq_refl i Hi) as (A1 & S1 & F1), (C2 eq_refl i Hi) as (A2 & S2 & F2). split; [congruence|]. split; [congruence|].
      destruct (flag_of _ _ _); [congruence|]. destruct F1 as [F1 F1'], F2 as [F2 F2'].
      destruct (list_eq_dec Byte.byte_eq_dec auth (cr_addr_at b i)) as [E|E].
      * rewrite (proj2 F1 E), (proj2 F2 E). reflexivity.
      * rewrite (proj2 F1' E), (proj2 F2' E). reflexivity.
    + destruct (xt_dec t XGrouping) as [->|N2].
      * destruct (G1 eq_refl) as [-> _], (G2 eq_refl) as [-> _]. reflexivity.
      * rewrite O1, O2; auto.
  - intros (_ & _ & (L1 & O1 & C1) & V1 & _) (_ & _ & (L2 & O2 & C2) & V2 & _).
    destruct (xt_dec t XCreators) as [->|N1]; [|rewrite O1, O2; auto].
    cbn [valid_payload] in V1. destruct V1 as [V1 _]. rewrite (count_len b1 b L1) in V1.
    apply (creators_det b); try congruence. intros i Hi.
    destruct (C1 eq_refl i Hi) as (A1 & S1 & F1 & F1'), (C2 eq_refl i Hi) as (A2 & S2 & F2 & F2'). split; [congruence|]. split; [congruence|].
    destruct (list_eq_dec Byte.byte_eq_dec auth (cr_addr_at b i)) as [E|E].
    + rewrite (proj2 F1), (proj2 F2) by congruence. reflexivity.
    + rewrite (proj2 F1'), (proj2 F2') by congruence. reflexivity.
Qed.

Lemma layout_same_all d hd l tl hd2 l2 tl2 : layout d hd l tl -> layout d hd2 l2 tl2 -> l = l2 /\ tl = tl2.
Proof.
  intros H1 H2. pose proof (layout_len _ _ _ _ H1) as L1. pose proof (layout_len _ _ _ _ H2) as L2.
  destruct H1 as (E1 & Z1 & F1 & T1 & U1), H2 as (E2 & Z2 & F2 & T2 & U2). rewrite E1 in E2 at 1.
  apply app_inj_len in E2 as [_ E2]; [|unfold zlen in *; lia]. pose proof (zlen_nonneg tl). pose proof (zlen_nonneg tl2).
  eapply sect_det in E2; [exact E2|assumption|assumption| |assumption|assumption| |]; lia.
Qed.
Lemma layout_same d hd l tl hd2 l2 tl2 : layout d hd l tl -> layout d hd2 l2 tl2 -> l = l2.
Proof. intros H1 H2. exact (proj1 (layout_same_all _ _ _ _ _ _ _ H1 H2)). Qed.
(** ** The request determines the step *)
Lemma fresh_det t auth b b1 b2 : fresh_payload t (Some auth) b b1 -> valid_new t b1 -> fresh_payload t (Some auth) b b2 -> b1 = b2.
Proof.
  intros (L1 & O1 & C1) [V1 _] (L2 & O2 & C2). destruct (xt_dec t XCreators) as [->|N1]; [|rewrite O1, O2; auto].
  cbn [valid_payload] in V1. destruct V1 as [V1 _]. rewrite (count_len b1 b L1) in V1.
  apply (creators_det b); try congruence. intros i Hi.
  destruct (C1 eq_refl i Hi) as (A1 & S1 & F1 & F1'), (C2 eq_refl i Hi) as (A2 & S2 & F2 & F2'). split; [congruence|]. split; [congruence|].
  destruct (list_eq_dec Byte.byte_eq_dec auth (cr_addr_at b i)) as [E|E].
  - rewrite (proj2 F1), (proj2 F2) by congruence. reflexivity.
  - rewrite (proj2 F1'), (proj2 F2') by congruence. reflexivity.
Qed.
Lemma birth_det e m auth a L0 L L' : birth e m auth a L0 L -> birth e m auth a L0 L' -> L = L'.
Proof.
  intros [H _] [H' _]. revert L' H'. induction H as [|[t b] [t1 b1] X Y (E & F & V) _ IH]; intros L' H'; inversion H' as [|? [t2 b2] ? Y2 (E2 & F2 & V2) H2]; subst; [reflexivity|].
  cbn [fst snd] in *. subst t1 t2. f_equal; [f_equal; eapply fresh_det; eauto|now apply IH].
Qed.
Lemma staged_det w a L L' : staged w a L -> staged w a L' -> L = L'.
Proof.
  intros (l & n & B & <-) (l' & n' & B' & <-). f_equal. unfold building in *. destruct B as [(D & _ & -> & _)|[_ F]], B' as [(D' & _ & -> & _)|[_ F']].
  - reflexivity.
  - exfalso. apply layout_len in F'. rewrite D in F'. change (zlen (@nil byte)) with 0 in F'. pose proof (sect_size_nonneg l'). pose proof (zlen_nonneg (repeat x00 (Z.to_nat n'))). lia.
  - exfalso. apply layout_len in F. rewrite D' in F. change (zlen (@nil byte)) with 0 in F. pose proof (sect_size_nonneg l). pose proof (zlen_nonneg (repeat x00 (Z.to_nat n))). lia.
  - exact (proj1 (layout_same_all _ _ _ _ _ _ _ F F')).
Qed.
Lemma act_determined e w infos R i R1 R2 : act e w infos R i R1 -> act e w infos R i R2 -> forall k, R1 k = R2 k.
Proof.
  intros H1 H2. assert (D : light i \/ ~ light i) by (destruct i; cbn [light]; tauto). destruct D as [D|D]; [eapply act_det; eauto|].
  destruct H1; cbn [light] in *; try contradiction; try (elim D; exact Logic.I); try (destruct y; elim D; exact Logic.I);
    inversion H2; subst; try match goal with y : bool |- _ => destruct y; discriminate end;
    repeat match goal with H : commands _ _ _ _ _ |- _ => destruct H as (? & ? & ? & ? & ?) end;
    try match goal with K1 : known _ _ ?a ?v, K2 : known _ _ ?a2 ?v2 |- _ => assert (a2 = a /\ v2 = v) as [-> ->] by (eapply known_det; eauto) end;
    repeat match goal with
    | A1 : arg infos ?i ?x, A2 : arg infos ?i ?y |- _ => first [constr_eq x y; fail 1 | assert (y = x) by (eapply arg_det; eauto); subst y; clear A2]
    end; try contradiction; try (intro k; match goal with A : same R ?x, B : same R ?y |- ?x ?k = ?y ?k => rewrite (A k), (B k); reflexivity end);
    try match goal with A : staged w _ ?x, B : staged w _ ?y |- _ => assert (y = x) by (eapply staged_det; eauto); subst y; clear B end;
    try match goal with A : birth _ _ _ _ _ ?x, B : birth _ _ _ _ _ ?y |- _ => assert (y = x) by (eapply birth_det; eauto); subst y; clear B end.
  - assert (L0 = L) as ->; [|eauto using sets_det].
    match goal with A : match u_ext q with _ => _ end, B : match u_ext q with _ => _ end |- _ => revert A B end.
    destruct (u_ext q) as [x|]; [|congruence]. intros (g1 & b1 & E1 & _ & S1 & ->) (g2 & b2 & E2 & _ & S2 & ->).
    assert (g2 = g1) as -> by congruence. now rewrite (stored_det _ _ _ _ _ _ S1 S2).
  - match goal with A : as_exts v = L ++ _, B : as_exts v = L0 ++ _ |- _ => rewrite A in B; apply app_inj_tail in B as [-> _] end.
    eauto using sets_det.
  - eauto using sets_det.
  - match goal with T1 : takes _ _ _ _ _ _ _, T2 : takes _ _ _ _ _ _ _ |- _ => destruct T1 as (? & _ & ? & _), T2 as (? & _ & ? & _) end.
    assert (u0 = u) as -> by congruence. assert (b0 = b) as -> by congruence. eauto using sets2_det.
Qed.

Section Go.
Variables (e : env) (infos : list ainfo) (w : world) (R : registry).
Let p := e_prog e.
Hypothesis (HS : sound p w) (HI : pictures p w R) (HQ : forall k v, R k = Some v -> readable v).
Hypothesis (He : env_ok e) (Hp : p <> pk_zero).

Lemma charge a v auth i : commands infos R a v auth -> well_placed e w infos R i ->
  arg infos 1 auth /\ ready e infos w a /\ gate infos w a /\ in_charge infos w a auth /\
  exists hd l tl, layout (data (w a)) hd l tl /\ v = view (data (w a)) (ext_list l) /\ grouping_sane l.
Proof.
  intros (K & A1 & S1 & Q1 & Q2) W. destruct (stands e infos w R HS HI HQ a v i K W) as (Rd & G & l & (hd & tl & F) & -> & _ & Gs & _).
  split; [assumption|]. split; [assumption|]. split; [assumption|]. split; [|eauto 8].
  split; [assumption|]. split; [exact Q1|]. cbn [view as_mutable] in Q2. unfold mutable. intro C. rewrite C in Q2. discriminate.
Qed.
Lemma goes_close R' : act e w infos R IClose R' -> well_placed e w infos R IClose -> exists w', process e infos w IClose = Ok w'.
Proof.
  intros H W. inversion H; subst; try match goal with y : bool |- _ => destruct y; discriminate end.
  destruct W as (P & Wr & d & A1 & W). pose proof (proj1 (proj2 HS)) as La. apply (close_exact e infos w a d); auto.
Qed.
Lemma goes_resize s R' : act e w infos R (IResize s) R' -> well_placed e w infos R (IResize s) -> exists w', process e infos w (IResize s) = Ok w'.
Proof.
  intros H W. inversion H; subst; try match goal with y : bool |- _ => destruct y; discriminate end.
  destruct (charge a v auth _ ltac:(eassumption) W) as (A1 & Rd & G & C & hd & l & tl & F & -> & _). pose proof Rd as (A0 & _).
  destruct W as (_ & _ & payer & sysp & A2 & A3 & W). specialize (W a A0). pose proof (proj1 (proj2 HS)) as La.
  pose proof (layout_room _ _ _ _ F) as [Z1 Z2]. pose proof (zlen_nonneg tl). destruct s as [|v].
  - apply (trim_exact e infos w a auth payer sysp Rd A1 A2 A3 La He Hp hd l tl F). split; [assumption|]. split; [assumption|].
    destruct (W (168 + sect_size l) ltac:(lia)) as [W1 W2]. split; [intros _; exact W1|]. intros ->. apply W2. change (zlen (@nil byte)) with 0 in Z2. lia.
  - destruct W as [Wv W]. apply (extend_exact e infos w a auth payer sysp Rd A1 A2 A3 Hp v ltac:(lia)). auto.
Qed.
Lemma ext_list_snoc l L t b : ext_list l = L ++ [(t, b)] -> exists l1 k, l = l1 ++ [k] /\ ext_list l1 = L /\ bk_type k = t /\ bk_data k = b.
Proof.
  intro E. destruct (exists_last (l := l)) as (l1 & k & ->); [intros ->; now apply app_cons_not_nil in E|].
  exists l1, k. split; [reflexivity|]. unfold ext_list in *. rewrite map_app in E. cbn [map] in E. apply app_inj_tail in E as [E1 E2].
  inversion E2. auto.
Qed.
Lemma lookup_none_forall t l : lookup t (ext_list l) = None -> Forall (fun x => bk_type x <> t) l.
Proof.
  intro H. apply LayoutM.lookup_none in H. apply Forall_forall. intros x Hx C. apply H. unfold ext_list. rewrite map_map. cbn [fst]. apply in_map_iff. eauto.
Qed.
Lemma goes_remove t R' : act e w infos R (IRemove t) R' -> well_placed e w infos R (IRemove t) -> exists w', process e infos w (IRemove t) = Ok w'.
Proof.
  intros H W. inversion H; subst; try match goal with y : bool |- _ => destruct y; discriminate end.
  destruct (charge a v auth _ ltac:(eassumption) W) as (A1 & Rd & G & C & hd & l & tl & F & -> & Gs). pose proof Rd as (A0 & _).
  match goal with K : commands _ _ _ _ _ |- _ => destruct K as ((_ & Ev & _) & _) end.
  destruct W as (_ & _ & og & r & A2 & A3 & W). destruct (W a A0) as [W1 W2]. pose proof (proj1 (proj2 HS)) as La.
  cbn [view as_exts] in *. match goal with Q : ext_list l = _ |- _ => destruct (ext_list_snoc _ _ _ _ Q) as (l1 & k & -> & <- & <- & <-) end.
  pose proof (layout_len _ _ _ _ F) as Hlen. pose proof F as (Ed & Hh & HF & Htl & Hz). apply Forall_app in HF as [HF1 HF2]. apply Forall_cons_iff in HF2 as [HFb _].
  rewrite sect_size_app in Hlen. cbn [sect_size] in Hlen. pose proof (sect_size_nonneg l1). pose proof (blk_size_pos k). pose proof (zlen_nonneg tl).
  assert (Hf : Forall (fun x => bk_type x <> bk_type k) l1) by (apply lookup_none_forall; assumption).
  assert (Lk : lookup (bk_type k) (ext_list (l1 ++ [k])) = Some (bk_data k)).
  { rewrite <- (app_nil_r [k]) at 1. cbn [app]. apply lookup_block. assumption. }
  apply (remove_exact e infos w a auth og r (bk_type k) hd l1 k [] tl); auto.
  - intro E. apply Gs. rewrite <- E. exact Lk.
  - split; [assumption|]. split; [assumption|]. split; [assumption|]. split; [assumption|]. split; [assumption|]. split.
    + specialize (W1 _ _ Ev Lk). unfold blk_size in Hlen. pose proof (zlen_nonneg (bk_pad k)).
      assert (0 < zlen (bk_data k)) by (destruct (bk_data k) as [|z m]; [now elim W1|rewrite zlen_cons; pose proof (zlen_nonneg m); lia]). lia.
    + apply W2. lia.
Qed.
Lemma goes_update q R' : act e w infos R (IUpdate q) R' -> well_placed e w infos R (IUpdate q) -> exists w', process e infos w (IUpdate q) = Ok w'.
Proof.
  intros H W. inversion H; subst; try match goal with y : bool |- _ => destruct y; discriminate end.
  destruct (charge a v auth _ ltac:(eassumption) W) as (A1 & Rd & G & C & hd & l & tl & F & -> & Gs). pose proof Rd as (A0 & _).
  match goal with K : commands _ _ _ _ _ |- _ => destruct K as ((_ & Ev & _) & _) end.
  destruct W as (_ & _ & og & payer & sysp & A2 & O3 & O4 & O5 & Hal & W). destruct (W a _ A0 Ev) as [Hf Wx]. pose proof (proj1 (proj2 HS)) as La.
  cbn [view as_exts] in *. unfold ext_list in Hf at 1. rewrite map_length in Hf.
  assert (O2 : optional e infos 2 None) by exact A2. pose proof (proj1 HS) as Hs.
  destruct (u_ext q) as [x|] eqn:Ex.
  - destruct (Wx x eq_refl) as ((Xt & Xl & _) & Fi & Ro). match goal with Q : exists _ _, _ |- _ => destruct Q as (gv & b & Eg & El & _) end.
    apply (update_any e infos w a auth None og payer sysp hd l tl q Rd A1 O2 O3 O4 O5 F La He Hp Hal Hf x Ex eq_refl Xt Xl).
    unfold given in Fi. rewrite Eg in *. split; [assumption|]. split; [assumption|]. split; [auto|]. eapply Ro; eauto.
  - apply (update_head_t e infos w a auth None og payer sysp hd l tl q Rd A1 O2 O3 O4 O5 F Hf Ex eq_refl). auto.
Qed.
Lemma goes_allocate x R' : act e w infos R (IAllocate x) R' -> well_placed e w infos R (IAllocate x) -> exists w', process e infos w (IAllocate x) = Ok w'.
Proof.
  intros H W. inversion H; subst; try match goal with y : bool |- _ => destruct y; discriminate end.
  destruct W as (P & Wr & Xa & Xl & payer & sysp & O1 & O2 & W). destruct (W a ltac:(assumption)) as (l & n & B & Lk & W1 & W2).
  apply (allocate_goes e infos w a payer sysp x (repeat x00 168) l n); auto; [apply (proj1 HS)|apply (proj1 (proj2 HS))|].
  do 4 (split; [assumption|]). intro N. destruct (W2 N) as (Q1 & Q2 & Q3). auto.
Qed.
Lemma goes_write x R' : act e w infos R (IWrite x) R' -> well_placed e w infos R (IWrite x) -> exists w', process e infos w (IWrite x) = Ok w'.
Proof.
  intros H W. inversion H; subst; try match goal with y : bool |- _ => destruct y; discriminate end.
  destruct W as (P & Wr & Ov & A2 & payer & A1 & Sp & W). destruct (W a ltac:(assumption)) as (O & D & l & t & len & bs & B & L1 & L2 & Gr & Ac).
  apply (write_goes e infos w x a payer (repeat x00 168) l t len bs); auto; [apply (proj1 HS)|apply (proj1 (proj2 HS))|]. auto 10.
Qed.
Lemma born_fst L0 L auth : Forall2 (fun x y : ext_type * bytes => fst y = fst x /\ fresh_payload (fst x) auth (snd x) (snd y) /\ valid_new (fst y) (snd y)) L0 L ->
  map fst L = map fst L0 /\ lookup XProxy L = lookup XProxy L0.
Proof.
  induction 1 as [|[t b] [t1 b1] X Y (E & (_ & F & _) & _) _ [IH1 IH2]]; [auto|]. cbn [fst snd map lookup] in *. subst t1. split; [congruence|].
  destruct (ext_type_eqb t XProxy) eqn:Q; [|assumption]. f_equal. apply F. intros ->. discriminate.
Qed.
Lemma ext_list_inline l m : ext_list (l ++ inline_blks (inline m)) = ext_list l ++ map (fun x => (x_type x, given x)) (inline m).
Proof. unfold ext_list, inline_blks. rewrite map_app, map_map. reflexivity. Qed.
Lemma goes_create m R' : act e w infos R (ICreate m) R' -> well_placed e w infos R (ICreate m) -> exists w', process e infos w (ICreate m) = Ok w'.
Proof.
  intros H W. pose proof W as (P & Wr & Xa & Xl & Xn & Wg & oga & payer & sysp & O4 & O5 & O6 & W1).
  assert (K : forall a auth o L0 L og, arg infos 0 a -> arg infos 1 auth -> arg infos 2 o -> signed infos a -> staged w a L0 -> birth e m (pk_bytes auth) a L0 L -> optional e infos 3 og ->
    (forall g, og = Some g -> g <> a /\ exists u b, takes infos R g u b (match oga with Some s => s | None => auth end) (pk_bytes auth)) -> exists w', process e infos w (ICreate m) = Ok w').
  { intros a auth o L0 L og A0 A1 A2 Sg St Bi O3 Tk. destruct (W1 a A0) as (l & n & B & Fit & Nw & Ac & Op & Ol).
    assert (L0 = ext_list l) as -> by (eapply staged_det; [exact St|exists l, n; auto]).
    destruct Bi as (Bf & S1 & S2 & S3). destruct (born_fst _ _ _ Bf) as [Bm Bp]. rewrite <- ext_list_inline in Bm, Bp.
    assert (V : exists lg, forall g, og = Some g -> well_formed (data (w g)) lg /\ grouping_sane lg /\ exists u b, takes infos R g u b (match oga with Some s => s | None => auth end) (pk_bytes auth) /\ u = view (data (w g)) (ext_list lg) /\ asset_of p w g).
    { destruct og as [g|]; [|exists []; discriminate]. destruct (Tk g eq_refl) as (_ & u & b & T). pose proof T as (Eg & _).
      destruct (party e w R HI HQ g u Eg) as (Ag & lg & Fg & -> & _ & Gg & _). exists lg. intros g' E. inversion E; subst g'. split; [assumption|]. split; [assumption|]. eauto 8. }
    destruct V as (lg & V).
    apply (create_goes e infos w m a auth o og oga payer sysp (repeat x00 168) l n lg A0 A1 A2 O3 O4 O5 O6 B Xa Fit); auto; [|apply (proj1 HS)|].
    - intros g E. subst og. destruct O3 as [A3 N3]. split; [auto|]. intros _ _. destruct (V g eq_refl) as (V1 & V2 & _). auto.
    - split; [assumption|]. split; [assumption|]. split; [assumption|]. split; [assumption|]. split; [assumption|]. split; [assumption|]. split.
      { rewrite <- ext_list_inline in Ac. unfold ext_list in Ac. apply Forall_map in Ac. exact Ac. }
      split.
      { split; [rewrite S1, Bm; unfold ext_list; rewrite map_map; reflexivity|]. rewrite <- Bp. auto. }
      intros g E. destruct (V g E) as (V1 & V2 & u & b & (Eg & Au & Lk & Go & Sgn & Mx) & -> & [Og Ig]). destruct (Tk g E) as [Na _].
      split; [assumption|]. split; [exact Og|]. split; [exact Ig|]. split; [assumption|]. split; [reflexivity|]. split; [exact Au|]. exists b. auto. }
  inversion H; subst; try match goal with y : bool |- _ => destruct y; discriminate end.
  - apply (K a auth o L0 L None); auto. discriminate.
  - apply (K a auth o L0 L (Some g)); auto; [split; assumption|]. intros g' E. inversion E; subst g'. split; [assumption|]. exists u, b.
    assert (E0 : match oga with Some s' => s' | None => auth end = s); [|rewrite E0; assumption].
    match goal with Q : _ \/ _ |- _ => destruct Q as [[Q1 ->]|[Q1 Q2]] end; destruct oga as [s'|]; cbn [optional] in O4; [|reflexivity| |].
    + destruct O4 as [O4 N4]. elim N4. eapply arg_det; eauto.
    + destruct O4 as [O4 N4]. symmetry. eapply arg_det; eauto.
    + elim Q2. eapply arg_det; eauto.
Qed.
Theorem act_goes i R' : act e w infos R i R' -> well_placed e w infos R i -> exists w', process e infos w i = Ok w'.
Proof.
  intros A W. pose proof W as (_ & _ & W3). destruct i.
  all: first [ eapply goes_create; eassumption | eapply goes_burn; eassumption | eapply goes_approve; eassumption | eapply goes_lock; eassumption | eapply goes_revoke; eassumption | eapply goes_transfer; eassumption
    | eapply goes_unlock; eassumption | eapply (goes_verify e infos w R HS HI HQ true); eassumption | eapply (goes_verify e infos w R HS HI HQ false); eassumption
    | eapply goes_group; eassumption | eapply goes_ungroup; eassumption | eapply goes_handover; eassumption
    | eapply goes_close; eassumption | eapply goes_resize; eassumption | eapply goes_remove; eassumption | eapply goes_update; eassumption | eapply goes_allocate; eassumption | eapply goes_write; eassumption ].
Qed.
Lemma act_proper i R' : act e w infos R i R' -> well_placed e w infos R i -> proper e infos w i.
Proof.
  intros A W. pose proof W as (_ & _ & W3). destruct i as [| | | | | | | | | | | | | | | | |]; try exact Logic.I; cbn [proper].
  - destruct W3 as (X & _ & _ & _ & oga & payer & sysp & _ & _ & _ & W3). split; [assumption|]. intros a A0. destruct (W3 a A0) as (l & n & B & _). eauto.
  - destruct W3 as (X & _ & payer & sysp & _ & _ & W3). split; [assumption|]. intros a A0. destruct (W3 a A0) as (l & n & B & _). eauto.
  - inversion A; subst; try match goal with y : bool |- _ => destruct y; discriminate end.
    match goal with K : commands _ _ _ _ _ |- _ => destruct K as ((A0 & Ev & _) & _) end.
    destruct W3 as (og & payer & sysp & A2 & _ & _ & _ & _ & W3). destruct (W3 a v A0 Ev) as [_ Wx]. split; [assumption|].
    intros x Ex. rewrite Ex in *. destruct (Wx x eq_refl) as (X & _). split; [assumption|].
    match goal with Q : exists _ _, _ |- _ => destruct Q as (gv & b & Eg & _) end. congruence.
  - destruct W3 as (X & _ & payer & _ & _ & W3). split; [assumption|]. intros a A0. destruct (W3 a A0) as (_ & _ & l & t & len & bs & B & L1 & L2 & _). eauto 10.
  - inversion A; subst; try match goal with y : bool |- _ => destruct y; discriminate end.
    destruct (charge a v auth _ ltac:(eassumption) W) as (_ & (A0 & _) & _ & _ & hd & l & tl & F & -> & _). cbn [view as_exts] in *.
    match goal with Q : ext_list l = _ |- _ => destruct (ext_list_snoc _ _ _ _ Q) as (l1 & k & -> & <- & <- & <-) end.
    pose proof F as (_ & _ & HF & _). apply Forall_app in HF as [_ HF]. apply Forall_cons_iff in HF as [(N & _) _]. split; [assumption|].
    intros k0 l0 A0' (hd0 & tl0 & F0). assert (k0 = a) as -> by (eapply arg_det; eauto).
    exists l1, k. split; [exact (layout_same _ _ _ _ _ _ _ F0 F)|]. split; [reflexivity|]. apply lookup_none_forall; assumption.
  - destruct s as [|v]; [exact Logic.I|]. inversion A; subst; try match goal with y : bool |- _ => destruct y; discriminate end.
    match goal with K : commands _ _ _ _ _ |- _ => destruct K as ((A0 & Ev & _) & _) end.
    destruct W3 as (payer & sysp & _ & _ & W3). exact (proj1 (W3 a A0)).
Qed.
Theorem act_complete i R' : act e w infos R i R' -> well_placed e w infos R i -> exists w', process e infos w i = Ok w' /\ pictures p w' R'.
Proof.
  intros A W. destruct (act_goes i R' A W) as (w' & H). exists w'. split; [assumption|].
  destruct (act_step e infos w w' R He Hp HS HI i (act_proper i R' A W) H) as (R2 & A2 & P2). pose proof (act_determined _ _ _ _ _ _ _ A A2) as E.
  intro k. rewrite E. apply P2.
Qed.
End Go.

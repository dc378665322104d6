(** Lemmas: Create on an account that has to grow for its inline extensions. *)
From Verif Require Import Base State Layout Constr Ext World Proc BaseL Spec SpecB SpecC SpecE SpecF SpecL WorldL ProcSteps LayoutL LayoutM LayoutE HeadL CreatorsL AuthL AuthM AllocL AllocM GroupL AllocC CreateL ConstrL RoyalL ValidL ReadsL CodecL UpdateL ExactL ExactM AcceptL ExactN ExactO LiveL.
From Coq Require Import Strings.Byte.

(** the account can still grow to [F] bytes, [w0] being the world the instruction started in *)
Definition growable (e : env) (infos : list ainfo) (w0 w : world) (k : pubkey) (payer sysp : option pubkey) (F : Z) : Prop :=
  F - zlen (data (w0 k)) <= 10240 /\ F <= 10485760 /\
  (lamports (w k) < e_rent e F -> e_rent e F < 18446744073709551616 /\ sysp = Some pk_zero /\ exists p, payer = Some p /\ can_pay infos w p (e_rent e F - lamports (w k))).

Lemma grow_goes0 e infos w0 w k payer sysp size : ours e infos w k -> e_prog e <> pk_zero -> zlen (data (w0 k)) <= zlen (data (w k)) < size -> sized w ->
  goes (resize e (passed infos) w0 w size k payer sysp) <-> growable e infos w0 w k payer sysp size.
Proof.
  intros O Hp Hd Hs. pose proof (zlen_nonneg (data (w k))) as Z0. pose proof (zlen_nonneg (data (w0 k))) as Z00. unfold resize, growable. cbv zeta. replace (size <? zlen (data (w k))) with false by lia.
  rewrite goes_bind. split.
  - intros (w1 & E & Q). apply require_ok in E as [_ E].
    assert (D1 : data (w1 k) = data (w k) /\ (lamports (w k) < e_rent e size -> e_rent e size < 18446744073709551616 /\ sysp = Some pk_zero /\ exists p, payer = Some p /\ can_pay infos w p (e_rent e size - lamports (w k)))).
    { destruct (Z.lt_ge_cases (lamports (w k)) (e_rent e size)) as [C|C].
      - rewrite Z.max_r in E by lia. replace (0 <? e_rent e size - lamports (w k)) with true in E by lia.
        apply bind_ok in E as (p & E1 & E). apply bind_ok in E as (s & E2 & E). apply ok_or_ok in E1, E2. apply require_ok in E as [E3 E]. apply require_ok in E as [E4 E]. apply pk_eqb_eq in E4. subst s.
        assert (X : goes (sys_transfer (passed infos) w p k (e_rent e size - lamports (w k)))) by (now exists w1). apply (sys_goes e) in X as [X1 X2]; [|exact O|exact Hp|lia].
        assert (N : p <> k) by (intros ->; destruct O as [O _]; unfold can_pay in X1; destruct X1 as (_ & _ & X1 & _); congruence).
        destruct (sys_same _ _ _ _ _ _ N E) as [S1 _]. split; [apply S1|]. intros _. split; [lia|]. split; [exact E2|]. exists p. auto.
      - rewrite Z.max_l in E by lia. cbn [Z.ltb Z.compare] in E. apply Ok_inj in E. subst w1. split; [reflexivity|lia]. }
    destruct D1 as [D1 D2]. destruct Q as [w2 Q]. unfold realloc in Q. rewrite D1 in Q.
    replace (size =? zlen (data (w k))) with false in Q by lia. apply require_ok in Q as [M Q]. unfold MAX_INCREASE in M. split; [lia|]. split; [|exact D2].
    assert (X : zlen (realloc_bytes (data (w k)) size) = size) by (unfold realloc_bytes; replace (size <=? zlen (data (w k))) with false by lia; rewrite zlen_app, zlen_zeros by lia; lia).
    apply set_data_ok in Q as [[Q _]|(_ & _ & _ & Q & _)]; [rewrite Q, D1 in X; lia|unfold MAX_DATA in Q; lia].
  - intros (M & B & P). assert (X : exists w1, acct_owner (w1 k) = acct_owner (w k) /\
      require (size - zlen (data (w k)) <=? MAX_INCREASE) EAccountDataTooSmall
        (if 0 <? Z.max 0 (e_rent e size - lamports (w k)) then
           p <- ok_or payer ENotEnoughAccountKeys ;;
           s <- ok_or sysp ENotEnoughAccountKeys ;;
           require (is_signer (passed infos) p) EMissingRequiredSignature
            (require (pk_eqb s pk_zero) EIncorrectProgramId
             (sys_transfer (passed infos) w p k (Z.max 0 (e_rent e size - lamports (w k)))))
         else Ok w) = Ok w1).
    { replace (size - zlen (data (w k)) <=? MAX_INCREASE) with true by (unfold MAX_INCREASE; lia). cbn [require].
      destruct (Z.lt_ge_cases (lamports (w k)) (e_rent e size)) as [C|C].
      - destruct (P C) as (P1 & -> & p & -> & P2). rewrite Z.max_r by lia. replace (0 <? e_rent e size - lamports (w k)) with true by lia. cbn [ok_or bind].
        pose proof P2 as (Ps & _ & Pz & _). apply signer_spec in Ps. rewrite Ps, pk_eqb_refl. cbn [require].
        assert (N : p <> k) by (intros ->; destruct O as [O _]; congruence).
        destruct (proj2 (sys_goes e infos w p k (e_rent e size - lamports (w k)) O Hp ltac:(lia))) as [w1 E]; [split; [exact P2|lia]|].
        exists w1. split; [apply (sys_same _ _ _ _ _ _ N E)|exact E].
      - rewrite Z.max_l by lia. exists w. auto. }
    destruct X as (w1 & Ow & E). exists w1. split; [exact E|]. apply realloc_goes; [|lia|lia]. destruct O as [O1 O2]. split; [congruence|exact O2].
Qed.

(** growing in two steps costs what growing in one does *)
Lemma grow_split e infos w0 w k payer sysp size w1 F : rent_mono e -> ours e infos w k -> e_prog e <> pk_zero -> zlen (data (w0 k)) <= zlen (data (w k)) < size -> size <= F -> sized w ->
  resize e (passed infos) w0 w size k payer sysp = Ok w1 ->
  growable e infos w0 w k payer sysp F <-> (size < F -> growable e infos w0 w1 k payer sysp F).
Proof.
  intros M O Hp Hd HF Hs H. pose proof (zlen_nonneg (data (w0 k))) as Z00.
  assert (G : growable e infos w0 w k payer sysp size) by (apply grow_goes0; auto; now exists w1).
  destruct (Z.eq_dec size F) as [->|NF]; [split; [intros _ Q; lia|intros _; exact G]|].
  pose proof (M size F ltac:(lia)) as MF.
  assert (X : (e_rent e size <= lamports (w k) -> lamports (w1 k) = lamports (w k) /\ forall x, x <> k -> data (w1 x) = data (w x) /\ acct_owner (w1 x) = acct_owner (w x) /\ lamports (w1 x) = lamports (w x)) /\
              (lamports (w k) < e_rent e size -> lamports (w1 k) = e_rent e size /\ exists p, payer = Some p /\ sysp = Some pk_zero /\ signed infos p /\ writable infos p /\ acct_owner (w p) = pk_zero /\ data (w p) = [] /\
                 acct_owner (w1 p) = pk_zero /\ data (w1 p) = [] /\ lamports (w1 p) = lamports (w p) - (e_rent e size - lamports (w k)))).
  { destruct G as (_ & _ & G). unfold resize in H. cbv zeta in H. replace (size <? zlen (data (w k))) with false in H by lia. apply bind_ok in H as (w2 & H2 & H). apply require_ok in H2 as [_ H2].
    assert (R : forall x, lamports (w1 x) = lamports (w2 x) /\ acct_owner (w1 x) = acct_owner (w2 x) /\ (x <> k -> data (w1 x) = data (w2 x))).
    { intro x. unfold realloc in H. destruct (size =? _); [apply Ok_inj in H; subst; auto|]. apply require_ok in H as [_ H].
      split; [exact (set_data_lam _ _ _ _ _ _ x H)|]. split; [exact (set_data_owner _ _ _ _ _ _ x H)|]. intro N. apply set_data_only in H as [(P1 & _) _]. now rewrite (P1 x N). }
    destruct (Z.lt_ge_cases (lamports (w k)) (e_rent e size)) as [C|C].
    - split; [intro; lia|]. intros _. destruct (G C) as (_ & -> & p & -> & P1 & P2 & P3 & P4 & P5). rewrite Z.max_r in H2 by lia. replace (0 <? e_rent e size - lamports (w k)) with true in H2 by lia.
      cbn [ok_or bind] in H2. apply require_ok in H2 as [_ H2]. apply require_ok in H2 as [_ H2].
      assert (N : p <> k) by (intros ->; destruct O; congruence). destruct (sys_same _ _ _ _ _ _ N H2) as [S1 S2]. apply transfer_money in H2 as (E1 & E2 & _); [|exact N].
      destruct (R k) as (R1 & _ & _), (R p) as (R2 & R3 & R4). split; [lia|]. exists p. rewrite R3, (R4 N), R2, S1, S2. repeat (split; [assumption || reflexivity|]). exact E2.
    - rewrite Z.max_l in H2 by lia. cbn [Z.ltb Z.compare] in H2. apply Ok_inj in H2. subst w2. split; [|intro; lia]. intros _. split; [apply R|]. intros x Nx. destruct (R x) as (R1 & R2 & R3). auto. }
  destruct X as [X1 X2]. unfold growable, can_pay.
  split.
  - intros (A & B & C) _. split; [exact A|]. split; [exact B|]. intro L. destruct (Z.lt_ge_cases (lamports (w k)) (e_rent e size)) as [Q|Q].
    + destruct (X2 Q) as (L1 & p & Ep & Es & Q1 & Q2 & Q3 & Q4 & Q5 & Q6 & Q7). destruct (C ltac:(lia)) as (C1 & C2 & p' & Ep' & C3). rewrite Ep in Ep'. apply some_inj in Ep'. subst p'.
      split; [exact C1|]. split; [exact C2|]. exists p. split; [exact Ep|]. repeat (split; [assumption|]). destruct C3 as (_ & _ & _ & _ & C3). lia.
    + destruct (X1 ltac:(lia)) as [L1 XX]. rewrite L1 in *. destruct (C L) as (C1 & C2 & p & Ep & C3 & C4 & C5 & C6 & C7). split; [exact C1|]. split; [exact C2|]. exists p. split; [exact Ep|].
      assert (N : p <> k) by (intros ->; destruct O; congruence). destruct (XX p N) as (-> & -> & ->). auto.
  - intro H0. destruct (H0 ltac:(lia)) as (A & B & C). clear H0. split; [exact A|]. split; [exact B|]. intro L. destruct (Z.lt_ge_cases (lamports (w k)) (e_rent e size)) as [Q|Q].
    + destruct (X2 Q) as (L1 & p & Ep & Es & Q1 & Q2 & Q3 & Q4 & Q5 & Q6 & Q7). destruct (Z.eq_dec (e_rent e size) (e_rent e F)) as [RE|RE].
      * destruct G as (_ & _ & G). rewrite <- RE. apply G. lia.
      * destruct (C ltac:(lia)) as (C1 & C2 & p' & Ep' & C3). rewrite Ep in Ep'. apply some_inj in Ep'. subst p'. split; [exact C1|]. split; [exact C2|]. exists p. split; [exact Ep|]. repeat (split; [assumption|]). destruct C3 as (_ & _ & _ & _ & C3). lia.
    + destruct (X1 ltac:(lia)) as [L1 XX]. rewrite L1 in *. destruct (C L) as (C1 & C2 & p & Ep & C3 & C4 & C5 & C6 & C7). split; [exact C1|]. split; [exact C2|]. exists p. split; [exact Ep|].
      destruct (pk_dec p k) as [->|N].
      * exfalso. destruct O as [O _]. pose proof (resize_data _ _ _ _ _ _ _ _ _ H) as [D _]. rewrite D in C6. apply (f_equal zlen) in C6. unfold realloc_bytes in C6. replace (size <=? zlen (data (w k))) with false in C6 by lia. rewrite zlen_app, zlen_zeros in C6 by lia. change (zlen []) with 0 in C6. lia.
      * destruct (XX p N) as (E1 & E2 & E3). rewrite E1, E2, E3 in *. auto.
Qed.
Lemma growable_ext e infos w0 w w' k payer sysp F : acct_owner (w k) <> pk_zero -> (forall x, lamports (w' x) = lamports (w x) /\ acct_owner (w' x) = acct_owner (w x) /\ (x <> k -> data (w' x) = data (w x))) ->
  growable e infos w0 w k payer sysp F <-> growable e infos w0 w' k payer sysp F.
Proof.
  intros O X. unfold growable, can_pay. destruct (X k) as (-> & Ok & _).
  split; intros (A & B & C); (split; [exact A|]; split; [exact B|]; intro L; destruct (C L) as (C1 & C2 & p & Ep & C3 & C4 & C5 & C6 & C7); split; [exact C1|]; split; [exact C2|]; exists p; split; [exact Ep|]);
    destruct (X p) as (E1 & E2 & E3); (assert (N : p <> k) by (intros ->; congruence)); specialize (E3 N).
  - rewrite E1, E2, E3. auto.
  - rewrite <- E1, <- E2, <- E3. auto.
Qed.
Lemma alloc_step e infos w0 w asset payer sysp x w1 hd l n : open_account (data (w asset)) hd l n -> data (w asset) <> [] -> sized w -> writable infos asset -> ext_arg x -> x_length x = zlen (given x) ->
  do_allocate e (passed infos) w0 w asset payer sysp x = Ok w1 ->
  exists wm, (if zlen (data (w asset)) <? new_end l x then resize e (passed infos) w0 w (new_end l x) asset payer sysp = Ok wm else wm = w) /\
    (forall y, lamports (w1 y) = lamports (wm y) /\ acct_owner (w1 y) = acct_owner (wm y) /\ (y <> asset -> data (w1 y) = data (wm y))) /\
    zlen (data (w1 asset)) = Z.max (zlen (data (w asset))) (new_end l x).
Proof.
  intros HO NE Hs Hw (Ht & Hx & Hg) Cx H. pose proof HO as HO'. destruct HO' as [[E _]|[Hn HL]]; [contradiction|].
  pose proof (layout_len _ _ _ _ HL) as LL. destruct (layout_last_bnd _ _ _ _ HL) as (o & Ho & Eo).
  pose proof HL as (_ & _ & Hbk & _). pose proof (new_end_pad l x Hbk) as NP. pose proof (zlen_nonneg (given x)) as G0. pose proof (sect_size_nonneg l) as S0.
  unfold do_allocate in H. apply require_ok in H as [_ H]. cbv zeta in H. apply bind_ok in H as (st & H1 & H). apply bind_ok in H as (bs & H0 & H).
  assert (B : bs = given x). { unfold given. destruct (x_data x); [apply require_ok in H0 as [_ H0]|]; apply Ok_inj in H0; congruence. } subst bs.
  replace (zlen (data (w asset)) =? 0) with false in H1 by (rewrite zlen_repeat in LL; lia).
  apply require_ok in H1 as [_ H1]. apply require_ok in H1 as [_ H1]. apply require_ok in H1 as [_ H1]. apply bind_ok in H1 as (cc & _ & H1). apply require_ok in H1 as [_ H1].
  rewrite Ho in H1. cbn [bind] in H1.
  assert (ST : st = (true, 168 + sect_size l)).
  { destruct o as [[h off]|]; [apply require_ok in H1 as [_ H1]|]; apply Ok_inj in H1; subst st; rewrite <- Eo; reflexivity. }
  subst st. cbn [fst snd] in H. unfold save_extension_data in H. cbv zeta in H. rewrite (Z.mod_small (zlen (given x))) in H by (unfold two32; lia).
  replace (x_length x =? zlen (given x)) with true in H by lia. cbn [negb andb] in H. rewrite orb_false_r in H.
  assert (EN : pad8 (168 + sect_size l + EXT_LEN + x_length x) = new_end l x).
  { rewrite NP. replace (x_length x =? zlen (given x)) with true by lia. unfold EXT_LEN. reflexivity. }
  rewrite EN in H. apply bind_ok in H as (wm & Hm & H). apply bind_ok in H as (d1 & H3 & H). apply bind_ok in H as (d2 & H4 & H).
  assert (L2 : zlen d2 = zlen (data (wm asset))).
  { apply set_hdr_inv in H3. destruct (given x); [apply Ok_inj in H4; congruence|]. apply memcpy_inv in H4 as (M1 & M2 & ->). rewrite zlen_put by lia. congruence. }
  exists wm. split; [|split].
  - destruct (zlen (data (w asset)) <? new_end l x); [exact Hm|now apply Ok_inj in Hm].
  - intro y. split; [exact (set_data_lam _ _ _ _ _ _ y H)|]. split; [exact (set_data_owner _ _ _ _ _ _ y H)|]. intro N. apply set_data_only in H as [(P1 & _) _]. now rewrite (P1 y N).
  - rewrite (set_data_data _ _ _ _ _ _ H), L2. destruct (Z.ltb_spec (zlen (data (w asset))) (new_end l x)) as [Q|Q].
    + destruct (resize_data _ _ _ _ _ _ _ _ _ Hm) as [D _]. rewrite D. unfold realloc_bytes. replace (new_end l x <=? zlen (data (w asset))) with false by lia. rewrite zlen_app, zlen_zeros by lia. lia.
    + apply Ok_inj in Hm. subst wm. lia.
Qed.

Lemma alloc_all_grow e infos w0 asset payer sysp hd : env_ok e -> rent_mono e -> e_prog e <> pk_zero -> writable infos asset -> signed infos asset -> s_disc hd = x00 ->
  forall xs w l n, open_account (data (w asset)) hd l n -> data (w asset) <> [] -> acct_owner (w asset) = e_prog e -> sized w -> zlen (data (w0 asset)) <= zlen (data (w asset)) ->
  Forall ext_arg xs -> Forall (fun x => x_length x = zlen (given x)) xs ->
  goes (allocate_all e (passed infos) w0 w asset payer sysp xs) <->
  Forall (fun x => lookup (x_type x) (ext_list l) = None) xs /\ NoDup (map x_type xs) /\
  (zlen (data (w asset)) < 168 + sect_size l + sect_size (inline_blks xs) -> growable e infos w0 w asset payer sysp (168 + sect_size l + sect_size (inline_blks xs))).
Proof.
  intros He HM Hz Hw Hsg Hd0. induction xs as [|x xs IH]; intros w l n HO NE Ho Hs H0 HF HC.
  - cbn [allocate_all map inline_blks sect_size]. split; [intros _|intros _; apply goes_ok]. split; [constructor|]. split; [constructor|]. intro Q. exfalso.
    destruct HO as [[E _]|[_ HL]]; [contradiction|]. pose proof (layout_len _ _ _ _ HL) as LL. pose proof (zlen_nonneg (repeat x00 (Z.to_nat n))). lia.
  - apply Forall_cons_iff in HF as [Hx HF]. apply Forall_cons_iff in HC as [Cx HC]. cbn [allocate_all inline_blks map sect_size] in *. fold (inline_blks xs) in *.
    assert (HL : layout (data (w asset)) hd l (repeat x00 (Z.to_nat n))) by (destruct HO as [[Q _]|[_ Q]]; [contradiction|exact Q]).
    pose proof (sect_size_nonneg (inline_blks xs)) as Sn.
    pose proof (layout_len _ _ _ _ HL) as Z0. rewrite zlen_repeat in Z0.
    assert (D0 : s_disc (data (w asset)) = x00) by (destruct (hd_fields _ _ _ _ HL) as [Q _]; congruence).
    pose proof (blk_size_pos (blk_of (x_type x) (given x))) as Bp. pose proof (sect_size_nonneg l) as Ln.
    set (F := 168 + sect_size l + (blk_size (blk_of (x_type x) (given x)) + sect_size (inline_blks xs))) in *.
    assert (EN : new_end l x = 168 + sect_size l + blk_size (blk_of (x_type x) (given x))).
    { unfold new_end. replace (x_length x =? zlen (given x)) with true by lia. rewrite blk_of_size, Cx. unfold pad8. lia. }
    assert (NF : new_end l x <= F) by (unfold F; lia).
    assert (OU : ours e infos w asset) by (split; assumption).
    pose proof (do_alloc_goes e infos w0 w asset payer sysp x hd l n HO Hs Hw Hx) as DG.
    replace (zlen (data (w asset)) =? 0) with false in DG by lia. replace (x_length x =? zlen (given x)) with true in DG by lia. cbn [negb andb] in DG. rewrite orb_false_r in DG.
    assert (NXT : forall w1, do_allocate e (passed infos) w0 w asset payer sysp x = Ok w1 ->
       goes (allocate_all e (passed infos) w0 w1 asset payer sysp xs) <-> Forall (fun y => lookup (x_type y) (ext_list l) = None) xs /\ NoDup (x_type x :: map x_type xs) /\
         (zlen (data (w asset)) < F -> growable e infos w0 w asset payer sysp F)).
    { intros w1 H1. pose proof (alloc_step e infos w0 w asset payer sysp x w1 hd l n HO NE Hs Hw Hx Cx H1) as (wm & Hm & Hy & Hlen). destruct Hx as (X1 & X2 & X3).
      assert (Hs1 : sized w1) by (eapply psteps_sized; [eapply do_allocate_psteps; eauto|assumption]).
      pose proof H1 as D. eapply do_allocate_effect in D; [|exact HO|apply Hs|exact X1|unfold u32_max; lia|unfold two32; lia].
      destruct D as (_ & _ & _ & D4 & _ & _ & _ & D8). destruct (D4 Cx) as (_ & O1 & _). destruct (D8 NE) as (Ow1 & _ & _).
      assert (NE1 : data (w1 asset) <> []).
      { intro E0. rewrite E0 in Hlen. change (zlen []) with 0 in Hlen. lia. }
      rewrite (IH w1 _ _ O1 NE1 Ow1 Hs1 ltac:(lia) HF HC).
      assert (SZ : sect_size (l ++ [blk_of (x_type x) (given x)]) = sect_size l + blk_size (blk_of (x_type x) (given x))).
      { clear. induction l as [|b l IH]; cbn [app sect_size]; [lia|]. rewrite IH. lia. }
      rewrite SZ. replace (168 + (sect_size l + blk_size (blk_of (x_type x) (given x))) + sect_size (inline_blks xs)) with F by (unfold F; lia).
      assert (GG : (zlen (data (w1 asset)) < F -> growable e infos w0 w1 asset payer sysp F) <-> (zlen (data (w asset)) < F -> growable e infos w0 w asset payer sysp F)).
      { assert (OZ : acct_owner (wm asset) <> pk_zero) by (destruct (Hy asset) as (_ & Q & _); congruence).
        rewrite <- (growable_ext e infos w0 wm w1 asset payer sysp F OZ Hy).
        destruct (Z.ltb_spec (zlen (data (w asset))) (new_end l x)) as [Q|Q].
        - rewrite (grow_split e infos w0 w asset payer sysp (new_end l x) wm F HM OU Hz ltac:(lia) NF Hs Hm). rewrite Hlen, Z.max_r by lia. split; [intros G _; exact G|]. intros G C. apply G; lia.
        - subst wm. rewrite Hlen, Z.max_l by lia. tauto. }
      rewrite GG. rewrite NoDup_cons_iff, !Forall_forall. split.
      - intros (Q1 & Q2 & Q4). split; [intros y Hy'; specialize (Q1 y Hy'); apply lookup_snoc in Q1 as [Q1 _]; exact Q1|]. split; [|exact Q4]. split; [|exact Q2]. intro Q. apply in_map_iff in Q as (y & Ey & Hy'). specialize (Q1 y Hy'). apply lookup_snoc in Q1 as [_ Q1]. now apply Q1.
      - intros (Q1 & (Q2 & Q3) & Q4). split; [|split; [exact Q3|exact Q4]]. intros y Hy'. apply lookup_snoc. split; [now apply Q1|]. cbn [blk_of bk_type]. intro Q. apply Q2. rewrite <- Q. now apply in_map. }
    rewrite goes_bind, Forall_cons_iff. split.
    + intros (w1 & H1 & H). apply (NXT w1 H1) in H as (Q1 & Q2 & Q3). split; [|split; [exact Q2|exact Q3]]. split; [|exact Q1]. assert (G : goes (do_allocate e (passed infos) w0 w asset payer sysp x)) by (now exists w1). apply DG in G. tauto.
    + intros ((Q0 & Q1) & Q2 & Q3).
      assert (G : goes (do_allocate e (passed infos) w0 w asset payer sysp x)).
      { apply DG. split; [exact Hsg|]. split; [auto|]. split; [exact Q0|]. split; [lia|]. destruct (Z.ltb_spec (zlen (data (w asset))) (new_end l x)) as [Q|Q]; [|apply goes_ok].
        apply grow_goes0; [assumption|assumption|lia|assumption|]. destruct (Q3 ltac:(lia)) as (A & B & C). pose proof (zlen_nonneg (data (w0 asset))). pose proof (HM (new_end l x) F ltac:(lia)) as MF. split; [lia|]. split; [lia|]. intro L. destruct (C ltac:(lia)) as (C1 & C2 & p & Ep & C3 & C4 & C5 & C6 & C7).
        split; [lia|]. split; [exact C2|]. exists p. split; [exact Ep|]. repeat (split; [assumption|]). lia. }
      destruct G as [w1 H1]. exists w1. split; [exact H1|]. apply (NXT w1 H1). auto.
Qed.

Lemma create_grow e infos w m asset auth owner og oga payer sysp hd l n lg :
  arg infos 0 asset -> arg infos 1 auth -> arg infos 2 owner -> optional e infos 3 og -> optional e infos 4 oga -> optional e infos 5 payer -> optional e infos 6 sysp ->
  open_account (data (w asset)) hd l n -> Forall ext_arg (inline m) ->
  (forall g, og = Some g -> writable infos g /\ (acct_owner (w g) = e_prog e -> initialized (data (w g)) -> well_formed (data (w g)) lg /\ grouping_sane lg)) ->
  writable infos asset -> plain_accounts e infos w -> sized w -> env_ok e -> rent_mono e -> e_prog e <> pk_zero ->
  (exists w', process e infos w (ICreate m) = Ok w') <->
  signed infos asset /\
  (data (w asset) = [] -> can_open e infos w asset payer sysp (168 + sect_size (inline_blks (inline m)))) /\
  (data (w asset) <> [] -> acct_owner (w asset) = e_prog e /\ s_disc (data (w asset)) = x00) /\
  (data (w asset) <> [] -> zlen (data (w asset)) < 168 + sect_size l + sect_size (inline_blks (inline m)) -> can_grow e infos w asset payer sysp (168 + sect_size l + sect_size (inline_blks (inline m)))) /\
  Forall (fun x => zlen (given x) = x_length x) (inline m) /\
  Forall (fun x => lookup (x_type x) (ext_list l) = None) (inline m) /\ NoDup (map x_type (inline m)) /\
  Forall (fun b => acceptable (bk_type b) (bk_data b)) (l ++ inline_blks (inline m)) /\
  standard_ok e (m_standard m) asset (l ++ inline_blks (inline m)) /\
  forall g, og = Some g -> may_join e infos w asset g (match oga with Some a => a | None => auth end) lg (s_group hd) (pk_bytes auth).
Proof.
  intros A0 A1 A2 O3 O4 O5 O6 HO HF Hg Hw Hp Hs He HM Hz.
  assert (G : signed infos asset -> _) by exact (signed_gate e infos w asset (ICreate m) A0 Hp eq_refl).
  assert (CE : (exists w', process e infos w (ICreate m) = Ok w') -> signed infos asset /\ Forall (fun x => x_length x = zlen (given x)) (inline m)).
  { intros [w' H]. destruct (create_effect e infos w m w' asset hd l n He Hz A0 HO Hs HF H) as (a1 & o1 & l1 & h1 & _ & _ & S & _ & _ & C & _). auto. }
  assert (MAIN : signed infos asset -> Forall (fun x => x_length x = zlen (given x)) (inline m) ->
    (exists w', process e infos w (ICreate m) = Ok w') <->
    (data (w asset) = [] -> can_open e infos w asset payer sysp (168 + sect_size (inline_blks (inline m)))) /\
    (data (w asset) <> [] -> acct_owner (w asset) = e_prog e /\ s_disc (data (w asset)) = x00) /\
  (data (w asset) <> [] -> zlen (data (w asset)) < 168 + sect_size l + sect_size (inline_blks (inline m)) -> can_grow e infos w asset payer sysp (168 + sect_size l + sect_size (inline_blks (inline m)))) /\
    Forall (fun x => lookup (x_type x) (ext_list l) = None) (inline m) /\ NoDup (map x_type (inline m)) /\
    Forall (fun b => acceptable (bk_type b) (bk_data b)) (l ++ inline_blks (inline m)) /\
    standard_ok e (m_standard m) asset (l ++ inline_blks (inline m)) /\
    forall g, og = Some g -> may_join e infos w asset g (match oga with Some a => a | None => auth end) lg (s_group hd) (pk_bytes auth)).
  { intros Hsg HC. rewrite (G Hsg). cbn [dispatch]. unfold process_create. rewrite (optional_acct _ _ _ _ O3), (optional_acct _ _ _ _ O4), (optional_acct _ _ _ _ O5), (optional_acct _ _ _ _ O6). args. cbn [bind].
    pose proof Hsg as Hsg'. apply signer_spec in Hsg'. rewrite Hsg'. cbn [require].
    assert (Esp : create_space (m_exts m) = 168 + sect_size (inline_blks (inline m))) by (rewrite create_space_inline, sum_sect by assumption; reflexivity).
    rewrite Esp. set (S := sect_size (inline_blks (inline m))) in *. assert (S0 : 0 <= S) by apply sect_size_nonneg.
    match goal with |- goes ?t <-> _ => change t with (w1 <- (if zlen (data (w asset)) =? 0 then
             alloc_create_account e (passed infos) w asset payer sysp (168 + S)
           else
             require (owned_by_prog e w asset) EIllegalOwner
              (require (ASSET_LEN <=? zlen (data (w asset))) EInvalidAccountLength
               (require (beqb (byte_at (data (w asset)) 0) DISC_UNINIT) EAlreadyInitialized (Ok w)))) ;;
      w2 <- (match m_exts m with
           | None => Ok w1
           | Some l => allocate_all e (passed infos) w w1 asset payer sysp (swap_order l)
           end) ;; create_rest e (passed infos) w2 m asset auth owner og oga) end.
    rewrite goes_bind.
    assert (FIRST : goes (if zlen (data (w asset)) =? 0 then
             alloc_create_account e (passed infos) w asset payer sysp (168 + S)
           else
             require (owned_by_prog e w asset) EIllegalOwner
              (require (ASSET_LEN <=? zlen (data (w asset))) EInvalidAccountLength
               (require (beqb (byte_at (data (w asset)) 0) DISC_UNINIT) EAlreadyInitialized (Ok w)))) <->
         (data (w asset) = [] -> can_open e infos w asset payer sysp (168 + S)) /\
         (data (w asset) <> [] -> acct_owner (w asset) = e_prog e /\ s_disc (data (w asset)) = x00)).
    { destruct (Z.eqb_spec (zlen (data (w asset))) 0) as [Q|Q].
      - apply zlen_0 in Q. rewrite (open_goes e infos w asset payer sysp _ Q Hw Hsg He Hz). tauto.
      - assert (NE : data (w asset) <> []) by (intro E0; rewrite E0 in Q; now elim Q). rewrite !goes_require, owned_spec, beqb_eq. change (byte_at (data (w asset)) 0) with (s_disc (data (w asset))).
        assert (ZL : ASSET_LEN <=? zlen (data (w asset)) = true).
        { destruct HO as [[E0 _]|[_ HL]]; [contradiction|]. apply layout_len in HL. pose proof (sect_size_nonneg l). pose proof (zlen_nonneg (repeat x00 (Z.to_nat n))). unfold ASSET_LEN. lia. }
        rewrite ZL. unfold DISC_UNINIT. split; [tauto|]. intros [_ Q2]. destruct (Q2 NE). repeat (split; [assumption || reflexivity|]). apply goes_ok. }
    assert (NEXT : forall w1, (if zlen (data (w asset)) =? 0 then
             alloc_create_account e (passed infos) w asset payer sysp (168 + S)
           else
             require (owned_by_prog e w asset) EIllegalOwner
              (require (ASSET_LEN <=? zlen (data (w asset))) EInvalidAccountLength
               (require (beqb (byte_at (data (w asset)) 0) DISC_UNINIT) EAlreadyInitialized (Ok w)))) = Ok w1 ->
        goes (w2 <- (match m_exts m with
           | None => Ok w1
           | Some l => allocate_all e (passed infos) w w1 asset payer sysp (swap_order l)
           end) ;; create_rest e (passed infos) w2 m asset auth owner og oga) <->
        (data (w asset) <> [] -> zlen (data (w asset)) < 168 + sect_size l + S -> can_grow e infos w asset payer sysp (168 + sect_size l + S)) /\
        Forall (fun x => lookup (x_type x) (ext_list l) = None) (inline m) /\ NoDup (map x_type (inline m)) /\
        Forall (fun b => acceptable (bk_type b) (bk_data b)) (l ++ inline_blks (inline m)) /\
        standard_ok e (m_standard m) asset (l ++ inline_blks (inline m)) /\
        forall g, og = Some g -> may_join e infos w asset g (match oga with Some a => a | None => auth end) lg (s_group hd) (pk_bytes auth)).
    { intros w1 H1.
      assert (W1 : exists n1, open_account (data (w1 asset)) hd l n1 /\ data (w1 asset) <> [] /\ acct_owner (w1 asset) = e_prog e /\ sized w1 /\ zlen (data (w asset)) <= zlen (data (w1 asset)) /\
 ((data (w asset) <> [] -> zlen (data (w asset)) < 168 + sect_size l + S -> can_grow e infos w asset payer sysp (168 + sect_size l + S)) <-> (zlen (data (w1 asset)) < 168 + sect_size l + S -> growable e infos w w1 asset payer sysp (168 + sect_size l + S))) /\ s_disc hd = x00 /\
               (forall k, k <> asset -> data (w1 k) = data (w k) /\ acct_owner (w1 k) = acct_owner (w k))).
      { destruct (Z.eqb_spec (zlen (data (w asset))) 0) as [E|E].
        - apply zlen_0 in E. destruct HO as [(_ & -> & -> & ->)|[_ HL]]; [|apply layout_len in HL; rewrite E in HL; change (zlen []) with 0 in HL; pose proof (sect_size_nonneg l); pose proof (zlen_nonneg (repeat x00 (Z.to_nat n))); lia].
          assert (Hs1 : sized w1) by (eapply psteps_sized; [eapply alloc_create_psteps; eauto|assumption]).
          unfold alloc_create_account in H1. apply bind_ok in H1 as (pp & _ & H1). apply require_ok in H1 as [_ H1].
          apply bind_ok in H1 as (ss & _ & H1). apply require_ok in H1 as [_ H1].
          apply sys_create_world in H1 as (D1 & D2 & D3 & D4 & _). exists S. rewrite D1.
          split. { right. split; [lia|]. split; [|split; [reflexivity|split; [constructor|split; [apply (tail_zeros S)|]]]].
               - cbn [enc_sect app]. change (repeat x00 168) with (zeros 168). change (repeat x00 (Z.to_nat S)) with (zeros S).
                 rewrite zeros_app by lia. reflexivity.
               - rewrite zlen_zeros; lia. }
          split. { intro Q. apply (f_equal zlen) in Q. rewrite zlen_zeros in Q by lia. change (zlen []) with 0 in Q. lia. }
          split; [exact D3|]. split; [exact Hs1|]. split; [rewrite E; apply zlen_nonneg|]. split; [|split; [reflexivity|exact D2]]. rewrite zlen_zeros by lia. cbn [sect_size]. split; [intros _ Q; lia|intros _ Q; contradiction].
        - apply require_ok in H1 as [Q1 H1]. apply require_ok in H1 as [Q2 H1]. apply require_ok in H1 as [Q3 H1]. apply Ok_inj in H1. subst w1.
          assert (NE : data (w asset) <> []) by (intro E0; rewrite E0 in E; now elim E). exists n. split; [exact HO|]. split; [exact NE|]. apply owned_spec in Q1. split; [exact Q1|]. split; [exact Hs|].
          split; [lia|]. split; [split; [intros Q; exact (Q NE)|intros Q _; exact Q]|]. destruct HO as [[E0 _]|[_ HL]]; [contradiction|]. destruct (hd_fields _ _ _ _ HL) as [Q4 _]. split; [|auto]. rewrite <- Q4. apply beqb_eq in Q3. exact Q3. }
      destruct W1 as (n1 & O1 & NE1 & Ow1 & S1 & R0 & R1 & D1 & F1).
      pose proof (alloc_all_grow e infos w asset payer sysp hd He HM Hz Hw Hsg D1 (inline m) w1 l n1 O1 NE1 Ow1 S1 R0 HF HC) as AG. fold S in AG. rewrite <- R1 in AG.
      assert (EA : (match m_exts m with None => Ok w1 | Some l => allocate_all e (passed infos) w w1 asset payer sysp (swap_order l) end) = allocate_all e (passed infos) w w1 asset payer sysp (inline m)).
      { unfold inline. destruct (m_exts m); reflexivity. }
      rewrite EA. rewrite goes_bind.
      assert (R2 : forall w2, allocate_all e (passed infos) w w1 asset payer sysp (inline m) = Ok w2 ->
          goes (create_rest e (passed infos) w2 m asset auth owner og oga) <->
          Forall (fun b => acceptable (bk_type b) (bk_data b)) (l ++ inline_blks (inline m)) /\
          standard_ok e (m_standard m) asset (l ++ inline_blks (inline m)) /\
          forall g, og = Some g -> may_join e infos w asset g (match oga with Some a => a | None => auth end) lg (s_group hd) (pk_bytes auth)).
      { intros w2 H2. destruct (allocate_all_effect e He Hz _ _ _ _ _ hd _ _ _ _ _ O1 S1 HF H2) as (G1 & G2 & G3 & G4).
        assert (O2 : open_account (data (w2 asset)) hd (l ++ inline_blks (inline m)) (room_left n1 (inline m))).
        { exact (alloc_all_open e _ w asset payer sysp hd w2 He Hz (inline m) w1 l n1 O1 S1 HF HC H2). }
        assert (L2 : layout (data (w2 asset)) hd (l ++ inline_blks (inline m)) (repeat x00 (Z.to_nat (room_left n1 (inline m))))).
        { destruct O2 as [(E & _ & E2 & _)|[_ O2]]; [|exact O2]. exfalso.
          assert (E3 : inline m = []) by (apply app_eq_nil in E2 as [_ E2]; unfold inline_blks in E2; now apply map_eq_nil in E2).
          rewrite E3 in H2. cbn [allocate_all] in H2. apply Ok_inj in H2. now subst w2. }
        rewrite (rest_goes e infos w2 m asset auth owner og oga hd _ _ lg L2); [|split; [now apply G3|exact Hw]|exact G2|].
        - assert (J : forall g, may_join e infos w2 asset g (match oga with Some a => a | None => auth end) lg (s_group hd) (pk_bytes auth) <-> may_join e infos w asset g (match oga with Some a => a | None => auth end) lg (s_group hd) (pk_bytes auth)).
          { intro g. unfold may_join. destruct (pk_dec g asset) as [->|N]; [tauto|]. destruct (G1 g N) as [-> ->], (F1 g N) as [-> ->]. tauto. }
          split; intros (Q1 & Q2 & Q3); (split; [exact Q1|]; split; [exact Q2|]); intros g Eg; apply J; now apply Q3.
        - intros g Eg. destruct (Hg g Eg) as [Wg Hgw]. split; [exact Wg|]. intros Og Ig N. destruct (G1 g N) as [E1 E2], (F1 g N) as [E3 E4]. rewrite E1, E3 in *. apply Hgw; congruence. }
      split.
      - intros (w2 & H2 & H). apply (R2 w2 H2) in H. assert (Q : goes (allocate_all e (passed infos) w w1 asset payer sysp (inline m))) by (now exists w2). apply AG in Q. tauto.
      - intros (Q0 & Q1 & Q2 & H). assert (Q : goes (allocate_all e (passed infos) w w1 asset payer sysp (inline m))) by (apply AG; auto). destruct Q as [w2 H2]. exists w2. split; [exact H2|]. now apply (R2 w2 H2). }
    split.
    - intros (w1 & H1 & H). apply (NEXT w1 H1) in H. assert (Q : (data (w asset) = [] -> can_open e infos w asset payer sysp (168 + S)) /\
         (data (w asset) <> [] -> acct_owner (w asset) = e_prog e /\ s_disc (data (w asset)) = x00)) by (apply FIRST; now exists w1). tauto.
    - intros (Q1 & Q2 & H). destruct (proj2 FIRST (conj Q1 Q2)) as [w1 H1]. exists w1. split; [exact H1|]. now apply (NEXT w1 H1). }
  assert (SYM : Forall (fun x => x_length x = zlen (given x)) (inline m) <-> Forall (fun x => zlen (given x) = x_length x) (inline m)) by (split; apply Forall_impl; auto).
  split.
  - intro H. destruct (CE H) as [Hsg HC]. apply (MAIN Hsg HC) in H. apply SYM in HC. tauto.
  - intros (Hsg & Q1 & Q2 & Q3 & HC & Q). apply SYM in HC. apply (MAIN Hsg HC). tauto.
Qed.

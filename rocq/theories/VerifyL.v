(** Verified creators (C32, C35). *)
From Verif Require Import Base State Layout Constr Ext World Proc BaseL Spec SpecB SpecH SpecG WorldL ProcSteps FrameL LayoutL LayoutE HeadL CreatorsL AuthL AuthM AllocL LayoutM GroupL CreateL BuildL UpdateM StepL StepH TheftL CountL.
From Coq Require Import Strings.Byte.

Lemma flag_of_some n : forall b a f, flag_of n b a = Some f -> exists i, (i < n)%nat /\ cr_addr_at b i = a /\ cr_flag_at b i = f.
Proof.
  induction n as [|n IH]; intros b a f H; cbn [flag_of] in H; [discriminate|].
  destruct (flag_of n b a) as [f'|] eqn:E.
  - destruct (IH _ _ _ E) as (i & Hi & Q). exists i. split; [lia|]. assert (f' = f) as <- by congruence. exact Q.
  - destruct (list_eq_dec Byte.byte_eq_dec (cr_addr_at b n) a) as [Q|]; [|discriminate]. exists n. split; [lia|]. split; [assumption|congruence].
Qed.
Lemma count_of (b b' : bytes) : length b' = length b -> cr_count b' = cr_count b.
Proof. unfold cr_count. now intros ->. Qed.
Lemma fresh_verified auth b b' c : fresh_payload XCreators auth b b' -> verified_in b' c -> auth = Some c.
Proof.
  intros (Hn & _ & Hf) (i & Hi & Ha & Hv). rewrite (count_of _ _ Hn) in Hi. destruct (Hf eq_refl i Hi) as (F1 & _ & _ & F2).
  rewrite F1 in Ha. destruct auth as [x|].
  - destruct (list_eq_dec Byte.byte_eq_dec x c) as [->|N]; [reflexivity|]. elim Hv. apply F2. congruence.
  - elim Hv. apply F2. discriminate.
Qed.
Lemma stored_verified auth cur b b' c : stored XCreators auth cur b b' -> verified_in b' c ->
  (exists b0, cur = Some b0 /\ verified_in b0 c) \/ auth = c.
Proof.
  destruct cur as [b0|]; cbn [stored].
  - intros ((Hn & _ & _ & _ & Hf & _) & _) (i & Hi & Ha & Hv). rewrite (count_of _ _ Hn) in Hi. destruct (Hf eq_refl i Hi) as (F1 & _ & F2).
    rewrite F1 in Ha. rewrite Ha in F2. destruct (flag_of (cr_count b0) b0 c) as [f|] eqn:E.
    + left. exists b0. split; [reflexivity|]. apply flag_of_some in E as (j & Hj & J1 & J2). exists j. split; [assumption|]. split; [assumption|]. congruence.
    + right. destruct F2 as [_ F2]. destruct (list_eq_dec Byte.byte_eq_dec auth c) as [Q|N]; [assumption|]. elim Hv. now apply F2.
  - intros (_ & _ & Hf & _) V. right. apply fresh_verified with (c := c) in Hf; [congruence|assumption].
Qed.

Lemma creators_step e w w' i k infos l l' c : no_buffer k e infos i -> ext_step e w w' i k infos (ext_list l) (ext_list l') ->
  has_verified l' c -> has_verified l c \/ vouches infos w i k c.
Proof.
  unfold has_verified. intros NB [K|[(A0 & a & auth & bf & t & b & Ei & Sa & Aa & _ & Hbf & Ht & EL & Src)|(A0 & x & EL & -> & Hno & _)]] (b' & Lb & V).
  - destruct K as [E|b n HC Hk Hb E|v cr b b1 Ei A0 A1 Sc Hk Hf E]; rewrite E in Lb.
    + eauto.
    + rewrite lookup_replaced_other in Lb by discriminate. eauto.
    + rewrite (lookup_replaced_same _ _ _ _ Hk) in Lb. assert (b1 = b') as -> by congruence. clear Lb.
      destruct Hf as (Hn & Hl & _ & Hf). destruct V as (j & Hj & Ja & Jv). rewrite (count_of _ _ Hn) in Hj.
      destruct (Hf j Hj) as (F1 & _ & F2 & F3). rewrite F1 in Ja.
      destruct (list_eq_dec Byte.byte_eq_dec (cr_addr_at b j) (pk_bytes cr)) as [Q|N].
      * right. split; [assumption|]. exists cr. split; [assumption|]. split; [congruence|]. left. split; [|assumption].
        destruct v; [assumption|]. elim Jv. rewrite (F2 Q). reflexivity.
      * left. exists b. split; [assumption|]. exists j. split; [assumption|]. split; [assumption|]. now rewrite <- (F3 N).
  - destruct Hbf as [[-> _]|(bk & _ & A2' & N)]; [|elim N; exact (arg_det _ _ _ _ A2' (NB _ Ei A0))].
    cbn [source_spec] in Src. destruct Src as (x0 & Ex & Et & _ & S1 & S2 & _). rewrite EL in Lb.
    destruct (ext_type_eqb XCreators t) eqn:Q.
    + apply ext_type_eqb_eq in Q. rewrite <- Q in *. rewrite lookup_put_same in Lb. assert (b = b') as -> by congruence.
      destruct (x_data x0) as [bs|].
      * destruct (stored_verified _ _ _ _ _ (S1 bs eq_refl) V) as [(b0 & B1 & B2)|Q2]; [left; eauto|right].
        split; [assumption|]. exists auth. split; [assumption|]. split; [congruence|]. right. exists a. split; [assumption|congruence].
      * rewrite (S2 eq_refl) in V. destruct V as (j & Hj & _). cbn in Hj. lia.
    + rewrite lookup_put_other in Lb; [eauto|]. intros <-. rewrite ext_type_eqb_refl in Q. discriminate.
  - left. exists b'. split; [|assumption]. rewrite EL. destruct (ext_type_eqb XCreators (fst x)) eqn:Q.
    + apply ext_type_eqb_eq in Q. rewrite <- Q in Hno. congruence.
    + rewrite lookup_app_none; [assumption|]. intros Q'. rewrite Q' in Q. discriminate.
Qed.

Lemma verified_step e infos w i w' k l c : env_ok e -> e_prog e <> pk_zero -> sized w -> lam_ok w -> careful k e infos w i -> no_buffer k e infos i ->
  asset_of (e_prog e) w k -> tidy (data (w k)) l -> process e infos w i = Ok w' ->
  burns infos i k \/ exists l', tidy (data (w' k)) l' /\ (has_verified l' c -> has_verified l c \/ vouches infos w i k c).
Proof.
  intros He Hp Hs Hl Hc Hb [Ho Hi] HT H.
  destruct (tidy_step e infos w i w' k l He Hp Hs Hl Hc Ho Hi HT H) as [[B _]|(_ & _ & _ & l' & T' & X)]; [auto|right].
  exists l'. split; [assumption|]. eapply creators_step; eauto.
Qed.

Lemma has_verified_det d l l2 c : tidy d l -> tidy d l2 -> has_verified l c -> has_verified l2 c.
Proof. intros T T2 (b & L & V). exists b. split; [|assumption]. rewrite <- L. symmetry. eapply tidy_lookup; eauto. discriminate. Qed.

Lemma verified_history p w w' k l l' c : p <> pk_zero ->
  history_of (fun e infos w i => ~ burns infos i k /\ careful k e infos w i /\ no_buffer k e infos i) p w w' ->
  sized w -> lam_ok w -> asset_of p w k -> tidy (data (w k)) l -> tidy (data (w' k)) l' ->
  has_verified l' c -> has_verified l c \/
    vouched (fun e infos w i => ~ burns infos i k /\ careful k e infos w i /\ no_buffer k e infos i) p w w' k c.
Proof.
  set (P := fun (e : env) (infos : list ainfo) (w : world) (i : instr) => ~ burns infos i k /\ careful k e infos w i /\ no_buffer k e infos i).
  intros Hp H Hs Hl A T T' V.
  assert (G : forall w1, history_of P p w w1 -> sized w1 /\ lam_ok w1 /\ asset_of p w1 k /\ exists l1, tidy (data (w1 k)) l1 /\ (has_verified l1 c -> has_verified l c \/ vouched P p w w1 k c)).
  { clear w' H l' T' V. intros w1 H1. induction H1 as [w|w w1 e infos i w2 H1 IH E He HPi HI|w w1 w2 H1 IH HO].
    - split; [assumption|]. split; [assumption|]. split; [assumption|]. exists l. auto.
    - destruct (IH Hs Hl A T) as (Hs1 & Hl1 & A1 & l1 & T1 & V1). clear IH. subst p. pose proof HPi as (Nb & Hc & Hn).
      destruct A1 as [Ho Hi].
      destruct (tidy_step e infos w1 i w2 k l1 He Hp Hs1 Hl1 Hc Ho Hi T1 HI) as [[B _]|(Ho2 & Hi2 & _ & l2 & T2 & X)]; [contradiction|].
      split; [eapply sized_preserved; eauto|]. split; [eapply lam_ok_preserved; eauto|]. split; [split; assumption|].
      exists l2. split; [assumption|]. intro V2. destruct (creators_step _ _ _ _ _ _ _ _ c Hn X V2) as [V0|W].
      + destruct (V1 V0) as [Q|(v1 & e' & infos' & i' & v2 & J1 & J2 & J3 & J4 & J5 & J6 & J7)]; [auto|right].
        exists v1, e', infos', i', v2. repeat (split; [assumption|]). split; [|assumption].
        exact (hof_instr _ _ _ w1 e infos i w2 J6 eq_refl He HPi HI).
      + right. exists w1, e, infos, i, w2. repeat (split; [assumption || reflexivity|]). split; [apply hof_refl|assumption].
    - destruct (IH Hs Hl A T) as (Hs1 & Hl1 & A1 & l1 & T1 & V1). clear IH. pose proof HO as (O1 & _ & O3 & O4).
      destruct A1 as [Ho Hi]. destruct (O1 k Ho) as [Ho2 D]. split; [assumption|]. split; [assumption|]. split; [split; [assumption|now rewrite D]|].
      exists l1. rewrite D. split; [assumption|]. intro V0. destruct (V1 V0) as [Q|(v1 & e' & infos' & i' & v2 & J1 & J2 & J3 & J4 & J5 & J6 & J7)]; [auto|right].
      exists v1, e', infos', i', v2. repeat (split; [assumption|]). split; [|assumption].
      exact (hof_outside _ _ _ w1 w2 J6 HO). }
  destruct (G w' H) as (_ & _ & _ & l1 & T1 & V1). apply V1. exact (has_verified_det _ _ _ _ T' T1 V).
Qed.

(** ** Verify and Unverify *)
Lemma verify_effect (v : bool) e infos w w' : process e infos w (if v then IVerify else IUnverify) = Ok w' ->
  exists asset cr off b b', arg infos 0 asset /\ arg infos 1 cr /\ signed infos cr /\ asset_of (e_prog e) w asset /\
    has_ext (data (w asset)) XCreators off b /\ set_flags v (pk_bytes cr) b b' /\
    data (w' asset) = put (data (w asset)) off b' /\
    (forall k, k <> asset -> w' k = w k) /\ (forall k, lamports (w' k) = lamports (w k) /\ acct_owner (w' k) = acct_owner (w k)).
Proof.
  intro H. apply process_dispatch in H.
  assert (H' : process_set_verified v e (firstn MAX_ACCOUNTS infos) w = Ok w') by (destruct v; exact H). clear H. rename H' into H.
  unfold process_set_verified in H. apply bind_ok in H as (asset & A0 & H). apply bind_ok in H as (cr & A1 & H).
  apply require_ok in H as [S1 H]. apply require_ok in H as [O1 H]. cbv zeta in H. apply require_ok in H as [I1 H].
  apply bind_ok in H as (r & Hr & H). destruct r as [[off b]|]; [|discriminate]. apply bind_ok in H as (l & Hb & H).
  apply require_ok in H as [Hex H]. apply acct_arg in A0, A1. apply signed_acct in S1. apply asset_get_some in Hr.
  pose (f := fun c => if key_is (cr_addr c) cr then bool_byte v else cr_verified c).
  assert (Em : map (fun c => if key_is (cr_addr c) cr then mkCreator (cr_addr c) (bool_byte v) (cr_share c) else c) l = reflag f l).
  { unfold reflag, f. apply map_ext. intros [ca cv cs]. cbn [cr_addr cr_verified cr_share]. destruct (key_is ca cr); reflexivity. }
  rewrite Em in H. destruct (reflag_bytes f _ _ Hb) as (R1 & R2 & _).
  exists asset, cr, off, b, (enc_creators (reflag f l)). split; [assumption|]. split; [assumption|]. split; [assumption|].
  split; [split; [now apply pk_eqb_eq|now apply is_asset_spec]|]. split; [assumption|]. split.
  { apply from_bytes_ok in Hb as (B1 & -> & B3 & B4).
    split; [assumption|]. split; [assumption|]. split.
    - apply existsb_exists in Hex as (c & Hin & Hk). apply In_nth_error in Hin as [i Hi'].
      assert (Hlt : (i < cr_count b)%nat) by (rewrite <- B4; apply nth_error_Some; congruence).
      exists i. split; [assumption|]. rewrite dec_nth in Hi' by assumption. apply key_is_spec in Hk. inversion Hi'. subst c. exact Hk.
    - intros i Hlt. destruct (R2 i Hlt) as (Q1 & Q2 & Q3). split; [assumption|]. split; [assumption|].
      rewrite Q3. unfold f. cbn [cr_addr cr_verified]. split; intro Hc.
      + apply key_is_spec in Hc. now rewrite Hc.
      + apply key_is_false in Hc. now rewrite Hc. }
  split; [eapply set_data_data; eauto|]. split; [intros; eapply set_data_other; eauto|].
  intro k. split; [eapply set_data_lam; eauto|eapply set_data_owner; eauto].
Qed.

Section Exact.
Variables (v : bool) (e : env) (infos : list ainfo) (w : world) (asset cr : pubkey) (l : list blk).
Hypothesis A0 : arg infos 0 asset.
Hypothesis A1 : arg infos 1 cr.
Hypothesis Ho : acct_owner (w asset) = e_prog e.
Hypothesis Hi : initialized (data (w asset)).
Hypothesis Hwf : well_formed (data (w asset)) l.
Hypothesis Hw : writable infos asset.
Hypothesis Hp : plain_accounts e infos w.
Hypothesis Hsz : sized w.

Lemma verify_exact : (exists w', process e infos w (if v then IVerify else IUnverify) = Ok w') <->
  signed infos cr /\ (s_standard (data (w asset)) = x03 -> signed infos asset) /\
  exists b, lookup XCreators (ext_list l) = Some b /\ length b = (34 * cr_count b)%nat /\
    exists i, (i < cr_count b)%nat /\ cr_addr_at b i = pk_bytes cr.
Proof.
  split.
  - intros (w' & H). pose proof H as HD. apply verify_effect in HD as (a & c & off & b & b' & B0 & B1 & Sc & _ & HE & (F1 & F2 & F3 & _) & _).
    rewrite (arg_det _ _ _ _ B0 A0) in *. rewrite (arg_det _ _ _ _ B1 A1) in *. split; [assumption|].
    unfold process in H. apply bind_ok in H as (r & Hr & _). split; [exact (gate_proxied _ _ _ _ _ A0 Ho Hr)|].
    destruct Hwf as (hd & tl & HL). exists b. split; [|auto]. assert (NX : XCreators <> XNone) by discriminate. exact (has_ext_lookup _ _ _ _ _ _ _ HL NX HE).
  - intros (S1 & S4 & b & Lb & B1 & i & Hlt & Ha).
    destruct (gate_total e infos w asset A0 Ho Hi Hp S4) as (r & Hr & _).
    assert (X : exists w', process_set_verified v e (firstn MAX_ACCOUNTS infos) w = Ok w').
    { apply acct_arg in A0, A1. apply signed_acct in S1. apply writable_acct in Hw. unfold process_set_verified.
      change (acct (firstn MAX_ACCOUNTS infos) 0 = Ok asset) in A0. change (acct (firstn MAX_ACCOUNTS infos) 1 = Ok cr) in A1.
      rewrite A0, A1. cbn [bind]. unfold require at 1. change (is_signer (firstn MAX_ACCOUNTS infos) cr = true) in S1. rewrite S1.
      unfold owned_by_prog. rewrite Ho, pk_eqb_refl. unfold require at 1. apply is_asset_spec in Hi as Hi2. unfold require at 1. rewrite Hi2.
      assert (NX : XCreators <> XNone) by discriminate.
      destruct (get_wf _ _ _ Hwf NX) as [[Q _]|(off & b0 & Q & G & _)]; [congruence|]. rewrite G. cbn [bind]. assert (b0 = b) as -> by congruence.
      assert (C : creators_from_bytes b = Ok (dec_creators (cr_count b) b)).
      { rewrite <- (enc_dec (cr_count b) b B1) at 1. apply from_bytes_enc. apply dec_wf. lia. }
      rewrite C. cbn [bind]. unfold require at 1.
      replace (existsb (fun c => key_is (cr_addr c) cr) (dec_creators (cr_count b) b)) with true.
      2:{ symmetry. apply existsb_exists. eexists. split; [eapply nth_error_In; exact (dec_nth _ b i Hlt)|]. cbn [cr_addr]. now apply key_is_spec. }
      pose (f := fun c => if key_is (cr_addr c) cr then bool_byte v else cr_verified c).
      assert (Em : map (fun c => if key_is (cr_addr c) cr then mkCreator (cr_addr c) (bool_byte v) (cr_share c) else c) (dec_creators (cr_count b) b) = reflag f (dec_creators (cr_count b) b)).
      { unfold reflag, f. apply map_ext. intros [ca cv cs]. cbn [cr_addr cr_verified cr_share]. destruct (key_is ca cr); reflexivity. }
      rewrite Em. destruct (reflag_bytes f _ _ C) as (R1 & _).
      unfold set_data. destruct (bytes_eqb _ _); [eauto|]. change (is_writable (firstn MAX_ACCOUNTS infos) asset = true) in Hw. rewrite Hw, Ho, pk_eqb_refl.
      apply asset_get_some in G. pose proof (has_ext_range _ _ _ _ G) as [R2 R3].
      rewrite zlen_put by (unfold zlen in *; rewrite ?R1; lia). specialize (Hsz asset).
      replace (zlen (data (w asset)) <=? MAX_DATA) with true by (unfold MAX_DATA; lia). cbn. eauto. }
    destruct X as [w' X]. exists w'. unfold process. rewrite Hr. cbn [bind]. destruct v, r; exact X.
Qed.
End Exact.

(** flags at creation *)
Lemma created_verified e infos w m w' asset hd l n : env_ok e -> e_prog e <> pk_zero ->
  arg infos 0 asset -> open_account (data (w asset)) hd l n -> sized w -> Forall ext_arg (inline m) ->
  process e infos w (ICreate m) = Ok w' ->
  exists auth l', arg infos 1 auth /\ s_authority (data (w' asset)) = pk_bytes auth /\ well_formed (data (w' asset)) l' /\
    forall b c, In (XCreators, b) (ext_list l') -> verified_in b c -> c = pk_bytes auth.
Proof.
  intros He Hp A0 HO Hs HF H.
  destruct (create_effect _ _ _ _ _ _ _ _ _ He Hp A0 HO Hs HF H) as (auth & owner & l' & hd' & A1 & _ & _ & HL & HC & _ & _ & _ & _ & _ & _ & D5 & _).
  destruct (hd_fields _ _ _ _ HL) as (F1 & F2 & F3 & F4 & F5 & F6 & F7 & F8 & F9 & F10).
  exists auth, l'. split; [assumption|]. split; [congruence|]. split; [exists hd'; eexists; exact HL|].
  intros b c Hin V. apply in_map_iff in Hin as (k & Ek & Hin).
  assert (exists b0, created (pk_bytes auth) b0 k) as [b0 C].
  { clear - HC Hin. induction HC as [|x y xs ys Hxy _ IH]; [destruct Hin|]. destruct Hin as [<-|Hin]; eauto. }
  apply created_fresh in C as [C1 C2]. rewrite <- C1 in C2. replace (bk_type k) with XCreators in C2 by congruence. replace (bk_data k) with b in C2 by congruence.
  apply fresh_verified with (c := c) in C2; [congruence|assumption].
Qed.

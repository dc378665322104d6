(** Lemmas: stored payloads can be read; clients show the registry (C80). *)
From Verif Require Import Base State Layout Constr Ext World Proc Client Js Rs BaseL Spec SpecB SpecC SpecE SpecF SpecH SpecG SpecJ SpecR SpecS SpecView WorldL ProcSteps FrameL LayoutL LayoutE HeadL CreatorsL AuthL AuthM GroupL ResizeL UpdateL UpdateM AllocL AllocM AllocC CreateL BuildL RemoveL StepL StepH BornL ValidL AcceptL TheftL CountL CountM CountH RoyalL VerifyL ReadsL ExactL ExactM JsL JsM JsN JsO RsL TopL RegL RegM RegN RegO.
From Coq Require Import Strings.Byte.

(** ** What validation lets pass parses, whatever the alignment *)
Definition al_free (t : ext_type) : Prop := t <> XGrouping /\ t <> XRoyalties.
Lemma on_create_al t al al' auth b : al_free t -> on_create t al auth b = on_create t al' auth b.
Proof. intros [N1 N2]. destruct t; try reflexivity; congruence. Qed.
Lemma on_update_al t a1 a2 cur al al' b auth : al_free t -> on_update t a1 cur al b auth = on_update t a2 cur al' b auth.
Proof. intros [N1 N2]. destruct t; try reflexivity; congruence. Qed.
Lemma roy_al al b r : royalties_from_bytes al b = Ok r -> al mod 8 = 0.
Proof. unfold royalties_from_bytes. intro H. apply guard_ok in H as [_ H]. apply guard_ok in H as [H _]. lia. Qed.
Lemma al_cases t : al_free t \/ t = XGrouping \/ t = XRoyalties.
Proof. unfold al_free. destruct t; auto; left; split; discriminate. Qed.
Lemma on_create_parses t al auth b b' : on_create t al auth b = Ok b' -> acceptable t b /\ (al_free t \/ al mod 8 = 0).
Proof.
  intro H. destruct (al_cases t) as [N|N].
  - rewrite (on_create_al t al 0) in H by assumption. split; [|now left]. apply (on_create_goes t 0 auth); [reflexivity|]. now exists b'.
  - assert (A : al mod 8 = 0).
    { destruct N as [-> | ->]; cbn [on_create] in H; apply bind_ok in H as (g & Hg & _); [now apply grouping_ok in Hg|now apply roy_al in Hg]. }
    split; [|now right]. apply (on_create_goes t al auth); [assumption|]. now exists b'.
Qed.
Lemma on_update_parses t a1 cur al auth b b' : on_update t a1 cur al b auth = Ok b' -> replaceable t cur b /\ (al_free t \/ al mod 8 = 0).
Proof.
  intro H. destruct (al_cases t) as [N|N].
  - rewrite (on_update_al t a1 0 cur al 0) in H by assumption. split; [|now left]. apply (on_update_goes t 0 cur 0 b auth); [reflexivity|reflexivity|]. now exists b'.
  - assert (A : a1 mod 8 = 0 /\ al mod 8 = 0).
    { destruct N as [-> | ->]; cbn [on_update] in H; apply bind_ok in H as (c & Hc & H); apply bind_ok in H as (g & Hg & _).
      - apply grouping_ok in Hg, Hc. tauto.
      - apply roy_al in Hg, Hc. tauto. }
    split; [|now right]. apply (on_update_goes t a1 cur al b auth); [tauto|tauto|]. now exists b'.
Qed.
Lemma validate_fits t al inp cur auth r : validate t al inp cur auth = Ok r -> fits t (option_map snd cur) inp /\ (al_free t \/ al mod 8 = 0).
Proof.
  unfold validate. intro H. destruct cur as [[a c]|]; cbn [option_map snd fits].
  - apply map_err_ok in H. now apply on_update_parses in H.
  - assert (Q : t <> XNone /\ t <> XManager /\ t <> XProxy /\ on_create t al (Some auth) inp = Ok r).
    { destruct t; try discriminate H; apply map_err_ok in H; (split; [discriminate|split; [discriminate|split; [discriminate|exact H]]]). }
    destruct Q as (Q1 & Q2 & Q3 & Q). apply on_create_parses in Q as [Q4 Q5]. tauto.
Qed.

(** ** An Update that carries a payload *)
Lemma update_fits e infos w q w' x bs asset hd l tl : process e infos w (IUpdate q) = Ok w' -> u_ext q = Some x -> x_data x = Some bs -> x_type x <> XNone ->
  arg infos 0 asset -> layout (data (w asset)) hd l tl ->
  fits (x_type x) (lookup (x_type x) (ext_list l)) bs /\ (al_free (x_type x) \/ e_heap_al e mod 8 = 0).
Proof.
  intros H Ex Ed Nt A0 HL. apply process_dispatch in H. cbn [dispatch] in H. unfold process_update in H.
  apply bind_ok in H as (asset' & B0 & H). apply bind_ok in H as (auth & A1 & H). apply bind_ok in H as (buffer & A2 & H).
  apply bind_ok in H as (group & _ & H). apply bind_ok in H as (payer & _ & H). apply bind_ok in H as (sysp & _ & H).
  apply acct_arg in B0, A1. rewrite (arg_det _ _ _ _ B0 A0) in *. clear B0 asset'.
  apply require_ok in H as [Sg H]. apply require_ok in H as [O1 H]. cbv zeta in H. apply check_authority_ok in H as (I1 & Au & Mu & H).
  fold (upd_head q (data (w asset))) in H. apply bind_ok in H as (w1 & H1 & H). apply set_data_world in H1 as (D1 & F1 & W1).
  pose proof (upd_head_layout q _ _ _ _ HL) as L1. rewrite <- D1 in L1.
  rewrite Ex in H. destruct buffer as [bk|]; [discriminate|]. unfold update_ext in H.
  apply bind_ok in H as (t & Ht & H). cbn [update_type] in Ht. injection Ht as <-. apply bind_ok in H as (f & Hf & H). destruct f as [off found].
  apply bind_ok in H as (s & Hsrc & H). clear H.
  destruct (update_find_layout _ _ _ _ _ _ L1 Nt Hf) as [Er _]. clear Hf.
  unfold update_source in Hsrc. change EXT_LEN with 16 in Hsrc. cbv zeta in Hsrc. rewrite Ed in Hsrc.
  apply bind_ok in Hsrc as (r & Hr & _). apply bind_ok in Hr as (cur & Hc & Hr). apply bind_ok in Hr as (bs' & Hv & _).
  apply validate_fits in Hv as [V1 V2]. split; [|exact V2].
  assert (E : option_map snd cur = lookup (x_type x) (ext_list l)); [|now rewrite <- E].
  rewrite (loc_lookup (x_type x) l 168). destruct (loc (x_type x) 168 l) as [[c b0]|] eqn:El; injection Er as -> ->.
  - apply bind_ok in Hc as (s0 & Hsl & Hc). injection Hc as <-. cbn [option_map snd fst].
    apply loc_some in El as (l1 & l2 & -> & -> & _ & _).
    destruct (layout_at _ _ _ _ L1 _ l1 b0 l2 eq_refl eq_refl) as (A & E & HA & Hb & _).
    apply slice_ok in Hsl as (_ & _ & _ & -> & _). cbn [blk_hdr h_len].
    match goal with |- Some (fld _ _ ?n) = _ => replace n with (zlen (bk_data b0)) by lia end.
    rewrite E. now rewrite fld_blk_data by auto.
  - injection Hc as <-. reflexivity.
Qed.

(** ** What is stored can be read *)
Lemma ty_dec (t u : ext_type) : t = u \/ t <> u.
Proof. destruct t, u; (left; reflexivity) || (right; discriminate). Qed.
Lemma cr_count_len b b' : length b' = length b -> cr_count b' = cr_count b.
Proof. intro H. unfold cr_count. now rewrite H. Qed.
Lemma fresh_legible t auth b b' : parses t b -> fresh_payload t (Some auth) b b' -> legible (t, b').
Proof.
  intros P (L & N & C). unfold legible. cbn [fst snd]. destruct (ty_dec t XCreators) as [E|E].
  - subst t. cbn [parses] in *. rewrite (cr_count_len _ _ L). split; [congruence|]. intros _ i Hi. destruct (C eq_refl i Hi) as (_ & _ & F1 & F2).
    destruct (list_eq_dec Byte.byte_eq_dec auth (cr_addr_at b i)) as [->|Ne]; [right; now apply F1|left; apply F2; congruence].
  - rewrite (N E). split; [assumption|congruence].
Qed.
Lemma flag_of_in n : forall b a f, flag_of n b a = Some f -> exists i, (i < n)%nat /\ cr_flag_at b i = f.
Proof.
  induction n as [|n IH]; intros b a f H; cbn [flag_of] in H; [discriminate|].
  destruct (flag_of n b a) as [g|] eqn:E.
  - injection H as ->. destruct (IH _ _ _ E) as (i & Hi & Q). exists i. split; [lia|assumption].
  - destruct (list_eq_dec _ _ _); [|discriminate]. injection H as <-. exists n. split; [lia|reflexivity].
Qed.
Lemma with_size_len n b : (8 <= length b)%nat -> length (with_size n b) = length b.
Proof. intro H. unfold with_size. rewrite app_length, le_enc_length, skipn_length. lia. Qed.
Lemma stored_legible t auth cur b b' : t <> XNone -> (forall c, cur = Some c -> legible (t, c)) -> fits t cur b -> stored t auth cur b b' -> legible (t, b').
Proof.
  intros Nt HC HF HS. destruct cur as [c|]; cbn [fits stored] in *.
  - destruct HF as (_ & P & _). destruct HS as ((L & N & G & _ & C & _) & _). destruct (HC c eq_refl) as [_ FC]. cbn [fst snd] in FC.
    unfold legible. cbn [fst snd].
    destruct (ty_dec t XCreators) as [E|E].
    + subst t. cbn [parses] in *. rewrite (cr_count_len _ _ L). split; [congruence|]. intros _ i Hi.
      destruct (C eq_refl i Hi) as (_ & _ & F). destruct (flag_of _ _ _) as [f|] eqn:Ef.
      * rewrite F. destruct (flag_of_in _ _ _ _ Ef) as (j & Hj & <-). now apply FC.
      * destruct F as [F1 F2]. destruct (list_eq_dec Byte.byte_eq_dec auth (cr_addr_at b i)) as [->|Ne]; [right; now apply F1|left; now apply F2].
    + split; [|congruence]. destruct (ty_dec t XGrouping) as [E2|E2].
      * subst t. cbn [parses] in *. rewrite L. assumption.
      * now rewrite (N E E2).
  - destruct HF as (_ & _ & _ & P & _). destruct HS as (_ & _ & F & _). eapply fresh_legible; eauto.
Qed.
Lemma replaced_legible t b L : legible (t, b) -> Forall legible L -> Forall legible (replaced t b L).
Proof.
  intros Hb H. induction H as [|[t' b'] L H HL IH]; cbn [replaced]; [constructor|].
  destruct (ext_type_eqb t' t) eqn:E; constructor; auto. apply ext_type_eqb_eq in E. now subst t'.
Qed.
Lemma put_legible t b L : legible (t, b) -> Forall legible L -> Forall legible (put_ext t b L).
Proof.
  intros Hb H. unfold put_ext. destruct (lookup t L); [now apply replaced_legible|]. apply Forall_app. split; [assumption|]. constructor; [assumption|constructor].
Qed.
Lemma lookup_legible t b L : Forall legible L -> lookup t L = Some b -> legible (t, b).
Proof.
  intros H. induction H as [|[t' b'] L H HL IH]; cbn [lookup]; [discriminate|].
  destruct (ext_type_eqb t' t) eqn:E; [|exact IH]. apply ext_type_eqb_eq in E. subst t'. intro Q. injection Q as ->. assumption.
Qed.
Lemma flags_legible y c b b' : legible (XCreators, b) -> set_flags y c b b' -> legible (XCreators, b').
Proof.
  intros [P F] (L & N & _ & C). unfold legible in *. cbn [fst snd parses] in *. rewrite (cr_count_len _ _ L). split; [congruence|].
  intros _ i Hi. destruct (C i Hi) as (_ & _ & C1 & C2). destruct (list_eq_dec Byte.byte_eq_dec (cr_addr_at b i) c) as [Q|Q].
  - rewrite (C1 Q). destruct y; [now right|now left].
  - rewrite (C2 Q). now apply F.
Qed.
Lemma size_legible n b : legible (XGrouping, b) -> legible (XGrouping, with_size n b).
Proof. intros [P _]. unfold legible in *. cbn [fst snd parses] in *. rewrite with_size_len by lia. split; [assumption|discriminate]. Qed.
Lemma grown_legible n b u : Forall legible (as_exts u) -> lookup XGrouping (as_exts u) = Some b -> Forall legible (as_exts (grown n b u)).
Proof. intros H L. unfold grown, with_exts. cbn [as_exts]. apply replaced_legible; [|assumption]. apply size_legible. eapply lookup_legible; eauto. Qed.

(** ** Create *)
Lemma created_legible auth l l' : Forall2 (created auth) l l' -> Forall legible (ext_list l').
Proof.
  induction 1 as [|b b' l l' C _ IH]; cbn [ext_list map]; constructor; [|exact IH].
  destruct (created_fresh _ _ _ C) as [T F]. destruct C as (_ & al & _ & C). apply on_create_parses in C as [[P _] _].
  rewrite T. eapply fresh_legible; eauto.
Qed.

(** ** One step *)
Section Step.
Variables (e : env) (infos : list ainfo) (w w' : world) (R : registry).
Hypothesis He : env_ok e.
Let p := e_prog e.
Hypothesis Hp : p <> pk_zero.
Hypothesis HS : sound p w.
Hypothesis HI : pictures p w R.
Hypothesis HL : all_legible R.
Lemma sets_legible a o R' : sets R a o R' -> (forall v, o = Some v -> Forall legible (as_exts v)) -> all_legible R'.
Proof.
  intros [S1 S2] H k v E. destruct (pk_eqb k a) eqn:Q; [apply pk_eqb_eq in Q|apply pk_eqb_neq in Q].
  - subst k. apply H. congruence.
  - apply (HL k). now rewrite <- S2.
Qed.
Lemma sets2_legible a o g u R' : sets2 R a o g u R' -> (forall v, o = Some v -> Forall legible (as_exts v)) -> (forall v, u = Some v -> Forall legible (as_exts v)) -> all_legible R'.
Proof.
  intros (S1 & S2 & S3) H H2 k v E. destruct (pk_eqb k a) eqn:Q; [apply pk_eqb_eq in Q|apply pk_eqb_neq in Q]; [subst k; apply H; congruence|].
  destruct (pk_eqb k g) eqn:Q2; [apply pk_eqb_eq in Q2|apply pk_eqb_neq in Q2]; [subst k; apply H2; congruence|].
  apply (HL k). now rewrite <- S3.
Qed.
Lemma same_legible R' : same R R' -> all_legible R'.
Proof. intros S k v E. apply (HL k). now rewrite <- S. Qed.
Theorem step_legible i : proper e infos w i -> process e infos w i = Ok w' -> exists R', act e w infos R i R' /\ pictures p w' R' /\ all_legible R'.
Proof.
  intros HP H. destruct (act_step e infos w w' R He Hp HS HI i HP H) as (R' & A & P'). exists R'. split; [exact A|]. split; [exact P'|].
  assert (K : forall a v, known infos R a v -> Forall legible (as_exts v)) by (intros a v (_ & E & _); eapply HL; eauto).
  assert (CK : forall a v s, commands infos R a v s -> Forall legible (as_exts v)) by (intros a v s [Q _]; eauto).
  assert (TK : forall g u b s x, takes infos R g u b s x -> Forall legible (as_exts (grown (gr_size b + 1) b u))).
  { intros g u b s x (E & _ & L & _). apply grown_legible; [eapply HL; eauto|assumption]. }
  assert (CR : forall m, i = ICreate m -> forall a v, arg infos 0 a -> R' a = Some v -> Forall legible (as_exts v)).
  { intros m -> a v A0 E. pose proof HP as [HF HB]. destruct (HB a A0) as (l & n & B). unfold building in B.
    destruct (create_effect _ _ _ _ _ _ _ _ _ He Hp A0 B (proj1 HS) HF H) as (auth & o & l' & hd' & _ & _ & _ & L' & HC & _).
    pose proof (P' a) as Q. rewrite E in Q. destruct Q as [_ (_ & _ & l2 & T2 & ->)]. cbn [view as_exts].
    assert (l2 = l') as -> by (eapply tidy_det; [exact T2|]; exists hd'; eexists; exact L'). eapply created_legible; eauto. }
  inversion A; subst.
  all: try (match goal with Q : same _ _ |- _ => eapply same_legible; exact Q end).
  all: try (match goal with Q : sets _ _ _ _ |- _ => eapply sets_legible; [exact Q|] end; intros v0 E0; try discriminate E0; injection E0 as <-).
  all: try (match goal with Q : sets2 _ _ _ _ _ _ |- _ => eapply sets2_legible; [exact Q| |] end; intros v0 E0; try discriminate E0; injection E0 as <-).
  all: unfold with_delegate, with_lock, with_owner, with_authority, with_group, with_face; cbn [as_exts]; eauto.
  all: try (eapply grown_legible; [eapply HL; eassumption|assumption]).
  - cbn [with_exts as_exts]. apply replaced_legible; [|eauto]. eapply flags_legible; [|eassumption]. eapply lookup_legible; [|eassumption]. eauto.
  - cbn [with_exts as_exts]. match goal with Q : commands _ _ ?a ?v ?s |- _ => pose proof (CK _ _ _ Q) as LV; destruct Q as ((A0 & E0 & _) & _) end.
    match goal with Q : context [u_ext q] |- _ => destruct (u_ext q) as [x|] eqn:Ex; [destruct Q as (gv & b & Ed & _ & St & ->)|now subst] end.
    pose proof HP as [_ PX]. destruct (PX x Ex) as [(Nt & _) _].
    pose proof (HI a) as Q. rewrite E0 in Q. destruct Q as [_ (_ & _ & l & (hd & n & T) & ->)]. cbn [view as_exts] in *.
    destruct (update_fits _ _ _ _ _ _ _ _ _ _ _ H Ex Ed Nt A0 T) as [F _].
    apply put_legible; [|assumption]. eapply stored_legible; [exact Nt| |exact F|exact St]. intros c Hc. eapply lookup_legible; eauto.
  - cbn [with_exts as_exts]. match goal with Q : commands _ _ ?a ?v ?s |- _ => pose proof (CK _ _ _ Q) as LV end.
    match goal with Q : as_exts _ = _ ++ _ |- _ => rewrite Q in LV end. now apply Forall_app in LV.
  - eapply (CR m eq_refl a); [assumption|]. match goal with Q : sets _ _ _ _ |- _ => apply Q end.
  - eapply (CR m eq_refl a); [assumption|]. match goal with Q : sets2 _ _ _ _ _ _ |- _ => apply Q end.
Qed.
End Step.

(** ** Histories *)
Lemma legible_history p w w' R : p <> pk_zero -> sound p w -> pictures p w R -> all_legible R -> history_of good_step p w w' ->
  exists R', evolves p R R' /\ pictures p w' R' /\ sound p w' /\ all_legible R'.
Proof.
  intros Np HS HI HL H. induction H as [w|w w1 e infos i w2 Hh IH Ep He [HP HR] H|w w1 w2 Hh IH Ho].
  - exists R. split; [apply ev_start; reflexivity|]. auto.
  - destruct (IH HS HI) as (R1 & E1 & P1 & S1 & L1). subst p.
    destruct (step_legible e infos w1 w2 R1 He Np S1 P1 L1 i HP H) as (R2 & A2 & P2 & L2).
    exists R2. split; [eapply ev_step; eauto|]. split; [assumption|]. split; [|assumption]. eapply sound_step; eauto.
  - destruct (IH HS HI) as (R1 & E1 & P1 & S1 & L1). exists R1. split; [assumption|]. split; [eapply pictures_outside; eauto|]. split; [eapply sound_outside; eauto|assumption].
Qed.
Lemma forget P p w w' : history_of P p w w' -> history p w w'.
Proof. induction 1 as [w|w w1 e infos i w2 Hh IH Ep He HP H|w w1 w2 Hh IH Ho]; [constructor|eapply hist_instr; eauto|eapply hist_outside; eauto]. Qed.

(** ** The clients *)
Lemma pad_round x : blk_ok x -> blk_size x = (16 + zlen (bk_data x) + 7) / 8 * 8.
Proof. intros (_ & _ & H1 & H2). pose proof (zlen_nonneg (bk_pad x)). unfold blk_size. lia. Qed.
Lemma full_sect d l : Forall blk_ok l -> full_size (view d (ext_list l)) = 168 + sect_size l.
Proof.
  intro H. unfold full_size. cbn [view as_exts]. f_equal. induction H as [|x l H _ IH]; [reflexivity|].
  cbn [ext_list map fold_right snd sect_size]. rewrite (pad_round x H). f_equal. exact IH.
Qed.
Lemma role_list_of m : Z.of_N (Byte.to_N m) < 8 -> role_list (rights_of m) = seen_roles m.
Proof. intro H. destruct m; try reflexivity; exfalso; vm_compute in H; discriminate H. Qed.
Lemma four_pad b pad : four_texts b -> four_texts (b ++ pad).
Proof.
  intros (s & d & u & i & bs & bd & bu & bi & junk & H1 & H2 & H3 & H4 & ->). exists s, d, u, i, bs, bd, bu, bi, (junk ++ pad).
  repeat (split; [assumption|]). now rewrite <- !app_assoc.
Qed.
Lemma shown_pad t b pad x : (t = XMetadata -> four_texts b) -> (SpecJ.shown t b pad x <-> SpecJ.shown t b [] x).
Proof.
  intro F. unfold SpecJ.shown. destruct x; try reflexivity. split; intros [T H]; (split; [exact T|]); cbn [jext_type] in T; specialize (F T).
  - destruct F as (s2 & d2 & u2 & i2 & bs2 & bd2 & bu2 & bi2 & junk2 & G1 & G2 & G3 & G4 & Eb).
    destruct H as (s' & d' & u' & i' & bs & bd & bu & bi & junk & H1 & H2 & H3 & H4 & E & -> & -> & -> & ->).
    exists s2, d2, u2, i2, bs2, bd2, bu2, bi2, junk2. repeat (split; [assumption|]). rewrite app_nil_r. split; [exact Eb|].
    rewrite Eb, <- !app_assoc in E.
    pose proof (f_equal jr_str8 E) as Q. rewrite (pstring_app _ _ _ H1), (pstring_app _ _ _ G1) in Q. injection Q as Q1 E1. rewrite E1 in *. clear E.
    pose proof (f_equal jr_str8 E1) as Q. rewrite (pstring_app _ _ _ H2), (pstring_app _ _ _ G2) in Q. injection Q as Q2 E2.
    pose proof (f_equal jr_str8 E2) as Q. rewrite (pstring_app _ _ _ H3), (pstring_app _ _ _ G3) in Q. injection Q as Q3 E3.
    pose proof (f_equal jr_str8 E3) as Q. rewrite (pstring_app _ _ _ H4), (pstring_app _ _ _ G4) in Q. injection Q as Q4 E4.
    repeat split; congruence.
  - destruct H as (s' & d' & u' & i' & bs & bd & bu & bi & junk & H1 & H2 & H3 & H4 & E & -> & -> & -> & ->). rewrite app_nil_r in E.
    exists s', d', u', i', bs, bd, bu, bi, (junk ++ pad). repeat (split; [assumption|]). split; [rewrite E; now rewrite <- !app_assoc|auto].
Qed.
Lemma seen_key_opt k : seen_key k = key_opt k.
Proof.
  unfold seen_key, key_opt. destruct (list_eq_dec _ _ _) as [E|N]; [rewrite E; now rewrite bytes_eqb_refl|].
  destruct (bytes_eqb k no_key) eqn:Q; [apply bytes_eqb_eq in Q; contradiction|reflexivity].
Qed.
Lemma header_portrait d l s : good_head d -> Z.of_N (Byte.to_N (s_roles d)) < 8 -> let v := view d l in
  shown_header d s <->
  ja_state s = (if as_locked v then 1 else 0) /\ ja_standard s = Z.of_N (Byte.to_N (as_standard v)) /\ ja_mutable s = as_mutable v /\
  ja_owner s = as_owner v /\ ja_group s = as_group v /\ ja_authority s = as_authority v /\
  ja_delegate s = match as_delegate v with Some (k, r) => Some (k, role_list r) | None => None end /\
  ja_name s = seen_text (as_name v).
Proof.
  intros (_ & G2 & _ & G4) Hr v. unfold shown_header, v, view. cbn [as_locked as_standard as_mutable as_owner as_group as_authority as_delegate as_name].
  rewrite !seen_key_opt.
  assert (E1 : b2z (s_state d) = (if same_byte (s_state d) x01 then 1 else 0)) by (destruct G2 as [-> | ->]; reflexivity).
  assert (E2 : beqb (s_mutable d) x01 = negb (same_byte (s_mutable d) x00)) by (destruct G4 as [-> | ->]; reflexivity).
  assert (E3 : match key_opt (s_delegate d) with Some k => Some (k, seen_roles (s_roles d)) | None => None end =
    match match key_opt (s_delegate d) with Some k => Some (k, rights_of (s_roles d)) | None => None end with Some (k, r) => Some (k, role_list r) | None => None end)
    by (destruct (key_opt (s_delegate d)); [now rewrite role_list_of|reflexivity]).
  rewrite E1, E2, E3. reflexivity.
Qed.
Lemma js_portrays d v : SpecS.shows d v -> good_head d -> Forall legible (as_exts v) -> Forall complete (as_exts v) ->
  zlen d = full_size v \/ full_size v + 16 <= zlen d ->
  (exists s, js_asset d = JDone s) /\ forall s, js_asset d = JDone s <-> portrays v s.
Proof.
  intros (I1 & Hr & l & (hd & n & HL) & ->) G L C S. pose proof (layout_len _ _ _ _ HL) as Ln. pose proof HL as (_ & Hh & HF & _).
  rewrite full_sect in S by assumption.
  assert (V : valid_header d).
  { split; [assumption|]. destruct G as (_ & G2 & G3 & _). split; [destruct G2 as [-> | ->]; reflexivity|destruct G3 as [-> |[-> |[-> | ->]]]; reflexivity]. }
  assert (T : end_ok (repeat x00 n)).
  { unfold end_ok. destruct S as [S|S]; [left|right; lia]. assert (Q : zlen (repeat x00 n) = 0) by lia. rewrite zlen_repeat in Q. destruct n; [reflexivity|lia]. }
  cbn [view as_exts] in L, C.
  assert (RD : SpecJ.readable l).
  { clear - L. induction l as [|x l IH]; [constructor|]. cbn [ext_list map] in L. apply Forall_cons_iff in L as [[P _] L]. constructor; [exact P|now apply IH]. }
  assert (SH : Forall showable l).
  { clear - C. induction l as [|x l IH]; [constructor|]. cbn [ext_list map] in C. apply Forall_cons_iff in C as [[P Q] C]. constructor; [|now apply IH].
    split; [exact P|]. intro E. apply four_pad. now apply Q. }
  split; [apply (proj2 (account_showable d hd l _ HL V RD)); split; assumption|].
  intro s. rewrite (account_shown d hd l _ s HL V RD). unfold portrays. rewrite (header_portrait d (ext_list l) s G Hr). cbn [view as_exts].
  assert (F : Forall2 (fun k x => SpecJ.shown (bk_type k) (bk_data k) (bk_pad k) x) l (ja_exts s) <-> Forall2 (fun q x => SpecJ.shown (fst q) (snd q) [] x) (ext_list l) (ja_exts s)).
  { generalize (ja_exts s). clear - C. induction l as [|x l IH]; intro ys.
    - cbn [ext_list map]. split; intro H; inversion H; constructor.
    - cbn [ext_list map] in *. apply Forall_cons_iff in C as [[_ Q] C]. cbn [fst snd] in Q.
      split; intro H; inversion H as [|a y b ys' H1 H2]; subst; (constructor; [|now apply IH]); cbn [fst snd] in *; [apply (shown_pad _ _ (bk_pad x)) in H1|apply (shown_pad _ _ (bk_pad x))]; assumption. }
  tauto.
Qed.
Lemma rs_reflects d v : SpecS.shows d v -> good_head d -> exists a, rs_read d = Some a /\ reflects v a.
Proof.
  intros (I1 & Hr & l & (hd & n & HL) & ->) G. destruct I1 as [I1 I2]. destruct (RsL.readable d I1 G) as [a Ha]. exists a. split; [assumption|].
  apply rs_read_exact in Ha as (_ & _ & Q1 & Q2 & Q3 & Q4 & Q5 & Q6 & Q7 & Q8 & Q9 & Q10).
  unfold reflects, view. cbn [as_locked as_standard as_mutable as_owner as_group as_authority as_delegate as_name].
  pose proof G as (_ & G2 & _ & G4). rewrite Q1, Q2, Q5, Q6, Q7, Q8, Q9, Q10.
  split; [assumption|]. split; [destruct G2 as [-> | ->]; reflexivity|]. split; [assumption|].
  split; [|auto 10]. unfold mutable in Q4. destruct G4 as [E|E]; rewrite E in *; destruct (ra_mutable a); try reflexivity; exfalso; destruct Q4 as [Q4 Q4']; [now apply Q4|]; specialize (Q4' ltac:(discriminate)); discriminate.
Qed.

(** ** All together: from nothing *)
Lemma unowned_none p w : (forall x, acct_owner (w x) <> p) -> forall k, ~ asset_of p w k.
Proof. intros N k [O _]. exact (N k O). Qed.
Lemma clients_show p w w' : p <> pk_zero -> sized w -> lam_ok w -> (forall x, acct_owner (w x) <> p) -> history_of good_step p w w' ->
  exists R', evolves p (fun _ => None) R' /\ pictures p w' R' /\ all_legible R' /\
    forall k v, R' k = Some v ->
      (exists a, rs_read (data (w' k)) = Some a /\ reflects v a) /\
      (Forall complete (as_exts v) -> zlen (data (w' k)) = full_size v \/ full_size v + 16 <= zlen (data (w' k)) ->
       (exists s, js_asset (data (w' k)) = JDone s) /\ forall s, js_asset (data (w' k)) = JDone s <-> portrays v s).
Proof.
  intros Np Hs Hl N H. pose proof (unowned_none p w N) as N'.
  destruct (legible_history p w w' (fun _ => None) Np (sound_empty p w Hs Hl N') N' ltac:(intros k v E; discriminate) H) as (R' & E & P & _ & L).
  exists R'. split; [assumption|]. split; [assumption|]. split; [assumption|]. intros k v Ek. pose proof (P k) as Q. rewrite Ek in Q. destruct Q as [A S].
  pose proof (always_good p w w' k Np N (forget _ _ _ _ H) A) as G. split; [now apply rs_reflects|].
  intros C Z. apply js_portrays; auto. eapply L; eauto.
Qed.

Lemma update_aligned e infos w q w' x bs asset hd l tl : process e infos w (IUpdate q) = Ok w' -> u_ext q = Some x -> x_data x = Some bs ->
  x_type x = XGrouping \/ x_type x = XRoyalties -> arg infos 0 asset -> layout (data (w asset)) hd l tl -> e_heap_al e mod 8 = 0.
Proof.
  intros H Ex Ed T A0 HL. assert (Nt : x_type x <> XNone) by (destruct T as [-> | ->]; discriminate).
  destruct (update_fits _ _ _ _ _ _ _ _ _ _ _ H Ex Ed Nt A0 HL) as [_ [[N1 N2]|Q]]; [|exact Q]. exfalso. destruct T; contradiction.
Qed.

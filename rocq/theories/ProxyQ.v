(** Lemmas: an immutable proxied asset stays with its holder. *)
From Verif Require Import Base State Layout Constr Ext World Proc Borsh Proxy BaseL Spec SpecB SpecC SpecE SpecF SpecH SpecI SpecP SpecL SpecW SpecM WorldL ProcSteps LayoutL LayoutM LayoutE GroupL CountL HeadL AuthL AuthM CreatorsL FrameL UpdateL UpdateM UpdateT StepL StepH BorshL CodecL ProxyL CreateL BuildL ProxyM ExactL ProxyN.
From Coq Require Import Strings.Byte.

Lemma history_join p w w1 w2 : history p w w1 -> history p w1 w2 -> history p w w2.
Proof. intros H1 H2. induction H2 as [|w1 w2 e infos i w3 H IH E He HI|w1 w2 w3 H IH HO]; [assumption|exact (hist_instr _ _ _ _ _ _ _ (IH H1) E He HI)|exact (hist_outside _ _ _ _ (IH H1) HO)]. Qed.

Section Stuck.
Variables (p me k : pubkey).
Hypothesis (Hp : p <> pk_zero).
(** what stays true of the asset until it is burned *)
Definition stuck (o : bytes) (w : world) : Prop :=
  sized w /\ lam_ok w /\ acct_owner (w k) = p /\ initialized (data (w k)) /\ s_mutable (data (w k)) = x00 /\ s_standard (data (w k)) = x03 /\
  s_owner (data (w k)) = o /\ exists l, well_formed (data (w k)) l.
Lemma stuck_step o e infos w i w' : e_prog e = p -> env_ok e -> stuck o w -> ~ (i = ITransfer /\ arg infos 0 k) -> process e infos w i = Ok w' ->
  (i = IBurn /\ arg infos 0 k) \/ stuck o w'.
Proof using Hp.
  intros E He (Hs & Hl & Ho & Hi & Hm & Hst & Hw & l & HW) Nt H. assert (Hp' : e_prog e <> pk_zero) by congruence.
  destruct (frozen_step p k Hp e infos w i w' l E He Hs Hl Ho Hi Hm HW H) as [B|(F1 & F2 & F3 & F4 & F5 & F6 & _ & l' & F7 & _)]; [now left|right].
  split; [eapply sized_preserved; eauto|]. split; [eapply lam_ok_preserved; eauto|]. split; [assumption|]. split; [assumption|]. split; [congruence|]. split; [congruence|].
  split; [|eauto]. destruct HW as (hd & tl & HL). rewrite <- E in Ho.
  destruct (changes e infos w w' k He Hp' Hs Hl Ho Hi i H) as [(Ei & A0 & Hg)|[Ho' Hc]].
  { exfalso. rewrite Hg in F1. cbn in F1. congruence. }
  assert (HH : header_step infos w w' k i) by (eapply step_header; eauto; intros (a & _ & _ & Hmu); contradiction).
  destruct HH as (_ & _ & _ & [Q|[A0 Q]] & _); [congruence|]. elim Nt. auto.
Qed.
Lemma direct_transfer e infos w w' : e_prog e = p -> acct_owner (w k) = p -> s_standard (data (w k)) = x03 -> ~ signed infos k -> arg infos 0 k ->
  process e infos w ITransfer = Ok w' -> False.
Proof using.
  intros E Ho Hs Ns A0 H. unfold process in H. apply bind_ok in H as (r & Hr & _). apply Ns. eapply gate_proxied; eauto. congruence.
Qed.
(** the program's calls, none of which transfers the asset *)
Inductive harmless (e : env) : world -> world -> Prop :=
| hm_none w : harmless e w w
| hm_one w w1 metas i w2 : harmless e w w1 -> ~ (i = ITransfer /\ arg metas 0 k) -> process (in_cpi e) metas w1 i = Ok w2 -> harmless e w w2.
Lemma harmless_burned e w w' : e_prog e = p -> env_ok e -> harmless e w w' -> forall o, stuck o w -> burned_in p w w' k \/ stuck o w'.
Proof using Hp.
  intros E He H. induction H as [w|w w1 metas i w2 H IH Nt HI]; intros o Hk; [now right|].
  destruct (IH o Hk) as [(wa & ea & ia & wb & B1 & B2 & B3 & B4 & B5 & B6)|K].
  - left. exists wa, ea, ia, wb. repeat (split; [assumption|]). eapply hist_instr; [exact B6| | |exact HI]; [exact E|exact (in_cpi_ok _ He)].
  - destruct (stuck_step o (in_cpi e) metas w1 i w2 E (in_cpi_ok _ He) K Nt HI) as [[-> A0]|K']; [left|now right].
    assert (HH : history p w w1).
    { clear - H E He. induction H as [w|w w1 metas i w2 H IH Nt HI]; [apply hist_refl|]. eapply hist_instr; [exact IH| | |exact HI]; [exact E|exact (in_cpi_ok _ He)]. }
    exists w1, (in_cpi e), metas, w2. split; [exact HH|]. split; [exact E|]. split; [exact (in_cpi_ok _ He)|]. split; [assumption|]. split; [exact HI|apply hist_refl].
Qed.
Lemma harmless_invoke e infos w0 w w1 metas j seeds bump w' : harmless e w w1 -> ~ (j = ITransfer /\ arg metas 0 k) -> instr_ok j ->
  invoke e me infos w0 w1 metas (write_instr j) seeds bump = Ok w' -> harmless e w w'.
Proof using.
  intros H N J I. apply invoke_iff in I as (pda & i & _ & _ & _ & I4 & I5 & I6 & _). apply instr_unambiguous in I5; [subst i|assumption|assumption].
  econstructor; eassumption.
Qed.
Lemma harmless_other e infos w0 w w1 metas b seeds bump w' a : harmless e w w1 -> arg metas 0 a -> a <> k ->
  invoke e me infos w0 w1 metas b seeds bump = Ok w' -> harmless e w w'.
Proof using.
  intros H A N I. apply invoke_iff in I as (pda & i & _ & _ & _ & _ & _ & I6 & _).
  econstructor; [exact H| |exact I6]. intros [_ Q]. apply N. exact (arg_det _ _ _ _ A Q).
Qed.
Lemma entry_harmless o pe e infos w b w' : e_prog e = p -> env_ok e -> stuck o w -> proxy_entry pe e me infos w b = Ok w' -> harmless e w w'.
Proof using Hp.
  intros E He K. pose proof (hm_none e w) as H0. unfold proxy_entry.
  assert (P : forall bs, try_from_slice bs <> Some ITransfer -> iface_process e me infos w bs = Ok w' -> harmless e w w').
  { intros bs Nt H. apply iface_only in H as (i & r & off & b' & j & pda & -> & J1 & J2 & -> & _ & _ & _ & _ & _ & H & _).
    econstructor; [exact H0| |exact H]. intros [-> _]. apply Nt. now apply instr_round. }
  destruct (proxy_decode b) as [n|].
  - unfold proxy_create. intro H. do 7 (apply bind_ok in H as (? & _ & H)).
    do 2 (apply require_ok in H as [_ H]). destruct (find_address _ _ _ _) as [[k' bump]|]; [|discriminate]. apply require_ok in H as [_ H].
    apply invoke_iff in H as (pda & i & _ & _ & _ & I4 & I5 & I6 & _). econstructor; [exact H0| |exact I6]. intros [-> _]. discriminate I5.
  - destruct (try_from_slice b) as [i|] eqn:T; [|apply P; congruence]. destruct i; try (apply P; congruence).
    + unfold proxy_transfer. intro H. apply bind_ok in H as (asset & _ & H). do 3 (apply bind_ok in H as (? & _ & H)). apply bind_ok in H as (pr & _ & H).
      apply require_ok in H as [_ H]. apply bind_ok in H as (a & _ & H). destruct a as [[off ab]|]; [|discriminate].
      apply bind_ok in H as (l & _ & H). apply bind_ok in H as (cur & _ & H).
      apply bind_ok in H as (w1 & H1 & H). apply bind_ok in H as (w2 & H2 & H). apply bind_ok in H as (w3 & H3 & H).
      destruct (pk_dec asset k) as [->|N].
      * exfalso. rewrite counter_payload_entry in H1. destruct K as (Hs & _ & _ & _ & Hm & _ & _ & l' & hd & tl & HL).
        set (bb := counter_entry (pad_left 12 (decimal (i64_wrap (cur + 1))))) in *.
        assert (ZB : zlen bb <= 100000) by (unfold bb; rewrite zlen_counter, zlen_pad; pose proof (zlen_decimal (i64_wrap (cur + 1))); lia).
        apply care_invoked in H1; [|exact ZB]. unfold upd_of in H1.
        assert (Hp' : e_prog (in_cpi e) <> pk_zero) by (change (e_prog e <> pk_zero); congruence).
        pose proof (update_effect (in_cpi e) (update_metas e k k) w (mkUpdInput None None (Some (ext_of XAttributes bb))) w1 k hd l' tl (in_cpi_ok _ He) Hp' Hs (metas_arg0 e k) HL) as U.
        destruct U as (au & hd' & l2 & tl' & _ & _ & _ & _ & _ & Mu & _); [|exact H1|exact (Mu Hm)].
        intros y Q. cbn [u_ext] in Q. apply Some_inj in Q. subst y. pose proof (zlen_nonneg bb). split; [discriminate|cbn [x_length ext_of]; lia].
      * assert (A0 : forall t, arg (update_metas e asset t) 0 asset) by (intro t; eexists; split; reflexivity).
        assert (B0 : arg (transfer_metas e asset x x0) 0 asset) by (eexists; split; reflexivity).
        pose proof (harmless_other _ _ _ _ _ _ _ _ _ _ _ H0 (A0 _) N H1) as G1. pose proof (harmless_other _ _ _ _ _ _ _ _ _ _ _ G1 (A0 _) N H2) as G2.
        pose proof (harmless_other _ _ _ _ _ _ _ _ _ _ _ G2 (A0 _) N H3) as G3. exact (harmless_other _ _ _ _ _ _ _ _ _ _ _ G3 B0 N H).
    + unfold proxy_update. intro H. do 6 (apply bind_ok in H as (? & _ & H)). apply bind_ok in H as (pr & _ & H).
      do 2 (apply require_ok in H as [_ H]). destruct (nullable _); [|discriminate]. apply require_ok in H as [_ H].
      apply invoke_iff in H as (pda & i & _ & _ & _ & I4 & I5 & I6 & _). econstructor; [exact H0| |exact I6]. intros [-> _]. discriminate I5.
Qed.
Lemma life_history w w' : proxied_life p me k w w' -> history p w w'.
Proof using.
  induction 1 as [w|w w1 e infos i w2 H IH E He Ns HI|w w1 pe e infos b w2 H IH E He HI|w w1 w2 H IH HO].
  - apply hist_refl.
  - eapply hist_instr; eassumption.
  - apply proxy_history in HI; [|assumption]. rewrite E in HI. eapply history_join; eassumption.
  - eapply hist_outside; eassumption.
Qed.
Lemma stuck_life w w' : proxied_life p me k w w' -> forall o, stuck o w -> burned_in p w w' k \/ stuck o w'.
Proof using Hp.
  induction 1 as [w|w w1 e infos i w2 H IH E He Ns HI|w w1 pe e infos b w2 H IH E He HI|w w1 w2 H IH HO]; intros o K.
  - now right.
  - destruct (IH o K) as [(wa & ea & ia & wb & B1 & B2 & B3 & B4 & B5 & B6)|K1].
    + left. exists wa, ea, ia, wb. repeat (split; [assumption|]). exact (hist_instr _ _ _ _ _ _ _ B6 E He HI).
    + destruct (stuck_step o e infos w1 i w2 E He K1) as [[-> A0]|K2]; [|exact HI| |now right].
      * intros [-> A0]. destruct K1 as (_ & _ & Ho & _ & _ & Hst & _). exact (direct_transfer e infos w1 w2 E Ho Hst Ns A0 HI).
      * left. exists w1, e, infos, w2. split; [now apply life_history|]. repeat (split; [assumption|]). apply hist_refl.
  - destruct (IH o K) as [(wa & ea & ia & wb & B1 & B2 & B3 & B4 & B5 & B6)|K1].
    + left. exists wa, ea, ia, wb. repeat (split; [assumption|]). apply proxy_history in HI; [|assumption]. rewrite E in HI. exact (history_join _ _ _ _ B6 HI).
    + pose proof (entry_harmless o pe e infos w1 b w2 E He K1 HI) as HM.
      destruct (harmless_burned e w1 w2 E He HM o K1) as [(wa & ea & ia & wb & B1 & B2 & B3 & B4 & B5 & B6)|K2]; [left|now right].
      exists wa, ea, ia, wb. split; [exact (history_join _ _ _ _ (life_history _ _ H) B1)|]. repeat (split; [assumption|]). exact B6.
  - destruct (IH o K) as [(wa & ea & ia & wb & B1 & B2 & B3 & B4 & B5 & B6)|(Hs & Hl & Ho & Hi & Hm & Hst & Hw & l & HW)].
    + left. exists wa, ea, ia, wb. repeat (split; [assumption|]). exact (hist_outside _ _ _ _ B6 HO).
    + right. destruct HO as (O1 & O2 & O3 & O4). destruct (O1 k Ho) as [P1 P2]. unfold stuck. rewrite P2. repeat (split; [assumption|]). eauto.
Qed.
End Stuck.
Lemma immutable_stuck p me k w w' l : p <> pk_zero -> proxied_life p me k w w' -> sized w -> lam_ok w -> acct_owner (w k) = p -> initialized (data (w k)) ->
  s_mutable (data (w k)) = x00 -> s_standard (data (w k)) = x03 -> well_formed (data (w k)) l ->
  burned_in p w w' k \/ (acct_owner (w' k) = p /\ s_owner (data (w' k)) = s_owner (data (w k)) /\ s_mutable (data (w' k)) = x00).
Proof.
  intros Hp H Hs Hl Ho Hi Hm Hst HW. assert (K : stuck p k (s_owner (data (w k))) w) by (unfold stuck; eauto 12).
  destruct (stuck_life p me k Hp w w' H _ K) as [B|(_ & _ & K1 & _ & K2 & _ & K3 & _)]; auto.
Qed.

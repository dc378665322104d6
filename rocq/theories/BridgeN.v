(** Lemmas: exactly when the bridge's instructions go through. *)
From Verif Require Import Base State Layout Constr Ext World Proc Borsh Proxy Bridge BaseL Spec SpecB SpecC SpecE SpecH SpecI SpecP SpecV SpecL SpecX WorldL ProcSteps FrameL LayoutL LayoutM HeadL AuthL AuthM AllocL GroupL UpdateL StepL StepH HistL TheftL BorshL ProxyL ProxyM BridgeL ExactL ExactM.
From Coq Require Import Strings.Byte.

Lemma at_opt me infos i o : opt_pos me infos i o -> opt_of me infos i = Ok o.
Proof.
  destruct o as [k|]; cbn [opt_pos].
  - intros [H N]. unfold opt_of. rewrite (at_acct _ _ _ H). cbn [bind]. now rewrite (proj2 (pk_eqb_neq _ _) N).
  - intro H. unfold opt_of. rewrite (at_acct _ _ _ H). cbn [bind]. now rewrite pk_eqb_refl.
Qed.
Lemma at_in infos i k : at_pos infos i k -> mentions infos k.
Proof. intros (x & E & <-). exists x. split; [eapply nth_error_In; eauto|reflexivity]. Qed.
Lemma at_len infos i k : at_pos infos i k -> (i < length infos)%nat.
Proof. intros (x & E & _). apply nth_error_Some. congruence. Qed.
Lemma opt_at me infos i o : opt_pos me infos i o -> exists k, at_pos infos i k.
Proof. destruct o; cbn; [intros [H _]|intro H]; eauto. Qed.
Lemma writes_iff infos k : is_writable infos k = true <-> writes infos k.
Proof. rewrite is_writable_spec. unfold writes. firstorder. Qed.

Lemma move_bounded e w2 w' asset sg rc g infos w : process (in_cpi e) (move_metas e asset sg rc g) w2 ITransfer = Ok w' ->
  bounded_growth infos w w' <-> bounded_growth infos w w2.
Proof.
  intro H. destruct (move_args e asset sg rc g) as (A0 & _ & _).
  assert (E : forall k, zlen (data (w' k)) = zlen (data (w2 k))).
  { intro k. destruct (transfer_effect _ _ _ _ H) as (x & r' & C0 & C2 & TE). assert (x = asset) as -> by exact (arg_det _ _ _ _ C0 A0).
    destruct TE as [[_ W]|(_ & (F & _ & _) & Ln & _)]; [now rewrite W|].
    destruct (pk_dec k asset) as [->|N]; [unfold zlen; now rewrite Ln|now rewrite F]. }
  unfold bounded_growth. split; intros B i Hi; specialize (B i Hi); rewrite E in *; assumption.
Qed.

Lemma move_opt e asset sg rc g : optional (in_cpi e) (move_metas e asset sg rc g) 3 (match g with Some k => if pk_eqb k (e_prog e) then None else Some k | None => None end).
Proof.
  destruct g as [k|]; [destruct (pk_eqb k (e_prog e)) eqn:E; [apply pk_eqb_eq in E; subst k|]|].
  - eexists. split; reflexivity.
  - split; [eexists; split; reflexivity|]. intros ->. cbn [in_cpi e_prog] in E. now rewrite pk_eqb_refl in E.
  - eexists. split; reflexivity.
Qed.
Lemma move_goes e w asset sg rc og l lg : og <> Some (e_prog e) ->
  acct_owner (w asset) = e_prog e -> initialized (data (w asset)) -> sized w ->
  (forall k, In k (sg :: rc :: e_prog e :: match og with Some g => [g] | None => [] end) -> plain_at e w k) ->
  well_formed (data (w asset)) l -> manager_sane l -> royalties_sane l ->
  (forall g, og = Some g -> acct_owner (w g) = e_prog e -> s_disc (data (w g)) = x01 -> well_formed (data (w g)) lg /\ royalties_sane lg) ->
  ~ locked (data (w (e_prog e))) \/ acct_owner (w (e_prog e)) <> e_prog e ->
  (exists w', process (in_cpi e) (move_metas e asset sg rc og) w ITransfer = Ok w') <-> may_move e w asset sg rc og l lg.
Proof.
  intros Hog Ho Hi Hs Hpl Hwf Hm Hr Hg Hlk. destruct (move_args e asset sg rc og) as (A0 & A1 & A2).
  assert (R : ready (in_cpi e) (move_metas e asset sg rc og) w asset).
  { split; [exact A0|]. split; [exact Ho|]. split; [exact Hi|]. split; [exists (mkInfo asset false true); split; [now left|auto]|]. split; [|exact Hs].
    intros x X. cbn in X. cbn [in_cpi e_prog]. destruct X as [<-|[<-|[<-|[<-|[]]]]]; cbn [ai_key].
    - intros _. right. apply Hi.
    - apply Hpl. now left.
    - apply Hpl. right. now left.
    - destruct og as [g|]; cbn [opt_meta absent ai_key]; apply Hpl; cbn; auto 6. }
  pose proof (move_opt e asset sg rc og) as O3.
  assert (Q : match og with Some k => if pk_eqb k (e_prog e) then None else Some k | None => None end = og).
  { destruct og as [k|]; [|reflexivity]. destruct (pk_eqb k (e_prog e)) eqn:E; [apply pk_eqb_eq in E; subst; contradiction|reflexivity]. }
  rewrite Q in O3. clear Q.
  rewrite (transfer_exact (in_cpi e) (move_metas e asset sg rc og) w asset sg rc og l lg R A1 A2 O3 Hwf Hm Hr Hg).
  assert (G : gate (move_metas e asset sg rc og) w asset <-> (s_standard (data (w asset)) = x03 -> sg = asset)).
  { unfold gate. split; intros G S; specialize (G S); [symmetry; now apply move_signed in G|]. subst sg. eexists. split; [right; left; reflexivity|split; reflexivity]. }
  assert (SG : signed (move_metas e asset sg rc og) sg) by (eexists; split; [right; left; reflexivity|split; reflexivity]).
  assert (N : none_locked (in_cpi e) (move_metas e asset sg rc og) w <->
    (forall k, In k (asset :: sg :: rc :: match og with Some g => [g] | None => [] end) -> acct_owner (w k) = e_prog e -> ~ locked (data (w k)))).
  { unfold none_locked. cbn [in_cpi e_prog]. split.
    - intros N k K. destruct K as [<-|[<-|[<-|K]]].
      + apply (N (mkInfo asset false true)). now left.
      + apply (N (mkInfo sg true false)). right. now left.
      + apply (N (mkInfo rc false false)). right. right. now left.
      + destruct og as [g|]; [|destruct K]. destruct K as [<-|[]]. apply (N (mkInfo g false false)). right. right. right. now left.
    - intros N x X. cbn in X. destruct X as [<-|[<-|[<-|[<-|[]]]]]; cbn [ai_key]; try (apply N; cbn; auto 6; fail).
      destruct og as [g|]; cbn [opt_meta absent ai_key]; [apply N; cbn; auto 6|]. destruct Hlk; [auto|contradiction]. }
  unfold may_move. cbn [e_prog in_cpi] in *. rewrite G, N. tauto.
Qed.

Lemma zlen_vault s bump mint abump : zlen (x01 :: mode_byte s :: bump :: pk_bytes mint ++ [abump]) = 36.
Proof. unfold zlen. cbn [length]. rewrite app_length, pk_length. reflexivity. Qed.
Lemma turn_set e me infos w vault s bump mint abump : vault_at me w vault s bump mint abump ->
  forall w1, set_data (as_prog e me) infos w vault (put (data (w vault)) 1 [mode_byte (flip s)]) = Ok w1 <-> writes infos vault /\ w1 = turned w vault s.
Proof.
  intros [Ov Hd] w1. rewrite Hd at 1. rewrite put_state. unfold turned. rewrite Hd. cbn [skipn]. unfold set_data.
  replace (bytes_eqb _ (data (w vault))) with false.
  2:{ symmetry. destruct (bytes_eqb _ _) eqn:E; [|reflexivity]. apply bytes_eqb_eq in E. rewrite Hd in E. injection E as E. destruct s; discriminate E. }
  cbn [as_prog e_prog]. rewrite zlen_vault, Ov, pk_eqb_refl, andb_true_r. change (36 <=? MAX_DATA) with true. rewrite andb_true_r.
  rewrite <- writes_iff. split.
  - intro H. apply require_ok in H as [H1 H2]. apply Ok_inj in H2. auto.
  - intros [H ->]. now rewrite H.
Qed.

Section Toggle.
Variables (b : benv) (e : env) (me : pubkey) (infos : list ainfo) (w : world) (h : holders) (t : toggle_accounts) (s : mode) (bump abump : byte) (l lg : list blk).
Let p := e_prog e.
Hypotheses (NM : names me infos t) (TM : tm_ok b p me) (Hmp : me <> p) (Hs : sized w) (Hl : lam_ok w)
  (HV : vault_at me w (ta_vault t) s bump (ta_mint t) abump)
  (CV : e_cpa e (s_vault ++ pk_bytes (ta_mint t)) bump (pk_bytes me) = Some (ta_vault t))
  (CA : e_cpa e (s_asset ++ pk_bytes (ta_mint t)) abump (pk_bytes me) = Some (ta_asset t))
  (Hi : initialized (data (w (ta_asset t)))) (Hwf : well_formed (data (w (ta_asset t))) l) (Hms : manager_sane l) (Hrs : royalties_sane l)
  (Hng : ta_group t <> Some p)
  (Hpl : forall k, In k (ta_owner t :: p :: match ta_group t with Some g => [g] | None => [] end) -> plain_at e w k)
  (Hpp : acct_owner (w p) <> p)
  (Hg : forall g, ta_group t = Some g -> acct_owner (w g) = p -> s_disc (data (w g)) = x01 -> well_formed (data (w g)) lg /\ royalties_sane lg).

Lemma turned_other k : k <> ta_vault t -> turned w (ta_vault t) s k = w k.
Proof. intro N. unfold turned. now apply upd_other. Qed.
Lemma turned_owner k : acct_owner (turned w (ta_vault t) s k) = acct_owner (w k).
Proof. destruct (pk_dec k (ta_vault t)) as [->|N]; [unfold turned; now rewrite upd_same|now rewrite turned_other]. Qed.
Lemma turned_sized : sized (turned w (ta_vault t) s) /\ lam_ok (turned w (ta_vault t) s).
Proof using Hs Hl HV.
  clear Hpl Hg.
  split; intro k; (destruct (pk_dec k (ta_vault t)) as [->|N]; [|rewrite turned_other by assumption; auto]); unfold turned; rewrite upd_same; cbn [data lamports]; [|apply Hl].
  destruct HV as [_ ->]. cbn [skipn]. rewrite zlen_vault. lia.
Qed.
Lemma after_tm w2 h2 : be_transfer b infos (token_signer t s) (token_call t s) (turned w (ta_vault t) s) h = Ok (w2, h2) ->
  sized w2 /\ (forall k, acct_owner (w2 k) = p <-> acct_owner (w k) = p) /\ (forall k, acct_owner (w k) = p -> data (w2 k) = data (w k)).
Proof using TM Hmp Hs Hl HV.
  intro H. destruct TM as [T _]. destruct turned_sized as [S1 L1]. destruct (T _ _ _ _ _ _ _ H S1 L1) as (_ & _ & [U1 U2] & _ & S2 & _).
  split; [exact S2|]. split; intro k; [rewrite U1; now rewrite turned_owner|]. intro O. rewrite U2 by now rewrite turned_owner.
  rewrite turned_other; [reflexivity|]. intros ->. destruct HV as [V _]. congruence.
Qed.
Lemma may_moves w2 h2 : be_transfer b infos (token_signer t s) (token_call t s) (turned w (ta_vault t) s) h = Ok (w2, h2) -> acct_owner (w (ta_asset t)) = p ->
  (exists w', process (in_cpi e) (move_metas e (ta_asset t) (giver t s) (taker t s) (ta_group t)) w2 ITransfer = Ok w') <->
  may_move e w2 (ta_asset t) (giver t s) (taker t s) (ta_group t) l lg.
Proof.
  intros H Ho. destruct (after_tm _ _ H) as (S2 & O2 & D2).
  apply move_goes; try assumption.
  - now apply O2.
  - now rewrite D2.
  - intros k K. unfold plain_at. intro Q. apply O2 in Q. rewrite (D2 _ Q). destruct (pk_dec k (ta_vault t)) as [->|N]; [destruct HV as [V _]; elim Hmp; unfold p in *; congruence|].
    apply Hpl; [|exact Q]. fold p in K. destruct s; cbn [giver taker] in K; cbn [In] in *; intuition congruence.
  - now rewrite D2.
  - intros g G Q. pose proof Q as Q'. apply O2 in Q'. rewrite (D2 _ Q'). apply Hg; assumption.
  - right. intro Q. apply O2 in Q. contradiction.
Qed.

Definition turn : res (world * holders) :=
  if beqb (mode_byte s) V_IDLE then
    w1 <- set_data (as_prog e me) infos w (ta_vault t) (put (data (w (ta_vault t))) 1 [V_ACTIVE]) ;;
    r <- be_transfer b infos None
           (mkCall (ta_owner t) (ta_mint t) (ta_metadata t) (ta_edition t) (ta_payer t) (ta_owner t) (ta_token t) (ta_record t) (ta_vault t) (ta_vault_token t) (ta_vault_record t)) w1 h ;;
    w3 <- invoke e me infos w (fst r) (move_metas e (ta_asset t) (ta_vault t) (ta_owner t) (ta_group t)) (write_instr ITransfer)
            (s_vault ++ pk_bytes (ta_mint t)) bump ;;
    Ok (w3, snd r)
  else if beqb (mode_byte s) V_ACTIVE then
    w1 <- set_data (as_prog e me) infos w (ta_vault t) (put (data (w (ta_vault t))) 1 [V_IDLE]) ;;
    r <- be_transfer b infos (Some (ta_vault t))
           (mkCall (ta_vault t) (ta_mint t) (ta_metadata t) (ta_edition t) (ta_payer t) (ta_vault t) (ta_vault_token t) (ta_vault_record t) (ta_owner t) (ta_token t) (ta_record t)) w1 h ;;
    w3 <- invoke0 e infos w (fst r) (move_metas e (ta_asset t) (ta_owner t) (ta_vault t) (ta_group t)) (write_instr ITransfer) ;;
    Ok (w3, snd r)
  else UB.
Lemma metas_in k : In k (move_metas e (ta_asset t) (giver t s) (taker t s) (ta_group t)) -> mentions infos (e_prog e) -> mentions infos (ai_key k).
Proof.
  destruct NM as (N0 & N1 & N2 & _ & _ & _ & _ & _ & _ & _ & _ & N19). intros K M. cbn in K. destruct K as [<-|[<-|[<-|[<-|[]]]]]; cbn [ai_key].
  - eapply at_in; eauto.
  - destruct s; cbn [giver]; eapply at_in; eauto.
  - destruct s; cbn [taker]; eapply at_in; eauto.
  - destruct (ta_group t); cbn [opt_meta absent ai_key]; [|exact M]. destruct N19 as [N19 _]. eapply at_in; eauto.
Qed.
Lemma metas_granted : mentions infos (e_prog e) -> writes infos (ta_asset t) -> signs infos (ta_owner t) ->
  match s with
  | Idle => Forall (fun m => granted infos (ta_vault t) m = true) (move_metas e (ta_asset t) (giver t s) (taker t s) (ta_group t))
  | Active => Forall (fun m => granted0 infos m = true) (move_metas e (ta_asset t) (giver t s) (taker t s) (ta_group t))
  end.
Proof.
  intros M W S. pose proof (fun k K => proj2 (listed_iff infos (ai_key k)) (metas_in k K M)) as L. apply writes_iff in W. apply signs_iff in S.
  destruct s; cbn [giver taker] in *.
  - apply Forall_forall. intros k K. unfold granted. rewrite (L k K). cbn in K.
    destruct K as [<-|[<-|[<-|[<-|[]]]]]; cbn [ai_key ai_signer ai_writable negb orb andb]; [exact W|rewrite pk_eqb_refl, orb_true_r; reflexivity|reflexivity|].
    destruct (ta_group t); reflexivity.
  - apply Forall_forall. intros k K. unfold granted0. rewrite (L k K). cbn in K.
    destruct K as [<-|[<-|[<-|[<-|[]]]]]; cbn [ai_key ai_signer ai_writable negb orb andb]; [exact W|rewrite S; reflexivity|reflexivity|].
    destruct (ta_group t); reflexivity.
Qed.
Lemma asset_written : match s with
  | Idle => Forall (fun m => granted infos (ta_vault t) m = true) (move_metas e (ta_asset t) (giver t s) (taker t s) (ta_group t))
  | Active => Forall (fun m => granted0 infos m = true) (move_metas e (ta_asset t) (giver t s) (taker t s) (ta_group t))
  end -> writes infos (ta_asset t).
Proof.
  destruct s; intro F; apply Forall_inv in F; unfold granted, granted0 in F; apply andb_true_iff in F as [_ F]; cbn [ai_writable ai_key negb orb] in F; now apply writes_iff.
Qed.
Lemma turn_goes : signs infos (ta_owner t) -> acct_owner (w (ta_asset t)) = p -> goes turn <->
  mentions infos (e_prog e) /\ writes infos (ta_vault t) /\ writes infos (ta_asset t) /\
  exists w2 h2, be_transfer b infos (token_signer t s) (token_call t s) (turned w (ta_vault t) s) h = Ok (w2, h2) /\ bounded_growth infos w w2 /\
    may_move e w2 (ta_asset t) (giver t s) (taker t s) (ta_group t) l lg.
Proof.
  intros S Ho. pose proof (turn_set e me infos w (ta_vault t) s bump (ta_mint t) abump HV) as TS. pose proof may_moves as MM. pose proof metas_granted as MG. pose proof asset_written as AW.
  unfold turn. destruct s; cbn [mode_byte beqb giver taker flip token_signer token_call] in *.
  - change (beqb x00 V_IDLE) with true. cbv iota. rewrite goes_bind. split.
    + intros (w1 & H1 & H). apply TS in H1 as [W1 ->]. apply goes_bind in H as ((w2 & h2) & H2 & H). cbn [fst snd] in H. apply goes_bind in H as (w3 & H3 & _).
      apply invoke_iff in H3 as (pda & i & P1 & P2 & P3 & P4 & P5 & P6 & P7). destruct (tag_only i _ P5 P4) as [T _]. rewrite (T eq_refl) in P6.
      rewrite CV in P1. apply Some_inj in P1. subst pda.
      split; [exact P2|]. split; [exact W1|]. split; [exact (AW P3)|]. exists w2, h2. split; [exact H2|]. split; [now apply (move_bounded _ _ _ _ _ _ _ _ _ P6)|].
      apply (MM w2 h2 H2 Ho). eauto.
    + intros (M & W1 & W2 & w2 & h2 & H2 & B & H). exists (turned w (ta_vault t) Idle). split; [now apply TS|]. apply goes_bind. exists (w2, h2). split; [exact H2|]. cbn [fst snd].
      apply (MM w2 h2 H2 Ho) in H as (w' & H). apply goes_bind. exists w'. split; [|apply goes_ok].
      apply invoke_iff. exists (ta_vault t), ITransfer. split; [exact CV|]. split; [exact M|]. split; [exact (MG M W2 S)|]. split; [exact I|]. split; [reflexivity|]. split; [exact H|].
      now apply (move_bounded _ _ _ _ _ _ _ _ _ H).
  - change (beqb x01 V_IDLE) with false. change (beqb x01 V_ACTIVE) with true. cbv iota. rewrite goes_bind. split.
    + intros (w1 & H1 & H). apply TS in H1 as [W1 ->]. apply goes_bind in H as ((w2 & h2) & H2 & H). cbn [fst snd] in H. apply goes_bind in H as (w3 & H3 & _).
      apply invoke0_iff in H3 as (i & P2 & P3 & P4 & P5 & P6 & P7). destruct (tag_only i _ P5 P4) as [T _]. rewrite (T eq_refl) in P6.
      split; [exact P2|]. split; [exact W1|]. split; [exact (AW P3)|]. exists w2, h2. split; [exact H2|]. split; [now apply (move_bounded _ _ _ _ _ _ _ _ _ P6)|].
      apply (MM w2 h2 H2 Ho). eauto.
    + intros (M & W1 & W2 & w2 & h2 & H2 & B & H). exists (turned w (ta_vault t) Active). split; [now apply TS|]. apply goes_bind. exists (w2, h2). split; [exact H2|]. cbn [fst snd].
      apply (MM w2 h2 H2 Ho) in H as (w' & H). apply goes_bind. exists w'. split; [|apply goes_ok].
      apply invoke0_iff. exists ITransfer. split; [exact M|]. split; [exact (MG M W2 S)|]. split; [exact I|]. split; [reflexivity|]. split; [exact H|].
      now apply (move_bounded _ _ _ _ _ _ _ _ _ H).
Qed.

Lemma toggle_goes : (exists r, process_bridge b e me infos w h = Ok r) <->
  signs infos (ta_owner t) /\ In (acct_owner (w (ta_mint t))) (be_spl b) /\ acct_owner (w (ta_asset t)) = e_prog e /\
  nft_of b (data (w (ta_metadata t))) (ta_mint t) /\ ta_metadata t <> ta_vault t /\
  mentions infos (e_prog e) /\ writes infos (ta_vault t) /\ writes infos (ta_asset t) /\
  exists w2 h2, be_transfer b infos (token_signer t s) (token_call t s) (turned w (ta_vault t) s) h = Ok (w2, h2) /\ bounded_growth infos w w2 /\
    may_move e w2 (ta_asset t) (giver t s) (taker t s) (ta_group t) l lg.
Proof.
  destruct NM as (N0 & N1 & N2 & N3 & N4 & N5 & N6 & N7 & N8 & N9 & N10 & N19).
  change (goes (process_bridge b e me infos w h) <-> signs infos (ta_owner t) /\ In (acct_owner (w (ta_mint t))) (be_spl b) /\ acct_owner (w (ta_asset t)) = e_prog e /\
  nft_of b (data (w (ta_metadata t))) (ta_mint t) /\ ta_metadata t <> ta_vault t /\
  mentions infos (e_prog e) /\ writes infos (ta_vault t) /\ writes infos (ta_asset t) /\
  exists w2 h2, be_transfer b infos (token_signer t s) (token_call t s) (turned w (ta_vault t) s) h = Ok (w2, h2) /\ bounded_growth infos w w2 /\
    may_move e w2 (ta_asset t) (giver t s) (taker t s) (ta_group t) l lg).
  unfold process_bridge. assert (LN : 20 <=? zlen infos = true) by (destruct (opt_at _ _ _ _ N19) as [k K]; apply at_len in K; unfold zlen; lia).
  rewrite LN. cbn [require].
  rewrite (at_acct _ _ _ N0), (at_acct _ _ _ N1), (at_acct _ _ _ N2), (at_acct _ _ _ N3), (at_acct _ _ _ N4), (at_acct _ _ _ N5), (at_acct _ _ _ N6), (at_acct _ _ _ N8), (at_acct _ _ _ N10),
    (at_opt _ _ _ _ N7), (at_opt _ _ _ _ N9), (at_opt _ _ _ _ N19). cbn [bind].
  pose proof HV as [Ov Hd]. pose proof (vault_fields s bump (ta_mint t) abump) as VF. rewrite <- Hd in VF. cbv zeta in VF. destruct VF as (F1 & F2 & F3 & F4).
  assert (SPL : existsb (pk_eqb (acct_owner (w (ta_mint t)))) (be_spl b) = true <-> In (acct_owner (w (ta_mint t))) (be_spl b)).
  { rewrite existsb_exists. split; [intros (x & X & E); apply pk_eqb_eq in E; now subst x|]. intro X. eexists. split; [exact X|apply pk_eqb_refl]. }
  assert (LZ : zlen (data (w (ta_vault t))) = 36) by (rewrite Hd; apply zlen_vault).
  cbv zeta. rewrite LZ, Ov, pk_eqb_refl.
  change (byte_at (data (w (ta_vault t))) 0) with (nth 0 (data (w (ta_vault t))) x00). change (byte_at (data (w (ta_vault t))) 1) with (nth 1 (data (w (ta_vault t))) x00).
  change (byte_at (data (w (ta_vault t))) 2) with (nth 2 (data (w (ta_vault t))) x00). change (byte_at (data (w (ta_vault t))) 35) with (nth 35 (data (w (ta_vault t))) x00).
  change (fld (data (w (ta_vault t))) 3 32) with (sub (data (w (ta_vault t))) 3 32).
  rewrite F1, F2, F3, F4. replace (nth 0 (data (w (ta_vault t))) x00) with x01 by now rewrite Hd.
  change (negb (36 =? 0) && beqb x01 V_DISC) with true. change (VAULT_LEN <=? 36) with true. cbn [require guard].
  change (vault_seeds (ta_mint t)) with (s_vault ++ pk_bytes (ta_mint t)). change (asset_seeds (ta_mint t)) with (s_asset ++ pk_bytes (ta_mint t)). rewrite CV, CA.
  cbn [ok_or bind]. rewrite !pk_eqb_refl, bytes_eqb_refl. cbn [require]. fold turn.
  rewrite !goes_require, goes_guard, goes_bind, signs_iff, SPL, pk_eqb_eq, negb_true_iff, pk_eqb_neq.
  assert (NF : (exists m, ok_or (be_meta b (data (w (ta_metadata t)))) EInvalidAccountData = Ok m /\
      goes (require (is_nft (mt_standard m)) EInvalidAccountData (require (bytes_eqb (mt_mint m) (pk_bytes (ta_mint t))) EInvalidAccountData turn))) <->
    nft_of b (data (w (ta_metadata t))) (ta_mint t) /\ goes turn).
  { unfold nft_of. destruct (be_meta b (data (w (ta_metadata t)))) as [m|]; cbn [ok_or]; split.
    - intros (m' & E & G). apply Ok_inj in E. subst m'. apply goes_require in G as [G1 G]. apply goes_require in G as [G2 G]. split; [|exact G]. exists m. split; [reflexivity|].
      split; [|now apply bytes_eqb_eq]. destruct (mt_standard m) as [[| |]|]; try discriminate; auto.
    - intros ((m' & E & G1 & G2) & G). apply Some_inj in E. subst m'. exists m. split; [reflexivity|]. apply goes_require. split; [destruct G1 as [-> | ->]; reflexivity|].
      apply goes_require. split; [now apply bytes_eqb_eq|exact G].
    - intros (m' & E & _). discriminate.
    - intros ((m' & E & _) & _). discriminate. }
  rewrite NF. clear NF. pose proof turn_goes as TG. unfold p in TG. fold p in TG. tauto.
Qed.
End Toggle.

(** a settled vault, an asset without royalties and without group: only the holder's lock
    and Token Metadata can refuse *)
Lemma free_move e w asset from to l lg : acct_owner (w asset) = e_prog e -> s_standard (data (w asset)) = x00 -> s_group (data (w asset)) = no_key ->
  lookup XRoyalties (ext_list l) = None -> acct_owner (w from) <> e_prog e -> acct_owner (w to) <> e_prog e -> s_owner (data (w asset)) = pk_bytes from ->
  may_move e w asset from to None l lg <-> ~ locked (data (w asset)).
Proof.
  intros Ho Hst Hg Hr Hf Ht Hw. unfold may_move. rewrite Hst, Hg. split.
  - intros (_ & _ & N & _). apply N; [now left|exact Ho].
  - intro N. split; [discriminate|]. split; [discriminate|]. split.
    { intros k K Q. cbn in K. destruct K as [<-|[<-|[<-|[]]]]; [exact N|contradiction|contradiction]. }
    split; [now left|]. split; [intros x X; congruence|]. intros _ Q. now elim Q.
Qed.
Section Free.
Variables (b : benv) (e : env) (me : pubkey) (infos : list ainfo) (w : world) (h : holders) (t : toggle_accounts) (s : mode) (bump abump : byte) (l : list blk).
Let p := e_prog e.
Hypotheses (NM : names me infos t) (NG : ta_group t = None) (TM : tm_ok b p me) (Hmp : me <> p)
  (ST : settled p me (mkChain w h) (ta_vault t) bump (ta_mint t) (ta_asset t) abump)
  (HV : vault_at me w (ta_vault t) s bump (ta_mint t) abump)
  (CV : e_cpa e (s_vault ++ pk_bytes (ta_mint t)) bump (pk_bytes me) = Some (ta_vault t))
  (CA : e_cpa e (s_asset ++ pk_bytes (ta_mint t)) abump (pk_bytes me) = Some (ta_asset t))
  (Ha : acct_owner (w (ta_asset t)) = p) (Hwf : well_formed (data (w (ta_asset t))) l) (Hms : manager_sane l)
  (Hr : lookup XRoyalties (ext_list l) = None) (Hgr : s_group (data (w (ta_asset t))) = no_key)
  (How : acct_owner (w (ta_owner t)) <> p) (Hpp : acct_owner (w p) <> p).
Lemma free_common : s_owner (data (w (ta_asset t))) = pk_bytes (giver t s) ->
  (exists r, process_bridge b e me infos w h = Ok r) <->
  signs infos (ta_owner t) /\ In (acct_owner (w (ta_mint t))) (be_spl b) /\ nft_of b (data (w (ta_metadata t))) (ta_mint t) /\ ta_metadata t <> ta_vault t /\
  mentions infos (e_prog e) /\ writes infos (ta_vault t) /\ writes infos (ta_asset t) /\
  ~ locked (data (w (ta_asset t))) /\
  exists w2 h2, be_transfer b infos (token_signer t s) (token_call t s) (turned w (ta_vault t) s) h = Ok (w2, h2) /\ bounded_growth infos w w2.
Proof.
  intro Hw. destruct ST as (_ & PG & Sz & Lo). cbn [ch_world] in *. destruct PG as [PG|(_ & Hi & _ & Hst & _)]; [contradiction|].
  assert (RS : royalties_sane l) by (intros x X; congruence).
  assert (TG := toggle_goes b e me infos w h t s bump abump l [] NM TM Hmp Sz Lo HV CV CA Hi Hwf Hms RS). rewrite NG in TG.
  rewrite TG; clear TG.
  2:{ discriminate. }
  2:{ intros k K Q. cbn in K. fold p in K. destruct K as [<-|[<-|[]]]; contradiction. }
  2:{ exact Hpp. }
  2:{ discriminate. }
  assert (V : acct_owner (w (ta_vault t)) <> p) by (destruct HV as [V _]; congruence).
  assert (E : forall w2 h2, be_transfer b infos (token_signer t s) (token_call t s) (turned w (ta_vault t) s) h = Ok (w2, h2) ->
    may_move e w2 (ta_asset t) (giver t s) (taker t s) None l [] <-> ~ locked (data (w (ta_asset t)))).
  { intros w2 h2 H. destruct (after_tm b e me infos w h t s bump abump TM Hmp Sz Lo HV w2 h2 H) as (S2 & O2 & D2). rewrite <- (D2 _ Ha).
    assert (O3 : forall k, acct_owner (w k) <> p -> acct_owner (w2 k) <> p) by (intros k N Q; apply N; now apply O2).
    apply free_move; try rewrite (D2 _ Ha); try assumption; [now apply O2| |]; apply O3; destruct s; assumption. }
  split.
  - intros (A1 & A2 & _ & A4 & A5 & A6 & A7 & A8 & w2 & h2 & B1 & B2 & B3). apply (E _ _ B1) in B3. repeat (split; [assumption|]). eauto.
  - intros (A1 & A2 & A4 & A5 & A6 & A7 & A8 & A9 & w2 & h2 & B1 & B2). repeat (split; [assumption|]). exists w2, h2. split; [exact B1|]. split; [exact B2|]. now apply (E _ _ B1).
Qed.
Lemma free_out : s = Idle ->
  (exists r, process_bridge b e me infos w h = Ok r) <->
  signs infos (ta_owner t) /\ In (acct_owner (w (ta_mint t))) (be_spl b) /\ nft_of b (data (w (ta_metadata t))) (ta_mint t) /\ ta_metadata t <> ta_vault t /\
  mentions infos (e_prog e) /\ writes infos (ta_vault t) /\ writes infos (ta_asset t) /\
  exists w2 h2, be_transfer b infos None (token_call t Idle) (turned w (ta_vault t) Idle) h = Ok (w2, h2) /\ bounded_growth infos w w2.
Proof.
  intro E. pose proof free_common as FC. subst s. pose proof ST as ((s' & HV' & B) & PG & _). cbn [ch_world] in *.
  destruct s'; [|destruct HV as [_ Q]; destruct HV' as [_ Q']; rewrite Q in Q'; discriminate Q'].
  destruct B as (B1 & B2 & B3 & B4). destruct PG as [PG|(_ & _ & _ & _ & PG)]; [contradiction|]. destruct (PG B3) as [_ U].
  assert (NL : ~ locked (data (w (ta_asset t)))) by (unfold locked; intuition). rewrite (FC B3). cbn [token_signer]. tauto.
Qed.
Lemma free_back : s = Active -> s_owner (data (w (ta_asset t))) = pk_bytes (ta_owner t) ->
  (exists r, process_bridge b e me infos w h = Ok r) <->
  signs infos (ta_owner t) /\ In (acct_owner (w (ta_mint t))) (be_spl b) /\ nft_of b (data (w (ta_metadata t))) (ta_mint t) /\ ta_metadata t <> ta_vault t /\
  mentions infos (e_prog e) /\ writes infos (ta_vault t) /\ writes infos (ta_asset t) /\ ~ locked (data (w (ta_asset t))) /\
  exists w2 h2, be_transfer b infos (Some (ta_vault t)) (token_call t Active) (turned w (ta_vault t) Active) h = Ok (w2, h2) /\ bounded_growth infos w w2.
Proof. intros E Ow. pose proof free_common as FC. subst s. exact (FC Ow). Qed.
End Free.

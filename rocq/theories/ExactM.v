(** Instructions succeed exactly when: Transfer, Resize, Remove. *)
From Verif Require Import Base State Layout Constr Ext World Proc BaseL Spec SpecB SpecC SpecE WorldL ProcSteps LayoutL LayoutM LayoutE HeadL AuthL AuthM GroupL ConstrL RoyalL ResizeL RemoveL ReadsL ExactL.
From Coq Require Import Strings.Byte.

Lemma optional_acct e infos i o : optional e infos i o -> opt_acct e (passed infos) i = Ok o.
Proof.
  unfold optional. destruct o as [k|].
  - intros H. now apply opt_acct_some.
  - intro A. unfold opt_acct. apply acct_arg in A. rewrite A. cbn [bind]. now rewrite pk_eqb_refl.
Qed.

(** ** Transfer *)
Lemma roy_goes e w a s r d l : well_formed d l -> royalties_sane l ->
  (lookup XRoyalties (ext_list l) = None /\ process_royalties e w a s r d = Ok false) \/
  (exists b, lookup XRoyalties (ext_list l) = Some b /\
     ((permits e w a s r b /\ process_royalties e w a s r d = Ok true) \/
      (~ permits e w a s r b /\ process_royalties e w a s r d = Err EAssertionFailure))).
Proof.
  intros Hwf Hr. assert (NX : XRoyalties <> XNone) by discriminate.
  destruct (get_wf _ _ _ Hwf NX) as [[Q G]|(off & b & Q & G & _)].
  - left. split; [exact Q|]. unfold process_royalties. rewrite G. reflexivity.
  - right. exists b. split; [exact Q|]. destruct (Hr b Q) as (bp & f & rest & -> & Z).
    destruct (royalties_exact e w a s r d l bp f rest Hwf Q Z) as [E1 E2].
    assert (P : permits e w a s r (build_royalties bp f ++ rest) <-> wallets e w s r \/ holds (wanted f) (view_of w a s r)).
    { unfold permits. assert (E : skipn 8 (build_royalties bp f ++ rest) = build f ++ rest).
      { unfold build_royalties. rewrite <- app_assoc. rewrite skipn_app, le_enc_length, skipn_all2, Nat.sub_diag by (rewrite le_enc_length; lia). reflexivity. }
      rewrite E. split; (intros [H|H]; [now left|right]).
      - destruct H as (r0 & rest0 & H1 & H2). destruct (reads_det _ _ _ _ _ H1 (build_reads f rest Z)) as [-> _]. exact H2.
      - exists (wanted f), rest. split; [now apply build_reads|exact H]. }
    destruct (wallets_dec e w s r) as [W|W]; [left; split; [apply P; now left|apply E1; now left]|].
    assert (DH : holds (wanted f) (view_of w a s r) \/ ~ holds (wanted f) (view_of w a s r)).
    { destruct (build_round_trip f 0 [] eq_refl Z) as (c & _ & C & _). destruct (eval_view c w a s r) as (v & _ & V). rewrite C in V.
      destruct v; [left; now apply V|right; intro X; apply V in X; discriminate]. }
    destruct DH as [H|H].
    + left. split; [apply P; now right|apply E1; now right].
    + right. split; [|now apply E2]. intro C. apply P in C. tauto.
Qed.

Section Transfer.
Variables (e : env) (infos : list ainfo) (w : world) (asset signer recipient : pubkey) (og : option pubkey) (l lg : list blk).
Hypothesis R : ready e infos w asset.
Hypothesis A1 : arg infos 1 signer.
Hypothesis A2 : arg infos 2 recipient.
Hypothesis A3 : optional e infos 3 og.
Hypothesis Hwf : well_formed (data (w asset)) l.
Hypothesis Hm : manager_sane l.
Hypothesis Hr : royalties_sane l.
Hypothesis Hg : forall g, og = Some g -> acct_owner (w g) = e_prog e -> s_disc (data (w g)) = x01 -> well_formed (data (w g)) lg /\ royalties_sane lg.

Lemma transfer_exact : (exists w', process e infos w ITransfer = Ok w') <->
  gate infos w asset /\ none_locked e infos w /\ signed infos signer /\ authorized (data (w asset)) l signer RTransfer /\
  s_standard (data (w asset)) <> x02 /\ allows e w asset signer recipient l /\
  (s_owner (data (w asset)) <> pk_bytes recipient -> s_group (data (w asset)) <> no_key -> lookup XRoyalties (ext_list l) = None ->
     exists g, og = Some g /\ pk_bytes g = s_group (data (w asset)) /\ g <> asset /\ acct_owner (w g) = e_prog e /\ s_disc (data (w g)) = x01 /\
       allows e w asset signer recipient lg).
Proof.
  rewrite (gate_exact e infos w asset _ R). cbn [blocked_when_locked dispatch].
  pose proof R as (A0 & Ho & Hi & Hw & Hp & Hs). pose proof (initialized_len _ Hi) as Hlen.
  assert (D : goes (process_transfer e (passed infos) w) <-> signed infos signer /\ authorized (data (w asset)) l signer RTransfer /\
    s_standard (data (w asset)) <> x02 /\ allows e w asset signer recipient l /\
    (s_owner (data (w asset)) <> pk_bytes recipient -> s_group (data (w asset)) <> no_key -> lookup XRoyalties (ext_list l) = None ->
       exists g, og = Some g /\ pk_bytes g = s_group (data (w asset)) /\ g <> asset /\ acct_owner (w g) = e_prog e /\ s_disc (data (w g)) = x01 /\
         allows e w asset signer recipient lg)).
  { split.
    - intros [w' H]. apply transfer_inv in H as (a & s & rc & grp & ck & B0 & B1 & B2 & B3 & _ & Bs & _ & Bb & Br & Ba & Bc).
      apply acct_arg in B0, B1, B2. assert (Ea := arg_det _ _ _ _ B0 A0). assert (Es := arg_det _ _ _ _ B1 A1). assert (Er := arg_det _ _ _ _ B2 A2). rewrite Ea, Es, Er in *.
      rewrite (optional_acct _ _ _ _ A3) in B3. apply Ok_inj in B3. rewrite <- B3 in *.
      split; [now apply signer_spec|]. split; [now apply act_check_exact|]. split; [exact Bb|].
      destruct (roy_goes e w asset signer recipient _ _ Hwf Hr) as [[Q G]|(b & Q & [[P G]|[_ G]])]; rewrite G in Br; [| |discriminate].
      + split; [intros b E; congruence|]. intros No Ng _. destruct Bc as [[Eo _]|(_ & Bg & _)]; [contradiction|].
        destruct (Bg (s_group (data (w asset)))) as (ga & x & G1 & G2 & G3 & G4 & G5 & G6 & G7); [now apply nullable_some|now apply Ok_inj in Br|].
        exists ga. repeat (split; [assumption|]). destruct (Hg ga G1 G2 G6) as [W1 W2].
        destruct (roy_goes e w asset signer recipient _ _ W1 W2) as [[Q' G']|(b & Q' & [[P' G']|[_ G']])].
        * intros b E; congruence.
        * intros b' E. assert (b' = b) as -> by congruence. exact P'.
        * rewrite G' in G7. discriminate.
      + split; [intros b' E; assert (b' = b) as -> by congruence; exact P|]. intros _ _ E. congruence.
    - intros (S1 & S2 & S3 & S4 & S5). unfold process_transfer. rewrite (optional_acct _ _ _ _ A3). args. cbv zeta.
      rewrite !goes_require, owned_spec, signer_spec, is_asset_spec. repeat (split; [assumption|]).
      change (if key_is (f_owner (data (w asset))) signer then _ else _) with (act_check (data (w asset)) signer RTransfer).
      apply (act_check_exact _ _ _ _ Hwf Hm) in S2. rewrite S2. cbn [bind].
      assert (W : goes (set_data e (passed infos) w asset (clear_delegate (put (data (w asset)) 4 (pk_bytes recipient))))).
      { apply goes_set; [now apply ready_ours|]. assert (E : zlen (put (data (w asset)) 4 (pk_bytes recipient)) = zlen (data (w asset))) by (apply zlen_put; rewrite ?pk_zlen; lia).
        rewrite clear_len by lia. rewrite E. apply Hs. }
      assert (X : forall ck, (ck = true \/ ck = false /\ lookup XRoyalties (ext_list l) = None) ->
        goes (require (negb (beqb (byte_at (data (w asset)) 2) (standard_code Soulbound))) ECannotTransferSoulbound
          (require true EInvalidTransferAuthority
            (if key_is (f_owner (data (w asset))) recipient then Ok w
             else
              u <- (match nullable (f_group (data (w asset))) with
                    | None => Ok tt
                    | Some g =>
                        if ck : bool then Ok tt
                        else
                          ga <- ok_or og ENotEnoughAccountKeys ;;
                          require (owned_by_prog e w ga) EInvalidGroup
                           (require (key_is g ga) EInvalidGroup
                            (require (negb (pk_eqb ga asset)) EAccountBorrowFailed
                             (guard (1 <=? zlen (data (w ga)))
                              (require (beqb (byte_at (data (w ga)) 0) DISC_ASSET) EInvalidGroup
                               (x <- process_royalties e w asset signer recipient (data (w ga)) ;;
                                Ok tt)))))
                    end) ;;
              set_data e (passed infos) w asset (clear_delegate (put (data (w asset)) 4 (pk_bytes recipient))))))).
      { intros ck C. rewrite !goes_require. split; [apply negb_true_iff, beqb_neq; exact S3|]. split; [reflexivity|].
        destruct (key_is (f_owner (data (w asset))) recipient) eqn:Ek; [apply goes_ok|]. apply key_is_false in Ek. change (f_owner (data (w asset))) with (s_owner (data (w asset))) in Ek.
        apply goes_unit. split; [|exact W]. destruct (nullable (f_group (data (w asset)))) as [gb|] eqn:En; [|apply goes_ok].
        apply nullable_some in En as [En Ng]. change (f_group (data (w asset))) with (s_group (data (w asset))) in En, Ng.
        destruct C as [->|[-> C]]; [apply goes_ok|]. destruct (S5 Ek Ng C) as (g & -> & G1 & G2 & G3 & G4 & G5). cbn [ok_or bind].
        destruct (Hg g eq_refl G3 G4) as [W1 W2].
        rewrite !goes_require, goes_guard, goes_require, owned_spec, key_is_spec, not_same_spec.
        split; [exact G3|]. split; [congruence|]. split; [exact G2|]. split.
        { destruct W1 as (hd & tl & (-> & W1 & _)). rewrite zlen_app. pose proof (zlen_nonneg (enc_sect 168 lg ++ tl)). lia. }
        split; [apply beqb_eq; exact G4|].
        destruct (roy_goes e w asset signer recipient _ _ W1 W2) as [[Q' G']|(b & Q' & [[P' G']|[P' G']])]; rewrite G'; cbn [bind]; try apply goes_ok.
        elim P'. now apply G5. }
      destruct (roy_goes e w asset signer recipient _ _ Hwf Hr) as [[Q G]|(b & Q & [[P G]|[P G]])]; rewrite G; cbn [bind].
      + apply (X false). right. auto.
      + apply (X true). now left.
      + elim P. now apply S4. }
  unfold goes in D. tauto.
Qed.
End Transfer.

(** ** Resize *)
Lemma move_goes e infos w k dest amt : ours e infos w k -> 0 <= amt <= lamports (w k) ->
  goes (move_lamports e (passed infos) w k dest amt) <-> (0 < amt -> dest <> k -> writable infos dest /\ lamports (w dest) + amt < 18446744073709551616).
Proof.
  intros [Ho Hw] Ha. unfold move_lamports. destruct (Z.eqb_spec amt 0) as [->|N]; cbn [orb]; [split; [intros _ H; lia|intros; apply goes_ok]|].
  destruct (pk_eqb k dest) eqn:E; bnorm; [split; [congruence|intros; apply goes_ok]|].
  cbv zeta. rewrite !goes_require, upd_other by congruence. apply writable_acct in Hw. change (is_writable (passed infos) k = true) in Hw.
  rewrite Hw, Ho, pk_eqb_refl, andb_true_r. cbn [andb]. assert (W : is_writable (passed infos) dest = true <-> writable infos dest) by apply writable_acct. rewrite W.
  rewrite Z.ltb_lt, Z.leb_le. change two64 with 18446744073709551616. split; [tauto|]. intro H. destruct H as [H1 H2]; [lia|congruence|]. repeat split; [exact H1|lia|exact H2|apply goes_ok].
Qed.
Lemma move_same e infos w k dest amt w' : move_lamports e infos w k dest amt = Ok w' -> (forall x, data (w' x) = data (w x)) /\ (forall x, acct_owner (w' x) = acct_owner (w x)).
Proof.
  unfold move_lamports. destruct ((amt =? 0) || pk_eqb k dest) eqn:E; intro H; [apply Ok_inj in H; subst w'; auto|].
  apply require_ok in H as [_ H]. apply require_ok in H as [_ H]. cbv zeta in H. apply require_ok in H as [_ H]. apply Ok_inj in H. subst w'. apply orb_false_iff in E as [_ E]. apply pk_eqb_neq in E.
  split; intro x; (destruct (pk_dec x dest) as [->|Nd]; [rewrite upd_same; cbn [data acct_owner]; now rewrite upd_other by congruence|]; rewrite upd_other by assumption;
    destruct (pk_dec x k) as [->|Nk]; [now rewrite upd_same|now rewrite upd_other]).
Qed.
Lemma realloc_goes e infos w0 w k size : ours e infos w k -> 0 <= size <= 10485760 -> size <= zlen (data (w0 k)) + 10240 -> goes (realloc e (passed infos) w0 w k size).
Proof.
  intros O Z M. unfold realloc. destruct (size =? zlen (data (w k))); [apply goes_ok|]. apply goes_require. split; [unfold MAX_INCREASE; lia|].
  apply goes_set; [exact O|]. unfold realloc_bytes. destruct (Z.leb_spec size (zlen (data (w k)))).
  - unfold zlen in *. rewrite firstn_length. lia.
  - rewrite zlen_app, zlen_zeros by lia. lia.
Qed.
Lemma shrink_goes e infos w0 w k dest sysp size : ours e infos w k -> sized w -> 0 <= e_rent e size -> zlen (data (w0 k)) = zlen (data (w k)) -> 0 < size < zlen (data (w k)) -> lam_ok w ->
  goes (resize e (passed infos) w0 w size k (Some dest) sysp) <-> can_shrink e infos w k dest size.
Proof.
  intros O Hs He Hz Hd Hl. unfold resize, can_shrink. cbv zeta. replace (size <? zlen (data (w k))) with true by lia. replace (size =? 0) with false by lia. cbn [ok_or bind].
  assert (X : goes (move_lamports e (passed infos) w k dest (Z.max 0 (lamports (w k) - e_rent e size))) <->
    (e_rent e size < lamports (w k) -> dest <> k -> writable infos dest /\ lamports (w dest) + (lamports (w k) - e_rent e size) < 18446744073709551616)).
  { rewrite move_goes; [|exact O|specialize (Hl k); lia].
    destruct (Z.lt_ge_cases (e_rent e size) (lamports (w k))).
    - rewrite Z.max_r by lia. split; intros Q; [intros _|intros _]; apply Q; lia.
    - rewrite Z.max_l by lia. split; [intros; lia|intros; lia]. }
  rewrite <- X. rewrite goes_bind. split; [intros (x & E & _); now exists x|]. intros [w1 E]. exists w1. split; [exact E|].
  destruct (move_same _ _ _ _ _ _ _ E) as [S1 S2]. specialize (Hs k). apply realloc_goes; [|lia|lia]. destruct O as [O1 O2]. split; [now rewrite S2|exact O2].
Qed.
Lemma sys_goes e infos w p k amt : ours e infos w k -> e_prog e <> pk_zero -> 0 <= amt ->
  goes (sys_transfer (passed infos) w p k amt) <-> can_pay infos w p amt /\ lamports (w k) + amt < 18446744073709551616.
Proof.
  intros [Ho Hw] Hp Ha. unfold sys_transfer, can_pay. cbv zeta. rewrite !goes_require, !andb_true_iff, signer_spec, Z.eqb_eq, Z.leb_le, Z.ltb_lt, pk_eqb_eq.
  assert (W : forall x, is_writable (passed infos) x = true <-> writable infos x) by (intro; apply writable_acct). rewrite !W. change two64 with 18446744073709551616.
  assert (Z : zlen (data (w p)) = 0 <-> data (w p) = []) by (split; [apply zlen_0|now intros ->]). rewrite Z. split.
  - intros (((H1 & H2) & _) & (H3 & H4) & H5 & H6 & _). assert (N : p <> k) by (intros ->; congruence). rewrite upd_other in H6 by congruence. tauto.
  - intros ((H1 & H2 & H3 & H4 & H5) & H6). assert (N : p <> k) by (intros ->; congruence). rewrite upd_other by congruence. repeat (split; [tauto|]). apply goes_ok.
Qed.
Lemma sys_same infos w p k amt w' : p <> k -> sys_transfer infos w p k amt = Ok w' -> (forall x, data (w' x) = data (w x)) /\ (forall x, acct_owner (w' x) = acct_owner (w x)).
Proof.
  intro N. unfold sys_transfer. intro H. apply require_ok in H as [_ H]. apply require_ok in H as [_ H]. apply require_ok in H as [_ H]. cbv zeta in H. apply require_ok in H as [_ H]. apply Ok_inj in H. subst w'.
  split; intro x; (destruct (pk_dec x k) as [->|Nd]; [rewrite upd_same; cbn [data acct_owner]; now rewrite upd_other by congruence|]; rewrite upd_other by assumption;
    destruct (pk_dec x p) as [->|Nk]; [now rewrite upd_same|now rewrite upd_other]).
Qed.
Lemma grow_goes e infos w0 w k payer sysp size : ours e infos w k -> e_prog e <> pk_zero -> zlen (data (w0 k)) = zlen (data (w k)) -> zlen (data (w k)) <= size -> sized w ->
  goes (resize e (passed infos) w0 w size k payer sysp) <-> can_grow e infos w k payer sysp size.
Proof.
  intros O Hp Hz Hd Hs. pose proof (zlen_nonneg (data (w k))) as Z0. unfold resize, can_grow. cbv zeta. replace (size <? zlen (data (w k))) with false by lia.
  rewrite goes_bind. split.
  - intros (w1 & E & Q). apply require_ok in E as [M E]. unfold MAX_INCREASE in M. split; [lia|].
    assert (D1 : data (w1 k) = data (w k) /\ (lamports (w k) < e_rent e size -> e_rent e size < 18446744073709551616 /\ sysp = Some pk_zero /\ exists p, payer = Some p /\ can_pay infos w p (e_rent e size - lamports (w k)))).
    { destruct (Z.lt_ge_cases (lamports (w k)) (e_rent e size)) as [C|C].
      - rewrite Z.max_r in E by lia. replace (0 <? e_rent e size - lamports (w k)) with true in E by lia.
        apply bind_ok in E as (p & E1 & E). apply bind_ok in E as (s & E2 & E). apply ok_or_ok in E1, E2. apply require_ok in E as [E3 E]. apply require_ok in E as [E4 E]. apply pk_eqb_eq in E4. subst s.
        assert (X : goes (sys_transfer (passed infos) w p k (e_rent e size - lamports (w k)))) by (now exists w1). apply (sys_goes e) in X as [X1 X2]; [|exact O|exact Hp|lia].
        assert (N : p <> k) by (intros ->; destruct O as [O _]; unfold can_pay in X1; destruct X1 as (_ & _ & X1 & _); congruence).
        destruct (sys_same _ _ _ _ _ _ N E) as [S1 _]. split; [apply S1|]. intros _. split; [lia|]. split; [exact E2|]. exists p. auto.
      - rewrite Z.max_l in E by lia. cbn [Z.ltb Z.compare] in E. apply Ok_inj in E. subst w1. split; [reflexivity|lia]. }
    destruct D1 as [D1 D2]. split; [|exact D2]. destruct Q as [w2 Q]. unfold realloc in Q. rewrite D1 in Q.
    destruct (Z.eqb_spec size (zlen (data (w k)))) as [->|N]; [apply Hs|]. apply require_ok in Q as [_ Q]. apply set_data_ok in Q as [[Q _]|(_ & _ & _ & Q & _)].
    + exfalso. assert (X : zlen (realloc_bytes (data (w k)) size) = size) by (unfold realloc_bytes; replace (size <=? zlen (data (w k))) with false by lia; rewrite zlen_app, zlen_zeros by lia; lia). rewrite Q, D1 in X. lia.
    + assert (X : zlen (realloc_bytes (data (w k)) size) = size) by (unfold realloc_bytes; replace (size <=? zlen (data (w k))) with false by lia; rewrite zlen_app, zlen_zeros by lia; lia). unfold MAX_DATA in Q. lia.
  - intros (M & B & P). assert (X : exists w1, acct_owner (w1 k) = acct_owner (w k) /\
      require (size - zlen (data (w k)) <=? MAX_INCREASE) EAccountDataTooSmall
        (if 0 <? Z.max 0 (e_rent e size - lamports (w k)) then
           p <- ok_or payer ENotEnoughAccountKeys ;;
           s <- ok_or sysp ENotEnoughAccountKeys ;;
           require (is_signer (passed infos) p) EMissingRequiredSignature
            (require (pk_eqb s pk_zero) EIncorrectProgramId
             (sys_transfer (passed infos) w p k (Z.max 0 (e_rent e size - lamports (w k)))))
         else Ok w) = Ok w1).
    { replace (size - zlen (data (w k)) <=? MAX_INCREASE) with true by (unfold MAX_INCREASE; lia). cbn [require].
      destruct (Z.lt_ge_cases (lamports (w k)) (e_rent e size)) as [C|C].
      - destruct (P C) as (P1 & -> & p & -> & P2). rewrite Z.max_r by lia. replace (0 <? e_rent e size - lamports (w k)) with true by lia. cbn [ok_or bind].
        pose proof P2 as (Ps & _ & Pz & _). apply signer_spec in Ps. rewrite Ps, pk_eqb_refl. cbn [require].
        assert (N : p <> k) by (intros ->; destruct O as [O _]; congruence).
        destruct (proj2 (sys_goes e infos w p k (e_rent e size - lamports (w k)) O Hp ltac:(lia))) as [w1 E]; [split; [exact P2|lia]|].
        exists w1. split; [apply (sys_same _ _ _ _ _ _ N E)|exact E].
      - rewrite Z.max_l by lia. exists w. auto. }
    destruct X as (w1 & Ow & E). exists w1. split; [exact E|]. apply realloc_goes; [|lia|lia]. destruct O as [O1 O2]. split; [congruence|exact O2].
Qed.
Lemma layout_room d hd l tl : layout d hd l tl -> 168 <= 168 + sect_size l /\ zlen d = 168 + sect_size l + zlen tl.
Proof. intro HL. pose proof (layout_len _ _ _ _ HL). pose proof (sect_size_nonneg l). lia. Qed.
Section Resize.
Variables (e : env) (infos : list ainfo) (w : world) (asset auth payer : pubkey) (sysp : option pubkey).
Hypothesis R : ready e infos w asset.
Hypothesis A1 : arg infos 1 auth.
Hypothesis A2 : arg infos 2 payer.
Hypothesis A3 : optional e infos 3 sysp.
Hypothesis Hl : lam_ok w.
Hypothesis He : env_ok e.
Hypothesis Hpz : e_prog e <> pk_zero.

Lemma resize_goes size s : (match s with
                | Trim => l <- last_extension (data (w asset)) ;; Ok (match l with Some (h, _) => h_bnd h | None => ASSET_LEN end)
                | Extend v => Ok (zlen (data (w asset)) + v)
                end) = Ok size -> (exists w', process e infos w (IResize s) = Ok w') <->
  gate infos w asset /\ in_charge infos w asset auth /\ goes (resize e (passed infos) w w size asset (Some payer) sysp).
Proof.
  intro Hsz. rewrite (gate_exact e infos w asset _ R). cbn [blocked_when_locked dispatch].
  assert (D : goes (process_resize e (passed infos) w s) <-> in_charge infos w asset auth /\ goes (resize e (passed infos) w w size asset (Some payer) sysp)).
  { pose proof R as (A0 & Ho & Hi & Hw & Hp & Hs). unfold process_resize, in_charge. rewrite (optional_acct _ _ _ _ A3). args. cbv zeta.
    rewrite !goes_require, check_goes, owned_spec, signer_spec. rewrite Hsz. cbn [bind]. tauto. }
  unfold goes in D at 1. split; [intros (G & _ & H); tauto|]. intros (G & H). split; [exact G|]. split; [discriminate|]. tauto.
Qed.
Lemma trim_exact hd l tl : layout (data (w asset)) hd l tl ->
  (exists w', process e infos w (IResize Trim) = Ok w') <->
  gate infos w asset /\ in_charge infos w asset auth /\
  (tl <> [] -> can_shrink e infos w asset payer (168 + sect_size l)) /\
  (tl = [] -> can_grow e infos w asset (Some payer) sysp (168 + sect_size l)).
Proof.
  intro HL. rewrite (resize_goes (168 + sect_size l)).
  2:{ rewrite (layout_last _ _ _ _ HL). cbn [bind]. f_equal. exact (layout_bnd _ _ _ _ HL). }
  pose proof (layout_room _ _ _ _ HL) as [Z1 Z2]. pose proof R as (_ & _ & _ & _ & _ & Hs). pose proof (ready_ours _ _ _ _ R) as O.
  destruct tl as [|x tl].
  - change (zlen (@nil byte)) with 0 in Z2. rewrite (grow_goes e infos w w asset (Some payer) sysp) by (assumption||lia). tauto.
  - rewrite zlen_cons in Z2. pose proof (zlen_nonneg tl). rewrite (shrink_goes e infos w w asset payer sysp) by (try assumption; try reflexivity; try apply He; lia).
    assert (x :: tl <> []) by discriminate. assert (x :: tl = [] -> False) by discriminate. tauto.
Qed.
Lemma extend_exact v : 0 <= v ->
  (exists w', process e infos w (IResize (Extend v)) = Ok w') <->
  gate infos w asset /\ in_charge infos w asset auth /\ can_grow e infos w asset (Some payer) sysp (zlen (data (w asset)) + v).
Proof.
  intro Hv. rewrite (resize_goes (zlen (data (w asset)) + v)) by reflexivity. pose proof R as (_ & _ & _ & _ & _ & Hs). pose proof (ready_ours _ _ _ _ R) as O.
  rewrite (grow_goes e infos w w asset (Some payer) sysp) by (assumption||lia). tauto.
Qed.
End Resize.

(** ** Remove *)
Lemma remove_find_run t C b : bk_type b = t -> blk_ok b -> forall l1 A fuel, zlen A mod 8 = 0 -> Forall blk_ok l1 -> Forall (fun x => bk_type x <> t) l1 ->
  zlen A + sect_size l1 + blk_size b <= u32_max -> (length l1 < fuel)%nat -> 16 < blk_size b + zlen C ->
  remove_find fuel t (A ++ enc_sect (zlen A) l1 ++ enc_blk (zlen A + sect_size l1) b ++ C) (zlen A) = Ok (Some (zlen A + sect_size l1, zlen A + sect_size l1 + blk_size b)).
Proof.
  intros Eb Hb. induction l1 as [|x l1 IH]; intros A fuel HA HF Hf Hu Hfu Hz; (destruct fuel as [|fuel]; [cbn [length] in Hfu; lia|]); cbn [remove_find enc_sect app sect_size].
  - rewrite Z.add_0_r. cbn [sect_size] in Hu. rewrite !zlen_app, zlen_enc_blk by assumption. unfold EXT_LEN.
    replace (zlen A + 16 <? zlen A + (blk_size b + zlen C)) with true by lia.
    rewrite load_hdr_blk by (auto; lia). cbn [bind h_type h_bnd]. rewrite Eb, Z.eqb_refl. reflexivity.
  - apply Forall_cons_iff in HF as [Hx HF]. apply Forall_cons_iff in Hf as [Nx Hf]. pose proof (blk_size_pos x). pose proof (blk_size_pos b). pose proof (sect_size_nonneg l1). cbn [sect_size length] in *.
    rewrite !zlen_app, !zlen_enc_blk, zlen_enc_sect by assumption. unfold EXT_LEN. pose proof (zlen_nonneg C).
    replace (zlen A + 16 <? _) with true by lia. rewrite <- !app_assoc. rewrite load_hdr_blk by (auto; lia). cbn [bind h_type h_bnd].
    replace (ext_code (bk_type x) =? ext_code t) with false by (symmetry; apply Z.eqb_neq; intro Q; apply ext_code_inj in Q; contradiction).
    replace (ext_code (bk_type x) =? 0) with false by (symmetry; apply Z.eqb_neq; intro Q; destruct Hx as [Hx _]; apply Hx, ext_code_0; lia).
    assert (HL : zlen (A ++ enc_blk (zlen A) x) = zlen A + blk_size x) by (rewrite zlen_app, zlen_enc_blk by assumption; reflexivity).
    specialize (IH (A ++ enc_blk (zlen A) x) fuel). rewrite HL in IH. rewrite <- app_assoc in IH. pose proof (blk_size_mod x Hx).
    replace (zlen A + (blk_size x + sect_size l1)) with (zlen A + blk_size x + sect_size l1) by lia. apply IH; auto; lia.
Qed.
Lemma remove_exact e infos w asset auth og recipient t hd l1 b l2 tl : ready e infos w asset -> arg infos 1 auth -> optional e infos 2 og -> arg infos 3 recipient ->
  lam_ok w -> env_ok e -> layout (data (w asset)) hd (l1 ++ b :: l2) tl -> bk_type b = t -> Forall (fun x => bk_type x <> t) l1 ->
  (t = XGrouping -> (16 <= length (bk_data b) <= 48)%nat) ->
  (exists w', process e infos w (IRemove t) = Ok w') <->
  gate infos w asset /\ in_charge infos w asset auth /\ t <> XManager /\ t <> XProxy /\ (t = XGrouping -> gr_size (bk_data b) = 0) /\
  168 + sect_size l1 + 16 < zlen (data (w asset)) /\
  can_shrink e infos w asset recipient (zlen (data (w asset)) - blk_size b).
Proof.
  intros R A1 A2 A3 Hl He HL Eb Hf Hgs.
  rewrite (gate_exact e infos w asset _ R). cbn [blocked_when_locked dispatch].
  pose proof (layout_len _ _ _ _ HL) as Hlen. pose proof (layout_u32 _ _ _ _ HL) as Hu32. pose proof HL as HL'. destruct HL as (Ed & Hh & HF & Htl & Hz).
  apply Forall_app in HF as [HF1 HF2]. apply Forall_cons_iff in HF2 as [HFb HF2]. rewrite sect_size_app in Hlen, Hu32. cbn [sect_size] in Hlen, Hu32.
  pose proof (sect_size_nonneg l1). pose proof (sect_size_nonneg l2). pose proof (blk_size_pos b). pose proof (zlen_nonneg tl).
  assert (Ht : t <> XNone) by (destruct HFb as [HFb _]; congruence).
  set (c := 168 + sect_size l1) in *.
  assert (ZA : zlen (hd ++ enc_sect 168 l1) = c) by (rewrite zlen_app, zlen_enc_sect by assumption; subst c; lia).
  assert (ZB : zlen (enc_blk c b) = blk_size b) by now apply zlen_enc_blk.
  assert (ZS : zlen (enc_sect (c + blk_size b) l2 ++ tl) = sect_size l2 + zlen tl) by (rewrite zlen_app, zlen_enc_sect by assumption; lia).
  assert (Ed' : data (w asset) = (hd ++ enc_sect 168 l1) ++ enc_blk c b ++ (enc_sect (c + blk_size b) l2 ++ tl)).
  { rewrite Ed, enc_sect_app. cbn [enc_sect]. fold c. now rewrite <- !app_assoc. }
  assert (F : remove_find (walk_fuel (data (w asset))) t (data (w asset)) ASSET_LEN = Ok (if c + 16 <? zlen (data (w asset)) then Some (c, c + blk_size b) else None) \/
    (c + 16 <? zlen (data (w asset)) = false /\ forall x, remove_find (walk_fuel (data (w asset))) t (data (w asset)) ASSET_LEN <> Ok (Some x))).
  { destruct (c + 16 <? zlen (data (w asset))) eqn:Ec.
    - left. change ASSET_LEN with 168. rewrite Ed at 2. rewrite enc_sect_app. cbn [enc_sect]. fold c. rewrite <- !app_assoc.
      rewrite <- Hh. pose proof (remove_find_run t (enc_sect (c + blk_size b) l2 ++ tl) b Eb HFb l1 hd (walk_fuel (data (w asset)))) as X.
      rewrite !Hh in X. fold c in X. rewrite Hh. apply X; auto; try lia.
      pose proof (sect_size_length l1). unfold walk_fuel. unfold zlen in *. lia.
    - right. split; [reflexivity|]. intros x Hx. destruct (remove_find_layout _ _ _ _ _ _ HL' Ht Hx) as (m1 & b' & m2 & El & Eb' & Hm & ->).
      assert (M : m1 = l1 /\ b' = b).
      { clear - El Eb Eb' Hf Hm. revert m1 El Hm. induction l1 as [|y l1 IH]; intros [|z m1] El Hm; cbn [app] in El.
        - split; congruence.
        - apply Forall_cons_iff in Hm as [Hm _]. congruence.
        - apply Forall_cons_iff in Hf as [Hf _]. congruence.
        - apply Forall_cons_iff in Hm as [_ Hm]. apply Forall_cons_iff in Hf as [_ Hf]. assert (E1 : y = z) by congruence. assert (E2 : l1 ++ b :: l2 = m1 ++ b' :: m2) by congruence.
          destruct (IH Hf m1 E2 Hm) as [-> ->]. now subst. }
      destruct M as [-> ->].
      (* the loop stops before the block *)
      revert Hx. change ASSET_LEN with 168. rewrite Ed at 2. rewrite enc_sect_app. cbn [enc_sect]. fold c. rewrite <- !app_assoc.
      assert (G : forall l A fuel C y, zlen A mod 8 = 0 -> Forall blk_ok l -> Forall (fun q => bk_type q <> t) l -> zlen A + sect_size l + blk_size b <= u32_max -> blk_size b + zlen C <= 16 ->
        remove_find fuel t (A ++ enc_sect (zlen A) l ++ enc_blk (zlen A + sect_size l) b ++ C) (zlen A) <> Ok (Some y)).
      { clear - Ht HFb. induction l as [|q l IH]; intros A fuel C y HA HF Hf Hu Hc; (destruct fuel as [|fuel]; [discriminate|]); cbn [remove_find enc_sect app sect_size].
        - rewrite Z.add_0_r. rewrite !zlen_app, zlen_enc_blk by assumption. unfold EXT_LEN. replace (_ <? _) with false by lia. discriminate.
        - apply Forall_cons_iff in HF as [Hx HF]. apply Forall_cons_iff in Hf as [Nx Hf]. pose proof (blk_size_pos q). pose proof (blk_size_pos b). pose proof (sect_size_nonneg l). cbn [sect_size length] in *.
          rewrite !zlen_app, !zlen_enc_blk, zlen_enc_sect by assumption. unfold EXT_LEN. pose proof (zlen_nonneg C).
          replace (zlen A + 16 <? _) with true by lia. rewrite <- !app_assoc. rewrite load_hdr_blk by (auto; lia). cbn [bind h_type h_bnd].
          replace (ext_code (bk_type q) =? ext_code t) with false by (symmetry; apply Z.eqb_neq; intro Q; apply ext_code_inj in Q; contradiction).
          replace (ext_code (bk_type q) =? 0) with false by (symmetry; apply Z.eqb_neq; intro Q; destruct Hx as [Hx _]; apply Hx, ext_code_0; lia).
          assert (HL : zlen (A ++ enc_blk (zlen A) q) = zlen A + blk_size q) by (rewrite zlen_app, zlen_enc_blk by assumption; reflexivity).
          specialize (IH (A ++ enc_blk (zlen A) q) fuel C y). rewrite HL in IH. rewrite <- app_assoc in IH. pose proof (blk_size_mod q Hx).
          replace (zlen A + (blk_size q + sect_size l)) with (zlen A + blk_size q + sect_size l) by lia. apply IH; auto; lia. }
      specialize (G l1 hd (walk_fuel (data (w asset))) (enc_sect (c + blk_size b) l2 ++ tl) (c, c + blk_size b)). rewrite Hh in G. fold c in G. apply G; auto; lia. }
  assert (D : goes (process_remove e (passed infos) w t) <-> in_charge infos w asset auth /\ t <> XManager /\ t <> XProxy /\ (t = XGrouping -> gr_size (bk_data b) = 0) /\
    c + 16 < zlen (data (w asset)) /\ can_shrink e infos w asset recipient (zlen (data (w asset)) - blk_size b)).
  { pose proof R as (A0 & Ho & Hi & Hw & Hp & Hs). unfold process_remove, in_charge. rewrite (optional_acct _ _ _ _ A2). args. cbv zeta.
    rewrite !goes_require, check_goes, owned_spec, signer_spec.
    assert (X : goes (r <- remove_find (walk_fuel (data (w asset))) t (data (w asset)) ASSET_LEN ;;
       match r with
       | None => Err EExtensionNotFound
       | Some (off, bnd) =>
           u <- (match t with
                 | XManager | XProxy => Err EExtensionDataInvalid
                 | XGrouping =>
                     g <- asset_get XGrouping (data (w asset)) ;;
                     match g with
                     | None => Panic
                     | Some (o, b) =>
                         gr <- grouping_from_bytes o b ;;
                         require (g_size gr =? 0) EGroupNotEmpty (Ok tt)
                     end
                 | _ => Ok tt
                 end) ;;
           d1 <- memmove (data (w asset)) off bnd (Z.max 0 (zlen (data (w asset)) - bnd)) ;;
           w1 <- set_data e (passed infos) w asset d1 ;;
           resize e (passed infos) w w1 (Z.max 0 (zlen (data (w asset)) - Z.max 0 (bnd - off))) asset (Some recipient) None
       end) <-> t <> XManager /\ t <> XProxy /\ (t = XGrouping -> gr_size (bk_data b) = 0) /\
         c + 16 < zlen (data (w asset)) /\ can_shrink e infos w asset recipient (zlen (data (w asset)) - blk_size b)).
    { destruct F as [F|[F1 F2]].
      2:{ split; [intro HH|lia]. exfalso. apply goes_bind in HH as (x & Hx & HH). destruct x as [x|]; [elim (F2 x Hx)|elim (goes_err _ HH)]. }
      rewrite F. destruct (c + 16 <? zlen (data (w asset))) eqn:Ec; cbn [bind].
      2:{ split; [intro HH; elim (goes_err _ HH)|lia]. }
      rewrite goes_unit.
      assert (U : goes (match t with
                 | XManager | XProxy => Err EExtensionDataInvalid
                 | XGrouping =>
                     g <- asset_get XGrouping (data (w asset)) ;;
                     match g with
                     | None => Panic
                     | Some (o, b) =>
                         gr <- grouping_from_bytes o b ;;
                         require (g_size gr =? 0) EGroupNotEmpty (Ok tt)
                     end
                 | _ => Ok tt
                 end) <-> t <> XManager /\ t <> XProxy /\ (t = XGrouping -> gr_size (bk_data b) = 0)).
      { destruct t; try (split; [intros _; repeat split; discriminate|intros _; apply goes_ok]); try (split; [intro Q; elim (goes_err _ Q)|intros (Q1 & Q2 & _); congruence]).
        assert (NX : XGrouping <> XNone) by discriminate. rewrite <- Eb in Hf. pose proof (lookup_block l1 b l2 Hf) as Lk. rewrite Eb in Lk.
        assert (Hwf : well_formed (data (w asset)) (l1 ++ b :: l2)) by (exists hd, tl; exact HL').
        destruct (get_wf _ _ _ Hwf NX) as [[Q _]|(o & b' & Q & G & _ & M & _)]; [rewrite Lk in Q; discriminate|]. rewrite Lk in Q. apply some_inj in Q. subst b'.
        rewrite G. cbn [bind]. rewrite (grouping_goes o _ (Hgs eq_refl) M). cbn [bind g_size]. rewrite goes_require, Z.eqb_eq.
        split; [intros [Q _]; repeat split; try discriminate; auto|]. intros (_ & _ & Q). split; [auto|apply goes_ok]. }
      rewrite U. clear U F.
      assert (V : goes (d1 <- memmove (data (w asset)) c (c + blk_size b) (Z.max 0 (zlen (data (w asset)) - (c + blk_size b))) ;;
           w1 <- set_data e (passed infos) w asset d1 ;;
           resize e (passed infos) w w1 (Z.max 0 (zlen (data (w asset)) - Z.max 0 (c + blk_size b - c))) asset (Some recipient) None) <->
         can_shrink e infos w asset recipient (zlen (data (w asset)) - blk_size b)).
      { assert (M : exists d1, memmove (data (w asset)) c (c + blk_size b) (Z.max 0 (zlen (data (w asset)) - (c + blk_size b))) = Ok d1 /\ zlen d1 = zlen (data (w asset))).
        { unfold memmove. destruct (_ =? 0); [eauto|]. replace (_ && _ && _ && _) with true by lia. eexists. split; [reflexivity|]. rewrite zlen_put; [reflexivity|lia|]. rewrite zlen_fld; lia. }
        destruct M as (d1 & M & Zd). rewrite M. cbn [bind]. destruct (goes_set e infos w asset d1) as [w1 S]; [now apply ready_ours|rewrite Zd; apply Hs|].
        rewrite S. cbn [bind]. pose proof (set_data_data _ _ _ _ _ _ S) as Dd.
        replace (Z.max 0 (zlen (data (w asset)) - Z.max 0 (c + blk_size b - c))) with (zlen (data (w asset)) - blk_size b) by lia.
        rewrite shrink_goes.
        - unfold can_shrink. now rewrite !(set_data_lam _ _ _ _ _ _ _ S).
        - split; [rewrite (set_data_owner _ _ _ _ _ _ _ S); exact Ho|exact Hw].
        - intro k. destruct (pk_dec k asset) as [->|N]; [rewrite Dd, Zd; apply Hs|rewrite (set_data_other _ _ _ _ _ _ _ S N); apply Hs].
        - apply He.
        - rewrite Dd. now symmetry.
        - rewrite Dd, Zd. lia.
        - intro k. rewrite (set_data_lam _ _ _ _ _ _ _ S). apply Hl. }
      rewrite V. rewrite <- Z.ltb_lt, Ec. tauto. }
    rewrite X. tauto. }
  unfold goes in D at 1. split; [intros (G & _ & HH); tauto|]. intros (G & HH). split; [exact G|]. split; [discriminate|]. tauto.
Qed.

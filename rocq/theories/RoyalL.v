(** Royalties on Transfer (C38). *)
From Verif Require Import Base State Layout Constr Ext World Proc BaseL Spec SpecC WorldL ProcSteps LayoutL LayoutM HeadL AuthL AuthM ConstrL.
From Coq Require Import Strings.Byte.

Lemma sees_view w a s r : sees (mkCctx (target_of w a) (target_of w s) (Some (target_of w r)))
  (fun who => if who =? 0 then party_in (target_of w a) else if who =? 1 then party_in (target_of w s) else party_in (target_of w r)).
Proof. split; [reflexivity|]. split; [reflexivity|]. eexists. split; reflexivity. Qed.
(** views that differ only in how emptiness is stated *)
Definition alike (v v' : view) : Prop := forall i, p_key (v i) = p_key (v' i) /\ p_owner (v i) = p_owner (v' i) /\ (p_empty (v i) <-> p_empty (v' i)).
Section RuleInd.
Variable P : rule -> Prop.
Hypothesis Hall : forall l, Forall P l -> P (RAll l).
Hypothesis Hany : forall l, Forall P l -> P (RAny l).
Hypothesis Hneg : forall x, P x -> P (RNeg x).
Hypothesis Howner : forall i ks, P (ROwner i ks).
Hypothesis Hkey : forall i ks, P (RKey i ks).
Hypothesis Htrue : P RTrue.
Fixpoint rule_ind2 (r : rule) : P r :=
  let fix go (l : list rule) : Forall P l := match l with [] => Forall_nil P | x :: l' => Forall_cons x (rule_ind2 x) (go l') end in
  match r with
  | RAll l => Hall l (go l) | RAny l => Hany l (go l) | RNeg x => Hneg x (rule_ind2 x)
  | ROwner i ks => Howner i ks | RKey i ks => Hkey i ks | RTrue => Htrue
  end.
End RuleInd.
Lemma holds_alike v v' : alike v v' -> forall r, holds r v <-> holds r v'.
Proof.
  intro A. induction r as [l IH|l IH|x IH|i ks|i ks|] using rule_ind2; cbn [holds].
  - induction IH as [|x l Hx _ IH]; [tauto|]. cbn [fold_right]. tauto.
  - induction IH as [|x l Hx _ IH]; [tauto|]. cbn [fold_right]. tauto.
  - tauto.
  - destruct (A i) as (_ & -> & ->). tauto.
  - destruct (A i) as (-> & _). tauto.
  - tauto.
Qed.
Lemma view_alike w a s r : alike (fun who => if who =? 0 then party_in (target_of w a) else if who =? 1 then party_in (target_of w s) else party_in (target_of w r)) (view_of w a s r).
Proof.
  assert (G : forall k, p_key (party_in (target_of w k)) = p_key (party_of w k) /\ p_owner (party_in (target_of w k)) = p_owner (party_of w k) /\ (p_empty (party_in (target_of w k)) <-> p_empty (party_of w k))).
  { intro k. split; [reflexivity|]. split; [reflexivity|]. cbn [party_in target_of party_of p_empty t_empty]. rewrite Z.eqb_eq. split; [apply zlen_0|]. now intros ->. }
  intro i. unfold view_of. destruct (i =? 0); [apply G|]. destruct (i =? 1); apply G.
Qed.

Lemma eval_view c w a s r : exists b, eval_constr c (mkCctx (target_of w a) (target_of w s) (Some (target_of w r))) = Ok b /\
  (b = true <-> holds (erase c) (view_of w a s r)).
Proof.
  destruct (eval_holds c _ _ (sees_view w a s r)) as (b & B1 & B2). exists b. split; [assumption|]. rewrite B2. apply holds_alike. apply view_alike.
Qed.

Lemma royalties_checked e w a s r d ck : process_royalties e w a s r d = Ok ck ->
  (ck = false /\ forall off b, ~ has_ext d XRoyalties off b) \/
  (ck = true /\ exists off b, has_ext d XRoyalties off b /\ permits e w a s r b).
Proof.
  unfold process_royalties. intro H. apply bind_ok in H as (x & Hx & H). destruct x as [[off b]|].
  - right. apply asset_get_some in Hx. apply bind_ok in H as (roy & Hr & H). cbv zeta in H.
    match type of H with (if ?q then _ else _) = _ => destruct q eqn:W end.
    + apply Ok_inj in H. split; [congruence|]. exists off, b. split; [assumption|]. left. bnorm. split; [|split; assumption]. now destruct (e_cpi e).
    + apply bind_ok in H as (v & Hv & H). apply require_ok in H as [-> H]. apply Ok_inj in H. split; [congruence|]. exists off, b. split; [assumption|]. right.
      unfold royalties_from_bytes in Hr. apply guard_ok in Hr as [_ Hr]. apply guard_ok in Hr as [_ Hr]. apply bind_ok in Hr as (c & Hc & Hr). apply Ok_inj in Hr. subst roy. cbn [snd] in Hv.
      exists (erase c). eexists. split; [exact (from_bytes_reads _ _ _ Hc)|]. destruct (eval_view c w a s r) as (v & V1 & V2). rewrite Hv in V1. apply Ok_inj in V1. now apply V2.
  - left. apply Ok_inj in H. split; [congruence|]. intros off b. now apply asset_get_none.
Qed.

(** C38 *)
Lemma transfer_royalties e infos w w' k : process e infos w ITransfer = Ok w' -> s_owner (data (w' k)) <> s_owner (data (w k)) ->
  exists signer recipient, arg infos 0 k /\ arg infos 1 signer /\ signed infos signer /\ arg infos 2 recipient /\
    (forall off b, has_ext (data (w k)) XRoyalties off b -> permits e w k signer recipient b) /\
    ((forall off b, ~ has_ext (data (w k)) XRoyalties off b) -> s_group (data (w k)) <> repeat x00 32 ->
       exists g, arg infos 3 g /\ pk_bytes g = s_group (data (w k)) /\ acct_owner (w g) = e_prog e /\ s_disc (data (w g)) = x01 /\
         forall off b, has_ext (data (w g)) XRoyalties off b -> permits e w k signer recipient b).
Proof.
  intros H Hne. apply process_dispatch in H. cbn [dispatch] in H.
  apply transfer_inv in H as (asset & signer & rec & grp & ck & A0 & A1 & A2 & A3 & Ho & Hsg & Hi & _ & Hr & Hact & Hcase).
  apply acct_arg in A0, A1, A2. apply signed_acct in Hsg.
  destruct Hcase as [[_ ->]|(_ & Hg & Hset)]; [contradiction|].
  destruct (pk_dec k asset) as [->|Hk]; [|elim Hne; now rewrite (set_data_other _ _ _ _ _ _ _ Hset Hk)].
  exists signer, rec. repeat (split; [assumption|]). apply royalties_checked in Hr as [[-> N]|[-> (off & b & HE & HP)]].
  - split; [intros off b HE; elim (N _ _ HE)|]. intros _ Hz.
    destruct (nullable (f_group (data (w asset)))) as [g|] eqn:En.
    + destruct (Hg g eq_refl eq_refl) as (ga & x & -> & G1 & G2 & G3 & G4 & G5 & G6). exists ga. apply opt_acct_some in A3 as [A3 _].
      split; [assumption|]. split; [|split; [assumption|split; [exact G5|]]].
      * rewrite G2. unfold nullable in En. destruct (bytes_eqb _ _); [discriminate|]. unfold s_group. change (sub ?d 36 32) with (f_group d). congruence.
      * apply royalties_checked in G6 as [[_ N6]|[_ (off & b & HE & HP)]]; intros off' b' HE'; [elim (N6 _ _ HE')|].
        destruct (has_ext_det _ _ _ _ _ _ HE HE') as [_ <-]. assumption.
    + elim Hz. unfold nullable in En. destruct (bytes_eqb _ _) eqn:E; [|discriminate]. now apply bytes_eqb_eq in E.
  - split; [|intro N; elim (N _ _ HE)]. intros off' b' HE'. destruct (has_ext_det _ _ _ _ _ _ HE HE') as [_ <-]. assumption.
Qed.

(** ** Exactly when *)
Lemma wallets_dec e w s r : {wallets e w s r} + {~ wallets e w s r}.
Proof.
  unfold wallets. destruct (e_cpi e); [right; intros [Q _]; discriminate|].
  destruct (pk_dec (acct_owner (w s)) pk_zero); [|right; tauto]. destruct (pk_dec (acct_owner (w r)) pk_zero); [left|right]; tauto.
Qed.
Lemma royalties_exact e w a s r d l bp f rest : well_formed d l ->
  lookup XRoyalties (ext_list l) = Some (build_royalties bp f ++ rest) -> zlen (build f) <= u32_max ->
  (wallets e w s r \/ holds (wanted f) (view_of w a s r) -> process_royalties e w a s r d = Ok true) /\
  (~ wallets e w s r -> ~ holds (wanted f) (view_of w a s r) -> process_royalties e w a s r d = Err EAssertionFailure).
Proof.
  intros Hwf Hl Hz. assert (NX : XRoyalties <> XNone) by discriminate.
  destruct (get_wf _ _ _ Hwf NX) as [[Q _]|(off & b & Q & G & _ & Ho & Ho1 & _)]; [congruence|]. assert (b = build_royalties bp f ++ rest) as -> by congruence. clear Q.
  unfold process_royalties. rewrite G. cbn [bind].
  assert (E : skipn 8 (build_royalties bp f ++ rest) = build f ++ rest).
  { unfold build_royalties. rewrite <- app_assoc. rewrite skipn_app, le_enc_length, skipn_all2, Nat.sub_diag by (rewrite le_enc_length; lia). reflexivity. }
  destruct (build_round_trip f (off + 8) rest) as (c & C1 & C2 & _); [lia|assumption|].
  assert (R : exists bp', royalties_from_bytes off (build_royalties bp f ++ rest) = Ok (bp', c)).
  { unfold royalties_from_bytes, guard. rewrite E, C1. unfold build_royalties. rewrite <- app_assoc, zlen_app, le_enc_zlen. pose proof (zlen_nonneg (build f ++ rest)).
    replace (8 <=? Z.of_nat 8 + zlen (build f ++ rest)) with true by lia. rewrite Ho. cbn [Z.eqb bind]. eauto. }
  destruct R as [bp' R]. rewrite R. cbn [bind snd]. cbv zeta. destruct (eval_view c w a s r) as (v & V1 & V2). rewrite V1, C2 in *. cbn [bind].
  assert (W : negb (e_cpi e) && pk_eqb (acct_owner (w s)) pk_zero && pk_eqb (acct_owner (w r)) pk_zero = true <-> wallets e w s r).
  { unfold wallets. rewrite !andb_true_iff, negb_true_iff, !pk_eqb_eq. tauto. }
  destruct (negb (e_cpi e) && pk_eqb (acct_owner (w s)) pk_zero && pk_eqb (acct_owner (w r)) pk_zero).
  - split; [reflexivity|]. intro N. elim N. now apply W.
  - split; [intros [Q|Q]; [apply W in Q; discriminate|]|intros _ N].
    + apply V2 in Q. now rewrite Q.
    + destruct v; [elim N; now apply V2|reflexivity].
Qed.

Section Exact.
Variables (e : env) (infos : list ainfo) (w : world) (asset signer recipient g : pubkey) (l : list blk).
Hypothesis A0 : arg infos 0 asset.
Hypothesis A1 : arg infos 1 signer.
Hypothesis A2 : arg infos 2 recipient.
Hypothesis A3 : arg infos 3 g.
Hypothesis Ho : acct_owner (w asset) = e_prog e.
Hypothesis Hi : initialized (data (w asset)).
Hypothesis Hwf : well_formed (data (w asset)) l.
Hypothesis Hm : forall b, lookup XManager (ext_list l) = Some b -> (33 <= length b)%nat.
Hypothesis Hw : writable infos asset.
Hypothesis Hp : plain_accounts e infos w.
Hypothesis Hsz : sized w.
Hypothesis Hsg : signed infos signer.
Hypothesis Hau : authorized (data (w asset)) l signer RTransfer.
Hypothesis Hsb : s_standard (data (w asset)) <> x02.
Hypothesis Hnl : none_locked e infos w.
Hypothesis Hpx : s_standard (data (w asset)) = x03 -> signed infos asset.
Hypothesis Hne : s_owner (data (w asset)) <> pk_bytes recipient.

Lemma transfer_run : process e infos w ITransfer =
  (checked <- process_royalties e w asset signer recipient (data (w asset)) ;;
   u <- (match nullable (f_group (data (w asset))) with
         | None => Ok tt
         | Some gb =>
             if checked then Ok tt
             else
               ga <- ok_or (if pk_eqb g (e_prog e) then None else Some g) ENotEnoughAccountKeys ;;
               require (owned_by_prog e w ga) EInvalidGroup
                (require (key_is gb ga) EInvalidGroup
                 (require (negb (pk_eqb ga asset)) EAccountBorrowFailed
                  (guard (1 <=? zlen (data (w ga)))
                   (require (beqb (byte_at (data (w ga)) 0) DISC_ASSET) EInvalidGroup
                    (x <- process_royalties e w asset signer recipient (data (w ga)) ;;
                     Ok tt)))))
         end) ;;
   set_data e (firstn MAX_ACCOUNTS infos) w asset (clear_delegate (put (data (w asset)) 4 (pk_bytes recipient)))).
Proof.
  destruct (gate_total e infos w asset A0 Ho Hi Hp Hpx) as (r & Hr & HN). pose proof (proj2 HN Hnl) as Er. rewrite Er in Hr.
  unfold process. rewrite Hr. cbn [bind dispatch]. unfold process_transfer.
  pose proof (proj2 (acct_arg _ _ _) A0) as B0. pose proof (proj2 (acct_arg _ _ _) A1) as B1. pose proof (proj2 (acct_arg _ _ _) A2) as B2. pose proof (proj2 (acct_arg _ _ _) A3) as B3.
  pose proof (proj2 (signed_acct _ _) Hsg) as Bs.
  change (acct (firstn MAX_ACCOUNTS infos) 0 = Ok asset) in B0. change (acct (firstn MAX_ACCOUNTS infos) 1 = Ok signer) in B1.
  change (acct (firstn MAX_ACCOUNTS infos) 2 = Ok recipient) in B2. change (acct (firstn MAX_ACCOUNTS infos) 3 = Ok g) in B3.
  change (is_signer (firstn MAX_ACCOUNTS infos) signer = true) in Bs.
  rewrite B0, B1, B2. cbn [bind]. unfold opt_acct. rewrite B3. cbn [bind]. unfold require at 1. unfold owned_by_prog at 1. rewrite Ho, pk_eqb_refl.
  unfold require at 1. rewrite Bs. cbv zeta. unfold require at 1. rewrite (proj2 (is_asset_spec _) Hi).
  destruct (process_royalties e w asset signer recipient (data (w asset))) as [ck| | | |]; try reflexivity. cbn [bind].
  unfold require at 1. replace (negb (beqb (byte_at (data (w asset)) 2) (standard_code Soulbound))) with true.
  2:{ symmetry. apply negb_true_iff, beqb_neq. exact Hsb. }
  pose proof (act_check_complete _ _ _ _ Hwf Hm Hau) as Ha. unfold act_check in Ha. rewrite Ha. cbn [bind]. unfold require at 1.
  replace (key_is (f_owner (data (w asset))) recipient) with false by (symmetry; apply key_is_false; exact Hne). reflexivity.
Qed.
Lemma transfer_write : exists w', set_data e (firstn MAX_ACCOUNTS infos) w asset (clear_delegate (put (data (w asset)) 4 (pk_bytes recipient))) = Ok w'.
Proof.
  pose proof (proj2 (writable_acct _ _) Hw) as Bw. change (is_writable (firstn MAX_ACCOUNTS infos) asset = true) in Bw.
  unfold set_data. destruct (bytes_eqb _ _); [eauto|]. rewrite Bw, Ho, pk_eqb_refl. pose proof (initialized_len _ Hi).
  assert (E : zlen (put (data (w asset)) 4 (pk_bytes recipient)) = zlen (data (w asset))) by (apply zlen_put; rewrite ?pk_zlen; lia).
  rewrite clear_len by lia. rewrite E. specialize (Hsz asset). replace (zlen (data (w asset)) <=? MAX_DATA) with true by (unfold MAX_DATA; lia). cbn. eauto.
Qed.

Lemma own_exact bp f rest : lookup XRoyalties (ext_list l) = Some (build_royalties bp f ++ rest) -> zlen (build f) <= u32_max ->
  (wallets e w signer recipient \/ holds (wanted f) (view_of w asset signer recipient) -> exists w', process e infos w ITransfer = Ok w') /\
  (~ wallets e w signer recipient -> ~ holds (wanted f) (view_of w asset signer recipient) -> process e infos w ITransfer = Err EAssertionFailure).
Proof.
  intros Hl Hz. destruct (royalties_exact e w asset signer recipient _ _ _ _ _ Hwf Hl Hz) as [R1 R2]. rewrite transfer_run. split.
  - intro Q. rewrite (R1 Q). cbn [bind]. destruct (nullable _); cbn [bind]; apply transfer_write.
  - intros N1 N2. rewrite (R2 N1 N2). reflexivity.
Qed.
Lemma group_exact l2 bp f rest : lookup XRoyalties (ext_list l) = None -> s_group (data (w asset)) = pk_bytes g -> g <> pk_zero -> g <> e_prog e -> g <> asset ->
  acct_owner (w g) = e_prog e -> initialized (data (w g)) -> well_formed (data (w g)) l2 ->
  lookup XRoyalties (ext_list l2) = Some (build_royalties bp f ++ rest) -> zlen (build f) <= u32_max ->
  (wallets e w signer recipient \/ holds (wanted f) (view_of w asset signer recipient) -> exists w', process e infos w ITransfer = Ok w') /\
  (~ wallets e w signer recipient -> ~ holds (wanted f) (view_of w asset signer recipient) -> process e infos w ITransfer = Err EAssertionFailure).
Proof.
  intros Hn Hg Gz Gp Ga Go [Gi1 Gi2] Gwf Hl Hz. destruct (royalties_exact e w asset signer recipient _ _ _ _ _ Gwf Hl Hz) as [R1 R2].
  rewrite transfer_run. assert (NX : XRoyalties <> XNone) by discriminate.
  assert (E : process_royalties e w asset signer recipient (data (w asset)) = Ok false).
  { unfold process_royalties. destruct (get_wf _ _ _ Hwf NX) as [[_ Q]|(off & b & Q & _)]; [rewrite Q; reflexivity|congruence]. }
  rewrite E. cbn [bind]. change (f_group (data (w asset))) with (s_group (data (w asset))). rewrite Hg. unfold nullable.
  replace (bytes_eqb (pk_bytes g) zero32) with false.
  2:{ symmetry. apply bytes_eqb_neq. intro Q. apply Gz. now apply pk_ext. }
  apply pk_eqb_neq in Gp as Gp'. rewrite Gp'. cbn [ok_or bind]. unfold owned_by_prog. rewrite Go, pk_eqb_refl. unfold require at 1 4.
  unfold key_is. rewrite bytes_eqb_refl. unfold require at 1 3. apply pk_eqb_neq in Ga as Ga'. rewrite Ga'. cbn [negb]. unfold require at 1 2. unfold guard.
  replace (1 <=? zlen (data (w g))) with true by (unfold zlen; lia).
  change (byte_at (data (w g)) 0) with (s_disc (data (w g))). rewrite Gi2. change (beqb x01 DISC_ASSET) with true. unfold require.
  split.
  - intro Q. rewrite (R1 Q). cbn [bind]. apply transfer_write.
  - intros N1 N2. rewrite (R2 N1 N2). reflexivity.
Qed.
End Exact.

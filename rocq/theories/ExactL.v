(** Instructions succeed exactly when ... *)
From Verif Require Import Base State Layout Constr Ext World Proc BaseL Spec SpecB SpecC SpecE WorldL ProcSteps LayoutL LayoutM LayoutE HeadL AuthL AuthM GroupL ConstrL RoyalL.
From Coq Require Import Strings.Byte.

Lemma gate_exact e infos w asset i : ready e infos w asset ->
  (exists w', process e infos w i = Ok w') <->
  gate infos w asset /\ (blocked_when_locked i = true -> none_locked e infos w) /\ exists w', dispatch e (passed infos) w i = Ok w'.
Proof.
  intros (A0 & Ho & Hi & Hw & Hp & Hs). split.
  - intros (w' & H). unfold process in H. apply bind_ok in H as (r & Hr & H).
    pose proof (gate_proxied _ _ _ _ _ A0 Ho Hr) as G. split; [exact G|].
    destruct (gate_total e infos w asset A0 Ho Hi Hp G) as (r' & Hr' & HN). rewrite Hr in Hr'. apply Ok_inj in Hr'. subst r'.
    destruct r as [k|].
    + destruct (blocked_when_locked i); [discriminate|]. split; [discriminate|]. eauto.
    + split; [intros _; now apply HN|eauto].
  - intros (G & B & w' & H). destruct (gate_total e infos w asset A0 Ho Hi Hp G) as (r & Hr & HN).
    exists w'. unfold process. rewrite Hr. cbn [bind]. destruct r as [k|]; [|exact H].
    destruct (blocked_when_locked i); [|exact H]. specialize (B eq_refl). apply HN in B. discriminate.
Qed.
Lemma some_inj {A} (a b : A) : Some a = Some b -> a = b.
Proof. congruence. Qed.
Definition goes {A} (m : res A) : Prop := exists x, m = Ok x.
Lemma goes_require {A} c er (m : res A) : goes (require c er m) <-> c = true /\ goes m.
Proof. unfold goes, require. destruct c; split; [auto|intros [_ H]; exact H|intros [x H]; discriminate|intros [H _]; discriminate]. Qed.
Lemma goes_guard {A} c (m : res A) : goes (guard c m) <-> c = true /\ goes m.
Proof. unfold goes, guard. destruct c; split; [auto|intros [_ H]; exact H|intros [x H]; discriminate|intros [H _]; discriminate]. Qed.
Lemma goes_ok {A} (x : A) : goes (Ok x). Proof. now exists x. Qed.
Lemma goes_err {A} er : ~ goes (@Err A er). Proof. intros [x H]. discriminate. Qed.
Lemma goes_bind {A B} (m : res A) (f : A -> res B) : goes (bind m f) <-> exists x, m = Ok x /\ goes (f x).
Proof.
  unfold goes. split.
  - intros [y H]. apply bind_ok in H as (x & H1 & H2). eauto.
  - intros (x & -> & y & H). cbn [bind]. eauto.
Qed.
Lemma goes_unit {B} (m : res unit) (f : unit -> res B) : goes (bind m f) <-> goes m /\ goes (f tt).
Proof.
  rewrite goes_bind. split.
  - intros ([] & -> & H). split; [apply goes_ok|exact H].
  - intros [[[] ->] H]. eauto.
Qed.
Lemma goes_set e infos w k d : ours e infos w k -> zlen d <= 10485760 -> goes (set_data e (passed infos) w k d).
Proof.
  intros [Ho Hw] Hz. unfold goes, set_data. destruct (bytes_eqb _ _); [eauto|].
  apply writable_acct in Hw. change (is_writable (passed infos) k = true) in Hw. rewrite Hw, Ho, pk_eqb_refl.
  replace (zlen d <=? MAX_DATA) with true by (unfold MAX_DATA; lia). cbn. eauto.
Qed.
Lemma ready_ours e infos w a : ready e infos w a -> ours e infos w a.
Proof. intros (_ & H & _ & H' & _). now split. Qed.
Lemma ready_put e infos w a o bs : ready e infos w a -> 0 <= o -> o + zlen bs <= 168 -> goes (set_data e (passed infos) w a (put (data (w a)) o bs)).
Proof.
  intros R H1 H2. apply goes_set; [now apply ready_ours|]. destruct R as (_ & _ & Hi & _ & _ & Hs). pose proof (initialized_len _ Hi).
  rewrite zlen_put by lia. apply Hs.
Qed.
Lemma owned_spec e w k : owned_by_prog e w k = true <-> acct_owner (w k) = e_prog e.
Proof. unfold owned_by_prog. apply pk_eqb_eq. Qed.
Lemma pod_true_spec d : pod_true (byte_at d 3) = true <-> mutable d.
Proof. unfold pod_true, mutable. rewrite negb_true_iff. change (s_mutable d) with (byte_at d 3). destruct (beqb (byte_at d 3) x00) eqn:E; bnorm; split; intro; try easy; congruence. Qed.
Lemma signer_spec infos k : is_signer (passed infos) k = true <-> signed infos k.
Proof. apply signed_acct. Qed.

Ltac args := repeat match goal with A : arg ?i _ _ |- _ => apply acct_arg in A; rewrite ?A; cbn [bind] end.

(** ** Approve, Revoke, Handover *)
Lemma approve_exact e infos w asset owner del a : ready e infos w asset -> arg infos 1 owner -> arg infos 2 del ->
  (exists w', process e infos w (IApprove a) = Ok w') <->
  gate infos w asset /\ none_locked e infos w /\ signed infos owner /\ s_owner (data (w asset)) = pk_bytes owner.
Proof.
  intros R A1 A2. rewrite (gate_exact e infos w asset _ R). cbn [blocked_when_locked dispatch].
  assert (D : goes (process_approve e (passed infos) w a) <-> signed infos owner /\ s_owner (data (w asset)) = pk_bytes owner).
  { pose proof R as (A0 & Ho & Hi & Hw & Hp & Hs). unfold process_approve. args. rewrite !goes_require, owned_spec, is_asset_spec, key_is_spec, signer_spec.
    change (f_owner (data (w asset))) with (s_owner (data (w asset))).
    split; [tauto|]. intros [H1 H2]. repeat (split; [assumption|]). cbv zeta.
    destruct (asset_delegate (data (w asset))) as [dl|]; [destruct (key_is (del_addr dl) del)|];
      apply ready_put; try assumption; try lia; rewrite ?zlen_app, ?pk_zlen; unfold zlen; cbn [length]; lia. }
  unfold goes in D. tauto.
Qed.
Lemma revoke_exact e infos w asset signer a : ready e infos w asset -> arg infos 1 signer ->
  (exists w', process e infos w (IRevoke a) = Ok w') <->
  gate infos w asset /\ none_locked e infos w /\ signed infos signer /\
  (s_owner (data (w asset)) = pk_bytes signer \/ s_delegate (data (w asset)) <> no_key /\ s_delegate (data (w asset)) = pk_bytes signer).
Proof.
  intros R A1. rewrite (gate_exact e infos w asset _ R). cbn [blocked_when_locked dispatch].
  assert (D : goes (process_revoke e (passed infos) w a) <-> signed infos signer /\
    (s_owner (data (w asset)) = pk_bytes signer \/ s_delegate (data (w asset)) <> no_key /\ s_delegate (data (w asset)) = pk_bytes signer)).
  { pose proof R as (A0 & Ho & Hi & Hw & Hp & Hs). unfold process_revoke. args. cbv zeta. rewrite !goes_require, owned_spec, is_asset_spec, signer_spec, orb_true_iff, key_is_spec.
    change (f_owner (data (w asset))) with (s_owner (data (w asset))).
    assert (X : match asset_delegate (data (w asset)) with Some dl => key_is (del_addr dl) signer | None => false end = true <->
      s_delegate (data (w asset)) <> no_key /\ s_delegate (data (w asset)) = pk_bytes signer).
    { destruct (asset_delegate (data (w asset))) as [dl|] eqn:E.
      - apply asset_delegate_some in E as [E ->]. rewrite key_is_spec. cbn [del_addr]. tauto.
      - apply asset_delegate_none in E. split; [discriminate|]. intros [N _]. contradiction. }
    rewrite X. split; [tauto|]. intros [H1 H2]. repeat (split; [assumption|]).
    pose proof (initialized_len _ Hi).
    assert (C : goes (set_data e (passed infos) w asset (clear_delegate (data (w asset))))).
    { unfold clear_delegate. apply ready_put; [assumption|lia|]. unfold zlen. rewrite ?zeros_length. vm_compute. discriminate. }
    destruct a as [|rs]; [exact C|]. destruct (asset_delegate (data (w asset))) as [dl|].
    - destruct (has_active_roles _); [apply ready_put; [assumption|lia|unfold zlen; cbn [length]; lia]|exact C].
    - apply goes_set; [now apply ready_ours|apply Hs]. }
  unfold goes in D. tauto.
Qed.
Lemma check_goes {B} d auth (m : res B) : goes (check_authority d auth m) <-> initialized d /\ s_authority d = pk_bytes auth /\ mutable d /\ goes m.
Proof. unfold check_authority. rewrite !goes_require, is_asset_spec, key_is_spec, pod_true_spec. reflexivity. Qed.
Lemma handover_exact e infos w asset auth new : ready e infos w asset -> arg infos 1 auth -> arg infos 2 new ->
  (exists w', process e infos w IHandover = Ok w') <->
  gate infos w asset /\ in_charge infos w asset auth /\ signed infos new.
Proof.
  intros R A1 A2. rewrite (gate_exact e infos w asset _ R). cbn [blocked_when_locked dispatch].
  assert (D : goes (process_handover e (passed infos) w) <-> in_charge infos w asset auth /\ signed infos new).
  { pose proof R as (A0 & Ho & Hi & Hw & Hp & Hs). unfold process_handover, in_charge. args. cbv zeta.
    rewrite !goes_require, check_goes, owned_spec, !signer_spec.
    split; [tauto|]. intros [(H1 & H2 & H3) H4]. repeat (split; [assumption|]). apply ready_put; [assumption|lia|rewrite pk_zlen; lia]. }
  unfold goes in D. split; [intros (G & _ & H); tauto|]. intros (G & H). split; [exact G|]. split; [discriminate|]. tauto.
Qed.

(** ** Group, Ungroup *)
Lemma sect_wf d l t : well_formed d l -> t <> XNone ->
  (lookup t (ext_list l) = None /\ sect_get t (drop ASSET_LEN d) = Ok None) \/
  (exists off b, lookup t (ext_list l) = Some b /\ sect_get t (drop ASSET_LEN d) = Ok (Some (off, b)) /\
     off mod 8 = 0 /\ 16 <= off /\ 168 + off + zlen b <= zlen d).
Proof.
  intros Hwf Ht. destruct (lookups_agree d l t Hwf Ht) as (r & R1 & R2).
  destruct (get_wf d l t Hwf Ht) as [[E G]|(off & b & E & G & _ & M & O & Z)].
  - left. split; [exact E|]. rewrite R1 in G. apply Ok_inj in G. subst r. exact R2.
  - right. exists (off - 168), b. split; [exact E|]. rewrite R1 in G. apply Ok_inj in G. subst r. split; [exact R2|].
    split; [|split; lia]. replace (off - 168) with (off + (-21) * 8) by lia. now rewrite Z.mod_add.
Qed.
Lemma grouping_goes off b : (16 <= length b <= 48)%nat -> off mod 8 = 0 ->
  grouping_from_bytes off b = Ok (mkGrouping (gr_size b) (gr_max b) (gr_delegate b)).
Proof.
  intros Hb Ho. assert (X : goes (grouping_from_bytes off b)).
  { unfold grouping_from_bytes. rewrite !goes_guard. cbv zeta. repeat split; [unfold zlen; lia|lia|unfold zlen; rewrite skipn_length; lia|]. apply goes_ok. }
  destruct X as [gr X]. rewrite X. apply grouping_ok in X as (_ & -> & _). reflexivity.
Qed.
Lemma goes_two e infos w a g da dg : g <> a -> ours e infos w a -> ours e infos w g -> zlen da <= 10485760 -> zlen dg <= 10485760 ->
  goes (w1 <- set_data e (passed infos) w a da ;; set_data e (passed infos) w1 g dg).
Proof.
  intros N Oa Og Za Zg. destruct (goes_set e infos w a da Oa Za) as [w1 E]. rewrite E. cbn [bind]. apply goes_set; [|exact Zg].
  destruct Og as [O1 O2]. split; [|exact O2]. rewrite (set_data_owner _ _ _ _ _ _ _ E). exact O1.
Qed.
Lemma signer_ok_spec gd b k : (16 <= length b <= 48)%nat ->
  group_signer_ok (f_authority gd) (mkGrouping (gr_size b) (gr_max b) (gr_delegate b)) k = true <-> group_signer gd b k.
Proof.
  intro D. pose proof (grouping_goes 0 b D eq_refl) as G. split.
  - exact (group_signer_spec _ _ _ _ _ G).
  - exact (group_signer_complete _ _ _ _ _ G).
Qed.
Lemma not_same_spec a b : negb (pk_eqb a b) = true <-> a <> b.
Proof. rewrite negb_true_iff. apply pk_eqb_neq. Qed.
Lemma no_group_spec d : match nullable (f_group d) with None => true | Some _ => false end = true <-> s_group d = no_key.
Proof. rewrite <- nullable_none. change (s_group d) with (f_group d). destruct (nullable (f_group d)); split; intro H; congruence. Qed.
Lemma size_len e infos w g off (b : bytes) n : ours e infos w g -> sized w -> 16 <= off -> (16 <= length b)%nat -> 168 + off + zlen b <= zlen (data (w g)) ->
  zlen (put (data (w g)) (ASSET_LEN + off) (le_enc 8 n)) <= 10485760.
Proof. intros _ Hs H1 H2 H3. rewrite zlen_put; [apply Hs|unfold ASSET_LEN; lia|]. rewrite le_enc_zlen. unfold ASSET_LEN, zlen in *. lia. Qed.

Section Grouping.
Variables (e : env) (infos : list ainfo) (w : world) (asset g auth : pubkey) (lg : list blk).
Hypothesis R : ready e infos w asset.
Hypothesis A1 : arg infos 1 g.
Hypothesis A2 : arg infos 2 auth.
Hypothesis Wg : writable infos g.
Hypothesis Hwf : acct_owner (w g) = e_prog e -> initialized (data (w g)) -> well_formed (data (w g)) lg /\ grouping_sane lg.

Lemma join_exact : (exists w', process e infos w IGroup = Ok w') <->
  gate infos w asset /\ signed infos auth /\ acct_owner (w g) = e_prog e /\ initialized (data (w g)) /\ g <> asset /\
  s_group (data (w asset)) = no_key /\ s_authority (data (w g)) = s_authority (data (w asset)) /\
  exists b, lookup XGrouping (ext_list lg) = Some b /\ group_signer (data (w g)) b auth /\ (gr_max b = 0 \/ gr_size b < gr_max b).
Proof.
  rewrite (gate_exact e infos w asset _ R). cbn [blocked_when_locked dispatch].
  assert (D : goes (process_group e (passed infos) w) <-> signed infos auth /\ acct_owner (w g) = e_prog e /\ initialized (data (w g)) /\ g <> asset /\
  s_group (data (w asset)) = no_key /\ s_authority (data (w g)) = s_authority (data (w asset)) /\
  exists b, lookup XGrouping (ext_list lg) = Some b /\ group_signer (data (w g)) b auth /\ (gr_max b = 0 \/ gr_size b < gr_max b)).
  { pose proof R as (A0 & Ho & Hi & Hw & Hp & Hs). unfold process_group. args. unfold do_group. cbv zeta.
    rewrite !goes_require, !owned_spec, !is_asset_spec, signer_spec, not_same_spec, no_group_spec, bytes_eqb_eq.
    change (f_authority (data (w g))) with (s_authority (data (w g))). change (f_authority (data (w asset))) with (s_authority (data (w asset))).
    assert (X : acct_owner (w g) = e_prog e -> initialized (data (w g)) -> g <> asset ->
      goes (r <- sect_get XGrouping (drop ASSET_LEN (data (w g))) ;;
             match r with
             | None => Err EExtensionNotFound
             | Some (off, b) =>
                 gr <- grouping_from_bytes off b ;;
                 require (group_signer_ok (s_authority (data (w g))) gr auth) EInvalidAuthority
                  (require ((g_max gr =? 0) || (g_size gr <? g_max gr)) EExtensionDataInvalid
                   (w1 <- set_data e (passed infos) w asset (put (data (w asset)) 36 (pk_bytes g)) ;;
                    set_data e (passed infos) w1 g
                      (put (data (w g)) (ASSET_LEN + off) (le_enc 8 ((g_size gr + 1) mod two64)))))
             end) <-> exists b, lookup XGrouping (ext_list lg) = Some b /\ group_signer (data (w g)) b auth /\ (gr_max b = 0 \/ gr_size b < gr_max b)).
    { intros Go Gi Gn. destruct (Hwf Go Gi) as [Gw Gs]. assert (NX : XGrouping <> XNone) by discriminate.
      destruct (sect_wf _ _ _ Gw NX) as [[E S]|(off & b & E & S & M & O & Z)]; rewrite S; cbn [bind].
      - split; [intro H; elim (goes_err _ H)|]. intros (b & H & _). congruence.
      - specialize (Gs b E). rewrite (grouping_goes off b Gs M). cbn [bind]. rewrite !goes_require. change (s_authority (data (w g))) with (f_authority (data (w g))).
        rewrite (signer_ok_spec _ _ _ Gs). cbn [g_max g_size]. rewrite orb_true_iff, Z.eqb_eq, Z.ltb_lt. split.
        + intros (H1 & H2 & _). exists b. auto.
        + intros (b' & H0 & H1 & H2). assert (b' = b) as -> by congruence. split; [exact H1|]. split; [exact H2|].
          apply goes_two; [exact Gn|now apply ready_ours|now split| |].
          * rewrite zlen_put; [apply Hs|lia|]. pose proof (initialized_len _ Hi). rewrite pk_zlen. lia.
          * apply (size_len e infos _ _ _ b); [now split|exact Hs|exact O|lia|exact Z]. }
    split.
    - intros (H1 & H2 & H3 & H4 & H5 & H6 & H7 & H8 & H9). repeat (split; [assumption|]). now apply X.
    - intros (H1 & H2 & H3 & H4 & H5 & H6 & H7). repeat (split; [assumption|]). now apply X. }
  unfold goes in D. split; [intros (G & _ & H); tauto|]. intros (G & H). split; [exact G|]. split; [discriminate|]. tauto.
Qed.
Lemma leave_exact : (exists w', process e infos w IUngroup = Ok w') <->
  gate infos w asset /\ signed infos auth /\ acct_owner (w g) = e_prog e /\ initialized (data (w g)) /\ g <> asset /\
  s_group (data (w asset)) = pk_bytes g /\
  exists b, lookup XGrouping (ext_list lg) = Some b /\ group_signer (data (w g)) b auth.
Proof.
  rewrite (gate_exact e infos w asset _ R). cbn [blocked_when_locked dispatch].
  assert (D : goes (process_ungroup e (passed infos) w) <-> signed infos auth /\ acct_owner (w g) = e_prog e /\ initialized (data (w g)) /\ g <> asset /\
  s_group (data (w asset)) = pk_bytes g /\
  exists b, lookup XGrouping (ext_list lg) = Some b /\ group_signer (data (w g)) b auth).
  { pose proof R as (A0 & Ho & Hi & Hw & Hp & Hs). unfold process_ungroup. args. cbv zeta.
    rewrite !goes_require, !owned_spec, !is_asset_spec, signer_spec, not_same_spec, key_is_spec.
    change (f_group (data (w asset))) with (s_group (data (w asset))).
    assert (X : acct_owner (w g) = e_prog e -> initialized (data (w g)) -> g <> asset ->
      goes (r <- sect_get XGrouping (drop ASSET_LEN (data (w g))) ;;
             match r with
             | None => Err EExtensionNotFound
             | Some (off, b) =>
                 gr <- grouping_from_bytes off b ;;
                 require (group_signer_ok (f_authority (data (w g))) gr auth) EInvalidAuthority
                   (w1 <- set_data e (passed infos) w asset (put (data (w asset)) 36 zero32) ;;
                    set_data e (passed infos) w1 g
                      (put (data (w g)) (ASSET_LEN + off) (le_enc 8 ((g_size gr - 1) mod two64))))
             end) <-> exists b, lookup XGrouping (ext_list lg) = Some b /\ group_signer (data (w g)) b auth).
    { intros Go Gi Gn. destruct (Hwf Go Gi) as [Gw Gs]. assert (NX : XGrouping <> XNone) by discriminate.
      destruct (sect_wf _ _ _ Gw NX) as [[E S]|(off & b & E & S & M & O & Z)]; rewrite S; cbn [bind].
      - split; [intro H; elim (goes_err _ H)|]. intros (b & H & _). congruence.
      - specialize (Gs b E). rewrite (grouping_goes off b Gs M). cbn [bind]. rewrite !goes_require.
        rewrite (signer_ok_spec _ _ _ Gs). cbn [g_max g_size]. split.
        + intros (H1 & _). exists b. auto.
        + intros (b' & H0 & H1). assert (b' = b) as -> by congruence. split; [exact H1|].
          apply goes_two; [exact Gn|now apply ready_ours|now split| |].
          * rewrite zlen_put; [apply Hs|lia|]. pose proof (initialized_len _ Hi). change (zlen zero32) with 32. lia.
          * apply (size_len e infos _ _ _ b); [now split|exact Hs|exact O|lia|exact Z]. }
    split.
    - intros (H1 & H2 & H3 & H4 & H5 & H6 & H7 & H8). repeat (split; [assumption|]). now apply X.
    - intros (H1 & H2 & H3 & H4 & H5 & H6). repeat (split; [assumption|]). now apply X. }
  unfold goes in D. split; [intros (G & _ & H); tauto|]. intros (G & H). split; [exact G|]. split; [discriminate|]. tauto.
Qed.
End Grouping.

(** ** Close *)
Lemma empty_goes e infos w k dest : acct_owner (w k) = e_prog e -> writable infos k -> lam_ok w ->
  goes (close_account e (passed infos) w k dest) <-> can_empty infos w k dest.
Proof.
  intros Ho Hw Hl. apply writable_acct in Hw. change (is_writable (passed infos) k = true) in Hw.
  unfold close_account, can_empty. rewrite goes_require, goes_guard, not_same_spec, Z.ltb_lt. change two64 with 18446744073709551616.
  assert (X : dest <> k -> lamports (w dest) + lamports (w k) < 18446744073709551616 ->
    goes (w1 <- move_lamports e (passed infos) w k dest (lamports (w k));;
          require (is_writable (passed infos) k && pk_eqb (acct_owner (w k)) (e_prog e)) ERuntime
            (Ok (upd w1 k (mkAcct (lamports (w1 k)) pk_zero [])))) <-> lamports (w k) = 0 \/ writable infos dest).
  { intros N Z. rewrite goes_bind. rewrite Hw, Ho, pk_eqb_refl. cbn [andb require].
    assert (Q : goes (move_lamports e (passed infos) w k dest (lamports (w k))) <-> lamports (w k) = 0 \/ writable infos dest).
    { unfold move_lamports. replace (pk_eqb k dest) with false by (symmetry; apply pk_eqb_neq; congruence). rewrite orb_false_r.
      destruct (Z.eqb_spec (lamports (w k)) 0) as [E|E]; [split; [auto|intros; apply goes_ok]|].
      cbv zeta. rewrite !goes_require, Hw, Ho, pk_eqb_refl, andb_true_r. cbn [andb].
      assert (W : is_writable (passed infos) dest = true <-> writable infos dest) by apply writable_acct. rewrite W.
      rewrite upd_other by congruence. rewrite Z.ltb_lt, Z.leb_le. change two64 with 18446744073709551616.
      split; [tauto|]. intros [C|C]; [contradiction|]. repeat split; [exact C|lia|lia|apply goes_ok]. }
    rewrite <- Q. unfold goes at 2. split; [intros (x & H & _); eauto|]. intros [x H]. exists x. split; [exact H|apply goes_ok]. }
  split.
  - intros (H1 & H2 & H3). assert (N : dest <> k) by congruence. repeat (split; [assumption|]). now apply X.
  - intros (H1 & H2 & H3). assert (N : k <> dest) by congruence. repeat (split; [assumption|]). now apply X.
Qed.
Lemma close_exact e infos w buffer dest : arg infos 0 buffer -> arg infos 1 dest -> writable infos buffer -> plain_accounts e infos w -> lam_ok w ->
  (exists w', process e infos w IClose = Ok w') <->
  signed infos buffer /\ acct_owner (w buffer) = e_prog e /\ (data (w buffer) = [] \/ s_disc (data (w buffer)) = x00) /\ can_empty infos w buffer dest.
Proof.
  intros A0 A1 Hw Hp Hl.
  assert (D : goes (process_close e (passed infos) w) <->
    signed infos buffer /\ acct_owner (w buffer) = e_prog e /\ (data (w buffer) = [] \/ s_disc (data (w buffer)) = x00) /\ can_empty infos w buffer dest).
  { pose proof A0 as B0. unfold process_close. args. cbv zeta. rewrite !goes_require, signer_spec, owned_spec, orb_true_iff, Z.eqb_eq, beqb_eq.
    change (byte_at (data (w buffer)) 0) with (s_disc (data (w buffer))). change DISC_UNINIT with x00.
    assert (Z : zlen (data (w buffer)) = 0 <-> data (w buffer) = []) by (split; [apply zlen_0|now intros ->]). rewrite Z.
    split.
    - intros (H1 & H2 & H3 & H4). repeat (split; [assumption|]). now apply (empty_goes e).
    - intros (H1 & H2 & H3 & H4). repeat (split; [assumption|]). now apply (empty_goes e). }
  rewrite <- D. split.
  - intros [w' H]. apply process_dispatch in H. now exists w'.
  - intros H. pose proof (proj1 D H) as (Hs & Ho & _ & _). destruct H as [w' H]. exists w'.
    unfold process. assert (V : goes (validate_access e w (firstn MAX_ACCOUNTS infos))).
    { destruct (find_locked_total e w (firstn MAX_ACCOUNTS infos) Hp) as (r & Hr & _). unfold validate_access.
      destruct A0 as (a & Ha & <-). unfold passed in Ha. change 7%nat with MAX_ACCOUNTS in Ha.
      destruct (firstn MAX_ACCOUNTS infos) as [|a0 rest] eqn:E; [discriminate|]. inv Ha.
      rewrite Ho, pk_eqb_refl. destruct (Hp a) as [Hd|Hd]; [unfold passed; change 7%nat with MAX_ACCOUNTS; rewrite E; now left|assumption| |].
      - rewrite Hd. change (zlen (@nil byte) =? 0) with true. cbn [andb negb]. apply goes_unit. split; [apply goes_ok|now exists r].
      - replace (zlen (data (w (ai_key a))) =? 0) with false by (unfold zlen; lia). cbn [negb andb].
        apply goes_unit. split; [|now exists r]. apply goes_guard. split; [unfold zlen; lia|].
        destruct (beqb _ _); [|apply goes_ok]. apply goes_require. split; [|apply goes_ok]. rewrite <- E. now apply signed_acct. }
    destruct V as [r ->]. cbn [bind]. destruct r; exact H.
Qed.

(** ** Burn *)
Lemma act_check_exact d l k r : well_formed d l -> manager_sane l -> act_check d k r = Ok true <-> authorized d l k r.
Proof. intros Hwf Hm. split; [now apply act_check_wf|now apply act_check_complete]. Qed.
Lemma act_check_goes d l k r : well_formed d l -> manager_sane l -> goes (act_check d k r).
Proof.
  intros Hwf Hm. unfold act_check. destruct (key_is (f_owner d) k); [apply goes_ok|]. rewrite (manager_layout _ _ Hwf).
  destruct (lookup XManager (ext_list l)) as [b|] eqn:E; [|cbn [bind]; apply goes_ok].
  apply goes_bind. specialize (Hm b E). unfold load_delegate, guard. replace (33 <=? zlen b) with true by (unfold zlen; lia). cbn [bind]. eexists. split; [reflexivity|apply goes_ok].
Qed.
Lemma opt_arg e infos i k : arg infos i k -> opt_acct e (passed infos) i = Ok (if pk_eqb k (e_prog e) then None else Some k).
Proof. intro A. unfold opt_acct. apply acct_arg in A. rewrite A. reflexivity. Qed.

Section Burn.
Variables (e : env) (infos : list ainfo) (w : world) (asset signer r2 g : pubkey) (l lg : list blk).
Hypothesis R : ready e infos w asset.
Hypothesis Hl : lam_ok w.
Hypothesis A1 : arg infos 1 signer.
Hypothesis A2 : arg infos 2 r2.
Hypothesis A3 : arg infos 3 g.
Hypothesis Wg : writable infos g.
Hypothesis Hwf : well_formed (data (w asset)) l.
Hypothesis Hm : manager_sane l.
Hypothesis Hgs : grouping_sane l.
Hypothesis Hg : s_group (data (w asset)) <> no_key -> acct_owner (w g) = e_prog e -> pk_bytes g = s_group (data (w asset)) -> well_formed (data (w g)) lg /\ grouping_sane lg.

Lemma burn_exact dest : (r2 = e_prog e /\ dest = signer \/ r2 <> e_prog e /\ dest = r2) ->
  (exists w', process e infos w IBurn = Ok w') <->
  gate infos w asset /\ none_locked e infos w /\ signed infos signer /\ authorized (data (w asset)) l signer RBurn /\
  can_empty infos w asset dest /\
  (forall b, lookup XGrouping (ext_list l) = Some b -> gr_size b = 0) /\
  (s_group (data (w asset)) <> no_key ->
     g <> e_prog e /\ g <> asset /\ pk_bytes g = s_group (data (w asset)) /\ acct_owner (w g) = e_prog e /\
     exists b, lookup XGrouping (ext_list lg) = Some b /\ 1 <= gr_size b).
Proof.
  intro Hdest. rewrite (gate_exact e infos w asset _ R). cbn [blocked_when_locked dispatch].
  assert (ED : match (if pk_eqb r2 (e_prog e) then None else Some r2) with Some r => r | None => signer end = dest).
  { destruct Hdest as [[-> ->]|[N ->]]; [now rewrite pk_eqb_refl|]. apply pk_eqb_neq in N. now rewrite N. }
  assert (NX : XGrouping <> XNone) by discriminate.
  pose proof R as (A0 & Ho & Hi & Hw & Hp & Hs). pose proof (initialized_len _ Hi) as Hlen.
  assert (D : goes (process_burn e (passed infos) w) <-> signed infos signer /\ authorized (data (w asset)) l signer RBurn /\
    can_empty infos w asset dest /\
    (forall b, lookup XGrouping (ext_list l) = Some b -> gr_size b = 0) /\
    (s_group (data (w asset)) <> no_key ->
       g <> e_prog e /\ g <> asset /\ pk_bytes g = s_group (data (w asset)) /\ acct_owner (w g) = e_prog e /\
       exists b, lookup XGrouping (ext_list lg) = Some b /\ 1 <= gr_size b)).
  { split.
    - intros [w' H]. apply burn_inv in H as (a & s & rec & grp & w1 & B0 & B1 & B2 & B3 & Bo & Bs & Bi & Ba & Bg & Bx & Bc).
      apply acct_arg in B0, B1. assert (Ea := arg_det _ _ _ _ B0 A0). assert (Es := arg_det _ _ _ _ B1 A1). rewrite Ea, Es in *.
      rewrite (opt_arg _ _ _ _ A2) in B2. rewrite (opt_arg _ _ _ _ A3) in B3. apply Ok_inj in B2, B3. rewrite <- B2, ED in Bc.
      split; [now apply signer_spec|]. split; [now apply act_check_exact|].
      assert (F : (forall k, lamports (w1 k) = lamports (w k)) /\ acct_owner (w1 asset) = e_prog e).
      { destruct Bg as [[_ ->]|(ga & off & b & gr & _ & _ & N & _ & _ & _ & S)]; [now split|].
        split; [intro k; exact (set_data_lam _ _ _ _ _ _ _ S)|]. rewrite (set_data_owner _ _ _ _ _ _ _ S). exact Ho. }
      destruct F as [F1 F2].
      assert (L1 : lam_ok w1) by (intro k; rewrite F1; apply Hl).
      assert (C : goes (close_account e (passed infos) w1 asset dest)) by (now exists w').
      apply (empty_goes e infos w1 asset dest F2 Hw L1) in C. unfold can_empty in *. rewrite !F1 in C. split; [exact C|]. split.
      { intros b E. destruct (get_wf _ _ _ Hwf NX) as [[Q _]|(off & b' & Q & G & _ & M & _)]; [congruence|]. assert (b' = b) as -> by congruence.
        destruct Bx as [Bx|(o2 & b2 & gr & G2 & P2 & Z2)]; [rewrite G in Bx; apply Ok_inj in Bx; discriminate|].
        rewrite G in G2. apply Ok_inj in G2. apply some_inj in G2. assert (o2 = off) as -> by congruence. assert (b2 = b) as -> by congruence.
        apply grouping_ok in P2 as (_ & -> & _). exact Z2. }
      intro Ng. destruct Bg as [[N _]|(ga & off & b & gr & G1 & G2 & G3 & G4 & G5 & G6 & G7)].
      { apply nullable_none in N. elim Ng. exact N. }
      rewrite G2 in B3. destruct (pk_eqb g (e_prog e)) eqn:Eg; [discriminate|]. apply some_inj in B3. rewrite <- B3 in *. apply pk_eqb_neq in Eg.
      apply nullable_some in G1 as [G1 _]. change (f_group (data (w asset))) with (s_group (data (w asset))) in G1.
      split; [exact Eg|]. split; [exact G3|]. split; [now symmetry|].
      assert (Go : acct_owner (w g) = e_prog e).
      { apply set_data_ok in G7. destruct G7 as [[G7 _]|(_ & _ & G7 & _)]; [|exact G7]. exfalso.
        apply grouping_ok in G5 as (L5 & -> & _). cbn [g_size] in *. apply asset_get_some in G4. pose proof (has_ext_range _ _ _ _ G4) as [Q1 Q2].
        destruct (put_size (data (w g)) off b (gr_size b - 1)) as [_ P]; [lia|exact Q2|lia|pose proof (gr_size_range b); lia|].
        rewrite G7 in P. destruct G4 as (cur & _ & -> & _ & _ & Eb). assert (X : gr_size b = gr_size b - 1).
        { rewrite <- P at 1. unfold gr_size at 1. f_equal. rewrite Eb at 1. unfold sub. rewrite skipn_O, firstn_firstn, Nat.min_l by lia. reflexivity. }
        lia. }
      split; [exact Go|]. destruct (Hg Ng Go (eq_sym G1)) as [W1 W2].
      destruct (get_wf _ _ _ W1 NX) as [[_ Q]|(o2 & b2 & Q & G & _)]; rewrite G4 in *.
      + apply Ok_inj in Q. discriminate.
      + apply Ok_inj in G. apply some_inj in G. assert (b2 = b) as -> by congruence. exists b. split; [exact Q|]. apply grouping_ok in G5 as (_ & -> & _). exact G6.
    - intros (S1 & S2 & S3 & S4 & S5). unfold process_burn. rewrite (opt_arg _ _ _ _ A2), (opt_arg _ _ _ _ A3). args. cbv zeta. rewrite ED.
      rewrite !goes_require, owned_spec, signer_spec, is_asset_spec. repeat (split; [assumption|]).
      change (if key_is (f_owner (data (w asset))) signer then _ else _) with (act_check (data (w asset)) signer RBurn).
      apply (act_check_exact _ _ _ _ Hwf Hm) in S2. rewrite S2. cbn [bind]. apply goes_require. split; [reflexivity|].
      assert (G1 : exists w1, (forall k, lamports (w1 k) = lamports (w k)) /\ acct_owner (w1 asset) = e_prog e /\
        match nullable (f_group (data (w asset))) with
        | None => Ok w
        | Some gb =>
            ga <- ok_or (if pk_eqb g (e_prog e) then None else Some g) ENotEnoughAccountKeys ;;
            require (key_is gb ga) EInvalidArgument
             (require (negb (pk_eqb ga asset)) EAccountBorrowFailed
              (r <- asset_get XGrouping (data (w ga)) ;;
               match r with
               | None => Err EExtensionNotFound
               | Some (off, b) =>
                   gr <- grouping_from_bytes off b ;;
                   require (1 <=? g_size gr) EInvalidAccountData
                    (set_data e (passed infos) w ga (put (data (w ga)) off (le_enc 8 (g_size gr - 1))))
               end))
        end = Ok w1).
      { destruct (nullable (f_group (data (w asset)))) as [gb|] eqn:En; [|exists w; auto].
        apply nullable_some in En as [En Nz]. change (f_group (data (w asset))) with (s_group (data (w asset))) in *. specialize (S5 Nz) as (T1 & T2 & T3 & T4 & b & T5 & T6).
        apply pk_eqb_neq in T1. rewrite T1. cbn [ok_or bind]. assert (K : key_is gb g = true) by (apply key_is_spec; congruence). rewrite K. cbn [require].
        apply not_same_spec in T2 as T2'. rewrite T2'. cbn [require]. destruct (Hg Nz T4 T3) as [W1 W2].
        destruct (get_wf _ _ _ W1 NX) as [[Q _]|(o2 & b2 & Q & G & _ & M & O & Z)]; [congruence|]. assert (b2 = b) as -> by congruence. rewrite G. cbn [bind].
        rewrite (grouping_goes o2 b (W2 b Q) M). cbn [bind g_size]. replace (1 <=? gr_size b) with true by lia. cbn [require].
        specialize (W2 b Q). destruct (goes_set e infos w g (put (data (w g)) o2 (le_enc 8 (gr_size b - 1)))) as [w1 S].
        - now split.
        - rewrite zlen_put; [apply Hs|lia|]. rewrite le_enc_zlen. unfold zlen in *. lia.
        - exists w1. rewrite S. split; [intro k; exact (set_data_lam _ _ _ _ _ _ _ S)|]. split; [|reflexivity]. rewrite (set_data_owner _ _ _ _ _ _ _ S). exact Ho. }
      destruct G1 as (w1 & F1 & F2 & G1). cbv zeta in G1. rewrite G1. cbn [bind].
      assert (C : goes (close_account e (passed infos) w1 asset dest)).
      { apply empty_goes; [exact F2|exact Hw|intro k; rewrite F1; apply Hl|]. unfold can_empty in *. now rewrite !F1. }
      destruct (get_wf _ _ _ Hwf NX) as [[_ Q]|(o2 & b & Q & G & _ & M & _)].
      + rewrite Q. cbn [bind]. exact C.
      + rewrite G. cbn [bind]. rewrite (grouping_goes o2 b (Hgs b Q) M). cbn [bind g_size]. rewrite (S4 b Q). cbn [Z.eqb require bind]. exact C. }
  unfold goes in D. tauto.
Qed.
End Burn.

(** Lock, Unlock, Burn, Close, Handover, re-initialization. *)
From Verif Require Import Base State Layout Constr Ext World Proc BaseL Spec WorldL ProcSteps LayoutL HeadL AuthL.
From Coq Require Import Strings.Byte.

(** ** The access gate *)
Lemma find_locked_total e w l :
  (forall a, In a l -> acct_owner (w (ai_key a)) = e_prog e ->
     data (w (ai_key a)) = [] \/ (168 <= length (data (w (ai_key a))))%nat) ->
  exists r, find_locked e w l = Ok r /\
    (r = None <-> forall a, In a l -> acct_owner (w (ai_key a)) = e_prog e -> ~ locked (data (w (ai_key a)))).
Proof.
  induction l as [|x l IH]; intro H; cbn [find_locked].
  - exists None. split; [reflexivity|]. split; [intros _ a []|reflexivity].
  - destruct IH as (r & Hr & HN); [intros a Ha; apply H; now right|].
    destruct (pk_eqb (acct_owner (w (ai_key x))) (e_prog e)) eqn:E; cbn [andb]; bnorm.
    + destruct (H x (or_introl eq_refl) E) as [Hd|Hd].
      * rewrite Hd. change (zlen (@nil byte) =? 0) with true. cbn [negb]. exists r. split; [assumption|].
        rewrite HN. split; intros HH a Ha.
        -- destruct Ha as [->|Ha]; [|auto]. intros _. rewrite Hd. intros [L _]. discriminate L.
        -- intro. apply HH; [now right|assumption].
      * assert (Hz : (zlen (data (w (ai_key x))) =? 0) = false) by (unfold zlen; lia). rewrite Hz. cbn [negb].
        change (byte_at (data (w (ai_key x))) 0) with (s_disc (data (w (ai_key x)))).
        change (byte_at (data (w (ai_key x))) 1) with (s_state (data (w (ai_key x)))).
        destruct (beqb (s_disc (data (w (ai_key x)))) DISC_ASSET) eqn:E1; bnorm.
        -- unfold guard. replace (2 <=? zlen (data (w (ai_key x)))) with true by (unfold zlen; lia).
           destruct (beqb (s_state (data (w (ai_key x)))) ST_LOCKED) eqn:E2; bnorm.
           ++ eexists. split; [reflexivity|]. split; [discriminate|]. intro HH. exfalso.
              apply (HH x (or_introl eq_refl) E). split; assumption.
           ++ exists r. split; [assumption|]. rewrite HN. split; intros HH a Ha.
              ** destruct Ha as [->|Ha]; [|auto]. intros _ [_ L]. contradiction.
              ** intro. apply HH; [now right|assumption].
        -- exists r. split; [assumption|]. rewrite HN. split; intros HH a Ha.
           ++ destruct Ha as [->|Ha]; [|auto]. intros _ [L _]. contradiction.
           ++ intro. apply HH; [now right|assumption].
    + exists r. split; [assumption|]. rewrite HN. split; intros HH a Ha.
      * destruct Ha as [->|Ha]; [|auto]. intro. contradiction.
      * intro. apply HH; [now right|assumption].
Qed.
Lemma gate_total e infos w asset : arg infos 0 asset -> acct_owner (w asset) = e_prog e ->
  initialized (data (w asset)) -> plain_accounts e infos w ->
  (s_standard (data (w asset)) = x03 -> signed infos asset) ->
  exists r, validate_access e w (firstn MAX_ACCOUNTS infos) = Ok r /\ (r = None <-> none_locked e infos w).
Proof.
  intros (a & Ha & <-) Ho Hi Hp Hs. destruct (find_locked_total e w (firstn MAX_ACCOUNTS infos) Hp) as (r & Hr & HN).
  exists r. split; [|exact HN]. unfold validate_access.
  unfold passed in Ha. change 7%nat with MAX_ACCOUNTS in Ha.
  destruct (firstn MAX_ACCOUNTS infos) as [|a0 rest] eqn:E; [discriminate|]. inv Ha.
  rewrite Ho, pk_eqb_refl. pose proof (initialized_len _ Hi).
  replace (zlen (data (w (ai_key a))) =? 0) with false by lia. cbn [negb andb].
  unfold guard. replace (3 <=? zlen (data (w (ai_key a)))) with true by lia.
  change (byte_at (data (w (ai_key a))) 2) with (s_standard (data (w (ai_key a)))).
  destruct (beqb (s_standard (data (w (ai_key a)))) (standard_code Proxied)) eqn:E2; bnorm; [|exact Hr].
  assert (is_signer (a :: rest) (ai_key a) = true) as -> by (rewrite <- E; apply signed_acct; auto).
  exact Hr.
Qed.
Lemma gate_proxied e infos w asset r : arg infos 0 asset -> acct_owner (w asset) = e_prog e ->
  validate_access e w (firstn MAX_ACCOUNTS infos) = Ok r ->
  s_standard (data (w asset)) = x03 -> signed infos asset.
Proof.
  intros A0 Ho H Hs.
  unfold validate_access in H. rinv H.
  destruct A0 as (a & Ha & <-). unfold passed in Ha. change 7%nat with MAX_ACCOUNTS in Ha.
  destruct (firstn MAX_ACCOUNTS infos) as [|a0 rr] eqn:E; [discriminate|]. inv Ha.
  rewrite Ho, pk_eqb_refl in Hx.
  assert (Hz : zlen (data (w (ai_key a))) =? 0 = false).
  { unfold s_standard in Hs. destruct (data (w (ai_key a))); [discriminate|]. unfold zlen; cbn [length]. lia. }
  rewrite Hz in Hx. cbn [negb andb] in Hx. rinv Hx.
  change (byte_at (data (w (ai_key a))) 2) with (s_standard (data (w (ai_key a)))) in Hx.
  rewrite Hs in Hx. change (beqb x03 (standard_code Proxied)) with true in Hx. cbv iota in Hx. rinv Hx.
  rewrite <- E in Hc0. now apply signed_acct in Hc0.
Qed.

(** ** Lock / Unlock *)
Definition lock_check (d : bytes) (k : pubkey) : res unit :=
  m <- manager_delegate d ;;
  match asset_delegate d with
  | Some dl => assert_delegate [Some dl; m] (pk_bytes k) RLock
  | None => if key_is (f_owner d) k then Ok tt else assert_delegate [m] (pk_bytes k) RLock
  end.
Lemma lock_check_spec d l k : well_formed d l ->
  (forall b, lookup XManager (ext_list l) = Some b -> (33 <= length b)%nat) ->
  lock_check d k = Ok tt <-> may_lock d l k.
Proof.
  intros Hwf Hm. unfold lock_check, may_lock. rewrite (manager_layout _ _ Hwf).
  assert (M : forall b, lookup XManager (ext_list l) = Some b ->
    (dl <- load_delegate b ;; Ok (Some dl)) = Ok (Some (mkDelegate (sub b 0 32) (nth 32 b x00)))).
  { intros b Hb. specialize (Hm b Hb). unfold load_delegate, guard.
    replace (33 <=? zlen b) with true by (unfold zlen; lia). reflexivity. }
  destruct (lookup XManager (ext_list l)) as [b|] eqn:El.
  - rewrite (M b eq_refl). cbn [bind]. pose proof (Hm b eq_refl).
    destruct (asset_delegate d) as [dl|] eqn:Ed.
    + apply asset_delegate_some in Ed as [Ed ->].
      rewrite <- is_ok_tt, assert_two. cbn [del_addr del_roles]. unfold manager_is. tauto.
    + apply asset_delegate_none in Ed. destruct (key_is (f_owner d) k) eqn:Ek.
      * apply key_is_spec in Ek. split; [|reflexivity]. intros _. right. split; assumption.
      * apply key_is_false in Ek. rewrite <- is_ok_tt, assert_one. cbn [del_addr del_roles]. unfold manager_is.
        change (f_owner d) with (s_owner d) in Ek. tauto.
  - cbn [bind]. destruct (asset_delegate d) as [dl|] eqn:Ed.
    + apply asset_delegate_some in Ed as [Ed ->].
      rewrite <- is_ok_tt, assert_two. cbn [del_addr del_roles]. unfold delegate_is. tauto.
    + apply asset_delegate_none in Ed. destruct (key_is (f_owner d) k) eqn:Ek.
      * apply key_is_spec in Ek. split; [|reflexivity]. intros _. right. split; assumption.
      * apply key_is_false in Ek. rewrite <- is_ok_tt, assert_one. unfold delegate_is.
        change (f_owner d) with (s_owner d) in Ek. tauto.
Qed.
Lemma set_state_inv st e infos w w' : process_set_state st e infos w = Ok w' ->
  exists asset signer, acct infos 0 = Ok asset /\ acct infos 1 = Ok signer /\
    is_signer infos signer = true /\ acct_owner (w asset) = e_prog e /\ initialized (data (w asset)) /\
    lock_check (data (w asset)) signer = Ok tt /\
    set_data e infos w asset (put (data (w asset)) 1 [st]) = Ok w'.
Proof.
  intro H. unfold process_set_state in H. rinv H. exists x, x0. unfold owned_by_prog in *. bnorm.
  apply is_asset_spec in Hc1. repeat (split; [assumption|]). split; [|assumption].
  unfold lock_check. rewrite Hx1. cbn [bind]. destruct x2. exact Hx2.
Qed.
Lemma set_state_run st e infos w asset signer : acct infos 0 = Ok asset -> acct infos 1 = Ok signer ->
  is_signer infos signer = true -> acct_owner (w asset) = e_prog e -> initialized (data (w asset)) ->
  lock_check (data (w asset)) signer = Ok tt -> is_writable infos asset = true -> zlen (data (w asset)) <= MAX_DATA ->
  exists w', process_set_state st e infos w = Ok w'.
Proof.
  intros A0 A1 Hs Ho Hi Hl Hw Hz. unfold process_set_state. rewrite A0, A1. cbn [bind]. rewrite Hs.
  unfold owned_by_prog. rewrite Ho, pk_eqb_refl. apply is_asset_spec in Hi as Hi2. cbn [require].
  unfold require. rewrite Hi2. unfold lock_check in Hl. rinv Hl. rewrite Hx. cbn [bind]. rewrite Hl. cbn [bind].
  unfold set_data. destruct (bytes_eqb _ _); [eauto|]. rewrite Hw, Ho, pk_eqb_refl.
  pose proof (initialized_len _ Hi).
  rewrite zlen_put by (change (zlen [st]) with 1; lia).
  replace (zlen (data (w asset)) <=? MAX_DATA) with true by lia. cbn. eauto.
Qed.

Section Lock.
Variables (e : env) (infos : list ainfo) (w : world) (asset signer : pubkey) (l : list blk).
Hypothesis A0 : arg infos 0 asset.
Hypothesis A1 : arg infos 1 signer.
Hypothesis Ho : acct_owner (w asset) = e_prog e.
Hypothesis Hi : initialized (data (w asset)).
Hypothesis Hwf : well_formed (data (w asset)) l.
Hypothesis Hm : forall b, lookup XManager (ext_list l) = Some b -> (33 <= length b)%nat.
Hypothesis Hw : writable infos asset.
Hypothesis Hp : plain_accounts e infos w.
Hypothesis Hsz : sized w.

Lemma set_state_exact st :
  (exists w', process_set_state st e (firstn MAX_ACCOUNTS infos) w = Ok w') <->
  signed infos signer /\ may_lock (data (w asset)) l signer.
Proof.
  split.
  - intros (w' & H). apply set_state_inv in H as (a & s & B0 & B1 & Hs & _ & _ & Hl & _).
    apply acct_arg in B0, B1. rewrite (arg_det _ _ _ _ B0 A0) in *. rewrite (arg_det _ _ _ _ B1 A1) in *.
    split; [now apply signed_acct|]. now apply (lock_check_spec _ _ _ Hwf Hm).
  - intros [Hs Hl]. apply (set_state_run st e _ w asset signer); auto.
    + now apply acct_arg.
    + now apply acct_arg.
    + now apply signed_acct.
    + now apply (lock_check_spec _ _ _ Hwf Hm).
    + now apply writable_acct.
Qed.
Lemma lock_exact :
  (exists w', process e infos w ILock = Ok w') <->
  signed infos signer /\ may_lock (data (w asset)) l signer /\ none_locked e infos w /\
  (s_standard (data (w asset)) = x03 -> signed infos asset).
Proof.
  split.
  - intros (w' & H). pose proof H as HD. apply process_dispatch in HD. cbn [dispatch] in HD.
    destruct (proj1 (set_state_exact ST_LOCKED) (ex_intro _ w' HD)) as [S1 S2].
    repeat (split; [assumption|]). unfold process in H. rinv H.
    pose proof (gate_proxied _ _ _ _ _ A0 Ho Hx) as Hpx. split; [|exact Hpx].
    destruct (gate_total e infos w asset A0 Ho Hi Hp Hpx) as (r & Hr & HN). rewrite Hx in Hr. inv Hr.
    apply HN. destruct r; [discriminate H|reflexivity].
  - intros (S1 & S2 & S3 & S4).
    destruct (gate_total e infos w asset A0 Ho Hi Hp S4) as (r & Hr & HN). apply HN in S3. subst r.
    destruct (proj2 (set_state_exact ST_LOCKED) (conj S1 S2)) as (w' & H).
    exists w'. unfold process. rewrite Hr. cbn [bind]. exact H.
Qed.
Lemma unlock_exact :
  (exists w', process e infos w IUnlock = Ok w') <->
  signed infos signer /\ may_lock (data (w asset)) l signer /\
  (s_standard (data (w asset)) = x03 -> signed infos asset).
Proof.
  split.
  - intros (w' & H). pose proof H as HD. apply process_dispatch in HD. cbn [dispatch] in HD.
    destruct (proj1 (set_state_exact ST_UNLOCKED) (ex_intro _ w' HD)) as [S1 S2].
    repeat (split; [assumption|]). unfold process in H. rinv H.
    exact (gate_proxied _ _ _ _ _ A0 Ho Hx).
  - intros (S1 & S2 & S4).
    destruct (gate_total e infos w asset A0 Ho Hi Hp S4) as (r & Hr & _).
    destruct (proj2 (set_state_exact ST_UNLOCKED) (conj S1 S2)) as (w' & H).
    exists w'. unfold process. rewrite Hr. cbn [bind]. destruct r; exact H.
Qed.
End Lock.

Lemma set_state_effect st e infos w w' : process_set_state st e (firstn MAX_ACCOUNTS infos) w = Ok w' ->
  exists asset, arg infos 0 asset /\ only_data w w' asset /\
    same_except (data (w asset)) (data (w' asset)) 1 1 /\ s_state (data (w' asset)) = st.
Proof.
  intro H. apply set_state_inv in H as (a & s & B0 & B1 & Hs & Ho & Hi & _ & Hset).
  apply acct_arg in B0. exists a. split; [assumption|].
  apply set_data_only in Hset as [Hon Hd]. split; [assumption|]. rewrite Hd.
  pose proof (initialized_len _ Hi).
  assert (H1 : zlen [st] = 1) by reflexivity. split.
  - apply (put_same_except (data (w a)) 1 [st]); lia.
  - unfold s_state. rewrite nth_put by lia. reflexivity.
Qed.
Lemma lock_effect e infos w w' : process e infos w ILock = Ok w' ->
  exists asset, arg infos 0 asset /\ only_data w w' asset /\
    same_except (data (w asset)) (data (w' asset)) 1 1 /\ s_state (data (w' asset)) = x01.
Proof. intro H. apply process_dispatch in H. exact (set_state_effect ST_LOCKED _ _ _ _ H). Qed.
Lemma unlock_effect e infos w w' : process e infos w IUnlock = Ok w' ->
  exists asset, arg infos 0 asset /\ only_data w w' asset /\
    same_except (data (w asset)) (data (w' asset)) 1 1 /\ s_state (data (w' asset)) = x00.
Proof. intro H. apply process_dispatch in H. exact (set_state_effect ST_UNLOCKED _ _ _ _ H). Qed.

(** ** Closing accounts *)
Lemma close_account_spec e infos w k r w' : 0 <= lamports (w k) -> close_account e infos w k r = Ok w' ->
  k <> r /\ w' k = mkAcct 0 pk_zero [] /\
  w' r = mkAcct (lamports (w r) + lamports (w k)) (acct_owner (w r)) (data (w r)) /\
  (forall x, x <> k -> x <> r -> w' x = w x).
Proof.
  intros Hl H. unfold close_account in H. rinv H. bnorm.
  split; [assumption|]. unfold move_lamports in Hx.
  destruct (lamports (w k) =? 0) eqn:E; cbn [orb] in Hx.
  - rinv Hx. rewrite upd_same. split; [f_equal; lia|]. split.
    + rewrite upd_other by congruence. destruct (x r); cbn. f_equal. lia.
    + intros. now rewrite upd_other.
  - replace (pk_eqb k r) with false in Hx by (symmetry; now apply pk_eqb_neq). rinv Hx. bnorm.
    rewrite upd_same. rewrite (upd_other _ _ _ r) in * by congruence.
    rewrite (upd_other _ r _ k) by congruence. rewrite upd_same. cbn [lamports].
    split; [f_equal; lia|]. split; [rewrite upd_other by congruence; now rewrite upd_same|].
    intros x N1 N2. now rewrite !upd_other.
Qed.

(** C42 *)
Lemma close_effect e infos w w' : lam_ok w -> process e infos w IClose = Ok w' ->
  exists buffer recipient, arg infos 0 buffer /\ arg infos 1 recipient /\ buffer <> recipient /\
    signed infos buffer /\ acct_owner (w buffer) = e_prog e /\
    (data (w buffer) = [] \/ s_disc (data (w buffer)) = x00) /\
    w' buffer = mkAcct 0 pk_zero [] /\
    w' recipient = mkAcct (lamports (w recipient) + lamports (w buffer)) (acct_owner (w recipient)) (data (w recipient)) /\
    (forall k, k <> buffer -> k <> recipient -> w' k = w k).
Proof.
  intros Hl H. apply process_dispatch in H. cbn [dispatch] in H. unfold process_close in H. rinv H.
  unfold owned_by_prog in *. bnorm. exists x, x0.
  apply close_account_spec in H as (H1 & H2 & H3 & H4); [|apply Hl].
  apply acct_arg in Hx, Hx0. apply signed_acct in Hc. repeat (split; [assumption|]).
  split; [|auto]. apply orb_true_iff in Hc1 as [Hc1|Hc1]; [left; apply zlen_0; lia|right].
  bnorm. exact Hc1.
Qed.

(** ** Burn *)
Lemma burn_inv e infos w w' : process_burn e infos w = Ok w' ->
  exists asset signer rec group w1,
    acct infos 0 = Ok asset /\ acct infos 1 = Ok signer /\ opt_acct e infos 2 = Ok rec /\
    opt_acct e infos 3 = Ok group /\
    acct_owner (w asset) = e_prog e /\ is_signer infos signer = true /\ initialized (data (w asset)) /\
    act_check (data (w asset)) signer RBurn = Ok true /\
    (nullable (f_group (data (w asset))) = None /\ w1 = w \/
     exists ga off b gr, nullable (f_group (data (w asset))) = Some (pk_bytes ga) /\ group = Some ga /\
       ga <> asset /\ asset_get XGrouping (data (w ga)) = Ok (Some (off, b)) /\
       grouping_from_bytes off b = Ok gr /\ 1 <= g_size gr /\
       set_data e infos w ga (put (data (w ga)) off (le_enc 8 (g_size gr - 1))) = Ok w1) /\
    (asset_get XGrouping (data (w asset)) = Ok None \/
     exists off b gr, asset_get XGrouping (data (w asset)) = Ok (Some (off, b)) /\
       grouping_from_bytes off b = Ok gr /\ g_size gr = 0) /\
    close_account e infos w1 asset (match rec with Some r => r | None => signer end) = Ok w'.
Proof.
  intro H. unfold process_burn in H. rinv H.
  change (if key_is (f_owner (data (w x))) x0 then _ else _) with (act_check (data (w x)) x0 RBurn) in Hx3.
  unfold owned_by_prog in *. apply is_asset_spec in Hc1. bnorm.
  subst x3. exists x, x0, x1, x2, x4. repeat (split; [assumption|]).
  split; [|split; [|assumption]].
  - destruct (nullable (f_group (data (w x)))) as [g|] eqn:Eg; rinv Hx4; [|left; auto].
    right. match type of Hx4 with match ?o with _ => _ end = _ => destruct o as [[off b]|]; [|discriminate] end.
    rinv Hx4. apply key_is_spec in Hc2. subst g. bnorm.
    apply ok_or_ok in Hx7. do 4 eexists. split; [reflexivity|]. repeat (split; [eassumption||lia|]). eassumption.
  - destruct x5 as [[off b]|]; [|left; assumption]. right. rinv Hx6. exists off, b, x3.
    split; [assumption|]. split; [assumption|lia].
Qed.

Lemma has_ext_range d t off b : has_ext d t off b -> 16 <= off /\ off + zlen b <= zlen d.
Proof.
  intros (cur & Hl & -> & H1 & _). split; [|assumption]. destruct Hl; [lia|].
  assert (forall c r, locates d t c r -> 0 <= r) as L by (induction 1; auto). apply L in Hl. lia.
Qed.
Lemma grouping_ok off b gr : grouping_from_bytes off b = Ok gr ->
  (16 <= length b <= 48)%nat /\ gr = mkGrouping (gr_size b) (gr_max b) (gr_delegate b) /\ off mod 8 = 0.
Proof.
  unfold grouping_from_bytes. intro H.
  apply guard_ok in H as [Hc H]. apply guard_ok in H as [Hc0 H]. apply guard_ok in H as [Hc1 H].
  assert (Hl : (16 <= length b <= 48)%nat) by len. split; [assumption|]. split; [|lia].
  match type of H with Ok ?g = _ => assert (gr = g) as -> by congruence end. clear H. f_equal.
  unfold gr_delegate. assert (Hk : zlen (skipn 16 b) = Z.of_nat (length b) - 16) by len.
  destruct (Nat.ltb_spec (length b) 48).
  - replace (zlen (skipn 16 b) <? 32) with true by lia. reflexivity.
  - replace (zlen (skipn 16 b) <? 32) with false by lia. unfold sub.
    rewrite firstn_all2; [reflexivity|]. rewrite skipn_length. lia.
Qed.
Lemma gr_size_range b : 0 <= gr_size b < two64.
Proof.
  unfold gr_size. pose proof (le_dec_range (sub b 0 8)). assert (zlen (sub b 0 8) <= 8) by (unfold sub; len).
  pose proof (zlen_nonneg (sub b 0 8)).
  assert (256 ^ zlen (sub b 0 8) <= 256 ^ 8) by (apply Z.pow_le_mono_r; lia). unfold two64. lia.
Qed.

(** C09 *)
Lemma burn_authorized e infos w w' : sized w -> process e infos w IBurn = Ok w' ->
  exists asset signer, arg infos 0 asset /\ arg infos 1 signer /\ signed infos signer /\
    may_act (data (w asset)) signer RBurn /\
    (forall l, well_formed (data (w asset)) l -> authorized (data (w asset)) l signer RBurn).
Proof.
  intros Hs H. apply process_dispatch in H. cbn [dispatch] in H.
  apply burn_inv in H as (asset & signer & rec & grp & w1 & A0 & A1 & A2 & A3 & Ho & Hsg & Hi & Hact & _).
  apply acct_arg in A0, A1. apply signed_acct in Hsg. exists asset, signer.
  repeat (split; [assumption|]). split.
  - eapply act_check_sound; eauto. now apply sized_wf_two64.
  - intros l Hwf. now apply act_check_wf.
Qed.

(** writing the 8-byte size at the start of a payload *)
Lemma put_size d off (b : bytes) n : 0 <= off -> off + zlen b <= zlen d -> (16 <= length b)%nat -> 0 <= n < two64 ->
  same_except d (put d off (le_enc 8 n)) (Z.to_nat off) 8 /\
  le_dec (sub (put d off (le_enc 8 n)) (Z.to_nat off) 8) = n.
Proof.
  intros H0 H1 H2 H3. assert (Hz : zlen (le_enc 8 n) = 8) by apply le_enc_zlen. unfold zlen in H1.
  assert (Hz2 : length (le_enc 8 n) = 8%nat) by apply le_enc_length. split.
  - rewrite <- Hz2 at 2. apply put_same_except; unfold zlen in *; lia.
  - rewrite sub_fld, Z2Nat.id by assumption. change (Z.of_nat 8) with 8. rewrite <- Hz.
    rewrite fld_put_same by (unfold zlen in *; lia). now apply le_dec_enc8.
Qed.

(** C10 *)
Lemma burn_effect e infos w w' : lam_ok w -> process e infos w IBurn = Ok w' ->
  exists asset signer dest,
    arg infos 0 asset /\ arg infos 1 signer /\
    ((arg infos 2 (e_prog e) /\ dest = signer) \/ (arg infos 2 dest /\ dest <> e_prog e)) /\
    dest <> asset /\
    w' asset = mkAcct 0 pk_zero [] /\
    lamports (w' dest) = lamports (w dest) + lamports (w asset) /\
    (forall k, k <> asset -> k <> dest -> lamports (w' k) = lamports (w k)) /\
    (forall k, k <> asset -> acct_owner (w' k) = acct_owner (w k)) /\
    (forall k, k <> asset -> pk_bytes k <> s_group (data (w asset)) \/ s_group (data (w asset)) = no_key ->
       data (w' k) = data (w k)) /\
    (s_group (data (w asset)) <> no_key ->
       exists group off b, arg infos 3 group /\ group <> asset /\ pk_bytes group = s_group (data (w asset)) /\
         has_ext (data (w group)) XGrouping off b /\
         same_except (data (w group)) (data (w' group)) (Z.to_nat off) 8 /\
         1 <= gr_size b /\
         le_dec (sub (data (w' group)) (Z.to_nat off) 8) = gr_size b - 1).
Proof.
  intros Hl H. apply process_dispatch in H. cbn [dispatch] in H.
  apply burn_inv in H as (asset & signer & rec & grp & w1 & A0 & A1 & A2 & A3 & Ho & Hsg & Hi & Hact & Hg & _ & Hc).
  apply acct_arg in A0, A1. set (dest := match rec with Some r => r | None => signer end) in *.
  exists asset, signer, dest. split; [assumption|]. split; [assumption|].
  assert (HW : (forall k, lamports (w1 k) = lamports (w k)) /\ (forall k, acct_owner (w1 k) = acct_owner (w k)) /\
    (forall k, pk_bytes k <> s_group (data (w asset)) \/ s_group (data (w asset)) = no_key -> data (w1 k) = data (w k))).
  { destruct Hg as [[_ ->]|(ga & off & b & gr & Hn & -> & Hne & Hge & Hgr & H1 & Hset)]; [auto|].
    apply nullable_some in Hn as [Hn Hnn]. change (f_group (data (w asset))) with (s_group (data (w asset))) in *.
    split; [|split].
    - intro. eapply set_data_lam; eauto.
    - intro. eapply set_data_owner; eauto.
    - intros k Hk. rewrite (set_data_other _ _ _ _ _ _ k Hset); [reflexivity|]. intros ->. destruct Hk as [Hk|Hk]; congruence. }
  destruct HW as (W1 & W2 & W3).
  assert (Hla : 0 <= lamports (w1 asset)) by (rewrite W1; apply Hl).
  pose proof (close_account_spec _ _ _ _ _ _ Hla Hc) as (C1 & C2 & C3 & C4).
  assert (Hsame : forall k, k <> asset -> data (w' k) = data (w1 k) /\ acct_owner (w' k) = acct_owner (w1 k)).
  { intros k Hk. destruct (pk_dec k dest) as [->|Hk2]; [rewrite C3; auto|rewrite C4 by assumption; auto]. }
  split. { subst dest. destruct rec as [r|].
           - right. apply opt_acct_some in A2. exact A2.
           - left. apply opt_acct_none in A2. auto. }
  split; [congruence|]. split; [assumption|]. split. { rewrite C3. cbn. now rewrite !W1. }
  split. { intros k K1 K2. rewrite C4 by assumption. apply W1. }
  split. { intros k K1. rewrite (proj2 (Hsame k K1)). apply W2. }
  split. { intros k K1 K2. rewrite (proj1 (Hsame k K1)). now apply W3. }
  intro Hng. destruct Hg as [[Hn _]|(ga & off & b & gr & Hn & -> & Hne & Hge & Hgr & H1 & Hset)].
  - apply nullable_none in Hn. contradiction.
  - apply nullable_some in Hn as [Hn Hnn]. change (f_group (data (w asset))) with (s_group (data (w asset))) in *.
    apply opt_acct_some in A3 as [A3 _]. exists ga, off, b.
    apply asset_get_some in Hge. pose proof (has_ext_range _ _ _ _ Hge) as [R1 R2].
    apply grouping_ok in Hgr as (G1 & -> & _). cbn [g_size] in *. pose proof (gr_size_range b).
    repeat (split; [assumption || congruence|]). rewrite (proj1 (Hsame ga Hne)).
    rewrite (set_data_data _ _ _ _ _ _ Hset).
    destruct (put_size (data (w ga)) off b (gr_size b - 1)) as [P1 P2]; try lia.
    split; [assumption|]. split; [assumption|]. exact P2.
Qed.

(** C11 *)
Lemma nonempty_group_kept e infos w w' asset off b : arg infos 0 asset ->
  has_ext (data (w asset)) XGrouping off b -> 0 < gr_size b ->
  process e infos w IBurn <> Ok w' /\ process e infos w (IRemove XGrouping) <> Ok w'.
Proof.
  intros A0 Hb Hn. split; intro H; apply process_dispatch in H; cbn [dispatch] in H.
  - apply burn_inv in H as (a & signer & rec & grp & w1 & B0 & _ & _ & _ & _ & _ & _ & _ & _ & Hg & _).
    apply acct_arg in B0. rewrite (arg_det _ _ _ _ B0 A0) in *.
    destruct Hg as [Hg|(off' & b' & gr & Hg & Hgr & Hz)].
    + exact (asset_get_none _ _ Hg _ _ Hb).
    + apply asset_get_some in Hg. destruct (has_ext_det _ _ _ _ _ _ Hb Hg) as [_ <-].
      apply grouping_ok in Hgr as (_ & -> & _). cbn [g_size] in Hz. lia.
  - unfold process_remove in H. rinv H. apply acct_arg in Hx. rewrite (arg_det _ _ _ _ Hx A0) in *.
    unfold check_authority in H. rinv H. destruct x3 as [[o bnd]|]; [|discriminate]. rinv H. rinv Hx4.
    match goal with HH : match ?o with _ => _ end = Ok _, HG : asset_get _ _ = Ok ?o |- _ =>
      destruct o as [[o2 b2]|]; [|discriminate]; rinv HH; apply asset_get_some in HG;
      destruct (has_ext_det _ _ _ _ _ _ Hb HG) as [_ <-] end.
    match goal with HG : grouping_from_bytes _ _ = Ok _ |- _ => apply grouping_ok in HG as (_ & -> & _) end.
    cbn [g_size] in *. lia.
Qed.

(** ** Handover: C12, one step *)
Lemma handover_effect e infos w w' : process e infos w IHandover = Ok w' ->
  exists asset auth new, arg infos 0 asset /\ arg infos 1 auth /\ arg infos 2 new /\
    signed infos auth /\ signed infos new /\ initialized (data (w asset)) /\ mutable (data (w asset)) /\
    s_authority (data (w asset)) = pk_bytes auth /\
    only_data w w' asset /\ same_except (data (w asset)) (data (w' asset)) 68 32 /\
    s_authority (data (w' asset)) = pk_bytes new.
Proof.
  intro H. apply process_dispatch in H. cbn [dispatch] in H. unfold process_handover in H. rinv H.
  unfold check_authority in H. rinv H.
  exists x, x0, x1. apply acct_arg in Hx, Hx0, Hx1. apply signed_acct in Hc, Hc0.
  apply is_asset_spec in Hc2. apply key_is_spec in Hc3. apply set_data_only in H as [H1 H2].
  pose proof (initialized_len _ Hc2). repeat (split; [assumption|]). split.
  { unfold mutable, pod_true in *. change (byte_at (data (w x)) 3) with (s_mutable (data (w x))) in Hc4. bnorm. exact Hc4. }
  split; [assumption|]. split; [assumption|]. rewrite H2. split.
  - pose proof (put_same_except (data (w x)) 68 (pk_bytes x1)) as L. rewrite pk_length, pk_zlen in L. apply L; lia.
  - unfold s_authority. pose proof (sub_put_same (data (w x)) ltac:(lia) 68 (pk_bytes x1)) as L.
    rewrite pk_length, pk_zlen in L. apply L; lia.
Qed.

(** ** C15 *)
Lemma no_reinit e infos w w' i asset : arg infos 0 asset -> initialized (data (w asset)) ->
  match i with ICreate _ | IAllocate _ | IWrite _ | IClose => True | _ => False end ->
  process e infos w i <> Ok w'.
Proof.
  intros A0 Hi Hc H. apply process_dispatch in H. pose proof (initialized_len _ Hi) as Hlen.
  destruct Hi as [_ Hdisc]. unfold s_disc in Hdisc.
  assert (Hz : zlen (data (w asset)) =? 0 = false) by lia.
  assert (Hb : beqb (byte_at (data (w asset)) 0) DISC_UNINIT = false).
  { apply beqb_neq. change (byte_at (data (w asset)) 0) with (nth 0 (data (w asset)) x00). rewrite Hdisc. discriminate. }
  apply acct_arg in A0. change (passed infos) with (firstn MAX_ACCOUNTS infos) in A0. destruct i; try contradiction; cbn [dispatch] in H.
  - unfold process_close in H. rewrite A0 in H. cbn [bind] in H. rinv H. rewrite Hz, Hb in *. discriminate.
  - unfold process_create in H. rewrite A0 in H. cbn [bind] in H. rewrite Hz in H. rinv H.
    rinv Hx5. congruence.
  - unfold process_allocate, do_allocate in H. rewrite A0 in H. cbn [bind] in H. rewrite Hz in H. rinv H.
    rinv Hx1. congruence.
  - unfold process_write in H. rewrite A0 in H. cbn [bind] in H. rinv H. congruence.
Qed.

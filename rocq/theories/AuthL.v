(** Transfer, lock state, delegation, burn, close, handover: who and what. *)
From Verif Require Import Base State Layout Constr Ext World Proc BaseL Spec WorldL ProcSteps LayoutL HeadL.
From Coq Require Import Strings.Byte.

Lemma sized_len w k : sized w -> 0 <= zlen (data (w k)) < two64.
Proof. intro H. specialize (H k). pose proof (zlen_nonneg (data (w k))). unfold two64. lia. Qed.
Lemma initialized_len d : initialized d -> 168 <= zlen d.
Proof. intros [H _]. unfold zlen. lia. Qed.
Lemma set_data_only e infos w k d w' : set_data e infos w k d = Ok w' -> only_data w w' k /\ data (w' k) = d.
Proof.
  intro H. split; [|eapply set_data_data; eauto]. repeat split.
  - intros. eapply set_data_other; eauto.
  - eapply set_data_lam; eauto.
  - eapply set_data_owner; eauto.
Qed.
Lemma signed_acct infos k : is_signer (firstn MAX_ACCOUNTS infos) k = true <-> signed infos k.
Proof. apply is_signer_spec. Qed.
Lemma writable_acct infos k : is_writable (firstn MAX_ACCOUNTS infos) k = true <-> writable infos k.
Proof. apply is_writable_spec. Qed.
Lemma sized_wf_two64 w k : sized w -> initialized (data (w k)) -> 168 <= zlen (data (w k)) < two64.
Proof. intros H1 H2. pose proof (sized_len w k H1). pose proof (initialized_len _ H2). lia. Qed.

(** authority check shared by transfer and burn *)
Definition act_check (d : bytes) (k : pubkey) (r : role) : res bool :=
  if key_is (f_owner d) k then Ok true
  else m <- manager_delegate d ;;
       Ok (is_ok (assert_delegate [asset_delegate d; m] (pk_bytes k) r)).
Lemma act_check_sound d k r : 168 <= zlen d < two64 -> act_check d k r = Ok true -> may_act d k r.
Proof.
  intros Hd H. unfold act_check in H. unfold may_act.
  destruct (key_is (f_owner d) k) eqn:E; [left; now apply key_is_spec|].
  rinv H. apply assert_two in H. destruct x as [dl|].
  - apply manager_some in Hx as (off & b & Hb & Hl & ->); [|assumption]. right; left.
    exists off, b. split; [assumption|]. split; assumption.
  - right; right. destruct (asset_delegate d) as [dl|] eqn:Ed; [|contradiction].
    apply asset_delegate_some in Ed as [E1 ->]. split; assumption.
Qed.
Lemma act_check_wf d l k r : well_formed d l -> act_check d k r = Ok true -> authorized d l k r.
Proof.
  intros Hwf H. unfold act_check in H. unfold authorized.
  destruct (key_is (f_owner d) k) eqn:E; [left; now apply key_is_spec|].
  right. rewrite (manager_layout _ _ Hwf) in H. destruct (lookup XManager (ext_list l)) as [b|].
  - unfold load_delegate in H. rinv H. rinv Hx. rinv Hx0. apply assert_two in H.
    split; [unfold zlen in *; lia|exact H].
  - rinv H. rinv Hx. apply assert_two in H. destruct (asset_delegate d) as [dl|] eqn:Ed; [|contradiction].
    apply asset_delegate_some in Ed as [E1 ->]. split; assumption.
Qed.
(** and it never rejects an authorized key of a well-formed asset whose manager
    payload is long enough *)
Lemma act_check_complete d l k r : well_formed d l ->
  (forall b, lookup XManager (ext_list l) = Some b -> (33 <= length b)%nat) ->
  authorized d l k r -> act_check d k r = Ok true.
Proof.
  intros Hwf Hm H. unfold act_check. destruct (key_is (f_owner d) k) eqn:E; [reflexivity|].
  destruct H as [H|H]; [apply key_is_false in E; contradiction|].
  rewrite (manager_layout _ _ Hwf). destruct (lookup XManager (ext_list l)) as [b|].
  - specialize (Hm b eq_refl). unfold load_delegate, guard.
    replace (33 <=? zlen b) with true by (unfold zlen; lia). cbn [bind]. f_equal.
    apply assert_two. cbn [del_addr del_roles]. exact (proj2 H).
  - cbn [bind]. f_equal. apply assert_two. destruct H as [H1 H2].
    destruct (asset_delegate d) as [dl|] eqn:Ed.
    + apply asset_delegate_some in Ed as [_ ->]. exact H2.
    + apply asset_delegate_none in Ed. contradiction.
Qed.

(** ** Transfer *)
Lemma transfer_inv e infos w w' : process_transfer e infos w = Ok w' ->
  exists asset signer recipient group checked,
    acct infos 0 = Ok asset /\ acct infos 1 = Ok signer /\ acct infos 2 = Ok recipient /\
    opt_acct e infos 3 = Ok group /\
    acct_owner (w asset) = e_prog e /\ is_signer infos signer = true /\
    initialized (data (w asset)) /\ s_standard (data (w asset)) <> x02 /\
    process_royalties e w asset signer recipient (data (w asset)) = Ok checked /\
    act_check (data (w asset)) signer RTransfer = Ok true /\
    ((s_owner (data (w asset)) = pk_bytes recipient /\ w' = w) \/
     (s_owner (data (w asset)) <> pk_bytes recipient /\
      (forall g, nullable (f_group (data (w asset))) = Some g -> checked = false ->
         exists ga x, group = Some ga /\ acct_owner (w ga) = e_prog e /\ pk_bytes ga = g /\ ga <> asset /\
           1 <= zlen (data (w ga)) /\ byte_at (data (w ga)) 0 = x01 /\
           process_royalties e w asset signer recipient (data (w ga)) = Ok x) /\
      set_data e infos w asset (clear_delegate (put (data (w asset)) 4 (pk_bytes recipient))) = Ok w')).
Proof.
  intro H. unfold process_transfer in H. rinv H.
  change (if key_is (f_owner (data (w x))) x0 then _ else _) with (act_check (data (w x)) x0 RTransfer) in Hx4.
  exists x, x0, x1, x2, x3. unfold owned_by_prog in *.
  apply is_asset_spec in Hc1. bnorm. subst.
  repeat (split; [assumption|]).
  destruct (key_is (f_owner (data (w x))) x1) eqn:E; rinv H.
  - left. apply key_is_spec in E. auto.
  - right. split; [now apply key_is_false|]. split; [|assumption].
    intros g Hg ->. rewrite Hg in Hx5. rinv Hx5. bnorm.
    exists x3, x5. apply key_is_spec in Hc4.
    apply ok_or_ok in Hx6. split; [assumption|]. split; [assumption|]. split; [congruence|]. split; [assumption|].
    split; [lia|]. split; assumption.
Qed.

Lemma clear_len d : 168 <= zlen d -> zlen (clear_delegate d) = zlen d.
Proof. intro. unfold clear_delegate. apply zlen_put; [lia|]. change (zlen (zeros 33)) with 33. lia. Qed.

(** C01 *)
Lemma transfer_authorized e infos w w' k : sized w ->
  process e infos w ITransfer = Ok w' -> s_owner (data (w' k)) <> s_owner (data (w k)) ->
  exists signer, arg infos 0 k /\ arg infos 1 signer /\ signed infos signer /\
    may_act (data (w k)) signer RTransfer /\
    (forall l, well_formed (data (w k)) l -> authorized (data (w k)) l signer RTransfer).
Proof.
  intros Hs H Hne. apply process_dispatch in H. cbn [dispatch] in H.
  apply transfer_inv in H as (asset & signer & rec & grp & ck & A0 & A1 & A2 & A3 & Ho & Hsg & Hi & _ & _ & Hact & Hcase).
  apply acct_arg in A0, A1. apply signed_acct in Hsg.
  destruct Hcase as [[_ ->]|(_ & _ & Hset)]; [contradiction|].
  destruct (pk_dec k asset) as [->|Hk].
  - exists signer. repeat (split; [assumption|]). split.
    + eapply act_check_sound; eauto. now apply sized_wf_two64.
    + intros l Hwf. now apply act_check_wf.
  - exfalso. apply Hne. now rewrite (set_data_other _ _ _ _ _ _ _ Hset Hk).
Qed.

(** C02 *)
Lemma put_owner_delegate d k : 168 <= zlen d ->
  let d' := clear_delegate (put d 4 (pk_bytes k)) in
  length d' = length d /\ s_owner d' = pk_bytes k /\ sub d' 100 33 = repeat x00 33 /\
  (forall i, (i < 4 \/ 36 <= i < 100 \/ 133 <= i)%nat -> nth i d' x00 = nth i d x00).
Proof.
  intros Hd d'. subst d'.
  assert (Hd1 : zlen (put d 4 (pk_bytes k)) = zlen d) by (apply zlen_put; [lia|rewrite pk_zlen; lia]).
  repeat split.
  - pose proof (clear_len (put d 4 (pk_bytes k)) ltac:(lia)). unfold zlen in *. lia.
  - unfold s_owner, clear_delegate. rewrite sub_put_other; try lia.
    + pose proof (sub_put_same d Hd 4 (pk_bytes k)) as L. rewrite pk_length, pk_zlen in L. apply L; lia.
    + change (zlen (zeros 33)) with 33. lia.
  - unfold clear_delegate. pose proof (sub_put_same (put d 4 (pk_bytes k)) ltac:(lia) 100 (zeros 33)) as L.
    apply L; [lia|]. change (zlen (zeros 33)) with 33. lia.
  - intros i Hi. unfold clear_delegate. change 33 with (zlen (zeros 33)) in *.
    rewrite nth_put_other; try (change (zlen (zeros (zlen (zeros 33)))) with 33; lia).
    apply nth_put_other; rewrite ?pk_zlen; lia.
Qed.
Lemma transfer_effect e infos w w' : process e infos w ITransfer = Ok w' ->
  exists asset recipient, arg infos 0 asset /\ arg infos 2 recipient /\
    ((s_owner (data (w asset)) = pk_bytes recipient /\ forall k, w' k = w k) \/
     (s_owner (data (w asset)) <> pk_bytes recipient /\
      only_data w w' asset /\
      length (data (w' asset)) = length (data (w asset)) /\
      s_owner (data (w' asset)) = pk_bytes recipient /\
      sub (data (w' asset)) 100 33 = repeat x00 33 /\
      (forall i, (i < 4 \/ 36 <= i < 100 \/ 133 <= i)%nat ->
         nth i (data (w' asset)) x00 = nth i (data (w asset)) x00))).
Proof.
  intros H. apply process_dispatch in H. cbn [dispatch] in H.
  apply transfer_inv in H as (asset & signer & rec & grp & ck & A0 & A1 & A2 & A3 & Ho & Hsg & Hi & _ & _ & Hact & Hcase).
  apply acct_arg in A0, A2. exists asset, rec. split; [assumption|]. split; [assumption|].
  destruct Hcase as [[H ->]|(H & _ & Hset)]; [left; auto|right].
  apply set_data_only in Hset as [Hon Hd]. split; [assumption|]. split; [assumption|].
  rewrite Hd. apply put_owner_delegate. now apply initialized_len.
Qed.

(** C03 *)
Lemma soulbound_stays e infos w w' asset : arg infos 0 asset ->
  s_standard (data (w asset)) = x02 -> process e infos w ITransfer = Ok w' -> False.
Proof.
  intros A0 Hs H. apply process_dispatch in H. cbn [dispatch] in H.
  apply transfer_inv in H as (a & signer & rec & grp & ck & B0 & A1 & A2 & A3 & Ho & Hsg & Hi & Hns & _).
  apply acct_arg in B0. rewrite (arg_det _ _ _ _ A0 B0) in Hs. contradiction.
Qed.

(** ** Locked assets *)
Lemma find_locked_some e w l a : In a l -> acct_owner (w (ai_key a)) = e_prog e ->
  locked (data (w (ai_key a))) -> forall r, find_locked e w l = Ok r -> r <> None.
Proof.
  intros Hin Ho [Hd Hs]. induction l as [|x l IH]; [contradiction|]. intros r H.
  cbn [find_locked] in H. destruct Hin as [->|Hin].
  - rewrite Ho, pk_eqb_refl in H.
    assert (Hz : zlen (data (w (ai_key a))) =? 0 = false).
    { unfold s_disc in Hd. destruct (data (w (ai_key a))); [discriminate|]. unfold zlen; cbn [length]. lia. }
    rewrite Hz in H. cbn [negb andb] in H.
    change (byte_at (data (w (ai_key a))) 0) with (s_disc (data (w (ai_key a)))) in H.
    change (byte_at (data (w (ai_key a))) 1) with (s_state (data (w (ai_key a)))) in H.
    rewrite Hd, Hs in H. cbn in H. rinv H. discriminate.
  - specialize (IH Hin).
    destruct (_ && _) in H; [|eauto]. destruct (beqb (byte_at (data (w (ai_key x))) 0) DISC_ASSET) in H; [|eauto].
    rinv H. destruct (beqb _ _) in H; [inv H; discriminate|eauto].
Qed.
Lemma locked_blocks e infos w i a : In a (passed infos) ->
  acct_owner (w (ai_key a)) = e_prog e -> locked (data (w (ai_key a))) ->
  match i with IApprove _ | IBurn | ILock | IRevoke _ | ITransfer => True | _ => False end ->
  forall w', process e infos w i <> Ok w'.
Proof.
  intros Hin Ho Hl Hi w' H. unfold process in H. rinv H.
  unfold validate_access in Hx. rinv Hx.
  pose proof (find_locked_some e w _ a Hin Ho Hl _ Hx) as Hn.
  destruct x; [|contradiction].
  destruct i; cbn in H; try contradiction; discriminate.
Qed.

(** C43 *)
Lemma proxied_signer e infos w i asset w' : arg infos 0 asset ->
  acct_owner (w asset) = e_prog e -> s_standard (data (w asset)) = x03 ->
  process e infos w i = Ok w' -> signed infos asset.
Proof.
  intros A0 Ho Hs H. unfold process in H. rinv H. unfold validate_access in Hx. rinv Hx.
  destruct A0 as (a & Ha & <-). unfold passed in Ha. change 7%nat with MAX_ACCOUNTS in Ha.
  destruct (firstn MAX_ACCOUNTS infos) as [|a0 r] eqn:E; [discriminate|]. inv Ha.
  rewrite Ho, pk_eqb_refl in Hx0.
  assert (Hz : zlen (data (w (ai_key a))) =? 0 = false).
  { unfold s_standard in Hs. destruct (data (w (ai_key a))); [discriminate|]. unfold zlen; cbn [length]. lia. }
  rewrite Hz in Hx0. cbn [negb andb] in Hx0. rinv Hx0.
  change (byte_at (data (w (ai_key a))) 2) with (s_standard (data (w (ai_key a)))) in Hx0.
  rewrite Hs in Hx0. cbn [standard_code beqb] in Hx0.
  change (beqb x03 x03) with true in Hx0. cbv iota in Hx0. rinv Hx0.
  rewrite <- E in Hc0. now apply signed_acct in Hc0.
Qed.

(** ** Approve, Revoke *)
Lemma approve_inv e infos w a w' : process_approve e infos w a = Ok w' ->
  exists asset owner del,
    acct infos 0 = Ok asset /\ acct infos 1 = Ok owner /\ acct infos 2 = Ok del /\
    acct_owner (w asset) = e_prog e /\ is_signer infos owner = true /\
    initialized (data (w asset)) /\ s_owner (data (w asset)) = pk_bytes owner /\
    set_data e infos w asset
      (if bytes_eqb (s_delegate (data (w asset))) no_key then
         put (data (w asset)) 100 (pk_bytes del ++ [z2b (roles_of a)])
       else if bytes_eqb (s_delegate (data (w asset))) (pk_bytes del) then
         put (data (w asset)) 132 [z2b (Z.lor (b2z (s_roles (data (w asset)))) (roles_of a))]
       else put (data (w asset)) 100 (pk_bytes del ++ [z2b (roles_of a)])) = Ok w'.
Proof.
  intro H. unfold process_approve in H. rinv H. exists x, x0, x1.
  unfold owned_by_prog in *. bnorm. apply is_asset_spec in Hc0. apply key_is_spec in Hc1.
  repeat (split; [assumption|]).
  destruct (asset_delegate (data (w x))) as [dl|] eqn:E.
  - apply asset_delegate_some in E as [E ->]. apply bytes_eqb_neq in E. rewrite E. exact H.
  - apply asset_delegate_none in E. apply bytes_eqb_eq in E. rewrite E. exact H.
Qed.

(** bits of a role list *)
Definition roles_bits (l : list role) : Z := fold_left (fun all r => Z.lor all (role_mask r)) l 0.
Lemma roles_fold_acc l : forall acc, fold_left (fun all r => Z.lor all (role_mask r)) l acc = Z.lor acc (roles_bits l).
Proof.
  unfold roles_bits. induction l as [|r l IH]; intro acc; cbn [fold_left].
  - now rewrite Z.lor_0_r.
  - rewrite IH. rewrite (IH (Z.lor 0 (role_mask r))). rewrite Z.lor_0_l. now rewrite Z.lor_assoc.
Qed.
Lemma lor_lt8 a b : 0 <= a < 8 -> 0 <= b < 8 -> 0 <= Z.lor a b < 8.
Proof.
  intros Ha Hb.
  assert (E : forall z, 0 <= z < 8 -> z = 0 \/ z = 1 \/ z = 2 \/ z = 3 \/ z = 4 \/ z = 5 \/ z = 6 \/ z = 7) by (intros; lia).
  apply E in Ha, Hb.
  repeat (destruct Ha as [Ha|Ha]); repeat (destruct Hb as [Hb|Hb]); subst; cbn; lia.
Qed.
Lemma roles_bits_range l : 0 <= roles_bits l < 8.
Proof.
  induction l as [|r l IH]; [cbn; lia|]. unfold roles_bits. cbn [fold_left].
  rewrite roles_fold_acc. rewrite Z.lor_0_l. apply lor_lt8; [|exact IH]. destruct r; cbn; lia.
Qed.
Lemma roles_of_range a : 0 <= roles_of a < 8.
Proof. destruct a; [unfold roles_of, ALL_ROLES_MASK; lia|]. apply roles_bits_range. Qed.

Definition role_n (r : role) : option Z :=
  match r with RNone => None | RTransfer => Some 0 | RLock => Some 1 | RBurn => Some 2 end.
Lemma has_role_bit m r : has_role m r <-> match role_n r with Some n => Z.testbit (b2z m) n = true | None => False end.
Proof.
  unfold has_role, b2z. destruct r; cbn [role_bit role_n]; try tauto.
  - change 0%Z with (Z.of_N 0). rewrite Z.testbit_of_N. tauto.
  - change 1%Z with (Z.of_N 1). rewrite Z.testbit_of_N. tauto.
  - change 2%Z with (Z.of_N 2). rewrite Z.testbit_of_N. tauto.
Qed.
Lemma roles_of_bits a r : match role_n r with Some n => Z.testbit (roles_of a) n = true | None => False end <-> requested a r.
Proof.
  destruct a as [|l]; cbn [roles_of requested].
  - destruct r; cbn; intuition congruence.
  - change (fold_left _ l 0) with (roles_bits l).
    induction l as [|x l IH].
    + destruct r; cbn; intuition congruence.
    + unfold roles_bits. cbn [fold_left In]. rewrite roles_fold_acc, Z.lor_0_l.
      destruct r; cbn [role_n] in *.
      * intuition congruence.
      * rewrite Z.lor_spec, orb_true_iff. destruct x; cbn; intuition congruence.
      * rewrite Z.lor_spec, orb_true_iff. destruct x; cbn; intuition congruence.
      * rewrite Z.lor_spec, orb_true_iff. destruct x; cbn; intuition congruence.
Qed.
Lemma z2b_small_bits z n : 0 <= z < 256 -> Z.testbit (b2z (z2b z)) n = Z.testbit z n.
Proof. intro H. rewrite b2z_z2b, Z.mod_small by assumption. reflexivity. Qed.
Lemma lor_lt256 a b : 0 <= a < 256 -> 0 <= b < 8 -> 0 <= Z.lor a b < 256.
Proof.
  intros Ha Hb. split; [apply Z.lor_nonneg; lia|].
  destruct (Z.eq_dec (Z.lor a b) 0) as [->|Hn]; [lia|].
  change 256 with (2 ^ 8) in *. apply Z.log2_lt_pow2; [pose proof (Z.lor_nonneg a b); lia|].
  rewrite Z.log2_lor by lia. apply Z.max_lub_lt.
  - destruct (Z.eq_dec a 0) as [->|]; [cbn; lia|]. apply Z.log2_lt_pow2; lia.
  - destruct (Z.eq_dec b 0) as [->|]; [cbn; lia|]. apply Z.log2_lt_pow2; lia.
Qed.
Lemma granted_roles a r : has_role (z2b (roles_of a)) r <-> requested a r.
Proof.
  rewrite has_role_bit, <- roles_of_bits. destruct (role_n r); [|tauto].
  rewrite z2b_small_bits; [tauto|]. pose proof (roles_of_range a). lia.
Qed.
Lemma added_roles m a r : has_role (z2b (Z.lor (b2z m) (roles_of a))) r <-> has_role m r \/ requested a r.
Proof.
  rewrite !has_role_bit, <- roles_of_bits. destruct (role_n r); [|tauto].
  rewrite z2b_small_bits, Z.lor_spec, orb_true_iff; [tauto|].
  apply lor_lt256; [apply b2z_range|apply roles_of_range].
Qed.

(** C06 *)
Lemma approve_effect e infos w a w' : process e infos w (IApprove a) = Ok w' ->
  exists asset owner del, arg infos 0 asset /\ arg infos 1 owner /\ arg infos 2 del /\
    signed infos owner /\ initialized (data (w asset)) /\
    s_owner (data (w asset)) = pk_bytes owner /\
    only_data w w' asset /\ same_except (data (w asset)) (data (w' asset)) 100 33 /\
    s_delegate (data (w' asset)) = pk_bytes del /\
    (forall r, has_role (s_roles (data (w' asset))) r <->
       requested a r \/
       (s_delegate (data (w asset)) <> no_key /\ s_delegate (data (w asset)) = pk_bytes del /\
        has_role (s_roles (data (w asset))) r)).
Proof.
  intros H. apply process_dispatch in H. cbn [dispatch] in H.
  apply approve_inv in H as (asset & owner & del & A0 & A1 & A2 & Ho & Hs & Hi & How & Hset).
  apply acct_arg in A0, A1, A2. apply signed_acct in Hs.
  exists asset, owner, del. repeat (split; [assumption|]).
  apply set_data_only in Hset as [Hon Hd]. split; [assumption|].
  pose proof (initialized_len _ Hi) as Hlen. set (d := data (w asset)) in *. rewrite Hd. clear Hd.
  assert (Hpz : forall x, zlen (pk_bytes del ++ [x]) = 33) by (intro; rewrite zlen_app, pk_zlen; reflexivity).
  assert (Hrep : forall x,
    same_except d (put d 100 (pk_bytes del ++ [x])) 100 33 /\
    s_delegate (put d 100 (pk_bytes del ++ [x])) = pk_bytes del /\
    s_roles (put d 100 (pk_bytes del ++ [x])) = x).
  { intro x. assert (Hle : length (pk_bytes del ++ [x]) = 33%nat) by (rewrite app_length, pk_length; reflexivity).
    split; [|split].
    - pose proof (put_same_except d 100 (pk_bytes del ++ [x]) ltac:(lia)) as L. rewrite Hle, Hpz in L. apply L. lia.
    - unfold s_delegate. rewrite sub_fld. rewrite put_as by (rewrite ?Hpz; lia).
      rewrite <- app_assoc. apply fld_mid; [len|now rewrite pk_zlen].
    - unfold s_roles. rewrite nth_put by (rewrite ?Hpz; lia). rewrite Hle. cbn [Z.to_nat Pos.to_nat].
      change (Nat.leb (Z.to_nat 100) 132 && Nat.ltb 132 (Z.to_nat 100 + 33)) with true. cbv iota.
      change (132 - Z.to_nat 100)%nat with 32%nat. rewrite app_nth2; rewrite pk_length; [reflexivity|lia]. }
  destruct (bytes_eqb (s_delegate d) no_key) eqn:E1; bnorm.
  - destruct (Hrep (z2b (roles_of a))) as (R1 & R2 & R3).
    repeat (split; [assumption|]). intro r. rewrite R3, granted_roles. intuition congruence.
  - destruct (bytes_eqb (s_delegate d) (pk_bytes del)) eqn:E2; bnorm.
    + split; [|split].
      * pose proof (put_same_except d 132 [z2b (Z.lor (b2z (s_roles d)) (roles_of a))] ltac:(lia) ltac:(change (zlen [_]) with 1; lia)) as [L1 L2].
        split; [assumption|]. intros i Hi'. apply L2. change (Z.to_nat 132) with 132%nat. cbn [length]. lia.
      * unfold s_delegate. rewrite sub_put_other; try assumption; try lia; change (zlen [_]) with 1; lia.
      * intro r. unfold s_roles at 1. rewrite nth_put by (change (zlen [_]) with 1; lia).
        change (Nat.leb (Z.to_nat 132) 132 && Nat.ltb 132 (Z.to_nat 132 + length [z2b (Z.lor (b2z (s_roles d)) (roles_of a))])) with true.
        cbv iota. change (132 - Z.to_nat 132)%nat with 0%nat. cbn [nth]. rewrite added_roles. tauto.
    + destruct (Hrep (z2b (roles_of a))) as (R1 & R2 & R3).
      repeat (split; [assumption|]). intro r. rewrite R3, granted_roles. intuition congruence.
Qed.

(** Revoke *)
Lemma revoke_inv e infos w a w' : process_revoke e infos w a = Ok w' ->
  exists asset signer,
    acct infos 0 = Ok asset /\ acct infos 1 = Ok signer /\
    acct_owner (w asset) = e_prog e /\ is_signer infos signer = true /\
    initialized (data (w asset)) /\
    (s_owner (data (w asset)) = pk_bytes signer \/
     (s_delegate (data (w asset)) <> no_key /\ s_delegate (data (w asset)) = pk_bytes signer)) /\
    set_data e infos w asset
      (match a with
       | DAll => clear_delegate (data (w asset))
       | DSome roles =>
           if bytes_eqb (s_delegate (data (w asset))) no_key then data (w asset)
           else let r' := fold_left disable_role roles (s_roles (data (w asset))) in
                if has_active_roles r' then put (data (w asset)) 132 [r'] else clear_delegate (data (w asset))
       end) = Ok w'.
Proof.
  intro H. unfold process_revoke in H. rinv H. exists x, x0.
  unfold owned_by_prog in *. bnorm. apply is_asset_spec in Hc1.
  repeat (split; [assumption|]). split.
  - apply orb_true_iff in Hc2 as [Hc2|Hc2]; [left; now apply key_is_spec|].
    destruct (asset_delegate (data (w x))) as [dl|] eqn:E; [|discriminate].
    apply asset_delegate_some in E as [E ->]. apply key_is_spec in Hc2. right. auto.
  - destruct a as [|roles]; [assumption|].
    destruct (asset_delegate (data (w x))) as [dl|] eqn:E.
    + apply asset_delegate_some in E as [E ->]. apply bytes_eqb_neq in E. rewrite E. exact H.
    + apply asset_delegate_none in E. apply bytes_eqb_eq in E. rewrite E. exact H.
Qed.
Lemma disable_role_spec m x r : has_role (disable_role m x) r <-> has_role m r /\ r <> x.
Proof.
  unfold has_role, disable_role. destruct x, r; cbn [role_bit role_mask]; destruct m; vm_compute; intuition congruence.
Qed.
Lemma disable_roles_spec l : forall m r, has_role (fold_left disable_role l m) r <-> has_role m r /\ ~ In r l.
Proof.
  induction l as [|x l IH]; intros m r; cbn [fold_left In]; [tauto|].
  rewrite IH, disable_role_spec. intuition congruence.
Qed.
(** a mask without any bit at all; masks above 7 cannot arise, but would keep
    unknown bits *)
Lemma has_active_false m : has_active_roles m = false -> forall r, ~ has_role m r.
Proof.
  unfold has_active_roles. intros H r. rewrite has_role_bit.
  pose proof (b2z_range m). assert (b2z m = 0) as -> by lia. destruct (role_n r); [rewrite Z.bits_0; discriminate|tauto].
Qed.
Lemma clear_delegate_spec d : 168 <= zlen d ->
  same_except d (clear_delegate d) 100 33 /\ s_delegate (clear_delegate d) = no_key /\
  s_roles (clear_delegate d) = x00.
Proof.
  intro Hlen. unfold clear_delegate. split; [|split].
  - apply (put_same_except d 100 (zeros 33)); [lia|]. change (zlen (zeros 33)) with 33. lia.
  - unfold s_delegate. rewrite sub_fld. rewrite put_as by (change (zlen (zeros 33)) with 33; lia).
    change (zeros 33) with (no_key ++ [x00]). rewrite <- app_assoc. apply fld_mid; [len|reflexivity].
  - unfold s_roles. rewrite nth_put by (change (zlen (zeros 33)) with 33; lia). reflexivity.
Qed.

Lemma has_role_x00 r : ~ has_role x00 r.
Proof. unfold has_role. destruct r; cbn; auto; discriminate. Qed.

(** C07 *)
Lemma revoke_effect e infos w a w' : process e infos w (IRevoke a) = Ok w' ->
  exists asset signer, arg infos 0 asset /\ arg infos 1 signer /\ signed infos signer /\
    initialized (data (w asset)) /\
    (s_owner (data (w asset)) = pk_bytes signer \/
     (s_delegate (data (w asset)) <> no_key /\ s_delegate (data (w asset)) = pk_bytes signer)) /\
    only_data w w' asset /\ same_except (data (w asset)) (data (w' asset)) 100 33 /\
    (s_delegate (data (w asset)) = no_key -> s_delegate (data (w' asset)) = no_key) /\
    (s_delegate (data (w asset)) <> no_key ->
      (s_delegate (data (w' asset)) = s_delegate (data (w asset)) \/
       s_delegate (data (w' asset)) = no_key /\ s_roles (data (w' asset)) = x00) /\
      (forall r, has_role (s_roles (data (w' asset))) r <->
         has_role (s_roles (data (w asset))) r /\ ~ requested a r) /\
      (s_roles (data (w' asset)) = x00 -> s_delegate (data (w' asset)) = no_key) /\
      (a = DAll -> s_delegate (data (w' asset)) = no_key)).
Proof.
  intros H. apply process_dispatch in H. cbn [dispatch] in H.
  apply revoke_inv in H as (asset & signer & A0 & A1 & Ho & Hs & Hi & Hauth & Hset).
  apply acct_arg in A0, A1. apply signed_acct in Hs.
  exists asset, signer. repeat (split; [assumption|]).
  apply set_data_only in Hset as [Hon Hd]. split; [assumption|].
  pose proof (initialized_len _ Hi) as Hlen. set (d := data (w asset)) in *. rewrite Hd. clear Hd.
  destruct (clear_delegate_spec d Hlen) as (C1 & C2 & C3).
  destruct a as [|roles].
  - split; [assumption|]. split; [auto|]. intro Hnk. split; [auto|]. split; [|auto].
    intro r. rewrite C3. cbn [requested]. split.
    + intro Hr. exfalso. now apply has_role_x00 in Hr.
    + intros [H1 H2]. exfalso. apply H2. intros ->. exact H1.
  - destruct (bytes_eqb (s_delegate d) no_key) eqn:E1; bnorm.
    + split; [apply same_except_refl|]. split; [auto|]. intro. contradiction.
    + set (r' := fold_left disable_role roles (s_roles d)). cbv zeta.
      assert (HR : forall r, has_role r' r <-> has_role (s_roles d) r /\ ~ requested (DSome roles) r).
      { intro r. unfold r'. rewrite disable_roles_spec. cbn [requested]. split; [tauto|].
        intros [H1 H2]. split; [assumption|]. intro Hin. apply H2. split; [assumption|]. intros ->. exact H1. }
      destruct (has_active_roles r') eqn:E2.
      * assert (Hz1 : zlen [r'] = 1) by reflexivity.
        assert (SR : s_roles (put d 132 [r']) = r') by (unfold s_roles; rewrite nth_put by lia; reflexivity).
        assert (SD : s_delegate (put d 132 [r']) = s_delegate d) by (unfold s_delegate; rewrite sub_put_other; auto; lia).
        split.
        { pose proof (put_same_except d 132 [r'] ltac:(lia) ltac:(lia)) as [L1 L2].
          split; [assumption|]. intros i Hi'. apply L2. change (Z.to_nat 132) with 132%nat. cbn [length]. lia. }
        rewrite SR, SD. split; [auto|]. intro Hnk. split; [auto|]. split; [exact HR|]. split; [|discriminate].
        intro Hz. rewrite Hz in E2. discriminate.
      * split; [assumption|]. split; [auto|]. intro Hnk. split; [auto|]. split; [|auto].
        intro r. rewrite C3. rewrite <- HR. split; intro Hr; exfalso; [now apply has_role_x00 in Hr|].
        exact (has_active_false _ E2 r Hr).
Qed.

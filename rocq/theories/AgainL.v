(** Lemmas: the same request once more (C84). *)
From Verif Require Import Base State Layout Constr Ext World Proc BaseL Spec SpecH SpecG SpecL SpecRent SpecTake WorldL ProcSteps FrameL HeadL AuthL AuthM UpdateL CreateL RentL CreatorsL StepH LayoutL LayoutE GroupL VerifyL RegO BuildL TakeL.
From Verif Require ResizeL RemoveL AllocC UpdateM CountL.
From Coq Require Import Strings.Byte.

(** ** Bytes written twice *)
Lemma put_twice d o bs : 0 <= o -> o + zlen bs <= zlen d -> put (put d o bs) o bs = put d o bs.
Proof. intros Ho Hl. apply put_put; [lia|reflexivity|assumption]. Qed.
Lemma put_noop d o bs : 0 <= o -> o + zlen bs <= zlen d -> fld d o (zlen bs) = bs -> put d o bs = d.
Proof. intros Ho Hl E. rewrite <- E at 1. apply put_same; [lia|apply zlen_nonneg|lia]. Qed.
Lemma put_byte d i b : 0 <= i < zlen d -> nth (Z.to_nat i) d x00 = b -> put d i [b] = d.
Proof.
  intros H E. apply put_noop; [lia|change (zlen [b]) with 1; lia|]. change (zlen [b]) with (Z.of_nat 1). rewrite <- (Z2Nat.id i) by lia. rewrite <- sub_fld, byte_sub by (unfold zlen in *; lia). now rewrite E.
Qed.
Lemma same_set e infos w k d w' : set_data e infos w k d = Ok w' -> d = data (w k) -> unchanged w w'.
Proof. intros H E x. destruct (set_data_ok _ _ _ _ _ _ H) as [[_ ->]|(Q & _)]; [reflexivity|contradiction]. Qed.
Lemma z2b_b2z_lor a r : z2b (Z.lor (b2z (z2b (Z.lor (b2z a) r))) r) = z2b (Z.lor (b2z a) r).
Proof.
  apply b2z_inj. rewrite !b2z_z2b. change 256 with (2 ^ 8). apply Z.bits_inj'. intros n Hn.
  destruct (Z.lt_ge_cases n 8); [|rewrite !Z.mod_pow2_bits_high by lia; reflexivity].
  rewrite !Z.mod_pow2_bits_low, !Z.lor_spec, Z.mod_pow2_bits_low, Z.lor_spec by lia. destruct (Z.testbit (b2z a) n), (Z.testbit r n); reflexivity.
Qed.
Lemma disable_land m r : b2z (disable_role m r) = Z.land (b2z m) (255 - role_mask r).
Proof.
  unfold disable_role. rewrite b2z_z2b. change 256 with (2 ^ 8). apply Z.bits_inj'. intros n Hn. pose proof (b2z_range m) as R.
  destruct (Z.lt_ge_cases n 8); [now rewrite Z.mod_pow2_bits_low by lia|]. rewrite Z.mod_pow2_bits_high, Z.land_spec by lia.
  replace (b2z m) with (b2z m mod 2 ^ 8) by (apply Z.mod_small; change (2 ^ 8) with 256; lia). now rewrite Z.mod_pow2_bits_high by lia.
Qed.
Lemma disables_land l : exists c, forall m, b2z (fold_left disable_role l m) = Z.land (b2z m) c.
Proof.
  induction l as [|r l [c IH]]; [exists (-1); intro m; cbn [fold_left]; now rewrite Z.land_m1_r|].
  exists (Z.land (255 - role_mask r) c). intro m. cbn [fold_left]. rewrite IH, disable_land, Z.land_assoc. reflexivity.
Qed.
Lemma disables_twice l m : fold_left disable_role l (fold_left disable_role l m) = fold_left disable_role l m.
Proof. destruct (disables_land l) as [c H]. apply b2z_inj. rewrite !H, <- Z.land_assoc, Z.land_diag. reflexivity. Qed.

(** ** Refused the second time *)
Lemma in_arg infos n k : arg infos n k -> exists a, In a (passed infos) /\ ai_key a = k.
Proof. intros (a & H & E). exists a. split; [eapply nth_error_In; exact H|exact E]. Qed.
Lemma lock_owner e infos w w' k : arg infos 0 k -> process e infos w ILock = Ok w' -> acct_owner (w k) = e_prog e /\ s_disc (data (w k)) = x01.
Proof.
  intros A H. apply process_dispatch in H. cbn [dispatch] in H. unfold process_lock, process_set_state in H.
  apply bind_ok in H as (a & A0 & H). apply bind_ok in H as (s & _ & H). apply acct_arg in A0. pose proof (arg_det _ _ _ _ A0 A). subst a.
  apply require_ok in H as [_ H]. apply require_ok in H as [O H]. cbv zeta in H. apply require_ok in H as [I _].
  unfold owned_by_prog in O. apply pk_eqb_eq in O. apply is_asset_spec in I as [_ I]. auto.
Qed.
Lemma lock_once e infos w w1 : process e infos w ILock = Ok w1 -> refused e infos w1 ILock.
Proof.
  intros H w2 H2. pose proof H as H0. apply lock_effect in H0 as (a & A & (O1 & _ & O3) & S & E). destruct (lock_owner _ _ _ _ _ A H) as [Ow D].
  destruct (in_arg _ _ _ A) as (x & X & K). refine (locked_blocks e infos w1 ILock x X _ _ I w2 H2); rewrite K; [congruence|].
  split; [|exact E]. unfold s_disc in *. rewrite (proj2 S) by lia. exact D.
Qed.
Lemma burn_once e infos w w1 : e_prog e <> pk_zero -> lam_ok w -> process e infos w IBurn = Ok w1 -> refused e infos w1 IBurn.
Proof.
  intros Hp Hl H w2 H2. apply burn_effect in H as (a & s & dest & A & _ & _ & _ & E & _); [|assumption].
  apply process_dispatch in H2. cbn [dispatch] in H2. unfold process_burn in H2. apply bind_ok in H2 as (a2 & A2 & H2). apply acct_arg in A2. pose proof (arg_det _ _ _ _ A2 A). subst a2.
  apply bind_ok in H2 as (? & _ & H2). apply bind_ok in H2 as (? & _ & H2). apply bind_ok in H2 as (? & _ & H2).
  apply require_ok in H2 as [O _]. unfold owned_by_prog in O. apply pk_eqb_eq in O. rewrite E in O. cbn [acct_owner] in O. congruence.
Qed.
Lemma close_once e infos w w1 : e_prog e <> pk_zero -> lam_ok w -> process e infos w IClose = Ok w1 -> refused e infos w1 IClose.
Proof.
  intros Hp Hl H w2 H2. apply close_effect in H as (a & r & A & _ & _ & _ & _ & _ & E & _); [|assumption].
  apply process_dispatch in H2. cbn [dispatch] in H2. unfold process_close in H2. apply bind_ok in H2 as (a2 & A2 & H2). apply acct_arg in A2. pose proof (arg_det _ _ _ _ A2 A). subst a2.
  apply bind_ok in H2 as (? & _ & H2). apply require_ok in H2 as [_ H2]. apply require_ok in H2 as [O _]. unfold owned_by_prog in O. apply pk_eqb_eq in O. rewrite E in O. cbn [acct_owner] in O. congruence.
Qed.
Lemma keep_sized w w1 a g o n m : sized w -> (forall k, k <> a -> k <> g -> w1 k = w k) -> same_except (data (w a)) (data (w1 a)) 36 32 -> same_except (data (w g)) (data (w1 g)) o n -> m = n -> sized w1.
Proof.
  intros Hs F S T _ x. unfold zlen. destruct (pk_dec x a) as [->|Na]; [rewrite (proj1 S); apply Hs|].
  destruct (pk_dec x g) as [->|Ng]; [rewrite (proj1 T); apply Hs|rewrite F by assumption; apply Hs].
Qed.
Lemma zero_key k : pk_bytes k = no_key -> k = pk_zero.
Proof. intro H. apply pk_ext. rewrite H. reflexivity. Qed.
Lemma group_once e infos w w1 : sized w -> ~ arg infos 1 pk_zero -> process e infos w IGroup = Ok w1 -> refused e infos w1 IGroup.
Proof.
  intros Hs N H w2 H2. apply group_effect in H as (a & g & s & off & b & A & G & _ & _ & _ & _ & _ & _ & _ & _ & _ & _ & _ & _ & F & _ & S & E & T & _); [|assumption].
  apply group_effect in H2 as (a2 & g2 & s2 & off2 & b2 & A2 & G2 & _ & _ & _ & _ & _ & _ & _ & K & _); [|eapply (keep_sized w w1 a g _ _ _ Hs F S T eq_refl)].
  pose proof (arg_det _ _ _ _ A2 A). subst a2. rewrite E in K. apply zero_key in K. subst g. contradiction.
Qed.
Lemma ungroup_once e infos w w1 : sized w -> ~ arg infos 1 pk_zero -> process e infos w IUngroup = Ok w1 -> refused e infos w1 IUngroup.
Proof.
  intros Hs N H w2 H2. apply ungroup_effect in H as (a & g & s & off & b & A & G & _ & _ & _ & _ & _ & _ & _ & _ & _ & _ & F & _ & S & E & T & _); [|assumption].
  apply ungroup_effect in H2 as (a2 & g2 & s2 & off2 & b2 & A2 & G2 & _ & _ & _ & _ & _ & _ & _ & K & _); [|eapply (keep_sized w w1 a g _ _ _ Hs F S T eq_refl)].
  pose proof (arg_det _ _ _ _ A2 A). subst a2. pose proof (arg_det _ _ _ _ G2 G). subst g2. rewrite E in K. symmetry in K. apply zero_key in K. subst g. contradiction.
Qed.
Lemma handover_once e infos w w1 : (forall old new, arg infos 1 old -> arg infos 2 new -> old <> new) -> process e infos w IHandover = Ok w1 -> refused e infos w1 IHandover.
Proof.
  intros N H w2 H2. apply handover_effect in H as (a & o & n & A & B & C & _ & _ & _ & _ & _ & _ & _ & E).
  apply handover_effect in H2 as (a2 & o2 & n2 & A2 & B2 & _ & _ & _ & _ & _ & K & _).
  pose proof (arg_det _ _ _ _ A2 A). subst a2. pose proof (arg_det _ _ _ _ B2 B). subst o2. rewrite E in K. apply (N _ _ B C). symmetry. apply pk_ext. exact K.
Qed.
Lemma nth0_put d o bs : 0 < o <= zlen d -> nth 0 (put d o bs) x00 = nth 0 d x00.
Proof.
  intros Ho. unfold put. unfold zlen in Ho. rewrite app_nth1 by (rewrite firstn_length; lia).
  rewrite <- (firstn_skipn (Z.to_nat o) d) at 2. rewrite app_nth1 by (rewrite firstn_length; lia). reflexivity.
Qed.
Lemma header_disc d m owner auth : 168 <= zlen d -> 168 <= zlen (init_header d m owner auth) /\ s_disc (init_header d m owner auth) = x01.
Proof.
  intro L. unfold init_header.
  assert (P : forall o bs x, 0 < o -> o + zlen bs <= 168 -> 168 <= zlen x /\ s_disc x = x01 -> 168 <= zlen (put x o bs) /\ s_disc (put x o bs) = x01).
  { intros o bs x Ho Hb [X1 X2]. rewrite zlen_put by lia. split; [assumption|]. unfold s_disc in *. rewrite nth0_put by (pose proof (zlen_nonneg bs); lia). exact X2. }
  pose proof (pk_zlen owner). pose proof (pk_zlen auth).
  repeat (apply P; [lia|first [change (zlen [_]) with 1; lia|lia|rewrite zlen_pod; lia]|]).
  rewrite zlen_put by (change (zlen [_]) with 1; lia). split; [assumption|]. unfold s_disc, put. reflexivity.
Qed.
Lemma create_once e infos w w1 m : process e infos w (ICreate m) = Ok w1 -> refused e infos w1 (ICreate m).
Proof.
  intros H w2 H2. apply process_dispatch in H. cbn [dispatch] in H. unfold process_create in H.
  apply bind_ok in H as (asset & A0 & H). apply bind_ok in H as (auth & A1 & H). apply bind_ok in H as (owner & A2 & H).
  apply bind_ok in H as (group & A3 & H). apply bind_ok in H as (gauth & A4 & H).
  apply bind_ok in H as (payer & A5 & H). apply bind_ok in H as (sysp & A6 & H). apply acct_arg in A0.
  apply require_ok in H as [_ H]. apply bind_ok in H as (v1 & _ & H). apply bind_ok in H as (v2 & _ & H).
  apply bind_ok in H as (r & H3 & H). cbv zeta in H. apply require_ok in H as [_ H].
  apply bind_ok in H as (p & _ & H). apply bind_ok in H as (px & _ & H). apply bind_ok in H as (u & _ & H).
  apply bind_ok in H as (v3 & H4 & H). apply guard_ok in H3 as [L H3]. apply len_loop in H3; [|unfold ASSET_LEN; lia].
  unfold ASSET_LEN in L. destruct (header_disc (fst r) m owner auth ltac:(lia)) as [Q1 Q2].
  apply set_data_data in H4. rewrite <- H4 in Q1, Q2.
  assert (Q : 168 <= zlen (data (w1 asset)) /\ s_disc (data (w1 asset)) = x01).
  { destruct group as [g|]; [|apply Ok_inj in H; subst; auto]. unfold do_group in H.
    apply require_ok in H as [_ H]. apply require_ok in H as [_ H]. apply require_ok in H as [_ H]. cbv zeta in H.
    apply require_ok in H as [_ H]. apply require_ok in H as [N H]. apply require_ok in H as [_ H].
    apply require_ok in H as [_ H]. apply require_ok in H as [_ H]. apply bind_ok in H as (rr & _ & H).
    destruct rr as [[off b]|]; [|discriminate H]. apply bind_ok in H as (gr & _ & H).
    apply require_ok in H as [_ H]. apply require_ok in H as [_ H]. apply bind_ok in H as (v4 & S1 & S2).
    bnorm. assert (V : w1 asset = v4 asset) by (eapply set_data_other; eauto). rewrite V. rewrite (set_data_data _ _ _ _ _ _ S1). pose proof (pk_zlen g).
    rewrite zlen_put by lia. split; [assumption|]. unfold s_disc in *. rewrite nth0_put by lia. exact Q2. }
  refine (no_reinit _ _ _ _ _ _ A0 _ _ H2); [split; [unfold zlen in Q; lia|apply Q]|exact I].
Qed.
Lemma refused_again e infos w w1 i : e_prog e <> pk_zero -> lam_ok w -> sized w -> once_only infos i -> process e infos w i = Ok w1 -> refused e infos w1 i.
Proof.
  intros Hp Hl Hs O H. destruct i; cbn [once_only] in O; try contradiction.
  all: first [now apply (close_once e infos w w1)|now apply (burn_once e infos w w1)|now apply (create_once e infos w w1)|now apply (handover_once e infos w w1)
             |now apply (lock_once e infos w w1)|now apply (group_once e infos w w1)|now apply (ungroup_once e infos w w1)].
Qed.

(** ** Without effect the second time *)
Lemma transfer_again e infos w w1 : process e infos w ITransfer = Ok w1 -> settled e infos w1 ITransfer.
Proof.
  intros H w2 H2. apply transfer_effect in H as (a & r & A & R & H). apply transfer_effect in H2 as (a2 & r2 & A2 & R2 & H2).
  pose proof (arg_det _ _ _ _ A2 A). subst a2. pose proof (arg_det _ _ _ _ R2 R). subst r2.
  destruct H2 as [[_ Q]|(N & _)]; [exact Q|]. exfalso. apply N. destruct H as [[K H]|(_ & _ & _ & K & _)]; [rewrite H|]; exact K.
Qed.
Lemma unlock_again e infos w w1 : process e infos w IUnlock = Ok w1 -> settled e infos w1 IUnlock.
Proof.
  intros H w2 H2. apply unlock_effect in H as (a & A & _ & S & E). apply unlock_effect in H2 as (a2 & A2 & (O1 & O2 & O3) & S2 & E2). pose proof (arg_det _ _ _ _ A2 A). subst a2.
  intro x. destruct (pk_dec x a) as [->|N]; [|now apply O1]. apply acct_eq; [assumption|assumption|].
  apply list_eq_nth; [apply S2|]. intros i Hi. destruct (Nat.eq_dec i 1) as [->|Ni]; [unfold s_state in *; congruence|apply S2; lia].
Qed.
Lemma handover_again e infos w w1 : process e infos w IHandover = Ok w1 -> settled e infos w1 IHandover.
Proof.
  intros H w2 H2. apply handover_effect in H as (a & o & n & A & B & C & _ & _ & _ & _ & _ & _ & S & E).
  apply handover_effect in H2 as (a2 & o2 & n2 & A2 & _ & C2 & _ & _ & I & _ & _ & (O1 & O2 & O3) & S2 & E2).
  pose proof (arg_det _ _ _ _ A2 A). subst a2. pose proof (arg_det _ _ _ _ C2 C). subst n2.
  intro x. destruct (pk_dec x a) as [->|N]; [|now apply O1]. apply acct_eq; [assumption|assumption|].
  eapply (back (data (w1 a)) (data (w1 a))); [apply same_except_refl|exact S2|unfold s_authority in *; congruence].
Qed.
Lemma verify_again (v : bool) e infos w w1 l : (forall k, arg infos 0 k -> well_formed (data (w k)) l) ->
  process e infos w (if v then IVerify else IUnverify) = Ok w1 -> settled e infos w1 (if v then IVerify else IUnverify).
Proof.
  intros HW H w2 H2. apply verify_effect in H as (a & c & off & b & b1 & A & D & _ & _ & HE & S1 & P1 & F1 & M1).
  apply verify_effect in H2 as (a2 & c2 & off2 & b1' & b2 & A2 & D2 & _ & _ & HE2 & S2 & P2 & F2 & M2).
  pose proof (arg_det _ _ _ _ A2 A); subst a2. pose proof (arg_det _ _ _ _ D2 D); subst c2.
  pose proof (has_ext_after _ _ XCreators _ _ b1 (HW _ A) ltac:(discriminate) HE (proj1 S1)) as HE1. rewrite <- P1 in HE1.
  destruct (has_ext_det _ _ _ _ _ _ HE2 HE1) as [-> ->]. destruct (has_ext_range _ _ _ _ HE) as [R1 R2].
  assert (b2 = b1).
  { apply (flags_det v (pk_bytes c) b1); [exact S2|]. destruct S1 as (L1 & N1 & E1 & G1). assert (C : cr_count b1 = cr_count b) by (unfold cr_count; now rewrite L1).
    split; [reflexivity|]. split; [congruence|]. split.
    - destruct E1 as (i & Hi & Ei). exists i. rewrite C. split; [assumption|]. rewrite <- Ei. apply (G1 i Hi).
    - intros i Hi. rewrite C in Hi. destruct (G1 i Hi) as (Q1 & Q2 & Q3 & Q4). rewrite Q1. repeat split; auto. }
  subst b2. intro x. destruct (pk_dec x a) as [->|N]; [|now apply F2]. apply acct_eq; [apply M2|apply M2|].
  rewrite P2, P1. apply put_twice; [lia|]. unfold zlen in *. rewrite (proj1 S1). lia.
Qed.
Lemma plain_again e infos w w1 u : u_ext u = None -> arg infos 2 (e_prog e) -> process e infos w (IUpdate u) = Ok w1 -> settled e infos w1 (IUpdate u).
Proof.
  intros U B H w2 H2.
  assert (K : forall v v', process e infos v (IUpdate u) = Ok v' -> exists a, arg infos 0 a /\ 168 <= zlen (data (v a)) /\
     set_data e (firstn MAX_ACCOUNTS infos) v a (let d1 := match u_name u with Some n => put (data (v a)) 133 (pod_str35 n) | None => data (v a) end in
       match u_mutable u with Some b => put d1 3 [bool_byte b] | None => d1 end) = Ok v').
  { intros v v' Q. apply process_dispatch in Q. cbn [dispatch] in Q. unfold process_update, check_authority in Q.
    apply bind_ok in Q as (a & A & Q). apply bind_ok in Q as (s & _ & Q). apply bind_ok in Q as (bf & Bf & Q). apply (opt_no _ _ _ _ B) in Bf. subst bf.
    apply bind_ok in Q as (? & _ & Q). apply bind_ok in Q as (? & _ & Q). apply bind_ok in Q as (? & _ & Q).
    apply require_ok in Q as [_ Q]. apply require_ok in Q as [_ Q]. cbv zeta in Q. apply require_ok in Q as [I Q]. apply require_ok in Q as [_ Q]. apply require_ok in Q as [_ Q].
    apply bind_ok in Q as (v1 & S & Q). rewrite U in Q. apply Ok_inj in Q. subst v1. apply is_asset_spec in I as [I _]. apply acct_arg in A.
    exists a. split; [assumption|]. split; [unfold zlen; lia|exact S]. }
  apply K in H as (a & A & L & H). apply K in H2 as (a2 & A2 & L2 & H2). pose proof (arg_det _ _ _ _ A2 A). subst a2.
  eapply same_set; [exact H2|]. apply set_data_data in H. rewrite H. cbv zeta. clear K H H2 U.
  assert (Z1 : forall b : bool, zlen [bool_byte b] = 1) by reflexivity.
  destruct (u_name u) as [n|], (u_mutable u) as [b|]; [| | |reflexivity].
  - pose proof (zlen_pod n) as LP. pose proof (Z1 b) as LB. assert (LZ : zlen (put (data (w a)) 133 (pod_str35 n)) = zlen (data (w a))) by (apply zlen_put; lia).
    assert (LZ2 : zlen (put (put (data (w a)) 133 (pod_str35 n)) 3 [bool_byte b]) = zlen (data (w a))) by (rewrite zlen_put; lia).
    assert (E1 : put (put (put (data (w a)) 133 (pod_str35 n)) 3 [bool_byte b]) 133 (pod_str35 n) = put (put (data (w a)) 133 (pod_str35 n)) 3 [bool_byte b]).
    { apply put_noop; [lia|lia|]. rewrite fld_put_after by lia. apply fld_put_same; lia. }
    rewrite E1. apply put_twice; lia.
  - apply put_twice; rewrite ?zlen_pod; lia.
  - apply put_twice; rewrite ?Z1; lia.
Qed.
Lemma approve_again e infos w w1 x : process e infos w (IApprove x) = Ok w1 -> settled e infos w1 (IApprove x).
Proof.
  intros H w2 H2.
  assert (K : forall v v', process e infos v (IApprove x) = Ok v' -> exists a del, arg infos 0 a /\ arg infos 2 del /\ 168 <= zlen (data (v a)) /\
     set_data e (firstn MAX_ACCOUNTS infos) v a (match asset_delegate (data (v a)) with
          | Some dl => if key_is (del_addr dl) del then put (data (v a)) 132 [z2b (Z.lor (b2z (del_roles dl)) (roles_of x))] else put (data (v a)) 100 (pk_bytes del ++ [z2b (roles_of x)])
          | None => put (data (v a)) 100 (pk_bytes del ++ [z2b (roles_of x)]) end) = Ok v').
  { intros v v' Q. apply process_dispatch in Q. cbn [dispatch] in Q. unfold process_approve in Q.
    apply bind_ok in Q as (a & A & Q). apply bind_ok in Q as (s & _ & Q). apply bind_ok in Q as (del & D & Q).
    apply require_ok in Q as [_ Q]. cbv zeta in Q. apply require_ok in Q as [I Q]. apply require_ok in Q as [_ Q]. apply require_ok in Q as [_ Q].
    apply is_asset_spec in I as [I _]. apply acct_arg in A. apply acct_arg in D. exists a, del. split; [assumption|]. split; [assumption|]. split; [unfold zlen; lia|exact Q]. }
  apply K in H as (a & del & A & D & L & H). apply K in H2 as (a2 & del2 & A2 & D2 & L2 & H2). pose proof (arg_det _ _ _ _ A2 A). subst a2. pose proof (arg_det _ _ _ _ D2 D). subst del2. clear K.
  eapply same_set; [exact H2|]. apply set_data_data in H. clear H2. set (d := data (w a)) in *. set (d1 := data (w1 a)) in *. clearbody d d1. pose proof (pk_zlen del) as PZ.
  assert (N33 : forall r, zlen (pk_bytes del ++ [r]) = 33) by (intro r; rewrite zlen_app, PZ; reflexivity).
  assert (C1 : d1 = put d 100 (pk_bytes del ++ [z2b (roles_of x)]) \/
    exists dl, asset_delegate d = Some dl /\ del_addr dl = pk_bytes del /\ d1 = put d 132 [z2b (Z.lor (b2z (del_roles dl)) (roles_of x))]).
  { destruct (asset_delegate d) as [dl|] eqn:E; [|left; exact H]. destruct (key_is (del_addr dl) del) eqn:E2; [|left; exact H].
    right. exists dl. split; [reflexivity|]. split; [unfold key_is in E2; now apply bytes_eqb_eq in E2|exact H]. }
  clear H. destruct C1 as [->|(dl & E & Ea & ->)].
  - set (r := z2b (roles_of x)). assert (SD : s_delegate (put d 100 (pk_bytes del ++ [r])) = pk_bytes del).
    { unfold s_delegate. rewrite <- (firstn_all2 (n := 32) (pk_bytes del)) at 2 by (rewrite pk_length; lia).
      transitivity (firstn 32 (sub (put d 100 (pk_bytes del ++ [r])) 100 33)); [unfold sub; now rewrite firstn_firstn|].
      pose proof (sub_put_same d L 100 (pk_bytes del ++ [r]) ltac:(lia) ltac:(rewrite N33; lia)) as Q. rewrite app_length, pk_length in Q. cbn [length Nat.add] in Q.
      change (Z.to_nat 100) with 100%nat in Q. rewrite Q, firstn_app, pk_length. cbn [Nat.sub firstn]. now rewrite app_nil_r. }
    assert (SR : s_roles (put d 100 (pk_bytes del ++ [r])) = r).
    { unfold s_roles. rewrite nth_put by (rewrite ?N33; lia). rewrite app_length, pk_length. change (Z.to_nat 100) with 100%nat. cbn [length Nat.add Nat.leb Nat.ltb andb Nat.sub].
      rewrite app_nth2 by (rewrite pk_length; lia). rewrite pk_length. reflexivity. }
    destruct (asset_delegate (put d 100 (pk_bytes del ++ [r]))) as [dl|] eqn:E.
    + apply asset_delegate_some in E as [_ ->]. cbn [del_addr del_roles]. rewrite SD, SR. unfold key_is. rewrite (proj2 (bytes_eqb_eq _ _) eq_refl).
      apply put_byte; [unfold r; lia|]. change (Z.to_nat 132) with 132%nat. change (nth 132 (put d 100 (pk_bytes del ++ [r])) x00) with (s_roles (put d 100 (pk_bytes del ++ [r]))). rewrite SR.
      unfold r. symmetry. exact (z2b_b2z_lor x00 (roles_of x)).
    + apply put_twice; rewrite ?N33; lia.
  - set (r := z2b (Z.lor (b2z (del_roles dl)) (roles_of x))). apply asset_delegate_some in E as [E0 ->]. cbn [del_addr del_roles] in *.
    assert (SD : s_delegate (put d 132 [r]) = s_delegate d) by (apply sub_put_other; [assumption|lia|change (zlen [r]) with 1; lia|lia]).
    assert (SR : s_roles (put d 132 [r]) = r) by (apply (nth_put_one d 132); lia).
    assert (E : asset_delegate (put d 132 [r]) = Some (mkDelegate (pk_bytes del) r)) by (apply asset_delegate_some; rewrite SD, SR, <- Ea; auto).
    rewrite E. cbn [del_addr del_roles]. unfold key_is. rewrite (proj2 (bytes_eqb_eq _ _) eq_refl). apply put_byte; [unfold r; lia|].
    change (Z.to_nat 132) with 132%nat. change (nth 132 (put d 132 [r]) x00) with (s_roles (put d 132 [r])). rewrite SR. symmetry. apply z2b_b2z_lor.
Qed.
Lemma revoke_again e infos w w1 x : process e infos w (IRevoke x) = Ok w1 -> settled e infos w1 (IRevoke x).
Proof.
  intros H w2 H2.
  assert (K : forall v v', process e infos v (IRevoke x) = Ok v' -> exists a, arg infos 0 a /\ 168 <= zlen (data (v a)) /\
     set_data e (firstn MAX_ACCOUNTS infos) v a (match x with
           | DAll => clear_delegate (data (v a))
           | DSome roles =>
               match asset_delegate (data (v a)) with
               | None => data (v a)
               | Some dl =>
                   let r' := fold_left disable_role roles (del_roles dl) in
                   if has_active_roles r' then put (data (v a)) 132 [r'] else clear_delegate (data (v a))
               end
           end) = Ok v').
  { intros v v' Q. apply process_dispatch in Q. cbn [dispatch] in Q. unfold process_revoke in Q.
    apply bind_ok in Q as (a & A & Q). apply bind_ok in Q as (s & _ & Q).
    apply require_ok in Q as [_ Q]. apply require_ok in Q as [_ Q]. cbv zeta in Q. apply require_ok in Q as [I Q]. apply require_ok in Q as [_ Q].
    apply is_asset_spec in I as [I _]. apply acct_arg in A. exists a. split; [assumption|]. split; [unfold zlen; lia|exact Q]. }
  apply K in H as (a & A & L & H). apply K in H2 as (a2 & A2 & L2 & H2). pose proof (arg_det _ _ _ _ A2 A). subst a2. clear K.
  eapply same_set; [exact H2|]. apply set_data_data in H. clear H2. set (d := data (w a)) in *. set (d1 := data (w1 a)) in *. clearbody d d1.
  assert (CC : clear_delegate (clear_delegate d) = clear_delegate d) by (apply put_twice; [lia|change (zlen (zeros 33)) with 33; lia]).
  destruct x as [|roles]; [rewrite H; exact CC|]. cbv zeta in *. destruct (asset_delegate d) as [dl|] eqn:E; [|rewrite H, E; reflexivity].
  apply asset_delegate_some in E as [E0 ->]. cbn [del_roles] in H. destruct (has_active_roles _) eqn:HR.
  - set (r := fold_left disable_role roles (s_roles d)) in *. subst d1.
    assert (SD : s_delegate (put d 132 [r]) = s_delegate d) by (apply sub_put_other; [assumption|lia|change (zlen [r]) with 1; lia|lia]).
    assert (SR : s_roles (put d 132 [r]) = r) by (apply (nth_put_one d 132); lia).
    assert (E : asset_delegate (put d 132 [r]) = Some (mkDelegate (s_delegate d) r)) by (apply asset_delegate_some; rewrite SD, SR; auto).
    rewrite E. cbn [del_roles]. assert (R2 : fold_left disable_role roles r = r) by apply disables_twice. rewrite R2, HR. apply put_byte; [lia|exact SR].
  - subst d1. assert (E : asset_delegate (clear_delegate d) = None).
    { apply asset_delegate_none. unfold s_delegate, clear_delegate. transitivity (firstn 32 (sub (put d 100 (zeros 33)) 100 33)); [unfold sub; now rewrite firstn_firstn|].
      pose proof (sub_put_same d L 100 (zeros 33) ltac:(lia) ltac:(change (zlen (zeros 33)) with 33; lia)) as Q. change (length (zeros 33)) with 33%nat in Q. change (Z.to_nat 100) with 100%nat in Q.
      rewrite Q. reflexivity. }
    rewrite E. reflexivity.
Qed.
Lemma settled_again e infos w w1 i : (forall k, arg infos 0 k -> exists l, well_formed (data (w k)) l) -> assigns e infos i -> process e infos w i = Ok w1 -> settled e infos w1 i.
Proof.
  intros HW O H.
  assert (V : forall v : bool, i = (if v then IVerify else IUnverify) -> settled e infos w1 i).
  { intros v ->. pose proof H as H0. apply verify_effect in H0 as (a & _ & _ & _ & _ & A & _). destruct (HW _ A) as [l HL].
    apply (verify_again v e infos w w1 l); [|exact H]. intros k A2. now rewrite (arg_det _ _ _ _ A2 A). }
  destruct i; cbn [assigns] in O; try contradiction.
  all: first [now apply (transfer_again e infos w w1)|now apply (approve_again e infos w w1)|now apply (revoke_again e infos w w1)|now apply (unlock_again e infos w w1)
             |now apply (handover_again e infos w w1)|now apply (V true)|now apply (V false)|destruct O; now apply (plain_again e infos w w1)].
Qed.

(** ** Allocate, Remove, Resize *)
Lemma allocate_once e infos w w1 k t bs hd l n : arg infos 0 k -> open_account (data (w k)) hd l n -> sized w -> t <> XNone -> zlen bs <= u32_max ->
  process e infos w (IAllocate (mkExtInput t (zlen bs) (Some bs))) = Ok w1 ->
  forall x, x_type x = t -> refused e infos w1 (IAllocate x).
Proof.
  intros A HO Hs Ht Hb H x Hx w2 H2. destruct (AllocC.allocate_appends _ _ _ _ _ _ _ _ _ _ A HO Hs Ht Hb H) as (Q & _ & (hd' & tl' & HL) & _).
  apply process_dispatch in H2. cbn [dispatch] in H2. unfold process_allocate, do_allocate in H2.
  apply bind_ok in H2 as (a & A2 & H2). apply acct_arg in A2. pose proof (arg_det _ _ _ _ A2 A). subst a.
  apply bind_ok in H2 as (? & _ & H2). apply bind_ok in H2 as (? & _ & H2). apply require_ok in H2 as [_ H2]. cbv zeta in H2. apply bind_ok in H2 as (st & H2 & _).
  pose proof (layout_len _ _ _ _ HL). pose proof (sect_size_nonneg (l ++ [blk_of t bs])). pose proof (zlen_nonneg tl').
  destruct (zlen (data (w1 k)) =? 0) eqn:E; [lia|]. apply require_ok in H2 as [_ H2]. apply require_ok in H2 as [_ H2]. apply require_ok in H2 as [_ H2].
  apply bind_ok in H2 as (c & HC & H2). rewrite Hx, (layout_contains _ _ _ _ HL t Ht) in HC. apply Ok_inj in HC. subst c.
  apply require_ok in H2 as [C _]. destruct (lookup t (ext_list (l ++ [blk_of t bs]))) eqn:E2; [discriminate C|].
  rewrite UpdateM.ext_list_app in E2. pose proof (CountL.lookup_app_last t (ext_list l) bs Q) as E3. unfold lookup in E2. unfold lookup in E3. exact (eq_ind (Some bs) (fun o => match o with None => False | _ => True end) I None (eq_trans (eq_sym E3) E2)).
Qed.
Lemma remove_once e infos w w1 k t hd l b tl : arg infos 0 k -> layout (data (w k)) hd (l ++ [b]) tl -> bk_type b = t -> Forall (fun x => bk_type x <> t) l -> t <> XNone ->
  process e infos w (IRemove t) = Ok w1 -> refused e infos w1 (IRemove t).
Proof.
  intros A HL Hb HF Ht H w2 H2. pose proof (RemoveL.remove_last _ _ _ _ _ _ _ _ _ _ A HL Hb HF Ht H) as L1.
  destruct (RemoveL.remove_effect _ _ _ _ _ _ _ _ _ A L1 Ht H2) as (auth & l1 & b' & l2 & _ & _ & _ & _ & _ & _ & _ & -> & E & _).
  rewrite Forall_app in HF. destruct HF as [_ HF]. inversion HF. contradiction.
Qed.
Lemma trim_again e infos w w1 k hd l tl : e_prog e <> pk_zero -> env_ok e -> rent_mono e -> lam_ok w -> paid_by (e_rent e) (e_prog e) w ->
  arg infos 0 k -> layout (data (w k)) hd l tl -> process e infos w (IResize Trim) = Ok w1 -> settled e infos w1 (IResize Trim).
Proof.
  intros Hp He Hm Hl HP A HL H w2 H2. destruct (ResizeL.trim_effect _ _ _ _ _ _ _ _ A HL H) as (_ & _ & L1 & _).
  assert (P1 : paid_by (e_rent e) (e_prog e) w1) by (exact (process_paid e Hp He Hm infos w _ w1 Hl HP H)).
  apply process_dispatch in H2. cbn [dispatch] in H2. unfold process_resize, check_authority in H2.
  apply bind_ok in H2 as (a & A0 & H2). apply bind_ok in H2 as (auth & _ & H2). apply bind_ok in H2 as (payer & _ & H2). apply bind_ok in H2 as (sysp & _ & H2).
  apply acct_arg in A0. pose proof (arg_det _ _ _ _ A0 A). subst a.
  apply require_ok in H2 as [_ H2]. apply require_ok in H2 as [O H2]. cbv zeta in H2. apply require_ok in H2 as [_ H2]. apply require_ok in H2 as [_ H2]. apply require_ok in H2 as [_ H2].
  apply bind_ok in H2 as (size & Hz & H2). apply bind_ok in Hz as (r & Hr & Hz). rewrite (layout_last _ _ _ _ L1) in Hr. apply Ok_inj in Hr. subst r.
  apply Ok_inj in Hz. rewrite (ResizeL.layout_bnd _ _ _ _ L1) in Hz. pose proof (layout_len _ _ _ _ L1) as LL. change (zlen []) with 0 in LL. rewrite Z.add_0_r in LL. rewrite <- LL in Hz. subst size.
  unfold resize in H2. rewrite Z.ltb_irrefl in H2. apply bind_ok in H2 as (v & Hv & H2). apply require_ok in Hv as [_ Hv]. cbv zeta in Hv.
  unfold owned_by_prog in O. apply pk_eqb_eq in O. pose proof (sect_size_nonneg l). pose proof (P1 k O ltac:(lia)).
  destruct (0 <? _) eqn:E in Hv; [lia|]. apply Ok_inj in Hv. subst v. unfold realloc in H2. rewrite Z.eqb_refl in H2. apply Ok_inj in H2. subst w2. intro x. reflexivity.
Qed.
Lemma extend_more e infos w w1 w2 k v : arg infos 0 k -> 0 <= v -> process e infos w (IResize (Extend v)) = Ok w1 -> process e infos w1 (IResize (Extend v)) = Ok w2 ->
  data (w2 k) = data (w k) ++ repeat x00 (Z.to_nat (2 * v)).
Proof.
  intros A Hv H1 H2. rewrite (ResizeL.extend_bytes _ _ _ _ _ _ A Hv H2), (ResizeL.extend_bytes _ _ _ _ _ _ A Hv H1), <- app_assoc, <- repeat_app. do 2 f_equal. lia.
Qed.

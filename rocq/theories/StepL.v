(** What one instruction can do to one initialized account of the program. *)
From Verif Require Import Base State Layout Constr Ext World Proc BaseL Spec SpecB SpecH WorldL ProcSteps FrameL LayoutL LayoutE HeadL CreatorsL AuthL AuthM GroupL ResizeL UpdateL UpdateM AllocL.
From Coq Require Import Strings.Byte.

Inductive change (e : env) (infos : list ainfo) (w w' : world) (i : instr) (k : pubkey) : Prop :=
| ch_same : data (w' k) = data (w k) -> change e infos w w' i k
| ch_transfer r : i = ITransfer -> arg infos 0 k -> arg infos 2 r ->
    data (w' k) = clear_delegate (put (data (w k)) 4 (pk_bytes r)) -> change e infos w w' i k
| ch_delegate o bs : (exists a, i = IApprove a \/ i = IRevoke a) -> arg infos 0 k ->
    100 <= o -> o + zlen bs <= 133 -> data (w' k) = put (data (w k)) o bs -> change e infos w w' i k
| ch_state st : i = ILock \/ i = IUnlock -> arg infos 0 k ->
    data (w' k) = put (data (w k)) 1 [st] -> change e infos w w' i k
| ch_handover a n : i = IHandover -> arg infos 0 k -> signed infos a -> signed infos n ->
    s_authority (data (w k)) = pk_bytes a -> mutable (data (w k)) ->
    data (w' k) = put (data (w k)) 68 (pk_bytes n) -> change e infos w w' i k
| ch_join g : i = IGroup -> arg infos 0 k -> arg infos 1 g -> g <> k -> s_group (data (w k)) = no_key ->
    data (w' k) = put (data (w k)) 36 (pk_bytes g) -> change e infos w w' i k
| ch_leave g : i = IUngroup -> arg infos 0 k -> arg infos 1 g -> g <> k -> s_group (data (w k)) = pk_bytes g ->
    data (w' k) = put (data (w k)) 36 no_key -> change e infos w w' i k
| ch_size off b n :
    (i = IGroup /\ arg infos 1 k /\ n = (gr_size b + 1) mod two64 /\ (gr_max b = 0 \/ gr_size b < gr_max b)) \/
    (exists m, i = ICreate m /\ arg infos 3 k /\ n = (gr_size b + 1) mod two64 /\ (gr_max b = 0 \/ gr_size b < gr_max b)) \/
    (i = IUngroup /\ arg infos 1 k /\ n = (gr_size b - 1) mod two64) \/
    (i = IBurn /\ arg infos 3 k /\ n = gr_size b - 1 /\ 1 <= gr_size b) ->
    has_ext (data (w k)) XGrouping off b -> (16 <= length b <= 48)%nat ->
    data (w' k) = put (data (w k)) off (le_enc 8 n) -> change e infos w w' i k
| ch_flags (v : bool) cr off b (b' : bytes) : i = (if v then IVerify else IUnverify) -> arg infos 0 k -> arg infos 1 cr -> signed infos cr ->
    has_ext (data (w k)) XCreators off b -> set_flags v (pk_bytes cr) b b' ->
    data (w' k) = put (data (w k)) off b' -> change e infos w w' i k
| ch_edit a : (exists x, i = IUpdate x) \/ (exists t, i = IRemove t) \/ (exists s, i = IResize s) ->
    arg infos 0 k -> arg infos 1 a -> signed infos a -> s_authority (data (w k)) = pk_bytes a -> mutable (data (w k)) ->
    change e infos w w' i k.

(** the account at position 0 is the only one written *)
Lemma one_data e infos w k d w' x : set_data e infos w k d = Ok w' ->
  (data (w' x) = data (w x) \/ x = k /\ data (w' x) = d) /\ acct_owner (w' x) = acct_owner (w x).
Proof.
  intro H. apply set_data_world in H as (D & F & O). split; [|apply O].
  destruct (pk_dec x k) as [->|N]; [right; auto|left; auto].
Qed.

Lemma update_source_owner e infos w a auth bf x t off f n src w' k :
  update_source e infos w a auth bf x t off f = Ok (n, src, w') -> acct_owner (w' k) = acct_owner (w k).
Proof.
  intro H. unfold update_source in H. cbv zeta in H. destruct bf as [bk|].
  - apply bind_ok in H as (fe & _ & H). destruct fe as [[h o]|]; [|discriminate].
    apply require_ok in H as [_ H]. apply require_ok in H as [_ H]. apply bind_ok in H as (inp & _ & H).
    apply bind_ok in H as (cur & _ & H). apply bind_ok in H as (inp' & _ & H). apply bind_ok in H as (w2 & H2 & H).
    apply Ok_inj in H. assert (E : w2 = w') by congruence. subst w2. eapply set_data_owner; eauto.
  - destruct x as [x|]; [|discriminate]. apply bind_ok in H as ([n' o'] & _ & H).
    match type of H with (if ?q then _ else _) = _ => destruct q; [discriminate|] end.
    match type of H with (if ?q then _ else _) = _ => destruct q; [discriminate|] end.
    apply Ok_inj in H. assert (E : w = w') by congruence. now subst.
Qed.
Lemma update_room_owner e infos w0 w asset payer sysp off found n w' k :
  update_room e infos w0 w asset payer sysp off found n = Ok w' -> acct_owner (w' k) = acct_owner (w k).
Proof.
  intro H. unfold update_room in H. cbv zeta in H. destruct found as [c|].
  - match type of H with (if ?q then _ else _) = _ => destruct q end; [apply Ok_inj in H; now subst|].
    apply bind_ok in H as (l & _ & H). destruct l as [[lh lo]|]; [|discriminate].
    apply bind_ok in H as (w1 & H1 & H). apply bind_ok in H as (d1 & _ & H). apply bind_ok in H as (w2 & H2 & H).
    apply set_data_world in H2 as (_ & _ & O2).
    assert (E1 : acct_owner (w1 k) = acct_owner (w k)).
    { match type of H1 with (if ?q then _ else _) = _ => destruct q end; [apply resize_world in H1; apply H1|apply Ok_inj in H1; now subst]. }
    match type of H with (if ?q then _ else _) = _ => destruct q end.
    + apply resize_world in H as (_ & _ & O3). now rewrite O3, O2.
    + apply Ok_inj in H. subst. now rewrite O2.
  - apply resize_world in H. apply H.
Qed.

Section Change.
Variables (e : env) (infos : list ainfo) (w w' : world) (k : pubkey).
Hypothesis (He : env_ok e) (Hp : e_prog e <> pk_zero) (Hs : sized w) (Hl : lam_ok w).
Hypothesis (Ho : acct_owner (w k) = e_prog e) (Hi : initialized (data (w k))).

Definition stays (i : instr) : Prop := acct_owner (w' k) = e_prog e /\ change e infos w w' i k.
Definition gone (i : instr) : Prop := i = IBurn /\ arg infos 0 k /\ w' k = mkAcct 0 pk_zero [].

Lemma change_transfer : process e infos w ITransfer = Ok w' -> stays ITransfer.
Proof.
  intro H. apply process_dispatch in H. cbn [dispatch] in H.
  apply transfer_inv in H as (asset & signer & rec & grp & ck & A0 & A1 & A2 & _ & _ & _ & _ & _ & _ & _ & H).
  apply acct_arg in A0, A1, A2. unfold stays. destruct H as [[_ ->]|[_ [_ H]]].
  - split; [assumption|]. now apply ch_same.
  - apply (one_data _ _ _ _ _ _ k) in H as [[H|[-> H]] ->]; (split; [assumption|]); [now apply ch_same|].
    now apply (ch_transfer _ _ _ _ _ _ rec).
Qed.
Lemma change_approve a : process e infos w (IApprove a) = Ok w' -> stays (IApprove a).
Proof.
  intro H. apply process_dispatch in H. cbn [dispatch] in H.
  apply approve_inv in H as (asset & owner & del & A0 & A1 & A2 & _ & _ & _ & _ & H).
  apply acct_arg in A0. unfold stays. apply (one_data _ _ _ _ _ _ k) in H as [[H|[-> H]] ->]; (split; [assumption|]); [now apply ch_same|].
  assert (L1 : zlen (pk_bytes del ++ [z2b (roles_of a)]) = 33) by (rewrite zlen_app, pk_zlen; reflexivity).
  destruct (bytes_eqb _ no_key); [|destruct (bytes_eqb _ _)].
  - eapply ch_delegate; [eauto|eassumption| | |exact H]; lia.
  - eapply ch_delegate; [eauto|eassumption| | |exact H]; [lia|]. change (zlen [_]) with 1. lia.
  - eapply ch_delegate; [eauto|eassumption| | |exact H]; lia.
Qed.
Lemma change_revoke a : process e infos w (IRevoke a) = Ok w' -> stays (IRevoke a).
Proof.
  intro H. apply process_dispatch in H. cbn [dispatch] in H.
  apply revoke_inv in H as (asset & signer & A0 & A1 & _ & _ & _ & _ & H).
  apply acct_arg in A0. unfold stays. apply (one_data _ _ _ _ _ _ k) in H as [[H|[-> H]] ->]; (split; [assumption|]); [now apply ch_same|].
  assert (C : data (w' asset) = clear_delegate (data (w asset)) -> change e infos w w' (IRevoke a) asset).
  { intro C. eapply ch_delegate; [eauto|eassumption| | |exact C]; [lia|]. change (zlen (zeros 33)) with 33. lia. }
  destruct a as [|roles]; [auto|]. destruct (bytes_eqb _ no_key); [now apply ch_same|]. cbv zeta in H.
  destruct (has_active_roles _); [|auto].
  eapply ch_delegate; [eauto|eassumption| | |exact H]; [lia|]. change (zlen [_]) with 1. lia.
Qed.
Lemma change_state st i : (i = ILock \/ i = IUnlock) -> process_set_state st e (firstn MAX_ACCOUNTS infos) w = Ok w' -> stays i.
Proof.
  intros Hw H. apply set_state_inv in H as (asset & signer & A0 & _ & _ & _ & _ & _ & H).
  apply acct_arg in A0. unfold stays. apply (one_data _ _ _ _ _ _ k) in H as [[H|[-> H]] ->]; (split; [assumption|]); [now apply ch_same|].
  now apply (ch_state _ _ _ _ _ _ st).
Qed.
Lemma change_handover : process e infos w IHandover = Ok w' -> stays IHandover.
Proof.
  intro H. apply process_dispatch in H. cbn [dispatch] in H. unfold process_handover in H.
  apply bind_ok in H as (asset & A0 & H). apply bind_ok in H as (auth & A1 & H). apply bind_ok in H as (new & A2 & H).
  apply require_ok in H as [S1 H]. apply require_ok in H as [S2 H]. apply require_ok in H as [_ H]. cbv zeta in H.
  apply check_authority_ok in H as (_ & Ha & Hm & H). apply acct_arg in A0. apply signed_acct in S1, S2.
  unfold stays. apply (one_data _ _ _ _ _ _ k) in H as [[H|[-> H]] ->]; (split; [assumption|]); [now apply ch_same|].
  now apply (ch_handover _ _ _ _ _ _ auth new).
Qed.
Lemma change_verified (v : bool) : process e infos w (if v then IVerify else IUnverify) = Ok w' -> stays (if v then IVerify else IUnverify).
Proof.
  intro H. apply process_dispatch in H.
  assert (H' : process_set_verified v e (firstn MAX_ACCOUNTS infos) w = Ok w') by (destruct v; exact H). clear H. rename H' into H.
  unfold process_set_verified in H. apply bind_ok in H as (asset & A0 & H). apply bind_ok in H as (cr & A1 & H).
  apply require_ok in H as [S1 H]. apply require_ok in H as [_ H]. cbv zeta in H. apply require_ok in H as [_ H].
  apply bind_ok in H as (r & Hr & H). destruct r as [[off b]|]; [|discriminate]. apply bind_ok in H as (l & Hb & H).
  apply require_ok in H as [Hex H]. apply acct_arg in A0, A1. apply signed_acct in S1. apply asset_get_some in Hr.
  unfold stays. apply (one_data _ _ _ _ _ _ k) in H as [[H|[-> H]] ->]; (split; [assumption|]); [now apply ch_same|].
  pose (f := fun c => if key_is (cr_addr c) cr then bool_byte v else cr_verified c).
  assert (Em : map (fun c => if key_is (cr_addr c) cr then mkCreator (cr_addr c) (bool_byte v) (cr_share c) else c) l = reflag f l).
  { unfold reflag, f. apply map_ext. intros [ca cv cs]. cbn [cr_addr cr_verified cr_share]. destruct (key_is ca cr); reflexivity. }
  rewrite Em in H. destruct (reflag_bytes f _ _ Hb) as (R1 & R2 & _).
  eapply (ch_flags _ _ _ _ _ _ v cr off b); [reflexivity|eassumption|eassumption|assumption|assumption| |exact H].
  apply from_bytes_ok in Hb as (B1 & -> & B3 & B4).
  split; [assumption|]. split; [assumption|]. split.
  - apply existsb_exists in Hex as (c & Hin & Hk). apply In_nth_error in Hin as [i Hi'].
    assert (Hlt : (i < cr_count b)%nat) by (rewrite <- B4; apply nth_error_Some; congruence).
    exists i. split; [assumption|]. rewrite dec_nth in Hi' by assumption. apply key_is_spec in Hk. inversion Hi'. subst c. exact Hk.
  - intros i Hlt. destruct (R2 i Hlt) as (Q1 & Q2 & Q3). split; [assumption|]. split; [assumption|].
    rewrite Q3. unfold f. cbn [cr_addr cr_verified]. split; intro Hc.
    + apply key_is_spec in Hc. now rewrite Hc.
    + apply key_is_false in Hc. now rewrite Hc.
Qed.
Lemma change_do_group wa a g s i : sized wa -> acct_owner (wa k) = e_prog e -> data (wa k) = data (w k) -> a <> k \/ i = IGroup /\ arg infos 0 a /\ wa = w ->
  (i = IGroup /\ arg infos 1 g) \/ (exists m, i = ICreate m /\ arg infos 3 g) ->
  (i = IGroup -> arg infos 1 g) ->
  do_group e (firstn MAX_ACCOUNTS infos) wa a g s = Ok w' -> stays i.
Proof.
  intros Hsa Hoa Hda Hak Hw Hw1 H.
  apply do_group_inv in H as (_ & _ & _ & _ & _ & Hne & Hg & _ & off & b & HE & Hb & Hoff & _ & Hm & (T1 & T2) & D1 & D2); [|assumption].
  unfold stays. split; [now rewrite (proj2 (T2 k))|].
  destruct (pk_dec k g) as [<-|Ng].
  - eapply (ch_size _ _ _ _ _ _ off b); [|rewrite <- Hda; exact HE|exact Hb|rewrite <- Hda; exact D2].
    destruct Hw as [[-> W]|(m & -> & W)]; [left|right; left]; eauto.
  - destruct (pk_dec k a) as [->|Na].
    + destruct Hak as [Hak|(-> & A0 & ->)]; [congruence|].
      apply (ch_join _ _ _ _ _ _ g); auto.
    + apply ch_same. rewrite <- Hda. now rewrite T1.
Qed.
Lemma change_group : process e infos w IGroup = Ok w' -> stays IGroup.
Proof.
  intro H. apply process_dispatch in H. cbn [dispatch] in H. unfold process_group in H.
  apply bind_ok in H as (asset & A0 & H). apply bind_ok in H as (group & A1 & H). apply bind_ok in H as (auth & A2 & H).
  apply acct_arg in A0, A1. eapply change_do_group; eauto.
Qed.
Lemma change_ungroup : process e infos w IUngroup = Ok w' -> stays IUngroup.
Proof.
  intro H. apply ungroup_effect in H as (a & g & s & off & b & A0 & A1 & _ & _ & Hne & _ & _ & _ & I2 & Hg & HE & _ & F1 & F2 & _ & _ & _ & _ & D1 & D2 & Hb); [|assumption].
  unfold stays. split; [now rewrite (proj2 (F2 k))|].
  destruct (pk_dec k g) as [->|Ng].
  - apply (ch_size _ _ _ _ _ _ off b ((gr_size b - 1) mod two64)); auto. do 2 right. auto.
  - destruct (pk_dec k a) as [->|Na]; [now apply (ch_leave _ _ _ _ _ _ g); auto|].
    apply ch_same. now rewrite F1.
Qed.
Lemma change_burn : process e infos w IBurn = Ok w' -> gone IBurn \/ stays IBurn.
Proof.
  intro H. pose proof H as H0. apply process_dispatch in H. cbn [dispatch] in H.
  apply burn_inv in H as (asset & signer & rec & grp & w1 & A0 & A1 & A2 & A3 & _ & _ & _ & _ & Hg & _ & Hc).
  apply acct_arg in A0, A1.
  assert (W1 : lamports (w1 asset) = lamports (w asset)).
  { destruct Hg as [[_ ->]|(ga & off & b & gr & _ & _ & _ & _ & _ & _ & Hset)]; [reflexivity|]. eapply set_data_lam; eauto. }
  apply close_account_spec in Hc as (C1 & C2 & C3 & C4); [|rewrite W1; apply Hl].
  destruct (pk_dec k asset) as [Ek|Na]; [left; unfold gone; rewrite Ek; auto|right].
  assert (Hsame : data (w' k) = data (w1 k) /\ acct_owner (w' k) = acct_owner (w1 k)).
  { destruct (pk_dec k (match rec with Some r => r | None => signer end)) as [->|Nd]; [rewrite C3; auto|rewrite C4 by assumption; auto]. }
  destruct Hsame as [E1 E2]. unfold stays.
  destruct Hg as [[_ ->]|(ga & off & b & gr & _ & -> & _ & Hge & Hgr & H1 & Hset)].
  - split; [congruence|]. now apply ch_same.
  - apply opt_acct_some in A3 as [A3 _]. apply asset_get_some in Hge. apply grouping_ok in Hgr as (G1 & -> & _). cbn [g_size] in *.
    apply (one_data _ _ _ _ _ _ k) in Hset as [[D|[-> D]] O]; (split; [congruence|]).
    + apply ch_same. congruence.
    + apply (ch_size _ _ _ _ _ _ off b (gr_size b - 1)); auto; [|congruence]. do 3 right. auto.
Qed.
Lemma other_arg asset i : arg infos 0 asset ->
  match i with ICreate _ | IAllocate _ | IWrite _ | IClose => True | _ => False end ->
  process e infos w i = Ok w' -> k <> asset.
Proof. intros A0 Hc H ->. exact (no_reinit _ _ _ _ _ _ A0 Hi Hc H). Qed.
Lemma do_allocate_frame is w0 wa a p s x wb : do_allocate e is w0 wa a p s x = Ok wb -> k <> a ->
  data (wb k) = data (wa k) /\ acct_owner (wb k) = acct_owner (wa k).
Proof.
  intros H N. unfold do_allocate in H. apply require_ok in H as [_ H]. cbv zeta in H.
  apply bind_ok in H as (st & _ & H). apply bind_ok in H as (bs & _ & H). unfold save_extension_data in H. cbv zeta in H.
  apply bind_ok in H as (w1 & H1 & H). apply bind_ok in H as (d1 & _ & H). apply bind_ok in H as (d2 & _ & H).
  apply set_data_world in H as (_ & F & O). rewrite (F k N), (O k).
  match type of H1 with (if ?q then _ else _) = _ => destruct q end.
  - unfold alloc_create_account in H1. apply bind_ok in H1 as (pp & _ & H1). apply require_ok in H1 as [_ H1].
    apply bind_ok in H1 as (ss & _ & H1). apply require_ok in H1 as [_ H1].
    apply sys_create_world in H1 as (_ & F1 & _). now apply F1.
  - match type of H1 with (if ?q then _ else _) = _ => destruct q end; [|apply Ok_inj in H1; subst; auto].
    apply resize_world in H1 as (_ & F1 & O1). now rewrite (F1 k N), (O1 k).
Qed.
Lemma allocate_all_frame is w0 a p s xs : forall wa wb, allocate_all e is w0 wa a p s xs = Ok wb -> k <> a ->
  data (wb k) = data (wa k) /\ acct_owner (wb k) = acct_owner (wa k).
Proof.
  induction xs as [|x xs IH]; intros wa wb H N; cbn [allocate_all] in H; [apply Ok_inj in H; subst; auto|].
  apply bind_ok in H as (w1 & H1 & H). apply do_allocate_frame in H1 as [D1 O1]; [|assumption].
  apply IH in H as [D2 O2]; [|assumption]. split; congruence.
Qed.
Lemma change_allocate x : process e infos w (IAllocate x) = Ok w' -> stays (IAllocate x).
Proof.
  intro H. pose proof H as H0. apply process_dispatch in H. cbn [dispatch] in H. unfold process_allocate in H.
  apply bind_ok in H as (asset & A0 & H). apply bind_ok in H as (p & _ & H). apply bind_ok in H as (s & _ & H).
  apply acct_arg in A0. apply (other_arg _ _ A0) in H0; [|exact I]. apply do_allocate_frame in H as [D O]; [|assumption].
  split; [congruence|]. now apply ch_same.
Qed.
Lemma change_write x : process e infos w (IWrite x) = Ok w' -> stays (IWrite x).
Proof.
  intro H. pose proof H as H0. apply process_dispatch in H. cbn [dispatch] in H. unfold process_write in H.
  apply bind_ok in H as (asset & A0 & H). apply bind_ok in H as (p & _ & H). apply bind_ok in H as (s & _ & H).
  apply acct_arg in A0. apply (other_arg _ _ A0) in H0; [|exact I].
  do 4 apply require_ok in H as [_ H]. cbv zeta in H. do 2 apply require_ok in H as [_ H].
  apply bind_ok in H as (r & _ & H). destruct r as [[h off]|]; [|discriminate]. apply require_ok in H as [_ H].
  apply bind_ok in H as (w1 & H1 & H). apply bind_ok in H as (d1 & _ & H). apply bind_ok in H as (w2 & H2 & H).
  apply resize_world in H1 as (_ & F1 & O1). apply set_data_world in H2 as (_ & F2 & O2).
  assert (E2 : data (w2 k) = data (w k) /\ acct_owner (w2 k) = acct_owner (w k)) by (rewrite F2, F1, O2, O1 by assumption; auto).
  match type of H with (if ?q then _ else _) = _ => destruct q end.
  - apply Ok_inj in H. subst w2. split; [now rewrite (proj2 E2)|]. apply ch_same. apply E2.
  - apply bind_ok in H as (l2 & _ & H). destruct l2 as [[h2 off2]|]; [|discriminate]. apply bind_ok in H as (t & _ & H).
    apply bind_ok in H as (b & _ & H). apply bind_ok in H as (b' & _ & H). apply set_data_world in H as (_ & F & O).
    split; [rewrite O; destruct E2; congruence|]. apply ch_same. rewrite F by assumption. apply E2.
Qed.
Lemma change_close : process e infos w IClose = Ok w' -> stays IClose.
Proof.
  intro H. pose proof H as H0. apply close_effect in H as (b & r & A0 & _ & _ & _ & _ & _ & _ & D & F); [|assumption].
  apply (other_arg _ _ A0) in H0; [|exact I]. unfold stays. destruct (pk_dec k r) as [->|N].
  - split; [rewrite D; exact Ho|]. apply ch_same. now rewrite D.
  - split; [rewrite F by assumption; exact Ho|]. apply ch_same. now rewrite F.
Qed.
Lemma change_create m : process e infos w (ICreate m) = Ok w' -> stays (ICreate m).
Proof.
  intro H. pose proof H as H0. apply process_dispatch in H. cbn [dispatch] in H. unfold process_create in H.
  apply bind_ok in H as (asset & A0 & H). apply bind_ok in H as (auth & A1 & H). apply bind_ok in H as (owner & A2 & H).
  apply bind_ok in H as (group & A3 & H). apply bind_ok in H as (gauth & A4 & H).
  apply bind_ok in H as (payer & A5 & H). apply bind_ok in H as (sysp & A6 & H). apply acct_arg in A0.
  apply (other_arg _ _ A0) in H0; [|exact I].
  apply require_ok in H as [Hsg H]. apply bind_ok in H as (w1 & H1 & H). apply bind_ok in H as (w2 & H2 & H).
  apply bind_ok in H as (r & H3 & H). cbv zeta in H. apply require_ok in H as [HM H].
  apply bind_ok in H as (p & Hpx & H). apply bind_ok in H as (px & Hq & H). apply bind_ok in H as (u & Hu & H).
  apply bind_ok in H as (w3 & H4 & H).
  assert (E1 : data (w1 k) = data (w k) /\ acct_owner (w1 k) = acct_owner (w k) /\ sized w1 /\ acct_owner (w1 asset) = e_prog e).
  { destruct (zlen (data (w asset)) =? 0).
    - assert (Hs1 : sized w1 /\ acct_owner (w1 asset) = e_prog e).
      { pose proof (alloc_create_psteps e He Hp _ _ _ _ _ _ _ H1) as [P O]. split; [eapply psteps_sized; eauto|assumption]. }
      unfold alloc_create_account in H1. apply bind_ok in H1 as (pp & _ & H1). apply require_ok in H1 as [_ H1].
      apply bind_ok in H1 as (ss & _ & H1). apply require_ok in H1 as [_ H1].
      apply sys_create_world in H1 as (_ & F1 & _). destruct (F1 k H0). tauto.
    - apply require_ok in H1 as [O1 H1]. apply require_ok in H1 as [_ H1]. apply require_ok in H1 as [_ H1]. apply Ok_inj in H1. subst w1.
      unfold owned_by_prog in O1. apply pk_eqb_eq in O1. auto. }
  destruct E1 as (D1 & O1 & S1 & OA1).
  assert (E2 : data (w2 k) = data (w1 k) /\ acct_owner (w2 k) = acct_owner (w1 k) /\ sized w2).
  { destruct (m_exts m) as [xs|].
    - pose proof (allocate_all_psteps e He Hp _ _ _ _ _ _ _ _ OA1 H2) as [P _]. apply allocate_all_frame in H2 as [D O]; [|assumption].
      split; [assumption|]. split; [assumption|]. eapply psteps_sized; eauto.
    - apply Ok_inj in H2. subst w2. auto. }
  destruct E2 as (D2 & O2 & S2).
  assert (S3 : sized w3) by (eapply psteps_sized; [eapply set_data_psteps; eauto|assumption]).
  apply set_data_world in H4 as (_ & F3 & O3).
  assert (D3 : data (w3 k) = data (w k)) by (rewrite F3 by assumption; congruence).
  assert (OW3 : acct_owner (w3 k) = e_prog e) by (rewrite O3; congruence).
  destruct group as [g|].
  - apply opt_acct_some in A3 as [A3 _]. eapply change_do_group; [exact S3|exact OW3|exact D3| | | |exact H].
    + left. congruence.
    + right. eauto.
    + discriminate.
  - apply Ok_inj in H. subst w3. split; [assumption|]. now apply ch_same.
Qed.
Lemma edit_other asset auth i : (exists x, i = IUpdate x) \/ (exists t, i = IRemove t) \/ (exists s, i = IResize s) ->
  arg infos 0 asset -> arg infos 1 auth -> signed infos auth -> s_authority (data (w asset)) = pk_bytes auth -> mutable (data (w asset)) ->
  (k <> asset -> data (w' k) = data (w k)) -> acct_owner (w' k) = acct_owner (w k) -> stays i.
Proof.
  intros Hw A0 A1 S1 Ha Hm F O. unfold stays. split; [congruence|]. destruct (pk_dec k asset) as [->|N].
  - eapply ch_edit; eauto.
  - now apply ch_same, F.
Qed.
Lemma change_resize s : process e infos w (IResize s) = Ok w' -> stays (IResize s).
Proof.
  intro H. apply resize_instr_inv in H as (asset & auth & A0 & A1 & S1 & _ & _ & Ha & Hm & F & O & _).
  apply (edit_other asset auth); eauto.
Qed.
Lemma change_remove t : process e infos w (IRemove t) = Ok w' -> stays (IRemove t).
Proof.
  intro H. apply process_dispatch in H. cbn [dispatch] in H. unfold process_remove in H.
  apply bind_ok in H as (asset & A0 & H). apply bind_ok in H as (auth & A1 & H). apply bind_ok in H as (g & _ & H). apply bind_ok in H as (r & _ & H).
  apply require_ok in H as [S1 H]. apply require_ok in H as [_ H]. cbv zeta in H. apply check_authority_ok in H as (_ & Ha & Hm & H).
  apply bind_ok in H as (o & _ & H). destruct o as [[off bnd]|]; [|discriminate]. apply bind_ok in H as (u & _ & H).
  apply bind_ok in H as (d1 & _ & H). apply bind_ok in H as (w1 & H1 & H).
  apply set_data_world in H1 as (_ & F1 & O1). apply resize_world in H as (_ & F2 & O2).
  apply acct_arg in A0, A1. apply signed_acct in S1. apply (edit_other asset auth); eauto.
  - intro N. rewrite F2, F1 by assumption. reflexivity.
  - now rewrite O2, O1.
Qed.
Lemma update_source_frame wa a auth bf x t off f n src wb : data (wa k) = data (w k) -> k <> a ->
  update_type e wa a bf x = Ok t ->
  update_source e (firstn MAX_ACCOUNTS infos) wa a auth bf x t off f = Ok (n, src, wb) ->
  data (wb k) = data (wa k).
Proof.
  intros Hd N Ht H. unfold update_source in H. cbv zeta in H. destruct bf as [bk|].
  - unfold update_type in Ht. apply require_ok in Ht as [_ Ht]. apply require_ok in Ht as [_ Ht]. cbv zeta in Ht.
    apply require_ok in Ht as [_ Ht]. apply require_ok in Ht as [Hb _].
    apply bind_ok in H as (fe & _ & H). destruct fe as [[h o]|]; [|discriminate].
    apply require_ok in H as [_ H]. apply require_ok in H as [_ H]. apply bind_ok in H as (inp & _ & H).
    apply bind_ok in H as (cur & _ & H). apply bind_ok in H as (inp' & _ & H). apply bind_ok in H as (w2 & H2 & H).
    apply Ok_inj in H. assert (E : w2 = wb) by congruence. subst w2.
    apply set_data_world in H2 as (_ & F & _). apply F. intros ->.
    destruct Hi as [_ Hi']. rewrite Hd in Hb. apply beqb_eq in Hb. change (byte_at (data (w bk)) 0) with (s_disc (data (w bk))) in Hb.
    rewrite Hi' in Hb. discriminate.
  - destruct x as [x|]; [|discriminate]. apply bind_ok in H as ([n' o'] & _ & H).
    match type of H with (if ?q then _ else _) = _ => destruct q; [discriminate|] end.
    match type of H with (if ?q then _ else _) = _ => destruct q; [discriminate|] end.
    apply Ok_inj in H. assert (E : wa = wb) by congruence. now subst.
Qed.
Lemma change_update a : process e infos w (IUpdate a) = Ok w' -> stays (IUpdate a).
Proof.
  intro H. pose proof H as H0. apply process_dispatch in H. cbn [dispatch] in H. unfold process_update in H.
  apply bind_ok in H as (asset & A0 & H). apply bind_ok in H as (auth & A1 & H). apply bind_ok in H as (bf & _ & H).
  apply bind_ok in H as (g & _ & H). apply bind_ok in H as (p & _ & H). apply bind_ok in H as (s & _ & H).
  apply require_ok in H as [S1 H]. apply require_ok in H as [OW H]. cbv zeta in H. apply check_authority_ok in H as (_ & Ha & Hm & H).
  apply bind_ok in H as (w1 & H1 & H). unfold owned_by_prog in OW. apply pk_eqb_eq in OW.
  apply set_data_world in H1 as (_ & F1 & O1). apply acct_arg in A0, A1. apply signed_acct in S1.
  assert (X : (k <> asset -> data (w' k) = data (w1 k)) /\ acct_owner (w' k) = acct_owner (w1 k)).
  { assert (Y : forall x, update_ext e (firstn MAX_ACCOUNTS infos) w w1 asset auth bf p s x = Ok w' ->
      (k <> asset -> data (w' k) = data (w1 k)) /\ acct_owner (w' k) = acct_owner (w1 k)).
    { intros x Hx. unfold update_ext in Hx. apply bind_ok in Hx as (t & Ht & Hx). apply bind_ok in Hx as ([off fo] & _ & Hx).
      apply bind_ok in Hx as ([[n src] w2] & H2 & Hx). apply bind_ok in Hx as (w3 & H3 & Hx).
      pose proof (update_source_owner _ _ _ _ _ _ _ _ _ _ _ _ _ k H2) as Q2.
      pose proof (update_room_owner _ _ _ _ _ _ _ _ _ _ _ k H3) as Q3.
      split.
      - intro N. rewrite (update_finish_frame _ _ _ _ _ _ _ _ _ _ _ _ Hx N), (update_room_frame _ _ _ _ _ _ _ _ _ _ _ _ H3 N).
        eapply update_source_frame; eauto.
      - unfold update_finish in Hx. cbv zeta in Hx. apply bind_ok in Hx as (d4 & _ & Hx). apply bind_ok in Hx as (d5 & _ & Hx).
        apply bind_ok in Hx as (d6 & _ & Hx). apply set_data_world in Hx as (_ & _ & Q4). now rewrite Q4, Q3, Q2. }
    destruct (u_ext a) as [x|], bf as [bk|]; try discriminate; eauto.
    apply Ok_inj in H. subst w1. auto. }
  destruct X as [X1 X2]. apply (edit_other asset auth); eauto.
  - intro N. rewrite X1, F1 by assumption. reflexivity.
  - now rewrite X2, O1.
Qed.
Theorem changes i : process e infos w i = Ok w' -> gone i \/ stays i.
Proof.
  destruct i; intro H; try (right; first [now apply change_close | now apply change_create | now apply change_approve
    | now apply change_allocate | now apply change_revoke | now apply change_transfer | now apply (change_verified false)
    | now apply change_update | now apply (change_verified true) | now apply change_write | now apply change_group
    | now apply change_ungroup | now apply change_handover | now apply change_remove | now apply change_resize ]).
  - now apply change_burn.
  - right. apply (change_state ST_LOCKED); [auto|]. exact (process_dispatch _ _ _ _ _ H).
  - right. apply (change_state ST_UNLOCKED); [auto|]. exact (process_dispatch _ _ _ _ _ H).
Qed.
End Change.

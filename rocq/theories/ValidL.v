(** What the validation hooks establish (C22, C24, C31–C34, C39, C44). *)
From Verif Require Import Base State Layout Constr Ext World Proc BaseL Spec SpecB WorldL LayoutL HeadL CreatorsL AuthL AuthM GroupL AllocM.
From Coq Require Import Strings.Byte.

Lemma b2z_N b : b2z b = Z.of_N (Byte.to_N b).
Proof. reflexivity. Qed.
Lemma shares_S n b : shares (S n) b = b2z (cr_share_at b 0) + shares n (skipn 34 b).
Proof.
  induction n as [|n IH]; [cbn [shares]; unfold b2z; lia|].
  change (shares (S (S n)) b) with (shares (S n) b + Z.of_N (Byte.to_N (cr_share_at b (S n)))). rewrite IH.
  change (shares (S n) (skipn 34 b)) with (shares n (skipn 34 b) + Z.of_N (Byte.to_N (cr_share_at (skipn 34 b) n))).
  replace (cr_share_at (skipn 34 b) n) with (cr_share_at b (S n)); [lia|].
  unfold cr_share_at. rewrite nth_skipn. f_equal. lia.
Qed.
Lemma share_total_fold l : forall t, 0 <= t -> fold_left (fun t c => (t + b2z (cr_share c)) mod 256) l (t mod 256) =
  (t + fold_right (fun c s => b2z (cr_share c) + s) 0 l) mod 256.
Proof.
  induction l as [|c l IH]; intros t Ht; cbn [fold_left fold_right]; [now rewrite Z.add_0_r|].
  rewrite Zplus_mod_idemp_l. rewrite IH by (pose proof (b2z_range (cr_share c)); lia). f_equal. lia.
Qed.
Lemma dec_shares n : forall b, fold_right (fun c s => b2z (cr_share c) + s) 0 (dec_creators n b) = shares n b.
Proof.
  induction n as [|n IH]; intro b; [reflexivity|]. rewrite shares_S. cbn [dec_creators fold_right cr_share]. rewrite IH.
  reflexivity.
Qed.
Lemma share_total_bytes b l : creators_from_bytes b = Ok l -> share_total l = shares (cr_count b) b mod 256.
Proof.
  intro H. apply from_bytes_ok in H as (_ & -> & _). unfold share_total.
  change 0 with (0 mod 256) at 1. rewrite share_total_fold by lia. now rewrite dec_shares.
Qed.

Lemma manager_ok b d : manager_from_bytes b = Ok d -> (33 <= length b)%nat.
Proof. unfold manager_from_bytes, load_delegate. intro H. apply guard_ok in H as [H _]. unfold zlen in H. lia. Qed.
Lemma proxy_len b q : proxy_from_bytes b = Ok q -> length b = 97%nat /\
  q = mkProxy (sub b 0 32) (sub b 32 32) (nth 64 b x00) (sub b 65 32).
Proof.
  unfold proxy_from_bytes. intro H. apply guard_ok in H as [Hc H]. injection H as <-. split; [unfold zlen in Hc; lia|].
  rewrite !sub_fld. reflexivity.
Qed.
Lemma royalties_ok al b r : royalties_from_bytes al b = Ok r -> (8 <= length b)%nat /\ fst r = royalty_points b.
Proof.
  unfold royalties_from_bytes. intro H. apply guard_ok in H as [H1 H]. apply guard_ok in H as [_ H]. apply bind_ok in H as (c & _ & H).
  injection H as <-. split; [unfold zlen in H1; lia|]. cbn [fst]. unfold royalty_points. now rewrite sub_fld.
Qed.

Lemma on_create_valid t al auth b b' : on_create t al auth b = Ok b' -> valid_new t b'.
Proof.
  intro H. unfold valid_new, valid_payload. destruct t; cbn [on_create] in H; try (split; [exact I|discriminate]).
  - apply bind_ok in H as (l & Hl & H). apply bind_ok in H as (l' & Hl' & H). injection H as <-.
    unfold creators_on_create in Hl'. cbv zeta in Hl'.
    match type of Hl' with (if ?c then _ else _) = _ => destruct c eqn:E; [|discriminate Hl'] end. injection Hl' as <-.
    destruct (reflag_bytes (fun c => initial_verified auth (cr_addr c)) b l Hl) as (_ & _ & R3). unfold reflag in *.
    pose proof (share_total_bytes _ _ R3) as S. apply from_bytes_ok in R3 as (R3 & _). split; [split; [exact R3|lia]|discriminate].
  - apply bind_ok in H as (g & Hg & H). destruct (0 <? g_size g) eqn:E; [discriminate H|]. injection H as <-.
    apply grouping_ok in Hg as (Hb & -> & _). cbn [g_size] in E. pose proof (gr_size_range b). split; [assumption|]. intros _. lia.
  - apply bind_ok in H as (g & Hg & H). destruct (10000 <? fst g) eqn:E; [discriminate H|]. injection H as <-.
    apply royalties_ok in Hg as [Hb Hf]. split; [split; [assumption|lia]|discriminate].
  - apply bind_ok in H as (g & Hg & H). injection H as <-. apply manager_ok in Hg. split; [assumption|discriminate].
  - apply bind_ok in H as (g & Hg & H). injection H as <-. apply proxy_len in Hg as [Hg _]. split; [assumption|discriminate].
Qed.

(** *** on_update *)
Lemma find_app {A} (f : A -> bool) l1 l2 : find f (l1 ++ l2) = match find f l1 with Some x => Some x | None => find f l2 end.
Proof. induction l1 as [|x l1 IH]; [reflexivity|]. cbn [app find]. destruct (f x); [reflexivity|]. exact IH. Qed.
Lemma dec_snoc n : forall b, dec_creators (S n) b = dec_creators n b ++ [mkCreator (cr_addr_at b n) (cr_flag_at b n) (cr_share_at b n)].
Proof.
  induction n as [|n IH]; intro b; [reflexivity|].
  cbn [dec_creators] in IH |- *. rewrite IH. cbn [app].
  do 3 f_equal. unfold cr_addr_at, cr_flag_at, cr_share_at. rewrite sub_skipn, !nth_skipn.
  replace (34 * S n)%nat with (34 + 34 * n)%nat by lia. now rewrite <- !Nat.add_assoc.
Qed.
Lemma get_flag_of a b : forall n, option_map cr_verified (creators_get a (dec_creators n b)) = flag_of n b a.
Proof.
  induction n as [|n IH]; [reflexivity|]. cbn [flag_of]. rewrite <- IH. rewrite dec_snoc. unfold creators_get. rewrite find_app.
  destruct (find _ (dec_creators n b)) as [c|]; [reflexivity|]. cbn [find option_map cr_addr].
  destruct (list_eq_dec Byte.byte_eq_dec (cr_addr_at b n) a) as [->|Hn].
  - now rewrite bytes_eqb_refl.
  - apply bytes_eqb_neq in Hn. now rewrite Hn.
Qed.
Lemma creators_get_in a l c : creators_get a l = Some c -> In c l /\ cr_addr c = a.
Proof. unfold creators_get. intro H. apply find_some in H as [H1 H2]. apply bytes_eqb_eq in H2. auto. Qed.
Lemma pod_true_spec b : pod_true b = true <-> b <> x00.
Proof. unfold pod_true. rewrite negb_true_iff. apply beqb_neq. Qed.
Lemma check_kept_spec orig other : check_kept orig other = Ok tt ->
  forall c, In c orig -> cr_verified c <> x00 -> exists u, In u other /\ cr_addr u = cr_addr c /\ cr_verified u <> x00.
Proof.
  induction orig as [|o orig IH]; intros H c Hin Hc; [elim Hin|]. cbn [check_kept] in H.
  destruct Hin as [->|Hin].
  - destruct (pod_true (cr_verified c)) eqn:E; [|apply pod_true_spec in Hc; congruence].
    destruct (creators_get (cr_addr c) other) as [u|] eqn:Eu; [|discriminate H].
    destruct (pod_true (cr_verified u)) eqn:E2; [|discriminate H]. apply creators_get_in in Eu as [U1 U2]. apply pod_true_spec in E2. eauto.
  - destruct (pod_true (cr_verified o)); [|now apply IH].
    destruct (creators_get (cr_addr o) other) as [u|]; [|discriminate H]. destruct (pod_true (cr_verified u)); [|discriminate H]. now apply IH.
Qed.
Lemma dec_in n b c : In c (dec_creators n b) <-> exists i, (i < n)%nat /\ c = mkCreator (cr_addr_at b i) (cr_flag_at b i) (cr_share_at b i).
Proof.
  induction n as [|n IH]; [split; [intros []|intros (i & Hi & _); lia]|].
  rewrite dec_snoc, in_app_iff, IH. cbn [In]. split.
  - intros [(i & Hi & ->)|[<-|[]]]; [exists i|exists n]; split; auto; lia.
  - intros (i & Hi & ->). destruct (Nat.eq_dec i n) as [->|]; [right; left; reflexivity|left; exists i; split; auto; lia].
Qed.

Lemma sub65 (b cur : bytes) : length b = 97%nat -> length cur = 97%nat -> sub b 0 32 = sub cur 0 32 -> sub b 32 32 = sub cur 32 32 ->
  nth 64 b x00 = nth 64 cur x00 -> sub b 0 65 = sub cur 0 65.
Proof.
  assert (E : forall b : bytes, length b = 97%nat -> sub b 0 65 = sub b 0 32 ++ sub b 32 32 ++ [nth 64 b x00]).
  { clear. intros b Hb. apply list_eq_nth.
    - unfold sub. rewrite !app_length, !firstn_length, !skipn_length. cbn [length]. lia.
    - unfold sub. rewrite firstn_length, skipn_length. intros i Hi.
      assert (N : forall o n j, (j < n)%nat -> (o + j < 97)%nat -> nth j (firstn n (skipn o b)) x00 = nth (o + j) b x00).
      { intros o n j Hj Ho. rewrite <- nth_skipn. rewrite <- (firstn_skipn n (skipn o b)) at 2. rewrite app_nth1; [reflexivity|].
        rewrite firstn_length, skipn_length. lia. }
      rewrite N by lia. destruct (Nat.ltb_spec i 32); [|destruct (Nat.ltb_spec i 64)].
      + rewrite app_nth1 by (rewrite firstn_length, skipn_length; lia). rewrite N by lia. reflexivity.
      + rewrite app_nth2 by (rewrite firstn_length, skipn_length; lia). rewrite firstn_length, skipn_length.
        rewrite app_nth1 by (rewrite firstn_length, skipn_length; lia). rewrite N by lia. f_equal. lia.
      + assert (i = 64)%nat as -> by lia.
        rewrite app_nth2 by (rewrite firstn_length, skipn_length; lia). rewrite firstn_length, skipn_length.
        rewrite app_nth2 by (rewrite firstn_length, skipn_length; lia). rewrite firstn_length, skipn_length, Hb. reflexivity. }
  intros H1 H2 A B C. rewrite !E by assumption. congruence.
Qed.

Lemma updated_as_is t auth cur b : t <> XCreators -> t <> XGrouping -> t <> XProxy -> updated_payload t auth cur b b.
Proof. intros. unfold updated_payload. split; [reflexivity|]. split; [auto|]. split; [intro; contradiction|]. split; [intro; contradiction|]. split; intro; contradiction. Qed.
Lemma on_update_valid t al1 cur al2 b auth b' : on_update t al1 cur al2 b (Some auth) = Ok b' ->
  valid_payload t b' /\ updated_payload t auth cur b b'.
Proof.
  intro H. unfold valid_payload. destruct t; cbn [on_update] in H.
  all: try (rinv H; split; [exact I|]; apply updated_as_is; discriminate).
  - apply bind_ok in H as (c & Hc & H). apply bind_ok in H as (l & Hl & H). apply bind_ok in H as (l' & Hl' & H). injection H as <-.
    unfold creators_on_update in Hl'. cbv zeta in Hl'.
    set (f := fun c0 : creator => match creators_get (cr_addr c0) c with Some o => cr_verified o | None => initial_verified (Some auth) (cr_addr c0) end) in *.
    change (map _ l) with (reflag f l) in Hl'.
    match type of Hl' with (if ?c then _ else _) = _ => destruct c eqn:E; [|discriminate Hl'] end.
    apply bind_ok in Hl' as ([] & Hk & Hl'). injection Hl' as <-.
    destruct (reflag_bytes f b l Hl) as (R1 & R2 & R3).
    pose proof (share_total_bytes _ _ R3) as S. pose proof (from_bytes_ok _ _ R3) as (R4 & R5 & _).
    assert (Rc : cr_count (enc_creators (reflag f l)) = cr_count b) by (unfold cr_count; now rewrite R1).
    pose proof (from_bytes_ok _ _ Hc) as (_ & Hcd & _).
    split; [split; [exact R4|lia]|]. split; [exact R1|]. split; [intro Q; now elim Q|]. split; [intro Q; discriminate Q|]. split; [intro Q; discriminate Q|]. split.
    + intros _ i Hi. destruct (R2 i Hi) as (A & B & C). split; [exact A|]. split; [exact B|]. rewrite C. unfold f. cbn [cr_addr].
      rewrite <- get_flag_of, <- Hcd. destruct (creators_get (cr_addr_at b i) c) as [o|]; cbn [option_map]; [reflexivity|].
      unfold initial_verified. destruct (bytes_eqb auth (cr_addr_at b i)) eqn:Ea.
      * apply bytes_eqb_eq in Ea. cbn [bool_byte]. split; split; intro Q; try discriminate Q; auto. now elim Q.
      * apply bytes_eqb_neq in Ea. cbn [bool_byte]. split; split; intro Q; try discriminate Q; try congruence; reflexivity.
    + intros _ a (i & Hi & Ha & Hf). subst a.
      destruct (check_kept_spec _ _ Hk (mkCreator (cr_addr_at cur i) (cr_flag_at cur i) (cr_share_at cur i))) as (u & U1 & U2 & U3).
      * rewrite Hcd. apply dec_in. eauto.
      * exact Hf.
      * rewrite R5 in U1. apply dec_in in U1 as (j & Hj & ->). cbn [cr_addr cr_verified] in *. exists j. auto.
  - apply bind_ok in H as (c & Hc & H). apply bind_ok in H as (g & Hg & H).
    apply grouping_ok in Hc as (Hc1 & -> & _). apply grouping_ok in Hg as (Hb1 & -> & _). cbn [g_max g_size] in H.
    match type of H with (if ?c then _ else _) = _ => destruct c eqn:E; [discriminate H|] end. injection H as <-.
    unfold set_size. rewrite put_with_size by lia. pose proof (gr_size_range cur).
    destruct (with_size_fields (gr_size cur) b) as (W1 & W2 & W3 & W4); [lia|assumption|].
    split; [rewrite W1; assumption|]. split; [assumption|]. split; [intros _ Q; now elim Q|].
    split. { intros _. split; [reflexivity|]. apply andb_false_iff in E as [E|E]; [left|right]; lia. }
    split; [intro Q; discriminate Q|]. split; intro Q; discriminate Q.
  - apply bind_ok in H as (c & Hc & H). apply bind_ok in H as (g & Hg & H). destruct (10000 <? fst g) eqn:E; [discriminate H|]. injection H as <-.
    apply royalties_ok in Hg as [Hb Hf]. split; [split; [assumption|lia]|]. apply updated_as_is; discriminate.
  - apply bind_ok in H as (c & Hc & H). apply bind_ok in H as (g & Hg & H). injection H as <-. apply manager_ok in Hg.
    split; [assumption|]. apply updated_as_is; discriminate.
  - apply bind_ok in H as (c & Hc & H). apply bind_ok in H as (g & Hg & H).
    apply proxy_len in Hc as [Lc ->]. apply proxy_len in Hg as [Lb ->]. cbn [p_program p_seeds p_bump] in H.
    match type of H with (if ?c then _ else _) = _ => destruct c eqn:E; [discriminate H|] end. injection H as <-.
    apply orb_false_iff in E as [E E3]. apply orb_false_iff in E as [E1 E2].
    apply negb_false_iff in E1, E2, E3. apply bytes_eqb_eq in E1, E2. apply beqb_eq in E3.
    split; [assumption|]. split; [reflexivity|]. split; [auto|]. split; [intro Q; discriminate Q|]. split; [|split; intro Q; discriminate Q].
    intros _. apply sub65; auto.
Qed.

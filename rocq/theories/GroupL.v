(** Group and Ungroup (C28–C30, C48). *)
From Verif Require Import Base State Layout Constr Ext World Proc BaseL Spec SpecB WorldL ProcSteps LayoutL LayoutE HeadL AuthL AuthM.
From Coq Require Import Strings.Byte.

(** the block behind a looked up extension of a well-formed account *)
Lemma has_ext_block d hd l tl t off b : layout d hd l tl -> t <> XNone -> has_ext d t off b ->
  exists l1 k l2, l = l1 ++ k :: l2 /\ bk_type k = t /\ bk_data k = b /\ off = 168 + sect_size l1 + 16 /\
    Forall (fun x => bk_type x <> t) l1.
Proof.
  intros HL Ht HE. pose proof (layout_get _ _ _ _ HL t Ht) as G.
  destruct (loc t 168 l) as [[c k]|] eqn:E; cbn [option_map fst snd] in G.
  - apply asset_get_some in G. destruct (has_ext_det _ _ _ _ _ _ HE G) as [-> ->].
    apply loc_some in E as (l1 & l2 & -> & -> & Hk & Hf). exists l1, k, l2. auto.
  - exfalso. exact (asset_get_none _ _ G _ _ HE).
Qed.
Lemma block_has_ext d hd l1 k l2 tl : layout d hd (l1 ++ k :: l2) tl -> Forall (fun x => bk_type x <> bk_type k) l1 ->
  has_ext d (bk_type k) (168 + sect_size l1 + 16) (bk_data k).
Proof.
  intros HL Hf. assert (Ht : bk_type k <> XNone).
  { destruct HL as (_ & _ & F & _). apply Forall_app in F as [_ F]. apply Forall_cons_iff in F as [F _]. apply F. }
  pose proof (layout_get _ _ _ _ HL _ Ht) as G.
  assert (L : forall l1 cur, Forall (fun x => bk_type x <> bk_type k) l1 -> loc (bk_type k) cur (l1 ++ k :: l2) = Some (cur + sect_size l1, k)).
  { clear. induction l1 as [|x l1 IH]; intros cur H; cbn [app loc sect_size].
    - rewrite ext_type_eqb_refl. now rewrite Z.add_0_r.
    - apply Forall_cons_iff in H as [Hx H]. destruct (ext_type_eqb (bk_type x) (bk_type k)) eqn:E; [apply ext_type_eqb_eq in E; contradiction|].
      rewrite IH by assumption. f_equal. f_equal. lia. }
  rewrite L in G by assumption. cbn [option_map fst snd] in G. now apply asset_get_some in G.
Qed.
Lemma lookup_block l1 k l2 : Forall (fun x => bk_type x <> bk_type k) l1 ->
  lookup (bk_type k) (ext_list (l1 ++ k :: l2)) = Some (bk_data k).
Proof.
  induction l1 as [|x l1 IH]; intro H; cbn [app ext_list map lookup].
  - now rewrite ext_type_eqb_refl.
  - apply Forall_cons_iff in H as [Hx H]. destruct (ext_type_eqb (bk_type x) (bk_type k)) eqn:E; [apply ext_type_eqb_eq in E; contradiction|].
    now apply IH.
Qed.
Lemma replaced_block l1 k l2 b : Forall (fun x => bk_type x <> bk_type k) l1 ->
  ext_list (l1 ++ with_data k b :: l2) = replaced (bk_type k) b (ext_list (l1 ++ k :: l2)).
Proof.
  induction l1 as [|x l1 IH]; intro H; cbn [app ext_list map replaced].
  - now rewrite ext_type_eqb_refl.
  - apply Forall_cons_iff in H as [Hx H]. destruct (ext_type_eqb (bk_type x) (bk_type k)) eqn:E; [apply ext_type_eqb_eq in E; contradiction|].
    f_equal. now apply IH.
Qed.
Lemma has_ext_lookup d hd l tl t off b : layout d hd l tl -> t <> XNone -> has_ext d t off b -> lookup t (ext_list l) = Some b.
Proof.
  intros HL Ht HE. destruct (has_ext_block _ _ _ _ _ _ _ HL Ht HE) as (l1 & k & l2 & -> & <- & <- & _ & Hf).
  now apply lookup_block.
Qed.

Lemma put_with_size b n : (8 <= length b)%nat -> put b 0 (le_enc 8 n) = with_size n b.
Proof.
  intro H. unfold put, with_size. change (Z.to_nat 0) with 0%nat. cbn [firstn app].
  rewrite le_enc_length. reflexivity.
Qed.
Lemma with_size_fields n b : (16 <= length b)%nat -> 0 <= n < two64 ->
  length (with_size n b) = length b /\ gr_size (with_size n b) = n /\ gr_max (with_size n b) = gr_max b /\
  gr_delegate (with_size n b) = gr_delegate b.
Proof.
  intros H Hn. unfold with_size. assert (L : length (le_enc 8 n) = 8%nat) by apply le_enc_length.
  assert (LL : length (le_enc 8 n ++ skipn 8 b) = length b) by (rewrite app_length, skipn_length; lia).
  assert (S : forall o m, (8 <= o)%nat -> sub (le_enc 8 n ++ skipn 8 b) o m = sub b o m).
  { intros o m Ho. unfold sub. rewrite skipn_app. rewrite skipn_all2 by lia. cbn [app]. rewrite skipn_skipn. do 2 f_equal. lia. }
  split; [exact LL|]. split; [|split].
  - unfold gr_size, sub. change (skipn 0 (le_enc 8 n ++ skipn 8 b)) with (le_enc 8 n ++ skipn 8 b).
    rewrite firstn_app, L, Nat.sub_diag. rewrite firstn_all2 by lia. rewrite firstn_O, app_nil_r. now apply le_dec_enc8.
  - unfold gr_max. now rewrite S by lia.
  - unfold gr_delegate. now rewrite LL, S by lia.
Qed.

(** rewriting the size in a well-formed group *)
Lemma layout_size gd hd l tl off b n : layout gd hd l tl -> has_ext gd XGrouping off b -> (16 <= length b)%nat ->
  exists l', layout (put gd off (le_enc 8 n)) hd l' tl /\ map bk_type l' = map bk_type l /\
    lookup XGrouping (ext_list l) = Some b /\ ext_list l' = replaced XGrouping (with_size n b) (ext_list l).
Proof.
  intros HL HE Hb. assert (Ht : XGrouping <> XNone) by discriminate.
  destruct (has_ext_block _ _ _ _ _ _ _ HL Ht HE) as (l1 & k & l2 & -> & Hk & <- & -> & Hf).
  assert (Hz : zlen (le_enc 8 n) = 8) by apply le_enc_zlen.
  pose proof (layout_put _ _ _ _ _ _ 0 (le_enc 8 n) HL ltac:(lia) ltac:(unfold zlen in *; lia)) as L.
  rewrite Z.add_0_r in L. rewrite put_with_size in L by lia.
  exists (l1 ++ with_data k (with_size n (bk_data k)) :: l2). rewrite <- Hk in Hf |- *.
  split; [exact L|]. split; [now rewrite !map_app|]. split; [now apply lookup_block|]. now apply replaced_block.
Qed.

Lemma group_signer_spec gd b gr k off : grouping_from_bytes off b = Ok gr ->
  group_signer_ok (f_authority gd) gr k = true -> group_signer gd b k.
Proof.
  intros Hg H. apply grouping_ok in Hg as (_ & -> & _). unfold group_signer_ok in H. cbn [g_delegate] in H.
  destruct (key_is (f_authority gd) k) eqn:E; [left; now apply key_is_spec|].
  destruct (nullable (gr_delegate b)) as [x|] eqn:En; [|discriminate]. apply nullable_some in En as [<- Hn].
  right. split; [assumption|]. now apply key_is_spec.
Qed.
Lemma group_signer_complete gd b gr k off : grouping_from_bytes off b = Ok gr -> group_signer gd b k ->
  group_signer_ok (f_authority gd) gr k = true.
Proof.
  intros Hg H. apply grouping_ok in Hg as (_ & -> & _). unfold group_signer_ok. cbn [g_delegate].
  destruct (key_is (f_authority gd) k) eqn:E; [reflexivity|]. destruct H as [H|[H1 H2]].
  - rewrite f_authority_s in E. apply key_is_spec in H. congruence.
  - destruct (nullable (gr_delegate b)) as [x|] eqn:En; [|apply nullable_none in En; contradiction].
    apply nullable_some in En as [<- _]. now apply key_is_spec.
Qed.

(** everything but the data of two accounts is kept *)
Definition two_data (w w' : world) (a b : pubkey) : Prop :=
  (forall k, k <> a -> k <> b -> w' k = w k) /\
  (forall k, lamports (w' k) = lamports (w k) /\ acct_owner (w' k) = acct_owner (w k)).
Lemma two_sets e infos w a b da db w1 w' : a <> b -> set_data e infos w a da = Ok w1 -> set_data e infos w1 b db = Ok w' ->
  two_data w w' a b /\ data (w' a) = da /\ data (w' b) = db.
Proof.
  intros Hab H1 H2. split; [split|split].
  - intros k Ka Kb. rewrite (set_data_other _ _ _ _ _ _ k H2), (set_data_other _ _ _ _ _ _ k H1) by assumption. reflexivity.
  - intro k. rewrite (set_data_lam _ _ _ _ _ _ k H2), (set_data_lam _ _ _ _ _ _ k H1).
    rewrite (set_data_owner _ _ _ _ _ _ k H2), (set_data_owner _ _ _ _ _ _ k H1). auto.
  - rewrite (set_data_other _ _ _ _ _ _ a H2) by assumption. now apply set_data_data in H1.
  - now apply set_data_data in H2.
Qed.

Lemma do_group_inv e infos w a g k w' : sized w -> do_group e infos w a g k = Ok w' ->
  is_signer infos k = true /\ acct_owner (w a) = e_prog e /\ acct_owner (w g) = e_prog e /\
  initialized (data (w a)) /\ initialized (data (w g)) /\ g <> a /\
  s_group (data (w a)) = no_key /\ s_authority (data (w g)) = s_authority (data (w a)) /\
  exists off b, has_ext (data (w g)) XGrouping off b /\ (16 <= length b <= 48)%nat /\ 184 <= off /\ group_signer (data (w g)) b k /\
    (gr_max b = 0 \/ gr_size b < gr_max b) /\
    two_data w w' a g /\ data (w' a) = put (data (w a)) 36 (pk_bytes g) /\
    data (w' g) = put (data (w g)) off (le_enc 8 ((gr_size b + 1) mod two64)).
Proof.
  intros Hs H. unfold do_group in H.
  apply require_ok in H as [H1 H]. apply require_ok in H as [H2 H]. apply require_ok in H as [H3 H]. cbv zeta in H.
  apply require_ok in H as [H4 H]. apply require_ok in H as [H5 H]. apply require_ok in H as [H6 H].
  apply require_ok in H as [H7 H]. apply require_ok in H as [H8 H]. apply bind_ok in H as (r & Hr & H).
  destruct r as [[off b]|]; [|discriminate]. apply bind_ok in H as (gr & Hgr & H).
  apply require_ok in H as [H9 H]. apply require_ok in H as [H10 H]. apply bind_ok in H as (w1 & S1 & S2).
  unfold owned_by_prog in H2, H3. apply pk_eqb_eq in H2, H3. apply is_asset_spec in H4, H6.
  assert (Hne : g <> a) by (intros ->; rewrite pk_eqb_refl in H5; discriminate).
  pose proof (sized_wf_two64 w g Hs H6) as Hz. apply sect_get_some in Hr as [Hr Ho]; [|assumption].
  pose proof (group_signer_spec _ _ _ _ _ Hgr H9) as G. apply grouping_ok in Hgr as (Hb & -> & _). cbn [g_size g_max] in *.
  split; [assumption|]. split; [assumption|]. split; [assumption|]. split; [assumption|]. split; [assumption|]. split; [assumption|].
  split. { destruct (nullable (f_group (data (w a)))) eqn:E; [discriminate|]. now apply nullable_none in E. }
  split. { now apply bytes_eqb_eq in H8. }
  exists (168 + off), b. split; [assumption|]. split; [assumption|]. split; [lia|]. split; [assumption|].
  split. { apply orb_true_iff in H10 as [H10|H10]; [left|right]; lia. }
  eapply two_sets; eauto.
Qed.

(** the facts an observer gets out of the byte-level effect *)
Lemma put_group_field d g : 168 <= zlen d ->
  same_except d (put d 36 (pk_bytes g)) 36 32 /\ s_group (put d 36 (pk_bytes g)) = pk_bytes g.
Proof.
  intro Hd. pose proof (pk_zlen g) as P. split.
  - pose proof (put_same_except d 36 (pk_bytes g)) as L. rewrite pk_length, P in L. apply L; lia.
  - pose proof (sub_put_same d Hd 36 (pk_bytes g) ltac:(lia) ltac:(lia)) as L. rewrite pk_length in L. exact L.
Qed.

Lemma group_effect e infos w w' : sized w -> process e infos w IGroup = Ok w' ->
  exists asset group auth off b, arg infos 0 asset /\ arg infos 1 group /\ arg infos 2 auth /\ signed infos auth /\
    asset <> group /\ acct_owner (w asset) = e_prog e /\ acct_owner (w group) = e_prog e /\
    initialized (data (w asset)) /\ initialized (data (w group)) /\
    s_group (data (w asset)) = no_key /\ s_authority (data (w asset)) = s_authority (data (w group)) /\
    has_ext (data (w group)) XGrouping off b /\ group_signer (data (w group)) b auth /\
    (gr_max b = 0 \/ gr_size b < gr_max b) /\
    (forall k, k <> asset -> k <> group -> w' k = w k) /\
    (forall k, lamports (w' k) = lamports (w k) /\ acct_owner (w' k) = acct_owner (w k)) /\
    same_except (data (w asset)) (data (w' asset)) 36 32 /\ s_group (data (w' asset)) = pk_bytes group /\
    same_except (data (w group)) (data (w' group)) (Z.to_nat off) 8 /\
    le_dec (sub (data (w' group)) (Z.to_nat off) 8) = (gr_size b + 1) mod two64.
Proof.
  intros Hs H. apply process_dispatch in H. cbn [dispatch] in H. unfold process_group in H.
  apply bind_ok in H as (asset & A0 & H). apply bind_ok in H as (group & A1 & H). apply bind_ok in H as (auth & A2 & H).
  apply acct_arg in A0, A1, A2.
  apply do_group_inv in H as (S & O1 & O2 & I1 & I2 & Hne & Hg & Ha & off & b & HE & Hb & Ho & Gs & Hm & (T1 & T2) & D1 & D2); [|assumption].
  apply signed_acct in S. exists asset, group, auth, off, b.
  pose proof (initialized_len _ I1). destruct (put_group_field (data (w asset)) group) as [F1 F2]; [assumption|].
  pose proof (has_ext_range _ _ _ _ HE) as [R1 R2].
  destruct (put_size (data (w group)) off b ((gr_size b + 1) mod two64)) as [P1 P2]; try lia; try (apply Z.mod_pos_bound; reflexivity).
  rewrite D1, D2. repeat (split; [solve [auto | congruence]|]). exact P2.
Qed.

Lemma ungroup_effect e infos w w' : sized w -> process e infos w IUngroup = Ok w' ->
  exists asset group auth off b, arg infos 0 asset /\ arg infos 1 group /\ arg infos 2 auth /\ signed infos auth /\
    asset <> group /\ acct_owner (w asset) = e_prog e /\ acct_owner (w group) = e_prog e /\
    initialized (data (w asset)) /\ initialized (data (w group)) /\
    s_group (data (w asset)) = pk_bytes group /\
    has_ext (data (w group)) XGrouping off b /\ group_signer (data (w group)) b auth /\
    (forall k, k <> asset -> k <> group -> w' k = w k) /\
    (forall k, lamports (w' k) = lamports (w k) /\ acct_owner (w' k) = acct_owner (w k)) /\
    same_except (data (w asset)) (data (w' asset)) 36 32 /\ s_group (data (w' asset)) = no_key /\
    same_except (data (w group)) (data (w' group)) (Z.to_nat off) 8 /\
    le_dec (sub (data (w' group)) (Z.to_nat off) 8) = (gr_size b - 1) mod two64 /\
    data (w' asset) = put (data (w asset)) 36 no_key /\
    data (w' group) = put (data (w group)) off (le_enc 8 ((gr_size b - 1) mod two64)) /\ (16 <= length b <= 48)%nat.
Proof.
  intros Hs H. apply process_dispatch in H. cbn [dispatch] in H. unfold process_ungroup in H.
  apply bind_ok in H as (asset & A0 & H). apply bind_ok in H as (group & A1 & H). apply bind_ok in H as (auth & A2 & H).
  apply acct_arg in A0, A1, A2.
  apply require_ok in H as [H1 H]. apply require_ok in H as [H2 H]. apply require_ok in H as [H3 H]. cbv zeta in H.
  apply require_ok in H as [H4 H]. apply require_ok in H as [H5 H]. apply require_ok in H as [H6 H].
  apply require_ok in H as [H7 H]. apply bind_ok in H as (r & Hr & H).
  destruct r as [[off b]|]; [|discriminate]. apply bind_ok in H as (gr & Hgr & H).
  apply require_ok in H as [H9 H]. apply bind_ok in H as (w1 & S1 & S2).
  unfold owned_by_prog in H2, H3. apply pk_eqb_eq in H2, H3. apply is_asset_spec in H4, H6.
  assert (Hne : asset <> group) by (intros ->; rewrite pk_eqb_refl in H5; discriminate).
  pose proof (sized_wf_two64 w group Hs H6) as Hz. apply sect_get_some in Hr as [Hr Ho]; [|assumption].
  pose proof (group_signer_spec _ _ _ _ _ Hgr H9) as G. apply grouping_ok in Hgr as (Hb & -> & _). cbn [g_size g_max] in *.
  apply key_is_spec in H7. apply signed_acct in H1.
  destruct (two_sets _ _ _ _ _ _ _ _ _ Hne S1 S2) as ((T1 & T2) & D1 & D2).
  exists asset, group, auth, (168 + off), b.
  pose proof (initialized_len _ H4) as Hl.
  assert (F : same_except (data (w asset)) (put (data (w asset)) 36 zero32) 36 32 /\ s_group (put (data (w asset)) 36 zero32) = no_key).
  { split.
    - pose proof (put_same_except (data (w asset)) 36 zero32) as L. change (length zero32) with 32%nat in L. change (zlen zero32) with 32 in L. apply L; lia.
    - pose proof (sub_put_same (data (w asset)) Hl 36 zero32 ltac:(lia) ltac:(change (zlen zero32) with 32; lia)) as L. exact L. }
  destruct F as [F1 F2].
  pose proof (has_ext_range _ _ _ _ Hr) as [R1 R2].
  destruct (put_size (data (w group)) (168 + off) b ((gr_size b - 1) mod two64)) as [P1 P2]; try lia; try (apply Z.mod_pos_bound; reflexivity).
  rewrite D1, D2. repeat (split; [solve [auto | congruence]|]). lia.
Qed.

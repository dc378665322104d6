(** The program and the registry (C77). *)
From Verif Require Import Base State Layout Constr Ext World Proc BaseL Spec SpecB SpecC SpecH SpecG SpecS WorldL ProcSteps FrameL LayoutL LayoutE HeadL CreatorsL AuthL AuthM AllocL GroupL CreateL ResizeL UpdateL UpdateM RemoveL VerifyL StepL StepH BornL CountL CountM CountH.
From Coq Require Import Strings.Byte.

(** ** Header fields after one write *)
Section View.
Variables (d : bytes) (L : list (ext_type * bytes)).
Hypothesis (Hd : 168 <= zlen d).
Lemma put_other o bs : 0 <= o -> o + zlen bs <= 168 ->
  (forall j, Z.of_nat j < o \/ o + zlen bs <= Z.of_nat j -> nth j (put d o bs) x00 = nth j d x00) /\
  (forall j n, Z.of_nat j + Z.of_nat n <= o \/ o + zlen bs <= Z.of_nat j -> sub (put d o bs) j n = sub d j n).
Proof. intros. split; intros; [now apply nth_put_other|now apply sub_put_other]. Qed.
Ltac fields N S := unfold view, s_owner, s_group, s_authority, s_delegate, s_roles, s_state, s_standard, s_mutable, s_name;
  try rewrite (N 1%nat) by lia; try rewrite (N 2%nat) by lia; try rewrite (N 3%nat) by lia; try rewrite (N 132%nat) by lia;
  try rewrite (S 4%nat 32%nat) by lia; try rewrite (S 36%nat 32%nat) by lia; try rewrite (S 68%nat 32%nat) by lia; try rewrite (S 100%nat 32%nat) by lia; try rewrite (S 133%nat 35%nat) by lia.
Lemma view_state b : view (put d 1 [b]) L = with_lock (same_byte b x01) (view d L).
Proof.
  destruct (put_other 1 [b] ltac:(lia) ltac:(change (zlen [b]) with 1; lia)) as [N S]. change (zlen [b]) with 1 in *.
  pose proof (nth_put_one d 1 b ltac:(lia) ltac:(lia)) as Q. change (Z.to_nat 1) with 1%nat in Q. fields N S. rewrite Q. reflexivity.
Qed.
Lemma view_owner k : view (put d 4 (pk_bytes k)) L = with_owner (pk_bytes k) (view d L).
Proof.
  destruct (put_other 4 (pk_bytes k) ltac:(lia) ltac:(rewrite pk_zlen; lia)) as [N S]. rewrite pk_zlen in *.
  pose proof (sub_put_same d Hd 4 (pk_bytes k) ltac:(lia) ltac:(rewrite pk_zlen; lia)) as Q. rewrite pk_length in Q. change (Z.to_nat 4) with 4%nat in Q.
  fields N S. rewrite Q. reflexivity.
Qed.
Lemma view_group g : length g = 32%nat -> view (put d 36 g) L = with_group (key_opt g) (view d L).
Proof.
  intro E. assert (Z32 : zlen g = 32) by (unfold zlen; rewrite E; reflexivity).
  destruct (put_other 36 g ltac:(lia) ltac:(lia)) as [N S]. rewrite Z32 in *.
  pose proof (sub_put_same d Hd 36 g ltac:(lia) ltac:(lia)) as Q. rewrite E in Q. change (Z.to_nat 36) with 36%nat in Q.
  fields N S. rewrite Q. reflexivity.
Qed.
Lemma view_authority k : view (put d 68 (pk_bytes k)) L = with_authority (pk_bytes k) (view d L).
Proof.
  destruct (put_other 68 (pk_bytes k) ltac:(lia) ltac:(rewrite pk_zlen; lia)) as [N S]. rewrite pk_zlen in *.
  pose proof (sub_put_same d Hd 68 (pk_bytes k) ltac:(lia) ltac:(rewrite pk_zlen; lia)) as Q. rewrite pk_length in Q. change (Z.to_nat 68) with 68%nat in Q.
  fields N S. rewrite Q. reflexivity.
Qed.
Lemma view_roles r : view (put d 132 [r]) L =
  with_delegate (match key_opt (s_delegate d) with Some k => Some (k, rights_of r) | None => None end) (view d L) /\ s_roles (put d 132 [r]) = r.
Proof.
  destruct (put_other 132 [r] ltac:(lia) ltac:(change (zlen [r]) with 1; lia)) as [N S]. change (zlen [r]) with 1 in *.
  pose proof (nth_put_one d 132 r ltac:(lia) ltac:(lia)) as Q. change (Z.to_nat 132) with 132%nat in Q. split; [|exact Q]. fields N S. rewrite Q. reflexivity.
Qed.
Lemma view_delegate k r : length k = 32%nat -> view (put d 100 (k ++ [r])) L =
  with_delegate (match key_opt k with Some k => Some (k, rights_of r) | None => None end) (view d L) /\ s_roles (put d 100 (k ++ [r])) = r.
Proof.
  intro E. assert (Z33 : zlen (k ++ [r]) = 33) by (unfold zlen; rewrite app_length, E; reflexivity).
  destruct (put_other 100 (k ++ [r]) ltac:(lia) ltac:(lia)) as [N S]. rewrite Z33 in *.
  pose proof (sub_put_same d Hd 100 (k ++ [r]) ltac:(lia) ltac:(lia)) as Q. rewrite app_length, E in Q. change (Z.to_nat 100) with 100%nat in Q. cbn [length Nat.add] in Q.
  assert (Q1 : sub (put d 100 (k ++ [r])) 100 32 = k).
  { apply (f_equal (firstn 32)) in Q. rewrite firstn_app, (firstn_all2 k) in Q by lia. rewrite E, Nat.sub_diag, firstn_O, app_nil_r in Q.
    transitivity (firstn 32 (sub (put d 100 (k ++ [r])) 100 33)); [unfold sub; rewrite firstn_firstn; reflexivity|exact Q]. }
  assert (Q2 : nth 132 (put d 100 (k ++ [r])) x00 = r).
  { apply (f_equal (fun l => nth 32 l x00)) in Q. rewrite app_nth2, E in Q by lia. cbn [Nat.sub nth] in Q. unfold sub in Q.
    rewrite nth_firstn_lt, nth_skipn in Q by lia. exact Q. }
  split; [|exact Q2]. fields N S. rewrite Q1, Q2. reflexivity.
Qed.
End View.

(** ** Pictures *)
Definition rset (R : registry) (a : pubkey) (o : option asset) : registry := fun k => if pk_eqb k a then o else R k.
Lemma rset_same R a o : rset R a o a = o.
Proof. unfold rset. now rewrite pk_eqb_refl. Qed.
Lemma rset_other R a o k : k <> a -> rset R a o k = R k.
Proof. intro N. unfold rset. destruct (pk_eqb k a) eqn:E; [apply pk_eqb_eq in E; contradiction|reflexivity]. Qed.
Lemma rset_sets R a o : sets R a o (rset R a o).
Proof. split; [apply rset_same|]. intros. now apply rset_other. Qed.
Lemma rset_sets2 R a o g u : g <> a -> sets2 R a o g u (rset (rset R a o) g u).
Proof.
  intro N. split; [rewrite rset_other by congruence; apply rset_same|]. split; [apply rset_same|].
  intros k N1 N2. now rewrite !rset_other.
Qed.
Definition drawn (p : pubkey) (w : world) (k : pubkey) (o : option asset) : Prop :=
  match o with Some v => asset_of p w k /\ shows (data (w k)) v | None => ~ asset_of p w k end.
Lemma drawn_same p w w' k o : data (w' k) = data (w k) -> acct_owner (w' k) = acct_owner (w k) -> drawn p w k o -> drawn p w' k o.
Proof. intros D O H. unfold drawn in *. destruct o; [rewrite D|]; now rewrite (asset_data p w w' k D O). Qed.
Lemma pictures_drawn p w R : pictures p w R <-> forall k, drawn p w k (R k).
Proof. reflexivity. Qed.
Lemma pictures_same p w w' R R' : pictures p w R -> (forall k, data (w' k) = data (w k)) -> (forall k, acct_owner (w' k) = acct_owner (w k)) ->
  (forall k, R' k = R k) -> pictures p w' R'.
Proof. intros H D O E k. rewrite E. apply (drawn_same p w w' k (R k) (D k) (O k)). apply H. Qed.
Lemma pictures_upd p w w' R a o : pictures p w R -> (forall k, k <> a -> data (w' k) = data (w k) /\ acct_owner (w' k) = acct_owner (w k)) ->
  drawn p w' a o -> pictures p w' (rset R a o).
Proof.
  intros H F Q k. destruct (pk_dec k a) as [->|N]; [rewrite rset_same; exact Q|]. rewrite rset_other by assumption.
  destruct (F k N) as [D O]. apply (drawn_same p w w' k (R k) D O). apply H.
Qed.
Lemma pictures_upd2 p w w' R a o g u : pictures p w R -> g <> a ->
  (forall k, k <> a -> k <> g -> data (w' k) = data (w k) /\ acct_owner (w' k) = acct_owner (w k)) ->
  drawn p w' a o -> drawn p w' g u -> pictures p w' (rset (rset R a o) g u).
Proof.
  intros H N F Q1 Q2 k. destruct (pk_dec k g) as [->|Ng]; [rewrite rset_same; exact Q2|]. rewrite rset_other by assumption.
  destruct (pk_dec k a) as [->|Na]; [rewrite rset_same; exact Q1|]. rewrite rset_other by assumption.
  destruct (F k Na Ng) as [D O]. apply (drawn_same p w w' k (R k) D O). apply H.
Qed.
Lemma pictured p w R k : pictures p w R -> asset_of p w k -> exists v, R k = Some v /\ shows (data (w k)) v.
Proof. intros H A. specialize (H k). destruct (R k) as [v|]; [exists v; split; [reflexivity|apply H]|contradiction]. Qed.
Lemma unpictured p w R k : pictures p w R -> ~ asset_of p w k -> R k = None.
Proof. intros H A. specialize (H k). destruct (R k) as [v|]; [elim A; apply H|reflexivity]. Qed.
Lemma init_zlen d : initialized d -> 168 <= zlen d.
Proof. intros [H _]. unfold zlen. lia. Qed.

(** a header write that keeps kind and extensions *)
Lemma shows_put d v o bs f : shows d v -> 1 <= o -> o + zlen bs <= 168 ->
  (forall L, 168 <= zlen d -> view (put d o bs) L = f (view d L)) -> Z.of_N (Byte.to_N (s_roles (put d o bs))) < 8 -> shows (put d o bs) (f v).
Proof.
  intros (I1 & R1 & l & (hd & n & HL) & ->) Ho Hb Hf Hr. pose proof (init_zlen _ I1) as Z1.
  assert (Z2 : zlen (put d o bs) = zlen d) by (apply zlen_put; lia).
  destruct (put_other d Z1 o bs ltac:(lia) Hb) as [N S].
  split. { split; [unfold zlen in Z2, Z1; lia|]. destruct I1 as [_ I1]. unfold s_disc in *. rewrite N by lia. exact I1. }
  split; [exact Hr|]. exists l. split; [exists (put hd o bs), n; apply layout_head; [exact HL|lia|lia]|]. symmetry. now apply Hf.
Qed.
Lemma roles_kept d o bs : 168 <= zlen d -> 0 <= o -> o + zlen bs <= 132 -> s_roles (put d o bs) = s_roles d.
Proof. intros H1 H2 H3. destruct (put_other d H1 o bs ltac:(lia) ltac:(lia)) as [N _]. unfold s_roles. apply N. lia. Qed.
(** a payload of the same length *)
Lemma shows_payload d v t off b b' : shows d v -> t <> XNone -> has_ext d t off b -> length b' = length b ->
  lookup t (as_exts v) = Some b /\ shows (put d off b') (with_exts (replaced t b' (as_exts v)) v).
Proof.
  intros (I1 & R1 & l & (hd & n & HL) & ->) Ht HE Hb.
  destruct (layout_payload _ _ _ _ t off b b' HL Ht HE Hb) as (l' & L' & _ & Hlk & El).
  cbn [view as_exts]. split; [exact Hlk|]. pose proof (head_eq_layout _ _ _ _ _ _ _ HL L') as HE'.
  apply head_eq_fields in HE' as (F1 & F2 & F3 & F4 & F5 & F6 & F7 & F8 & F9 & F10).
  pose proof (layout_zlen_ge _ _ _ _ L') as Z'. unfold zlen in Z'.
  split. { split; [lia|]. destruct I1 as [_ I1]. congruence. }
  split; [congruence|]. exists l'. split; [exists hd, n; exact L'|]. unfold with_exts, view. cbn [as_owner as_group as_authority as_delegate as_locked as_standard as_mutable as_name as_exts].
  rewrite El, F2, F3, F4, F5, F6, F7, F8, F9, F10. reflexivity.
Qed.
Lemma shows_size d v off b n : shows d v -> has_ext d XGrouping off b -> (16 <= length b)%nat ->
  lookup XGrouping (as_exts v) = Some b /\ shows (put d off (le_enc 8 n)) (grown n b v).
Proof.
  intros (I1 & R1 & l & (hd & m & HL) & ->) HE Hb.
  destruct (layout_size _ _ _ _ off b n HL HE Hb) as (l' & L' & _ & Hlk & El).
  cbn [view as_exts]. split; [exact Hlk|]. pose proof (head_eq_layout _ _ _ _ _ _ _ HL L') as HE'.
  apply head_eq_fields in HE' as (F1 & F2 & F3 & F4 & F5 & F6 & F7 & F8 & F9 & F10).
  pose proof (layout_zlen_ge _ _ _ _ L') as Z'. unfold zlen in Z'.
  split. { split; [lia|]. destruct I1 as [_ I1]. congruence. }
  split; [congruence|]. exists l'. split; [exists hd, m; exact L'|]. unfold grown, with_exts, view. cbn [as_owner as_group as_authority as_delegate as_locked as_standard as_mutable as_name as_exts].
  rewrite El, F2, F3, F4, F5, F6, F7, F8, F9, F10. reflexivity.
Qed.

(** ** Rights *)
Lemma role_bits m r : right (rights_of m) r = true <-> has_role m r.
Proof. unfold has_role, right, rights_of. destruct r; cbn [role_bit ri_transfer ri_lock ri_burn]; try reflexivity. split; [discriminate|contradiction]. Qed.
Lemma rights_ext a b : (forall r, right a r = true <-> right b r = true) -> a = b.
Proof.
  intro H. destruct a as [a1 a2 a3], b as [b1 b2 b3].
  pose proof (H RTransfer) as H1. pose proof (H RLock) as H2. pose proof (H RBurn) as H3. cbn [right ri_transfer ri_lock ri_burn] in *.
  f_equal; apply Bool.eq_true_iff_eq; assumption.
Qed.
Lemma right_asked q r : right (asked q) r = true <-> requested q r.
Proof.
  assert (X : forall l x, existsb (same_role x) l = true <-> In x l).
  { intros l x. rewrite existsb_exists. split; [intros (y & Hy & E)|intro Hx; exists x; split; [assumption|destruct x; reflexivity]]. destruct x, y; try discriminate; assumption. }
  destruct q as [|l]; unfold requested; destruct r; cbn [right asked ri_transfer ri_lock ri_burn]; rewrite ?X; intuition congruence.
Qed.
Lemma right_grant a b r : right (grant a b) r = true <-> right a r = true \/ right b r = true.
Proof. destruct r; cbn [right grant ri_transfer ri_lock ri_burn]; rewrite ?orb_true_iff; intuition congruence. Qed.
Lemma right_drop a b r : right (drop a b) r = true <-> right a r = true /\ right b r <> true.
Proof. destruct r; cbn [right drop ri_transfer ri_lock ri_burn]; rewrite ?andb_true_iff, ?negb_true_iff, <- ?not_true_iff_false; intuition congruence. Qed.
Lemma no_rights_spec a : no_rights a = true <-> forall r, right a r <> true.
Proof.
  unfold no_rights. rewrite negb_true_iff, !orb_false_iff. split.
  - intros ((H1 & H2) & H3) r. destruct r; cbn [right]; congruence.
  - intro H. pose proof (H RTransfer) as H1. pose proof (H RLock) as H2. pose proof (H RBurn) as H3. cbn [right] in *.
    rewrite !not_true_iff_false in *. auto.
Qed.
Lemma rights_asked q : rights_of (z2b (roles_of q)) = asked q.
Proof. apply rights_ext. intro r. now rewrite role_bits, granted_roles, right_asked. Qed.
Lemma rights_added m q : rights_of (z2b (Z.lor (b2z m) (roles_of q))) = grant (rights_of m) (asked q).
Proof. apply rights_ext. intro r. now rewrite role_bits, added_roles, right_grant, role_bits, right_asked. Qed.

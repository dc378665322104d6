(** Facts about bytes, slices and outcomes. *)
From Verif Require Import Base.
From Coq Require Import Strings.Byte Eqdep_dec.
From Coq Require Export ZifyBool ZifyNat ZifyN.
Ltac Zify.zify_post_hook ::= Z.div_mod_to_equations.

(** ** Tactics *)
Ltac len := unfold zlen, zeros in *; repeat rewrite ?app_length, ?firstn_length, ?skipn_length,
  ?repeat_length, ?map_length, ?rev_length in *; cbn [length] in *; lia.
Ltac inv H := inversion H; subst; clear H.

(** ** Bytes *)
Lemma beqb_eq a b : beqb a b = true <-> a = b.
Proof. unfold beqb. split; [apply byte_dec_bl | apply byte_dec_lb]. Qed.
Lemma beqb_refl a : beqb a a = true. Proof. now apply beqb_eq. Qed.
Lemma beqb_neq a b : beqb a b = false <-> a <> b.
Proof. rewrite <- not_true_iff_false, beqb_eq. tauto. Qed.

Lemma bytes_eqb_eq a b : bytes_eqb a b = true <-> a = b.
Proof.
  revert b; induction a as [|x a IH]; destruct b as [|y b]; cbn; split; intro H; try easy.
  - apply andb_prop in H as [H1 H2]. apply beqb_eq in H1. apply IH in H2. now subst.
  - inv H. rewrite beqb_refl. now apply IH.
Qed.
Lemma bytes_eqb_refl a : bytes_eqb a a = true. Proof. now apply bytes_eqb_eq. Qed.
Lemma bytes_eqb_neq a b : bytes_eqb a b = false <-> a <> b.
Proof. rewrite <- not_true_iff_false, bytes_eqb_eq. tauto. Qed.
Lemma bytes_eqb_sym a b : bytes_eqb a b = bytes_eqb b a.
Proof.
  destruct (bytes_eqb a b) eqn:E; symmetry.
  - apply bytes_eqb_eq in E. subst. apply bytes_eqb_refl.
  - apply bytes_eqb_neq. apply bytes_eqb_neq in E. congruence.
Qed.

Lemma pk_ext a b : pk_bytes a = pk_bytes b -> a = b.
Proof.
  destruct a as [a pa], b as [b pb]; cbn. intros ->. f_equal.
  apply UIP_dec, bool_dec.
Qed.
Lemma pk_eqb_eq a b : pk_eqb a b = true <-> a = b.
Proof.
  unfold pk_eqb. rewrite bytes_eqb_eq. split; [apply pk_ext | now intros ->].
Qed.
Lemma pk_eqb_refl a : pk_eqb a a = true. Proof. now apply pk_eqb_eq. Qed.
Lemma pk_eqb_neq a b : pk_eqb a b = false <-> a <> b.
Proof. rewrite <- not_true_iff_false, pk_eqb_eq. tauto. Qed.
Lemma pk_eqb_sym a b : pk_eqb a b = pk_eqb b a.
Proof. apply bytes_eqb_sym. Qed.
Lemma pk_length k : length (pk_bytes k) = 32%nat.
Proof. destruct k as [b p]; cbn. now apply Nat.eqb_eq. Qed.
Lemma pk_zlen k : zlen (pk_bytes k) = 32.
Proof. unfold zlen. now rewrite pk_length. Qed.
Lemma pk_dec (a b : pubkey) : {a = b} + {a <> b}.
Proof. destruct (pk_eqb a b) eqn:E; [left; now apply pk_eqb_eq | right; now apply pk_eqb_neq]. Qed.

Lemma b2z_range b : 0 <= b2z b < 256.
Proof. unfold b2z. pose proof (Byte.to_N_bounded b). lia. Qed.
Lemma z2b_b2z b : z2b (b2z b) = b.
Proof.
  unfold z2b. pose proof (b2z_range b). rewrite Z.mod_small by lia.
  unfold b2z. rewrite N2Z.id. now rewrite Byte.of_to_N.
Qed.
Lemma b2z_z2b z : b2z (z2b z) = z mod 256.
Proof.
  unfold z2b, b2z. pose proof (Z.mod_pos_bound z 256 ltac:(lia)).
  destruct (Byte.of_N (Z.to_N (z mod 256))) eqn:E.
  - apply Byte.to_of_N in E. rewrite E. lia.
  - apply Byte.of_N_None_iff in E. lia.
Qed.
Lemma b2z_inj a b : b2z a = b2z b -> a = b.
Proof. intro H. rewrite <- (z2b_b2z a), <- (z2b_b2z b). now rewrite H. Qed.

(** ** Little endian *)
Lemma le_enc_length n z : length (le_enc n z) = n.
Proof. revert z; induction n; cbn; auto. Qed.
Lemma le_enc_zlen n z : zlen (le_enc n z) = Z.of_nat n.
Proof. unfold zlen. now rewrite le_enc_length. Qed.
Lemma le_dec_range b : 0 <= le_dec b < 256 ^ zlen b.
Proof.
  induction b as [|x b IH]; [cbn; lia|].
  unfold zlen in *. cbn [le_dec length]. rewrite Nat2Z.inj_succ, Z.pow_succ_r by lia.
  pose proof (b2z_range x). nia.
Qed.
Lemma le_dec_enc n z : le_dec (le_enc n z) = z mod 256 ^ Z.of_nat n.
Proof.
  revert z; induction n as [|n IH]; intro z.
  - cbn. now rewrite Z.mod_1_r.
  - cbn [le_enc le_dec]. rewrite IH, b2z_z2b, Nat2Z.inj_succ, Z.pow_succ_r by lia.
    rewrite (Z.rem_mul_r z 256 (256 ^ Z.of_nat n)); lia.
Qed.
Lemma le_dec_enc_small n z : 0 <= z < 256 ^ Z.of_nat n -> le_dec (le_enc n z) = z.
Proof. intro H. rewrite le_dec_enc. now apply Z.mod_small. Qed.
Lemma le_dec_enc4 z : 0 <= z <= u32_max -> le_dec (le_enc 4 z) = z.
Proof. intro H. apply le_dec_enc_small. unfold u32_max in H. cbn. lia. Qed.
Lemma le_dec_enc8 z : 0 <= z < two64 -> le_dec (le_enc 8 z) = z.
Proof. intro H. apply le_dec_enc_small. unfold two64 in H. cbn. lia. Qed.
Lemma le_enc_dec b : le_enc (length b) (le_dec b) = b.
Proof.
  induction b as [|x b IH]; [reflexivity|].
  cbn [length le_enc le_dec]. pose proof (b2z_range x). f_equal.
  - rewrite <- (z2b_b2z x) at 2. apply b2z_inj. rewrite !b2z_z2b.
    rewrite Z.mul_comm, Z.mod_add by lia. reflexivity.
  - replace ((b2z x + 256 * le_dec b) / 256) with (le_dec b) by lia. exact IH.
Qed.
Lemma le_enc_mod n z : le_enc n (z mod 256 ^ Z.of_nat n) = le_enc n z.
Proof.
  rewrite <- le_dec_enc. rewrite <- (le_enc_length n z) at 1. apply le_enc_dec.
Qed.

(** ** Lengths *)
Lemma zlen_nonneg {A} (l : list A) : 0 <= zlen l. Proof. len. Qed.
Lemma zlen_app {A} (a b : list A) : zlen (a ++ b) = zlen a + zlen b. Proof. len. Qed.
Lemma zlen_cons {A} x (b : list A) : zlen (x :: b) = 1 + zlen b. Proof. len. Qed.
Lemma zlen_zeros n : 0 <= n -> zlen (zeros n) = n. Proof. intro. len. Qed.
Lemma zlen_0 {A} (l : list A) : zlen l = 0 -> l = [].
Proof. destruct l; [reflexivity|]. unfold zlen. cbn. lia. Qed.

Lemma zlen_fld d o n : 0 <= o -> 0 <= n -> o + n <= zlen d -> zlen (fld d o n) = n.
Proof. intros. unfold fld. len. Qed.
Lemma zlen_put d o bs : 0 <= o -> o + zlen bs <= zlen d -> zlen (put d o bs) = zlen d.
Proof. intros. unfold put. len. Qed.

(** ** Slices of concatenations *)
Lemma skipn_skipn {A} m n (l : list A) : skipn m (skipn n l) = skipn (n + m) l.
Proof.
  revert l; induction n as [|n IH]; intro l; [reflexivity|].
  destruct l; cbn [skipn Nat.add]; [now rewrite !skipn_nil | apply IH].
Qed.
Lemma fld_mid A B C o n : o = zlen A -> n = zlen B -> fld (A ++ B ++ C) o n = B.
Proof.
  intros -> ->. unfold fld, zlen. rewrite !Nat2Z.id.
  rewrite skipn_app, skipn_all, Nat.sub_diag. cbn.
  rewrite firstn_app, firstn_all, Nat.sub_diag. cbn. apply app_nil_r.
Qed.
Lemma fld_app_l A B o n : 0 <= o -> 0 <= n -> o + n <= zlen A -> fld (A ++ B) o n = fld A o n.
Proof.
  intros Ho Hn H. unfold fld. rewrite skipn_app, firstn_app.
  replace (Z.to_nat n - length (skipn (Z.to_nat o) A))%nat with 0%nat by len.
  cbn. apply app_nil_r.
Qed.
Lemma fld_app_r A B o n : zlen A <= o -> fld (A ++ B) o n = fld B (o - zlen A) n.
Proof.
  intros H. unfold fld. rewrite skipn_app.
  rewrite (skipn_all2 A) by len. cbn.
  replace (Z.to_nat o - length A)%nat with (Z.to_nat (o - zlen A)) by len. reflexivity.
Qed.
Lemma fld_all A : fld A 0 (zlen A) = A.
Proof. unfold fld, zlen. rewrite Nat2Z.id. apply firstn_all. Qed.
Lemma fld_0 A n : fld A 0 n = firstn (Z.to_nat n) A.
Proof. reflexivity. Qed.
Lemma fld_n0 A o : fld A o 0 = [].
Proof. reflexivity. Qed.
Lemma fld_fld d o n o' n' : 0 <= o -> 0 <= o' -> 0 <= n' -> o' + n' <= n ->
  fld (fld d o n) o' n' = fld d (o + o') n'.
Proof.
  intros. unfold fld. rewrite skipn_firstn_comm, skipn_skipn, firstn_firstn.
  f_equal; [|f_equal]; lia.
Qed.
Lemma fld_skipn d a o n : 0 <= o -> 0 <= a ->
  fld (skipn (Z.to_nat a) d) o n = fld d (a + o) n.
Proof. intros. unfold fld. rewrite skipn_skipn. do 2 f_equal. lia. Qed.
Lemma put_mid A B C o bs : o = zlen A -> zlen bs = zlen B -> put (A ++ B ++ C) o bs = A ++ bs ++ C.
Proof.
  intros -> H. unfold put. rewrite firstn_app.
  replace (Z.to_nat (zlen A)) with (length A) by len.
  rewrite firstn_all, Nat.sub_diag. cbn. rewrite app_nil_r. do 2 f_equal.
  rewrite app_assoc. rewrite skipn_app.
  replace (length A + length bs - length (A ++ B))%nat with 0%nat by len.
  rewrite skipn_all2 by len. reflexivity.
Qed.
Lemma split3 d o n : 0 <= o -> 0 <= n -> o + n <= zlen d ->
  d = firstn (Z.to_nat o) d ++ fld d o n ++ skipn (Z.to_nat (o + n)) d.
Proof.
  intros. unfold fld.
  rewrite <- (firstn_skipn (Z.to_nat o) d) at 1. f_equal.
  rewrite <- (firstn_skipn (Z.to_nat n) (skipn (Z.to_nat o) d)) at 1. f_equal.
  rewrite skipn_skipn. f_equal. lia.
Qed.
Lemma fld_put_same d o bs : 0 <= o -> o + zlen bs <= zlen d -> fld (put d o bs) o (zlen bs) = bs.
Proof.
  intros Ho H. unfold put. apply fld_mid; [|reflexivity]. len.
Qed.
Lemma put_as d o bs : 0 <= o -> o + zlen bs <= zlen d ->
  put d o bs = firstn (Z.to_nat o) d ++ bs ++ skipn (Z.to_nat (o + zlen bs)) d.
Proof. intros. unfold put. do 3 f_equal. len. Qed.
Lemma fld_put_before d o bs o' n' : 0 <= o' -> 0 <= n' -> o' + n' <= o -> o + zlen bs <= zlen d ->
  fld (put d o bs) o' n' = fld d o' n'.
Proof.
  intros. rewrite put_as by lia.
  rewrite fld_app_l by len.
  unfold fld. rewrite skipn_firstn_comm, firstn_firstn. f_equal. lia.
Qed.
Lemma fld_put_after d o bs o' n' : 0 <= o -> o + zlen bs <= o' -> o + zlen bs <= zlen d ->
  fld (put d o bs) o' n' = fld d o' n'.
Proof.
  intros. rewrite put_as by lia. rewrite app_assoc.
  rewrite fld_app_r by len. rewrite fld_skipn by len.
  f_equal. len.
Qed.
Lemma fld_put_other d o bs o' n' : 0 <= o -> 0 <= o' -> 0 <= n' -> o + zlen bs <= zlen d ->
  o' + n' <= o \/ o + zlen bs <= o' ->
  fld (put d o bs) o' n' = fld d o' n'.
Proof.
  intros ? ? ? ? [H|H]; [now apply fld_put_before | now apply fld_put_after].
Qed.
Lemma put_same d o n : 0 <= o -> 0 <= n -> o + n <= zlen d -> put d o (fld d o n) = d.
Proof.
  intros. rewrite put_as by (rewrite ?zlen_fld; lia).
  rewrite zlen_fld by lia. symmetry. now apply split3.
Qed.
Lemma put_nil d o : 0 <= o <= zlen d -> put d o [] = d.
Proof.
  intros. unfold put. cbn. rewrite Nat.add_0_r. apply firstn_skipn.
Qed.
Lemma put_put d o a b : 0 <= o -> zlen a = zlen b -> o + zlen b <= zlen d ->
  put (put d o a) o b = put d o b.
Proof.
  intros. rewrite (put_as d o a) by lia. rewrite (put_as d o b) by lia.
  rewrite H0. apply put_mid; len.
Qed.
Lemma put_app2 d o a b : 0 <= o -> o + zlen a + zlen b <= zlen d ->
  put (put d o a) (o + zlen a) b = put d o (a ++ b).
Proof.
  intros. rewrite (put_as d o (a ++ b)) by len.
  rewrite (split3 d (o + zlen a) (zlen b)) at 1 by (pose proof (zlen_nonneg a); pose proof (zlen_nonneg b); lia).
  rewrite (put_as _ o a) by (len || (rewrite <- split3; len)).
  rewrite <- split3 by (pose proof (zlen_nonneg a); pose proof (zlen_nonneg b); lia).
  rewrite (split3 d (o + zlen a) (zlen b)) at 2 by (pose proof (zlen_nonneg a); pose proof (zlen_nonneg b); lia).
  rewrite skipn_app.
  rewrite (skipn_all2 (firstn _ d)) by len.
  replace (Z.to_nat (o + zlen a) - length (firstn (Z.to_nat (o + zlen a)) d))%nat with 0%nat by len.
  cbn [skipn app]. rewrite app_assoc.
  rewrite put_mid.
  - rewrite <- !app_assoc. rewrite zlen_app. do 4 f_equal. lia.
  - len.
  - rewrite zlen_fld; pose proof (zlen_nonneg a); pose proof (zlen_nonneg b); lia.
Qed.

Lemma list_eq_nth (a b : bytes) : length a = length b -> (forall i, (i < length a)%nat -> nth i a x00 = nth i b x00) -> a = b.
Proof. intros. now apply (nth_ext a b x00 x00). Qed.

(** ** pad8 *)
Lemma pad8_ge n : n <= pad8 n < n + 8. Proof. unfold pad8. lia. Qed.
Lemma pad8_mod n : pad8 n mod 8 = 0. Proof. unfold pad8. lia. Qed.
Lemma pad8_id n : n mod 8 = 0 -> pad8 n = n. Proof. unfold pad8. lia. Qed.
Lemma pad8_add a n : a mod 8 = 0 -> pad8 (a + n) = a + pad8 n. Proof. unfold pad8. lia. Qed.

(** ** Outcomes *)
Lemma bind_ok {A B} (m : res A) (k : A -> res B) b :
  bind m k = Ok b <-> exists a, m = Ok a /\ k a = Ok b.
Proof.
  split.
  - destruct m; cbn; intro H; try discriminate. eauto.
  - intros (a & -> & H). exact H.
Qed.
Lemma require_ok {B} c e (k : res B) b : require c e k = Ok b <-> c = true /\ k = Ok b.
Proof. unfold require. destruct c; intuition congruence. Qed.
Lemma guard_ok {B} c (k : res B) b : guard c k = Ok b <-> c = true /\ k = Ok b.
Proof. unfold guard. destruct c; intuition congruence. Qed.
Lemma ok_or_ok {A} (o : option A) e a : ok_or o e = Ok a <-> o = Some a.
Proof. destruct o; cbn; split; intro H; inv H; auto. Qed.
Lemma map_err_ok {A} (m : res A) e a : map_err m e = Ok a <-> m = Ok a.
Proof. destruct m; cbn; split; intro H; inv H; auto. Qed.
Lemma slice_ok d a b r : slice d a b = Ok r -> 0 <= a /\ a <= b /\ b <= zlen d /\ r = fld d a (b - a) /\ zlen r = b - a.
Proof.
  unfold slice. intro H. apply guard_ok in H as [H1 H2]. inv H2.
  repeat split; try lia. rewrite zlen_fld; lia.
Qed.
Lemma slice_in d a b : 0 <= a -> a <= b -> b <= zlen d -> slice d a b = Ok (fld d a (b - a)).
Proof. intros. unfold slice, guard. now replace ((0 <=? a) && (a <=? b) && (b <=? zlen d)) with true by lia. Qed.

(** one step of inversion of an [Ok] computation *)
Ltac rinv1 H :=
  match type of H with
  | bind ?m _ = Ok _ =>
      let x := fresh "x" in let Hx := fresh "Hx" in
      apply bind_ok in H; destruct H as (x & Hx & H)
  | require ?c _ _ = Ok _ =>
      let Hc := fresh "Hc" in apply require_ok in H; destruct H as [Hc H]
  | guard ?c _ = Ok _ =>
      let Hc := fresh "Hc" in apply guard_ok in H; destruct H as [Hc H]
  | ok_or _ _ = Ok _ => apply ok_or_ok in H
  | map_err _ _ = Ok _ => apply map_err_ok in H
  | (let _ := _ in _) = Ok _ => cbv zeta in H
  | Ok _ = Ok _ => injection H as H; try discriminate H; try subst
  | Err _ = Ok _ => discriminate H
  | Panic = Ok _ => discriminate H
  | UB = Ok _ => discriminate H
  | Diverge = Ok _ => discriminate H
  end.
Ltac rinv H := repeat (rinv1 H).

(** turn boolean hypotheses into propositions *)
Ltac bnorm := repeat match goal with
  | H : (_ && _) = true |- _ => apply andb_prop in H; destruct H
  | H : (_ || _) = false |- _ => apply orb_false_iff in H; destruct H
  | H : negb _ = true |- _ => apply negb_true_iff in H
  | H : pk_eqb _ _ = true |- _ => apply pk_eqb_eq in H
  | H : pk_eqb _ _ = false |- _ => apply pk_eqb_neq in H
  | H : bytes_eqb _ _ = true |- _ => apply bytes_eqb_eq in H
  | H : bytes_eqb _ _ = false |- _ => apply bytes_eqb_neq in H
  | H : beqb _ _ = true |- _ => apply beqb_eq in H
  | H : beqb _ _ = false |- _ => apply beqb_neq in H
  end.

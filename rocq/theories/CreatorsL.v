(** The creators payload as a list of 34-byte entries. *)
From Verif Require Import Base State Layout Constr Ext World Proc BaseL Spec WorldL LayoutL HeadL.
From Coq Require Import Strings.Byte.

Definition cr_wf (l : list creator) : Prop := Forall (fun c => length (cr_addr c) = 32%nat) l.

Lemma dec_length n : forall b, length (dec_creators n b) = n.
Proof. induction n; intro b; cbn [dec_creators length]; auto. Qed.
Lemma dec_wf n : forall b, (34 * n <= length b)%nat -> cr_wf (dec_creators n b).
Proof.
  induction n as [|n IH]; intros b H; [constructor|]. cbn [dec_creators]. constructor.
  - cbn [cr_addr]. rewrite firstn_length. lia.
  - apply IH. rewrite skipn_length. lia.
Qed.
Lemma sub_skipn b a o n : sub (skipn a b) o n = sub b (a + o) n.
Proof. unfold sub. now rewrite skipn_skipn. Qed.
Lemma nth_skipn (b : bytes) a i : nth i (skipn a b) x00 = nth (a + i) b x00.
Proof.
  revert b; induction a as [|a IH]; intro b; [reflexivity|]. destruct b as [|x b]; [destruct i; reflexivity|].
  cbn [skipn]. rewrite IH. reflexivity.
Qed.
Lemma dec_nth n : forall b i, (i < n)%nat ->
  nth_error (dec_creators n b) i = Some (mkCreator (cr_addr_at b i) (cr_flag_at b i) (cr_share_at b i)).
Proof.
  induction n as [|n IH]; intros b i H; [lia|]. cbn [dec_creators].
  destruct i as [|i].
  - cbn [nth_error]. unfold cr_addr_at, cr_flag_at, cr_share_at, byte_at, sub. cbn [skipn Nat.mul]. reflexivity.
  - cbn [nth_error]. rewrite IH by lia. unfold cr_addr_at, cr_flag_at, cr_share_at.
    rewrite sub_skipn, !nth_skipn.
    replace (34 * S i)%nat with (34 + 34 * i)%nat by lia. now rewrite <- !Nat.add_assoc.
Qed.
Lemma enc_creator_length c : length (cr_addr c) = 32%nat -> length (enc_creator c) = 34%nat.
Proof. intro H. unfold enc_creator. rewrite app_length, H. reflexivity. Qed.
Lemma enc_length l : cr_wf l -> length (enc_creators l) = (34 * length l)%nat.
Proof.
  unfold enc_creators. induction 1 as [|c l Hc Hl IH]; [reflexivity|]. cbn [map concat length].
  rewrite app_length, IH, enc_creator_length by assumption. lia.
Qed.
Lemma enc_dec n : forall b, length b = (34 * n)%nat -> enc_creators (dec_creators n b) = b.
Proof.
  unfold enc_creators. induction n as [|n IH]; intros b H.
  - destruct b; [reflexivity|discriminate].
  - cbn [dec_creators map concat]. rewrite IH by (rewrite skipn_length; lia).
    unfold enc_creator. cbn [cr_addr cr_verified cr_share].
    rewrite <- (firstn_skipn 34 b) at 5. f_equal.
    destruct b as [|b0 b]; [discriminate|].
    do 33 (destruct b as [|? b]; [cbn in H; lia|]). reflexivity.
Qed.
Lemma dec_enc l : cr_wf l -> dec_creators (length l) (enc_creators l) = l.
Proof.
  unfold enc_creators. induction 1 as [|c l Hc Hl IH]; [reflexivity|].
  cbn [map concat length dec_creators].
  destruct c as [a v s]. change (enc_creator (mkCreator a v s)) with (a ++ [v; s]).
  set (R := concat (map enc_creator l)) in *. cbn [cr_addr] in Hc.
  unfold byte_at. rewrite <- !app_assoc. cbn [app].
  rewrite firstn_app, Hc, Nat.sub_diag, firstn_O, app_nil_r, firstn_all2 by lia.
  change (Z.to_nat 32) with 32%nat. change (Z.to_nat 33) with 33%nat.
  rewrite !app_nth2 by lia. rewrite Hc. cbn [Nat.sub nth].
  rewrite skipn_app, Hc, skipn_all2 by lia. cbn [Nat.sub skipn app]. f_equal. exact IH.
Qed.
Lemma enc_nth l i c : cr_wf l -> nth_error l i = Some c ->
  cr_addr_at (enc_creators l) i = cr_addr c /\ cr_flag_at (enc_creators l) i = cr_verified c /\
  cr_share_at (enc_creators l) i = cr_share c.
Proof.
  intros Hw H. assert (Hi : (i < length l)%nat) by (apply nth_error_Some; congruence).
  pose proof (dec_nth (length l) (enc_creators l) i Hi) as E. rewrite dec_enc in E by assumption.
  rewrite H in E. inv E. cbn. auto.
Qed.
Lemma enc_count l : cr_wf l -> cr_count (enc_creators l) = length l.
Proof. intro H. unfold cr_count. rewrite enc_length by assumption. rewrite Nat.mul_comm. apply Nat.div_mul. lia. Qed.

Lemma from_bytes_ok b l : creators_from_bytes b = Ok l ->
  length b = (34 * cr_count b)%nat /\ l = dec_creators (cr_count b) b /\ cr_wf l /\ length l = cr_count b.
Proof.
  unfold creators_from_bytes. intro H. apply guard_ok in H as [H1 H2].
  assert (E : length b = (34 * cr_count b)%nat).
  { unfold cr_count. unfold zlen in H1.
    assert (Hm : (length b mod 34 = 0)%nat).
    { apply Nat2Z.inj. rewrite Nat2Z.inj_mod. lia. }
    pose proof (Nat.div_mod (length b) 34). lia. }
  split; [assumption|]. assert (l = dec_creators (cr_count b) b) as -> by (unfold cr_count; congruence).
  split; [reflexivity|]. split; [apply dec_wf; lia|apply dec_length].
Qed.
Lemma from_bytes_enc l : cr_wf l -> creators_from_bytes (enc_creators l) = Ok l.
Proof.
  intro H. unfold creators_from_bytes, guard.
  replace (zlen (enc_creators l) mod 34 =? 0) with true.
  - fold (cr_count (enc_creators l)). now rewrite enc_count, dec_enc.
  - unfold zlen. rewrite enc_length by assumption. symmetry. apply Z.eqb_eq. rewrite Nat2Z.inj_mul.
    rewrite Z.mul_comm. apply Z.mod_mul. lia.
Qed.

(** changing flags only *)
Definition reflag (f : creator -> byte) (l : list creator) : list creator :=
  map (fun c => mkCreator (cr_addr c) (f c) (cr_share c)) l.
Lemma reflag_wf f l : cr_wf l -> cr_wf (reflag f l).
Proof. unfold cr_wf, reflag. intro H. apply Forall_map. eapply Forall_impl; [|exact H]. auto. Qed.
Lemma reflag_length f l : length (reflag f l) = length l.
Proof. apply map_length. Qed.
Lemma reflag_bytes f b l : creators_from_bytes b = Ok l ->
  length (enc_creators (reflag f l)) = length b /\
  (forall i, (i < cr_count b)%nat ->
     cr_addr_at (enc_creators (reflag f l)) i = cr_addr_at b i /\
     cr_share_at (enc_creators (reflag f l)) i = cr_share_at b i /\
     cr_flag_at (enc_creators (reflag f l)) i = f (mkCreator (cr_addr_at b i) (cr_flag_at b i) (cr_share_at b i))) /\
  creators_from_bytes (enc_creators (reflag f l)) = Ok (reflag f l).
Proof.
  intro H. apply from_bytes_ok in H as (H1 & -> & H2 & H3).
  pose proof (reflag_wf f _ H2) as Hw. split; [|split].
  - rewrite enc_length, reflag_length, H3 by assumption. lia.
  - intros i Hi. pose proof (dec_nth (cr_count b) b i Hi) as E.
    destruct (enc_nth (reflag f (dec_creators (cr_count b) b)) i (mkCreator (cr_addr_at b i) (f (mkCreator (cr_addr_at b i) (cr_flag_at b i) (cr_share_at b i))) (cr_share_at b i)) Hw) as (A & B & C).
    + unfold reflag. erewrite map_nth_error by exact E. reflexivity.
    + cbn in A, B, C. auto.
  - now apply from_bytes_enc.
Qed.

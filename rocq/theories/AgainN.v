(** Lemmas: a Write once more (C88). *)
From Verif Require Import Base State Layout Constr Ext World Proc BaseL Spec SpecB SpecF SpecTake WorldL ProcSteps LayoutL LayoutE AuthL HeadL CreateL OverL AllocM.
From Verif Require AllocC VerifyL.
From Coq Require Import Strings.Byte.

Lemma fresh_det t b b1 b2 : acceptable t b -> fresh_payload t None b b1 -> fresh_payload t None b b2 -> b2 = b1.
Proof.
  intros (P & _) (L1 & K1 & C1) (L2 & K2 & C2). assert (D : t = XCreators \/ t <> XCreators) by (destruct t; auto; right; discriminate). destruct D as [->|N].
  - specialize (C1 eq_refl). specialize (C2 eq_refl). cbn [parses] in P. assert (Ec : cr_count b1 = cr_count b) by (unfold cr_count; now rewrite L1).
    apply AllocC.creators_ext; [rewrite Ec; lia|lia|]. intros i Hi. rewrite Ec in Hi.
    destruct (C1 i Hi) as (A1 & S1 & _ & F1), (C2 i Hi) as (A2 & S2 & _ & F2). rewrite A1, A2, S1, S2.
    split; [reflexivity|]. split; [|reflexivity]. rewrite (proj2 F1), (proj2 F2) by discriminate. reflexivity.
  - rewrite (K1 N), (K2 N). reflexivity.
Qed.

(** overwriting puts the same bytes in the same place *)
Lemma overwrite_again e infos w a w1 w2 asset hd l t len bs : arg infos 0 asset -> partial_account (data (w asset)) hd l t len bs -> w_overwrite a = true -> zlen (w_bytes a) <= len ->
  process e infos w (IWrite a) = Ok w1 -> process e infos w1 (IWrite a) = Ok w2 -> forall k, data (w2 k) = data (w1 k).
Proof.
  intros A P O Z H1 H2. destruct (over_effect _ _ _ _ _ _ _ _ _ _ _ A P O Z H1) as (_ & _ & (b1 & P1 & S1 & C1) & _).
  destruct (over_effect _ _ _ _ _ _ _ _ _ _ _ A P1 O Z H2) as (_ & _ & (b2 & P2 & S2 & C2) & R & _).
  intro k. destruct (pk_dec k asset) as [->|N]; [|apply R; exact N].
  assert (E : b2 = b1).
  { destruct (Z.eq_dec (zlen (w_bytes a)) len) as [Q|Q].
    - destruct (C1 Q) as [F1 Ac], (C2 Q) as [F2 _]. exact (fresh_det _ _ _ _ Ac F1 F2).
    - rewrite S1, S2 by lia. reflexivity. }
  subst b2. destruct P1 as [E1 _], P2 as [E2 _]. congruence.
Qed.

(** appending puts them once more behind *)
Lemma append_twice e infos w a w1 w2 asset hd l t len bs : arg infos 0 asset -> partial_account (data (w asset)) hd l t len bs -> w_overwrite a = false ->
  zlen bs + zlen (w_bytes a) < len -> zlen bs + zlen (w_bytes a) + zlen (w_bytes a) < len ->
  process e infos w (IWrite a) = Ok w1 -> process e infos w1 (IWrite a) = Ok w2 -> partial_account (data (w2 asset)) hd l t len (bs ++ w_bytes a ++ w_bytes a).
Proof.
  intros A P O Z1 Z2 H1 H2. pose proof (zlen_nonneg (w_bytes a)). destruct (write_effect _ _ _ _ _ _ _ _ _ _ _ A P ltac:(lia) O ltac:(lia) H1) as (_ & _ & P1 & _). specialize (P1 Z1).
  assert (Zb : zlen (bs ++ w_bytes a) = zlen bs + zlen (w_bytes a)) by apply zlen_app.
  destruct (write_effect _ _ _ _ _ _ _ _ _ _ _ A P1 ltac:(lia) O ltac:(lia) H2) as (_ & _ & P2 & _). rewrite app_assoc. apply P2. lia.
Qed.

(** once the payload is complete and padded, nothing can be written *)
Lemma padded_full e infos w a asset hd l b tl : arg infos 0 asset -> layout (data (w asset)) hd (l ++ [b]) tl ->
  168 + sect_size l + 16 + zlen (bk_data b) < zlen (data (w asset)) -> refused e infos w (IWrite a).
Proof.
  intros A0 HL Z w' H. apply process_dispatch in H. cbn [dispatch] in H. unfold process_write in H.
  apply bind_ok in H as (asset' & B0 & H). apply acct_arg in B0. rewrite <- (arg_det _ _ _ _ A0 B0) in *. clear asset' B0.
  apply bind_ok in H as (payer & B1 & H). apply bind_ok in H as (sysp & B2 & H).
  apply require_ok in H as [C1 H]. apply require_ok in H as [C2 H]. apply require_ok in H as [C3 H].
  apply require_ok in H as [C4 H]. cbv zeta in H. apply require_ok in H as [C5 H]. apply require_ok in H as [C6 H].
  rewrite (layout_last _ _ _ _ HL), last_blk_app in H. cbn [bind last_res option_map fst snd blk_hdr h_len] in H. apply require_ok in H as [C7 _]. apply Z.leb_le in C7. lia.
Qed.
Lemma append_full e infos w a w1 asset hd l t len bs : arg infos 0 asset -> partial_account (data (w asset)) hd l t len bs -> zlen bs < len -> w_overwrite a = false ->
  zlen bs + zlen (w_bytes a) = len -> len mod 8 <> 0 -> process e infos w (IWrite a) = Ok w1 -> forall a2, refused e infos w1 (IWrite a2).
Proof.
  intros A P Zb O Z M H a2. pose proof P as (_ & Hh & F & Nt & _ & Hm).
  destruct (write_effect _ _ _ _ _ _ _ _ _ _ _ A P Zb O ltac:(lia) H) as (_ & _ & _ & X & _). destruct (X Z) as (b' & (L & _) & _ & E).
  assert (Zb' : zlen b' = len) by (unfold zlen in *; rewrite L, app_length; lia). destruct E as [E HL].
  apply (padded_full e infos w1 a2 asset hd l (blk_of t b') [] A HL). rewrite (layout_len _ _ _ _ HL), sect_size_app. cbn [sect_size blk_of bk_data]. rewrite blk_of_size, Zb'. change (zlen []) with 0.
  unfold pad8. lia.
Qed.

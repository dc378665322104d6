(** Resize (C47). *)
From Verif Require Import Base State Layout Constr Ext World Proc BaseL Spec SpecB WorldL ProcSteps LayoutL LayoutE HeadL AuthL AuthM.
From Coq Require Import Strings.Byte.

Lemma check_authority_ok {B} d k (m : res B) r : check_authority d k m = Ok r ->
  initialized d /\ s_authority d = pk_bytes k /\ mutable d /\ m = Ok r.
Proof.
  unfold check_authority. intro H. apply require_ok in H as [H1 H]. apply require_ok in H as [H2 H]. apply require_ok in H as [H3 H].
  apply is_asset_spec in H1. apply key_is_spec in H2. split; [assumption|]. split; [assumption|]. split; [|assumption].
  unfold pod_true in H3. change (byte_at d 3) with (s_mutable d) in H3. bnorm. exact H3.
Qed.

Lemma resize_instr_inv e infos w s w' : process e infos w (IResize s) = Ok w' ->
  exists asset auth, arg infos 0 asset /\ arg infos 1 auth /\ signed infos auth /\ acct_owner (w asset) = e_prog e /\
    initialized (data (w asset)) /\ s_authority (data (w asset)) = pk_bytes auth /\ mutable (data (w asset)) /\
    (forall k, k <> asset -> data (w' k) = data (w k)) /\ (forall k, acct_owner (w' k) = acct_owner (w k)) /\
    match s with
    | Trim => exists l, last_extension (data (w asset)) = Ok l /\
        data (w' asset) = realloc_bytes (data (w asset)) (match l with Some (h, _) => h_bnd h | None => ASSET_LEN end)
    | Extend v => data (w' asset) = realloc_bytes (data (w asset)) (zlen (data (w asset)) + v)
    end.
Proof.
  intro H. apply process_dispatch in H. cbn [dispatch] in H. unfold process_resize in H.
  apply bind_ok in H as (asset & A0 & H). apply bind_ok in H as (auth & A1 & H). apply bind_ok in H as (payer & A2 & H).
  apply bind_ok in H as (sysp & A3 & H). apply acct_arg in A0, A1, A2.
  apply require_ok in H as [Hs H]. apply require_ok in H as [Ho H]. cbv zeta in H.
  unfold owned_by_prog in Ho. apply pk_eqb_eq in Ho. apply signed_acct in Hs.
  apply check_authority_ok in H as (Hi & Ha & Hm & H). exists asset, auth.
  apply bind_ok in H as (size & Hz & H). apply resize_data in H as (D1 & D2 & D3).
  repeat (split; [assumption|]). destruct s as [|v].
  - apply bind_ok in Hz as (l & Hl & Hz). injection Hz as <-. exists l. auto.
  - injection Hz as <-. exact D1.
Qed.

Lemma layout_bnd d hd l tl : layout d hd l tl ->
  match last_res (last_blk 168 l None) with Some (h, _) => h_bnd h | None => ASSET_LEN end = 168 + sect_size l.
Proof.
  intro HL. destruct (list_last_case l) as [->|(l' & b & ->)]; [reflexivity|].
  rewrite last_blk_app. unfold last_res, blk_hdr; cbn [option_map fst snd h_bnd]. rewrite sect_size_app. cbn [sect_size]. lia.
Qed.

Lemma trim_effect e infos w w' asset hd l tl : arg infos 0 asset -> layout (data (w asset)) hd l tl ->
  process e infos w (IResize Trim) = Ok w' ->
  (exists auth, arg infos 1 auth /\ signed infos auth /\ s_authority (data (w asset)) = pk_bytes auth) /\ mutable (data (w asset)) /\
  layout (data (w' asset)) hd l [] /\ (forall k, k <> asset -> data (w' k) = data (w k)) /\
  (forall k, acct_owner (w' k) = acct_owner (w k)).
Proof.
  intros A0 HL H. apply resize_instr_inv in H as (a & auth & B0 & A1 & Sg & Ho & Hi & Ha & Hm & F1 & F2 & l0 & Hl & D).
  rewrite (arg_det _ _ _ _ B0 A0) in *. clear B0 a. split; [eauto|]. split; [assumption|]. split; [|split; assumption].
  rewrite (layout_last _ _ _ _ HL) in Hl. injection Hl as <-. rewrite (layout_bnd _ _ _ _ HL) in D.
  destruct (layout_prefix _ _ _ _ HL) as [E1 E2]. pose proof (layout_len _ _ _ _ HL) as E3. pose proof (zlen_nonneg tl). pose proof (sect_size_nonneg l).
  assert (E : data (w' asset) = hd ++ enc_sect 168 l ++ []).
  { rewrite D, realloc_shrink by lia. rewrite E1 at 1. rewrite firstn_app. unfold zlen in E2.
    replace (Z.to_nat (168 + sect_size l) - length (hd ++ enc_sect 168 l))%nat with 0%nat by lia.
    rewrite firstn_all2 by lia. cbn [firstn]. now rewrite !app_nil_r. }
  rewrite E. eapply layout_tail; [exact HL|left; reflexivity|]. change (zlen []) with 0. destruct HL as (_ & _ & _ & _ & Hz). lia.
Qed.

Lemma extend_effect e infos w w' asset hd l n v : arg infos 0 asset -> 0 <= n -> 0 <= v <= 65535 -> sized w' ->
  layout (data (w asset)) hd l (repeat x00 (Z.to_nat n)) ->
  process e infos w (IResize (Extend v)) = Ok w' ->
  (exists auth, arg infos 1 auth /\ signed infos auth /\ s_authority (data (w asset)) = pk_bytes auth) /\ mutable (data (w asset)) /\
  layout (data (w' asset)) hd l (repeat x00 (Z.to_nat (n + v))) /\ (forall k, k <> asset -> data (w' k) = data (w k)) /\
  (forall k, acct_owner (w' k) = acct_owner (w k)).
Proof.
  intros A0 Hn Hv Hs HL H. apply resize_instr_inv in H as (a & auth & B0 & A1 & Sg & Ho & Hi & Ha & Hm & F1 & F2 & D).
  rewrite (arg_det _ _ _ _ B0 A0) in *. clear B0 a. split; [eauto|]. split; [assumption|]. split; [|split; assumption].
  pose proof (layout_len _ _ _ _ HL) as E3. pose proof (sect_size_nonneg l).
  assert (E : data (w' asset) = hd ++ enc_sect 168 l ++ zeros (n + v)).
  { rewrite D, realloc_grow by lia. replace (zlen (data (w asset)) + v - zlen (data (w asset))) with v by lia.
    destruct HL as (-> & _). rewrite <- !app_assoc. do 2 f_equal. apply (zeros_app n v); lia. }
  rewrite E. eapply layout_tail; [exact HL|apply (tail_zeros (n + v))|]. change (repeat x00 (Z.to_nat (n + v))) with (zeros (n + v)). rewrite zlen_zeros by lia.
  specialize (Hs asset). rewrite D, zlen_realloc in Hs by (pose proof (zlen_nonneg (data (w asset))); lia).
  change (repeat x00 (Z.to_nat n)) with (zeros n) in E3. rewrite zlen_zeros in E3 by lia. lia.
Qed.

(** whatever follows the section, Extend only adds zeros *)
Lemma extend_bytes e infos w w' asset v : arg infos 0 asset -> 0 <= v -> process e infos w (IResize (Extend v)) = Ok w' ->
  data (w' asset) = data (w asset) ++ repeat x00 (Z.to_nat v).
Proof.
  intros A0 Hv H. apply resize_instr_inv in H as (a & auth & B0 & A1 & Sg & Ho & Hi & Ha & Hm & F1 & F2 & D).
  rewrite (arg_det _ _ _ _ B0 A0) in *. rewrite D, realloc_grow by lia. unfold zeros. do 2 f_equal. lia.
Qed.

Lemma extend_trim e1 infos1 e2 infos2 w w' asset l v : arg infos1 0 asset -> arg infos2 0 asset -> 0 <= v <= 65535 ->
  env_ok e1 -> e_prog e1 <> pk_zero -> lam_ok w -> sized w -> tight (data (w asset)) l ->
  steps [(e1, infos1, IResize (Extend v)); (e2, infos2, IResize Trim)] w = Ok w' ->
  data (w' asset) = data (w asset).
Proof.
  intros A1 A2 Hv He Hp Hl Hs [hd HL] H. cbn [steps] in H. apply bind_ok in H as (w1 & H1 & H). apply bind_ok in H as (w2 & H2 & H).
  injection H as <-. assert (Hs1 : sized w1) by (eapply psteps_sized; [eapply process_psteps; eauto|assumption]).
  pose proof (extend_effect _ _ _ _ _ hd l 0 v A1 ltac:(lia) Hv Hs1 HL H1) as (_ & _ & L1 & _).
  pose proof (trim_effect _ _ _ _ _ _ _ _ A2 L1 H2) as (_ & _ & L2 & _).
  destruct HL as (-> & _). destruct L2 as (-> & _). reflexivity.
Qed.

(** Lemmas: when the client's uploads go through — balances. *)
From Verif Require Import Base State Layout Constr Ext World Proc Borsh Client BaseL Spec SpecB SpecE SpecF SpecI SpecK SpecL WorldL LayoutL LayoutM LayoutE FrameL HeadL ProcSteps AllocL AllocM AllocC CreateL ExactL ExactM AcceptL ExactN ExactO BuildL UpdateL StepH CodecL BorshL ClientL.
From Coq Require Import Strings.Byte.

(** ** Who pays *)
Lemma transfer_money infos w p k n w' : p <> k -> sys_transfer infos w p k n = Ok w' ->
  lamports (w' k) = lamports (w k) + n /\ lamports (w' p) = lamports (w p) - n /\ (forall j, j <> p -> j <> k -> lamports (w' j) = lamports (w j)).
Proof.
  intros N H. unfold sys_transfer in H. apply require_ok in H as [_ H]. apply require_ok in H as [_ H]. apply require_ok in H as [_ H]. cbn zeta in H. apply require_ok in H as [_ H]. apply Ok_inj in H. subst w'.
  split; [|split].
  - rewrite upd_same. cbn [lamports]. rewrite upd_other by congruence. reflexivity.
  - rewrite upd_other by assumption. rewrite upd_same. reflexivity.
  - intros j J1 J2. rewrite !upd_other by assumption. reflexivity.
Qed.
Lemma realloc_money e infos w0 w k size w' j : realloc e infos w0 w k size = Ok w' -> lamports (w' j) = lamports (w j).
Proof.
  unfold realloc. destruct (size =? _); intro H; [apply Ok_inj in H; now subst|]. apply require_ok in H as [_ H]. exact (set_data_lam _ _ _ _ _ _ j H).
Qed.
Lemma grow_money e infos w0 w k p s size w' : p <> k -> zlen (data (w k)) <= size -> lamports (w k) <= e_rent e size ->
  resize e infos w0 w size k (Some p) s = Ok w' ->
  lamports (w' k) = e_rent e size /\ lamports (w' p) + lamports (w' k) = lamports (w p) + lamports (w k).
Proof.
  intros N Hz Hr H. unfold resize in H. cbv zeta in H. apply bind_ok in H as (w1 & H1 & H).
  replace (size <? zlen (data (w k))) with false in H1 by lia. apply require_ok in H1 as [_ H1].
  rewrite !(realloc_money _ _ _ _ _ _ _ _ H). destruct (Z.ltb_spec 0 (Z.max 0 (e_rent e size - lamports (w k)))) as [L|L].
  - cbn [ok_or bind] in H1. apply bind_ok in H1 as (s' & _ & H1). apply require_ok in H1 as [_ H1]. apply require_ok in H1 as [_ H1].
    apply transfer_money in H1 as (E1 & E2 & _); [|assumption]. lia.
  - apply Ok_inj in H1. subst w1. lia.
Qed.
Lemma open_money e infos w k p s size w' : p <> k -> lamports (w k) = 0 ->
  alloc_create_account e infos w k (Some p) s size = Ok w' ->
  lamports (w' k) = e_rent e size /\ lamports (w' p) + lamports (w' k) = lamports (w p) + lamports (w k) /\ acct_owner (w' k) = e_prog e.
Proof.
  intros N Hz H. unfold alloc_create_account in H. cbn [ok_or bind] in H. apply require_ok in H as [_ H]. apply bind_ok in H as (s' & _ & H). apply require_ok in H as [_ H].
  unfold sys_create in H. apply require_ok in H as [_ H]. apply require_ok in H as [_ H]. apply require_ok in H as [_ H]. cbn zeta in H.
  set (w1 := upd w k _) in H. assert (O : acct_owner (w' k) = acct_owner (w1 k)).
  { unfold sys_transfer in H. apply require_ok in H as [_ H]. apply require_ok in H as [_ H]. apply require_ok in H as [_ H]. cbn zeta in H. apply require_ok in H as [_ H]. apply Ok_inj in H. subst w'.
    rewrite upd_same. cbn [acct_owner]. rewrite upd_other by congruence. reflexivity. }
  apply transfer_money in H as (E1 & E2 & _); [|assumption]. unfold w1 in *. rewrite upd_same in E1, O. rewrite upd_other in E2 by assumption. cbn [lamports acct_owner] in *.
  split; [lia|]. split; [lia|]. exact O.
Qed.

(** ** The purse: what the account costs comes from the payer's wallet *)
Definition purse (e : env) (asset p : pubkey) (T : Z) (w : world) : Prop :=
  p <> asset /\ acct_owner (w p) = pk_zero /\ data (w p) = [] /\ lamports (w p) + lamports (w asset) = T /\
  (data (w asset) = [] -> acct_owner (w asset) = pk_zero /\ lamports (w asset) = 0) /\
  (data (w asset) <> [] -> acct_owner (w asset) = e_prog e /\ lamports (w asset) = e_rent e (zlen (data (w asset)))).
Lemma move_money e infos w k p n w' : p <> k -> move_lamports e infos w k p n = Ok w' -> lamports (w' k) = lamports (w k) - n /\ lamports (w' p) = lamports (w p) + n.
Proof.
  intros N H. unfold move_lamports in H. replace (pk_eqb k p) with false in H by (symmetry; apply pk_eqb_neq; congruence). rewrite orb_false_r in H.
  destruct (Z.eqb_spec n 0) as [->|_]; [apply Ok_inj in H; subst; lia|]. apply require_ok in H as [_ H]. apply require_ok in H as [_ H]. cbn zeta in H. apply require_ok in H as [_ H]. apply Ok_inj in H. subst w'.
  split.
  - rewrite upd_other by congruence. rewrite upd_same. reflexivity.
  - rewrite upd_same. cbn [lamports]. rewrite upd_other by assumption. reflexivity.
Qed.
Lemma resize_money e infos w0 w k p s size w' : rent_mono e -> p <> k -> 0 < size -> lamports (w k) = e_rent e (zlen (data (w k))) ->
  resize e infos w0 w size k (Some p) s = Ok w' ->
  lamports (w' k) = e_rent e size /\ lamports (w' p) + lamports (w' k) = lamports (w p) + lamports (w k).
Proof.
  intros M N Hz Hr H. pose proof (zlen_nonneg (data (w k))) as Z0. destruct (Z.ltb_spec size (zlen (data (w k)))) as [L|L].
  - unfold resize in H. cbv zeta in H. apply bind_ok in H as (w1 & H1 & H). replace (size <? zlen (data (w k))) with true in H1 by lia.
    cbn [ok_or bind] in H1. replace (size =? 0) with false in H1 by lia. rewrite !(realloc_money _ _ _ _ _ _ _ _ H). apply move_money in H1 as [E1 E2]; [|assumption].
    pose proof (M size (zlen (data (w k)))). lia.
  - eapply grow_money; try eassumption. rewrite Hr. apply M. lia.
Qed.
Lemma set_hdr_inv d c t n b d' : set_hdr d c t n b = Ok d' -> zlen d' = zlen d.
Proof.
  intro H. unfold set_hdr in H. apply guard_ok in H as [G H]. apply Ok_inj in H. subst d'. unfold EXT_LEN in G. apply zlen_put; unfold enc_hdr; rewrite ?zlen_app, ?le_enc_zlen; lia.
Qed.
Lemma resize_rent e infos w0 w k p s size w' : rent_mono e -> p <> k -> lamports (w k) = e_rent e (zlen (data (w k))) ->
  resize e infos w0 w size k (Some p) s = Ok w' -> 0 < zlen (data (w' k)) ->
  lamports (w' k) = e_rent e (zlen (data (w' k))) /\ lamports (w' p) + lamports (w' k) = lamports (w p) + lamports (w k).
Proof.
  intros M N R H Hz. pose proof (resize_data _ _ _ _ _ _ _ _ _ H) as [D _].
  assert (L : 0 < size /\ zlen (data (w' k)) = size).
  { rewrite D in Hz |- *. unfold realloc_bytes in *. pose proof (zlen_nonneg (data (w k))). destruct (Z.leb_spec size (zlen (data (w k)))).
    - unfold zlen in *. rewrite firstn_length in *. lia.
    - rewrite zlen_app, zlen_zeros in Hz |- * by lia. lia. }
  destruct L as [L1 L2]. rewrite L2. eapply resize_money; eassumption.
Qed.
Lemma set_hdr_room d c t n b d' : set_hdr d c t n b = Ok d' -> 0 < zlen d.
Proof. intro H. unfold set_hdr in H. apply guard_ok in H as [G H]. unfold EXT_LEN in G. lia. Qed.
Lemma alloc_money e infos w x w' asset p T : rent_mono e -> arg infos 0 asset -> optional e infos 1 (Some p) -> purse e asset p T w ->
  0 <= x_length x -> process e infos w (IAllocate x) = Ok w' ->
  lamports (w' asset) = e_rent e (zlen (data (w' asset))) /\ lamports (w' p) + lamports (w' asset) = T.
Proof.
  intros M A0 O1 (N & _ & _ & S & P0 & P1) Hx H. apply process_dispatch in H. cbn [dispatch] in H. unfold process_allocate in H. change (firstn MAX_ACCOUNTS infos) with (passed infos) in H.
  apply acct_arg in A0. destruct O1 as [A1 Np]. rewrite A0, (proj2 (opt_acct_some _ _ _ _) (conj A1 Np)) in H. cbn [bind] in H. apply bind_ok in H as (sysp & _ & H).
  unfold do_allocate in H. apply require_ok in H as [_ H]. cbn zeta in H. apply bind_ok in H as (st & H1 & H). apply bind_ok in H as (bs & _ & H).
  unfold save_extension_data in H. cbn zeta in H. set (size := if negb (_ =? _) then _ else _) in H.
  apply bind_ok in H as (w1 & H2 & H). apply bind_ok in H as (d1 & H3 & H). apply bind_ok in H as (d2 & H4 & H).
  rewrite !(set_data_lam _ _ _ _ _ _ _ H). rewrite (set_data_data _ _ _ _ _ _ H).
  assert (L2 : zlen d2 = zlen (data (w1 asset))).
  { apply set_hdr_inv in H3. destruct bs; [apply Ok_inj in H4; congruence|]. apply memcpy_inv in H4 as (M1 & M2 & ->). rewrite zlen_put by lia. congruence. }
  pose proof (set_hdr_room _ _ _ _ _ _ H3) as Hz.
  rewrite L2. destruct (Z.eqb_spec (zlen (data (w asset))) 0) as [Q|Q].
  - apply zlen_0 in Q. apply Ok_inj in H1. subst st. cbn [fst negb] in H2. destruct (P0 Q) as [_ Z0].
    pose proof H2 as H5. apply open_money in H5 as (E1 & E2 & _); [|assumption|assumption].
    unfold alloc_create_account in H2. cbn [ok_or bind] in H2. apply require_ok in H2 as [_ H2]. apply bind_ok in H2 as (s' & _ & H2). apply require_ok in H2 as [_ H2].
    apply sys_create_world in H2 as (D & _). rewrite D. rewrite zlen_zeros; [split; [assumption|lia]|].
    unfold size. cbn [snd]. pose proof (zlen_nonneg bs). pose proof (pad8_ge (ASSET_LEN + EXT_LEN + x_length x)). unfold ASSET_LEN, EXT_LEN in *. destruct (negb _); lia.
  - assert (NE : data (w asset) <> []) by (intro E; rewrite E in Q; now elim Q). destruct (P1 NE) as [_ R].
    assert (F : fst st = true). { apply require_ok in H1 as [_ H1]. apply require_ok in H1 as [_ H1]. apply require_ok in H1 as [_ H1]. apply bind_ok in H1 as (cc & _ & H1). apply require_ok in H1 as [_ H1]. apply bind_ok in H1 as (ll & _ & H1).
      destruct ll as [[h off]|]; [apply require_ok in H1 as [_ H1]|]; apply Ok_inj in H1; subst st; reflexivity. }
    rewrite F in H2. cbn [negb] in H2. destruct (_ || _) eqn:C.
    + rewrite <- S. eapply resize_rent; eassumption.
    + apply Ok_inj in H2. subst w1. split; [assumption|lia].
Qed.
Lemma write_money e infos w x w' asset p T : rent_mono e -> arg infos 0 asset -> arg infos 1 p -> purse e asset p T w ->
  data (w asset) <> [] -> 0 < zlen (w_bytes x) -> process e infos w (IWrite x) = Ok w' ->
  lamports (w' asset) = e_rent e (zlen (data (w' asset))) /\ lamports (w' p) + lamports (w' asset) = T.
Proof.
  intros M A0 A1 (N & _ & _ & S & P0 & P1) NE Hx H. destruct (P1 NE) as [_ R]. apply process_dispatch in H. cbn [dispatch] in H. unfold process_write in H. change (firstn MAX_ACCOUNTS infos) with (passed infos) in H.
  apply acct_arg in A0. apply acct_arg in A1. rewrite A0, A1 in H. cbn [bind] in H. apply bind_ok in H as (sysp & _ & H).
  do 4 apply require_ok in H as [_ H]. cbn zeta in H. do 2 apply require_ok in H as [_ H]. apply bind_ok in H as (l & _ & H). destruct l as [[h off]|]; [|discriminate].
  cbn zeta in H. apply require_ok in H as [_ H]. apply bind_ok in H as (w1 & H1 & H). apply bind_ok in H as (d1 & H2 & H). apply bind_ok in H as (w2 & H3 & H).
  apply memcpy_inv in H2 as (M1 & M2 & ->). pose proof (zlen_nonneg (w_bytes x)) as Zb.
  assert (L : zlen (data (w2 asset)) = zlen (data (w1 asset))). { rewrite (set_data_data _ _ _ _ _ _ H3). apply zlen_put; lia. }
  assert (G : lamports (w2 asset) = e_rent e (zlen (data (w2 asset))) /\ lamports (w2 p) + lamports (w2 asset) = T).
  { rewrite L, !(set_data_lam _ _ _ _ _ _ _ H3), <- S. eapply resize_rent; try eassumption. lia. }
  destruct (_ <? _) in H; [apply Ok_inj in H; subst w'; assumption|].
  apply bind_ok in H as (l2 & _ & H). destruct l2 as [[h2 off2]|]; [|discriminate]. apply bind_ok in H as (t & _ & H). apply bind_ok in H as (b & Hs & H). apply bind_ok in H as (b' & Hb & H).
  apply map_err_ok in Hb. apply on_create_fresh in Hb as [Lb _]. apply slice_ok in Hs as (B1 & B2 & B3 & _ & B4).
  rewrite !(set_data_lam _ _ _ _ _ _ _ H), (set_data_data _ _ _ _ _ _ H). rewrite zlen_put by (unfold zlen in *; lia). rewrite <- (set_data_data _ _ _ _ _ _ H3). exact G.
Qed.

(** ** One account being filled *)
Definition crew (e : env) (infos : list ainfo) (asset p : pubkey) : Prop :=
  arg infos 0 asset /\ arg infos 1 p /\ arg infos 2 pk_zero /\ p <> e_prog e /\
  signed infos asset /\ writable infos asset /\ signed infos p /\ writable infos p.
Definition same_but (asset : pubkey) (w0 w : world) : Prop := forall k, k <> asset -> data (w k) = data (w0 k) /\ acct_owner (w k) = acct_owner (w0 k).
(** [big]: accounts passed now or later; [w0]: the world at the start *)
Definition stage (e : env) (big : list ainfo) (w0 : world) (asset p : pubkey) (T : Z) (w : world) : Prop :=
  purse e asset p T w /\ sized w /\ lam_ok w /\ plain_accounts e big w /\ same_but asset w0 w.
Lemma plain_step e infos w w' asset : (forall k, k <> asset -> data (w' k) = data (w k) /\ acct_owner (w' k) = acct_owner (w k)) ->
  168 <= zlen (data (w' asset)) -> plain_accounts e infos w -> plain_accounts e infos w'.
Proof.
  intros F L H a Ha Ho. destruct (pk_dec (ai_key a) asset) as [->|N]; [right; unfold zlen in L; lia|]. destruct (F _ N) as [E1 E2]. rewrite E1. apply H; [assumption|]. congruence.
Qed.
Lemma plain_incl e big infos w : incl (passed infos) (passed big) -> plain_accounts e big w -> plain_accounts e infos w.
Proof. intros I H i Hi. apply H. now apply I. Qed.
Section Fill.
Variables (e : env) (w0 : world) (big infos : list ainfo) (asset p : pubkey) (T : Z).
Hypotheses (He : env_ok e) (Hz : e_prog e <> pk_zero) (M : rent_mono e) (C : crew e infos asset p) (HT : T < 18446744073709551616) (Hbig : incl (passed infos) (passed big)).
Notation stage := (stage e big w0 asset p T).

Lemma alloc_stage w x w' hd l : stage w -> open_account (data (w asset)) hd l 0 -> x_type x <> XNone -> 0 <= x_length x <= u32_max -> zlen (given x) < two32 ->
  process e infos w (IAllocate x) = Ok w' -> 168 <= zlen (data (w' asset)) -> stage w'.
Proof.
  intros (P & Hs & Hl & Hp & Hf0) HO Ht Hx Hg H L. destruct C as (A0 & A1 & A2 & Np & _).
  destruct (alloc_money e infos w x w' asset p T M A0 (conj A1 Np) P ltac:(lia) H) as [R S].
  destruct (allocate_effect e infos w x w' asset hd l 0 A0 HO (Hs asset) Ht Hx Hg H) as (_ & _ & _ & _ & _ & F & Ow).
  destruct P as (N & P1 & P2 & _). destruct (F p N) as [F1 F2]. split; [|split; [|split; [|split]]].
  - split; [assumption|]. split; [congruence|]. split; [congruence|]. split; [assumption|]. split; [intro E; rewrite E in L; change (zlen []) with 0 in L; lia|]. auto.
  - exact (sized_preserved _ _ _ _ _ He Hz Hl Hs H).
  - exact (lam_ok_preserved _ _ _ _ _ He Hz Hl H).
  - eapply plain_step; eassumption.
  - intros k Hk. destruct (F k Hk) as [F3 F4]. destruct (Hf0 k Hk). split; congruence.
Qed.
Lemma write_stage w c w' hd l t len bs : stage w -> partial_account (data (w asset)) hd l t len bs -> zlen bs < len -> c <> [] -> zlen bs + zlen c <= len ->
  process e infos w (IWrite (mkDataInput false c)) = Ok w' -> stage w'.
Proof.
  intros (P & Hs & Hl & Hp & Hf0) HP Hlt Hc Hle H. destruct C as (A0 & A1 & A2 & Np & _).
  assert (Hc0 : 0 < zlen c) by (destruct c; [contradiction|unfold zlen; cbn [length]; lia]).
  pose proof (partial_len _ _ _ _ _ _ HP) as Hd. pose proof HP as (_ & Hh & _ & _). pose proof (sect_size_nonneg l) as S0. pose proof (zlen_nonneg bs) as B0.
  assert (NE : data (w asset) <> []) by (intro E; rewrite E in Hd; change (zlen []) with 0 in Hd; lia).
  destruct (write_money e infos w (mkDataInput false c) w' asset p T M A0 A1 P NE Hc0 H) as [R S].
  destruct (write_effect e infos w (mkDataInput false c) w' asset hd l t len bs A0 HP Hlt eq_refl Hle H) as (_ & Ow & W1 & W2 & F & FO). cbn [w_bytes] in *.
  assert (L : 168 <= zlen (data (w' asset))).
  { destruct (Z.eq_dec (zlen bs + zlen c) len) as [E|E].
    - destruct (W2 E) as (b' & _ & _ & D & _). rewrite D, zlen_app. pose proof (zlen_nonneg (enc_sect 168 l ++ enc_blk (168 + sect_size l) (blk_of t b'))). lia.
    - pose proof (partial_len _ _ _ _ _ _ (W1 ltac:(lia))) as Q. rewrite zlen_app in Q. lia. }
  destruct P as (N & P1 & P2 & _). split; [|split; [|split; [|split]]].
  - split; [assumption|]. split; [rewrite FO; assumption|]. split; [rewrite F; assumption|]. split; [assumption|]. split; [intro E; rewrite E in L; change (zlen []) with 0 in L; lia|]. rewrite FO. auto.
  - exact (sized_preserved _ _ _ _ _ He Hz Hl Hs H).
  - exact (lam_ok_preserved _ _ _ _ _ He Hz Hl H).
  - apply (plain_step e big w w' asset); auto.
  - intros k Hk. rewrite (F k Hk), FO. exact (Hf0 k Hk).
Qed.
Lemma stage_grow w size : stage w -> data (w asset) <> [] -> zlen (data (w asset)) <= size -> size - zlen (data (w asset)) <= 10240 -> size <= 10485760 -> e_rent e size <= T ->
  can_grow e infos w asset (Some p) (Some pk_zero) size.
Proof.
  intros ((N & P1 & P2 & S & _) & _) NE H1 H2 H3 H4. destruct C as (_ & _ & _ & _ & _ & _ & C1 & C2). split; [assumption|]. split; [assumption|]. intros L. split; [lia|]. split; [reflexivity|].
  exists p. split; [reflexivity|]. repeat (split; [assumption|]). lia.
Qed.
Lemma writes_goes hd l t len n2 : hd = repeat x00 168 -> (n2 <= 2000)%nat -> 168 + sect_size l + (16 + len + 7) / 8 * 8 <= 10485760 -> forall cs w bs,
  Forall (fun c => c <> [] /\ (length c <= n2)%nat) cs -> partial_account (data (w asset)) hd l t len bs -> zlen bs < len -> zlen bs + zlen (concat cs) = len -> stage w ->
  e_rent e (168 + sect_size l + (16 + len + 7) / 8 * 8) <= T -> acceptable t (bs ++ concat cs) ->
  goes (steps (map (fun c => (e, infos, IWrite (mkDataInput false c))) cs) w).
Proof.
  intros Hhd Hn HF0. induction cs as [|c cs IH]; intros w bs HF HP Hlt Heq HS HR HA; [apply goes_ok|].
  apply Forall_cons_iff in HF as [[Hc Hc2] HF]. cbn [concat] in Heq, HA. rewrite zlen_app in Heq. pose proof (zlen_nonneg (concat cs)) as Zc. pose proof (zlen_nonneg bs) as Zb. pose proof (zlen_nonneg c) as Zc1.
  pose proof (partial_len _ _ _ _ _ _ HP) as Hd. pose proof HP as (_ & Hh & Hf & Ht & _). pose proof (sect_size_nonneg l) as S0. pose proof (sect_size_mod l Hf) as Sm.
  assert (NE : data (w asset) <> []) by (intro E; rewrite E in Hd; change (zlen []) with 0 in Hd; lia).
  cbn [map steps]. rewrite goes_bind. pose proof HS as ((N & P1 & P2 & S & _ & PN) & Hs & Hl & Hp & Hf0). destruct (PN NE) as [Ow Rt].
  pose proof C as (A0 & A1 & A2 & Np & C1 & C2 & C3 & C4).
  set (got := zlen bs + zlen c) in *.
  assert (PE : zlen (data (w asset)) <= part_end l len got <= 168 + sect_size l + (16 + len + 7) / 8 * 8 /\ part_end l len got - zlen (data (w asset)) <= 10240).
  { unfold part_end. assert (zlen c <= 2000) by (unfold zlen; lia). destruct (Z.eqb_spec got len); unfold got in *; lia. }
  assert (G : exists w', process e infos w (IWrite (mkDataInput false c)) = Ok w').
  { apply (write_goes e infos w (mkDataInput false c) asset p hd l t len bs A0 A1 A2 HP Hlt eq_refl); cbn [w_bytes]; fold got; try assumption; [lia|exact (plain_incl _ _ _ _ Hbig Hp)|].
    split; [assumption|]. split; [assumption|]. split; [assumption|]. split; [|split].
    - rewrite (partial_eq _ _ _ _ _ _ HP), Hhd. reflexivity.
    - apply stage_grow; try assumption; try lia. etransitivity; [|exact HR]. apply M. lia.
    - intro E. assert (concat cs = []) by (apply zlen_0; lia). rewrite H, app_nil_r in HA. exact HA. }
  destruct G as [w1 H1]. exists w1. split; [assumption|]. unfold got in *. clear got.
  assert (HS1 : stage w1) by (apply (write_stage w c w1 hd l t len bs HS HP Hlt Hc); [lia|assumption]).
  destruct (write_effect e infos w (mkDataInput false c) w1 asset hd l t len bs A0 HP Hlt eq_refl ltac:(cbn [w_bytes]; lia) H1) as (_ & _ & W1 & _). cbn [w_bytes] in W1.
  destruct cs as [|c2 cs]; [apply goes_ok|].
  assert (0 < zlen (concat (c2 :: cs))). { apply Forall_cons_iff in HF as [[Q _] _]. cbn [concat]. rewrite zlen_app. pose proof (zlen_nonneg (concat cs)). destruct c2; [contradiction|]. unfold zlen at 1. cbn [length]. lia. }
  apply (IH w1 (bs ++ c)); try assumption; [apply W1; lia|rewrite zlen_app; lia|rewrite zlen_app; lia|]. rewrite <- app_assoc. exact HA.
Qed.
Lemma writes_stage hd l t len : forall cs w w' bs,
  Forall (fun c => c <> []) cs -> partial_account (data (w asset)) hd l t len bs -> zlen bs < len -> zlen bs + zlen (concat cs) = len -> stage w ->
  steps (map (fun c => (e, infos, IWrite (mkDataInput false c))) cs) w = Ok w' -> stage w'.
Proof.
  induction cs as [|c cs IH]; intros w w' bs HF HP Hlt Heq HS H; [cbn [map steps] in H; apply Ok_inj in H; now subst|].
  apply Forall_cons_iff in HF as [Hc HF]. cbn [concat] in Heq. rewrite zlen_app in Heq. pose proof (zlen_nonneg (concat cs)) as Zc.
  cbn [map steps] in H. apply bind_ok in H as (w1 & H1 & H). pose proof C as (A0 & _).
  assert (HS1 : stage w1) by (apply (write_stage w c w1 hd l t len bs HS HP Hlt Hc); [lia|assumption]).
  destruct (write_effect e infos w (mkDataInput false c) w1 asset hd l t len bs A0 HP Hlt eq_refl ltac:(cbn [w_bytes]; lia) H1) as (_ & _ & W1 & _). cbn [w_bytes] in W1.
  destruct cs as [|c2 cs]; [cbn [map steps] in H; apply Ok_inj in H; now subst|].
  assert (0 < zlen (concat (c2 :: cs))). { apply Forall_cons_iff in HF as [Q _]. cbn [concat]. rewrite zlen_app. pose proof (zlen_nonneg (concat cs)). destruct c2; [contradiction|]. unfold zlen at 1. cbn [length]. lia. }
  apply (IH w1 w' (bs ++ c)); try assumption; [apply W1; lia|rewrite zlen_app; lia|rewrite zlen_app; lia].
Qed.
Definition full (l : list blk) (n : Z) : Z := 168 + sect_size l + (16 + n + 7) / 8 * 8.
Lemma open_zeros d l : open_account d (repeat x00 168) l 0 -> d <> [] -> s_disc d = x00 /\ zlen d = 168 + sect_size l.
Proof.
  intros [(-> & _)|(_ & HL)] N; [contradiction|]. pose proof (layout_len _ _ _ _ HL) as L. destruct HL as (E & _). split; [rewrite E; reflexivity|]. rewrite L. cbn [Z.to_nat repeat]. change (zlen []) with 0. lia.
Qed.
Lemma alloc_new_end n1 t b l : new_end l (mkExtInput t (zlen b) (Some (firstn n1 b))) <= full l (zlen b) /\
  new_end l (mkExtInput t (zlen b) (Some (firstn n1 b))) <= 168 + sect_size l + 16 + Z.of_nat n1 + 7 /\
  168 + sect_size l <= new_end l (mkExtInput t (zlen b) (Some (firstn n1 b))).
Proof.
  unfold new_end, full. cbn [x_length given x_data]. assert (L : zlen (firstn n1 b) = Z.min (Z.of_nat n1) (zlen b)) by (unfold zlen; rewrite firstn_length; lia).
  rewrite L. pose proof (zlen_nonneg b). destruct (Z.eqb_spec (zlen b) (Z.min (Z.of_nat n1) (zlen b))); lia.
Qed.
Lemma alloc_job_goes n1 t b w l : (n1 <= 2000)%nat -> t <> XNone -> stage w -> open_account (data (w asset)) (repeat x00 168) l 0 -> full l (zlen b) <= 10485760 ->
  lookup t (ext_list l) = None -> e_rent e (full l (zlen b)) <= T ->
  goes (process e infos w (IAllocate (mkExtInput t (zlen b) (Some (firstn n1 b))))).
Proof.
  intros Hn Ht HS HO HF N HR. pose proof HS as (P & Hs & Hl & Hp & Hf0). pose proof P as (Npa & P1 & P2 & S & Pe & Pn). pose proof C as (A0 & A1 & A2 & Np & C1 & C2 & C3 & C4).
  pose proof (alloc_new_end n1 t b l) as (E1 & E2 & E3). set (x := mkExtInput t (zlen b) (Some (firstn n1 b))) in *.
  pose proof (zlen_nonneg b) as Zb. pose proof (sect_size_nonneg l) as S0.
  assert (L : zlen (given x) <= zlen b) by (unfold x, given; cbn [x_data]; unfold zlen; rewrite firstn_length; lia).
  assert (HR' : e_rent e (new_end l x) <= T) by (etransitivity; [apply M; split; [|exact E1]; lia|exact HR]).
  apply (allocate_goes e infos w asset (Some p) (Some pk_zero) x (repeat x00 168) l 0 A0 (conj A1 Np)); try assumption; [split; [assumption|congruence]|exact (plain_incl _ _ _ _ Hbig Hp)| |].
  - unfold full in HF. split; [assumption|]. split; [cbn [x x_length]; lia|lia].
  - split; [assumption|]. split; [assumption|]. split; [exact L|]. split.
    + intro E. destruct (Pe E) as [Q1 Q2]. destruct HO as [(_ & _ & -> & _)|(_ & HL)]; [|apply layout_len in HL; rewrite E in HL; change (zlen []) with 0 in HL; cbn [Z.to_nat repeat] in HL; change (zlen []) with 0 in HL; lia].
      cbn [sect_size fold_right] in *. split; [assumption|]. split; [assumption|]. split; [lia|]. split; [lia|]. split; [reflexivity|]. exists p. split; [reflexivity|]. split; [assumption|].
      repeat (split; [assumption|]). lia.
    + intro NE. destruct (Pn NE) as [Q1 Q2]. destruct (open_zeros _ _ HO NE) as [D Z]. split; [assumption|]. split; [assumption|]. intros _. split; [|lia]. intros _. apply stage_grow; try assumption; lia.
Qed.
Lemma job_effect n1 n2 t b w w' l : (0 < n2)%nat -> t <> XNone -> stage w -> open_account (data (w asset)) (repeat x00 168) l 0 -> full l (zlen b) <= 10485760 ->
  run_ixs e (map (fun j => (fst j, write_instr (snd j))) (ext_job n1 n2 infos t b)) w = Ok w' ->
  exists b', kept t b b' /\ open_account (data (w' asset)) (repeat x00 168) (l ++ [blk_of t b']) 0 /\ lookup t (ext_list l) = None /\
    (forall k, k <> asset -> data (w' k) = data (w k)) /\ data (w' asset) <> [] /\ stage w' /\ e_rent e (full l (zlen b)) <= T.
Proof.
  intros Hn Ht HS HO HF H. pose proof HS as (P & Hs & Hl & Hp & Hf0). pose proof C as (A0 & A1 & A2 & Np & C1 & C2 & C3 & C4).
  pose proof (sect_size_nonneg l) as S0. pose proof (zlen_nonneg b) as Zb. unfold full in HF.
  destruct (ext_job_effect n1 n2 infos e asset t b w w' (repeat x00 168) l Hn He Hz Hs Hl Ht A0 HO ltac:(lia) H) as (b' & K & O' & _ & _ & _ & N & F).
  assert (NE : data (w' asset) <> []). { destruct O' as [(_ & _ & Q & _)|(_ & HL)]; [destruct l; discriminate|]. intro E. apply layout_len in HL. rewrite E in HL. change (zlen []) with 0 in HL. pose proof (sect_size_nonneg (l ++ [blk_of t b'])). pose proof (zlen_nonneg (repeat x00 (Z.to_nat 0))). lia. }
  assert (HS' : stage w').
  { rewrite run_steps in H by (apply ext_job_ok; [assumption|lia]).
    unfold ext_job in H. cbn [map steps fst snd] in H. apply bind_ok in H as (w1 & H1 & H). rewrite map_map in H. cbn [fst snd] in H.
    assert (Lg : zlen (firstn n1 b) <= zlen b) by (unfold zlen; rewrite firstn_length; lia).
    destruct (allocate_effect e infos w (mkExtInput t (zlen b) (Some (firstn n1 b))) w1 asset _ _ 0 A0 HO (Hs asset) Ht ltac:(cbn [x_length]; unfold u32_max; lia) ltac:(cbn [given x_data]; unfold two32; lia) H1) as (_ & _ & Q2 & Q3 & Q4 & Q5 & Q6).
    cbn [x_length x_type given x_data] in *.
    assert (St : 168 <= zlen (data (w1 asset)) -> stage w1).
    { intro L. apply (alloc_stage w _ w1 _ l HS HO) in H1; [assumption|exact Ht|cbn [x_length]; unfold u32_max; lia|cbn [given x_data]; unfold two32; lia|exact L]. }
    destruct (Z.eq_dec (zlen (firstn n1 b)) (zlen b)) as [E|E].
    - assert (Sk : skipn n1 b = []). { pose proof (firstn_skipn n1 b) as Q. apply (f_equal zlen) in Q. rewrite zlen_app in Q. apply zlen_0. lia. }
      rewrite Sk in H. assert (Ch : forall f, chunks f n2 [] = []) by (intros [|f]; reflexivity). rewrite Ch in H. cbn [map steps] in H. apply Ok_inj in H. subst w1. apply St.
      destruct (Q3 ltac:(congruence)) as [D _]. rewrite D, zlen_app. pose proof (zlen_nonneg (enc_sect 168 l ++ enc_blk (168 + sect_size l) (blk_of t (firstn n1 b)) ++ zeros (0 - blk_size (blk_of t (firstn n1 b))))). change (zlen (repeat x00 168)) with 168. lia.
    - assert (D := Q4 ltac:(lia)). assert (HSt : stage w1).
      { apply St. rewrite D, zlen_app. change (zlen (repeat x00 168)) with 168. pose proof (zlen_nonneg (enc_sect 168 l ++ enc_hdr (ext_code t) (zlen b) (pad8 (168 + sect_size l + 16 + zlen b)) ++ zeros 4 ++ firstn n1 b)). lia. }
      assert (Hf : Forall blk_ok l). { destruct HO as [(_ & _ & -> & _)|(_ & HL)]; [constructor|]. destruct HL as (_ & _ & Q & _). exact Q. }
      eapply (writes_stage (repeat x00 168) l t (zlen b) _ w1 w' (firstn n1 b)); [| | | |exact HSt|exact H].
      + eapply Forall_impl; [|exact (chunks_sizes n2 Hn (length b) (skipn n1 b))]. cbn. tauto.
      + split; [|split; [reflexivity|split; [exact Hf|split; [exact Ht|split; [lia|lia]]]]]. rewrite D. unfold enc_hdr. rewrite <- !app_assoc. rewrite bnd_pad8 by assumption. reflexivity.
      + lia.
      + rewrite <- zlen_app, (pieces n1 n2 b Hn). reflexivity. }
  exists b'. split; [assumption|]. split; [assumption|]. split; [assumption|]. split; [assumption|]. split; [assumption|]. split; [assumption|].
  destruct HS' as ((_ & _ & _ & S & _ & Pn) & _ & Hl' & _ & _). destruct (Pn NE) as [_ R]. destruct (open_zeros _ _ O' NE) as [_ Z].
  rewrite sect_size_app in Z. cbn [sect_size fold_right] in Z. rewrite blk_of_size in Z. rewrite (kept_len _ _ _ K) in Z. unfold pad8 in Z. specialize (Hl' p). unfold full. rewrite Z in R.
  replace (168 + sect_size l + (16 + zlen b + 7) / 8 * 8) with (168 + (sect_size l + ((16 + zlen b + 7) / 8 * 8 + 0))) by lia. lia.
Qed.
Lemma job_goes n1 n2 t b w l : (n1 <= 2000)%nat -> (0 < n2 <= 2000)%nat -> t <> XNone -> stage w -> open_account (data (w asset)) (repeat x00 168) l 0 -> full l (zlen b) <= 10485760 ->
  lookup t (ext_list l) = None -> acceptable t b -> e_rent e (full l (zlen b)) <= T ->
  goes (run_ixs e (map (fun j => (fst j, write_instr (snd j))) (ext_job n1 n2 infos t b)) w).
Proof.
  intros Hn1 [Hn Hn2] Ht HS HO HF N HA HR. pose proof HS as (P & Hs & Hl & Hp & Hf0). pose proof C as (A0 & A1 & A2 & Np & C1 & C2 & C3 & C4).
  pose proof (sect_size_nonneg l) as S0. pose proof (zlen_nonneg b) as Zb. pose proof HF as HF1. unfold full in HF1.
  rewrite run_steps by (apply ext_job_ok; [assumption|lia]). unfold ext_job. cbn [map steps fst snd]. rewrite goes_bind. rewrite map_map. cbn [fst snd].
  destruct (alloc_job_goes n1 t b w l Hn1 Ht HS HO HF N HR) as [w1 H1]. exists w1. split; [exact H1|].
  assert (Lg : zlen (firstn n1 b) <= zlen b) by (unfold zlen; rewrite firstn_length; lia).
  destruct (allocate_effect e infos w (mkExtInput t (zlen b) (Some (firstn n1 b))) w1 asset _ _ 0 A0 HO (Hs asset) Ht ltac:(cbn [x_length]; unfold u32_max; lia) ltac:(cbn [given x_data]; unfold two32; lia) H1) as (_ & _ & Q2 & Q3 & Q4 & Q5 & Q6).
  cbn [x_length x_type given x_data] in *.
  destruct (Z.eq_dec (zlen (firstn n1 b)) (zlen b)) as [E|E].
  - assert (Sk : skipn n1 b = []). { pose proof (firstn_skipn n1 b) as Q. apply (f_equal zlen) in Q. rewrite zlen_app in Q. apply zlen_0. lia. }
    rewrite Sk. assert (Ch : forall f, chunks f n2 [] = []) by (intros [|f]; reflexivity). rewrite Ch. apply goes_ok.
  - assert (D := Q4 ltac:(lia)). assert (HSt : stage w1).
    { apply (alloc_stage w _ w1 _ l HS HO) in H1; [assumption|exact Ht|cbn [x_length]; unfold u32_max; lia|cbn [given x_data]; unfold two32; lia|].
      rewrite D, zlen_app. change (zlen (repeat x00 168)) with 168. pose proof (zlen_nonneg (enc_sect 168 l ++ enc_hdr (ext_code t) (zlen b) (pad8 (168 + sect_size l + 16 + zlen b)) ++ zeros 4 ++ firstn n1 b)). lia. }
    assert (Hf : Forall blk_ok l). { destruct HO as [(_ & _ & -> & _)|(_ & HL)]; [constructor|]. destruct HL as (_ & _ & Q & _). exact Q. }
    eapply (writes_goes (repeat x00 168) l t (zlen b) n2 eq_refl Hn2 HF1 _ w1 (firstn n1 b)); [| | | |exact HSt|exact HR|].
    + exact (chunks_sizes n2 Hn (length b) (skipn n1 b)).
    + split; [|split; [reflexivity|split; [exact Hf|split; [exact Ht|split; [lia|lia]]]]]. rewrite D. unfold enc_hdr. rewrite <- !app_assoc. rewrite bnd_pad8 by assumption. reflexivity.
    + lia.
    + rewrite <- zlen_app, (pieces n1 n2 b Hn). reflexivity.
    + rewrite (pieces n1 n2 b Hn). exact HA.
Qed.
End Fill.

(** ** Acceptability does not depend on the flags *)
Lemma shares_ext b b' : forall n, (forall i, (i < n)%nat -> cr_share_at b' i = cr_share_at b i) -> shares n b' = shares n b.
Proof. induction n as [|n IH]; intro H; [reflexivity|]. cbn [shares]. rewrite IH, H; auto. Qed.
Lemma kept_accept t b b' : kept t b b' -> acceptable t b' <-> acceptable t b.
Proof.
  intros [->|(L & N & Cr)]; [reflexivity|]. assert (D : t = XCreators \/ t <> XCreators) by (destruct t; auto; right; discriminate).
  destruct D as [->|D]; [|rewrite (N D); reflexivity]. assert (E : cr_count b' = cr_count b) by (unfold cr_count; now rewrite L).
  unfold acceptable, parses. rewrite E, L, (shares_ext b b' (cr_count b)); [|intros i Hi; apply (Cr eq_refl i Hi)].
  split; intros (Q1 & Q2 & _); (split; [assumption|split; [assumption|split; discriminate]]).
Qed.
Definition of_ext (x : ext_type * bytes) : blk := blk_of (fst x) (snd x).
Lemma ext_of_exts xs : ext_list (map of_ext xs) = xs.
Proof. unfold ext_list. rewrite map_map. rewrite <- (map_id xs) at 2. apply map_ext. intros [t b]. reflexivity. Qed.
Lemma kept_types xs l : Forall2 (fun x b => bk_type b = fst x /\ kept (fst x) (snd x) (bk_data b)) xs l -> map bk_type l = map fst xs.
Proof. induction 1 as [|x b xs l [H _] _ IH]; [reflexivity|]. cbn [map]. congruence. Qed.
Lemma kept_lookup t xs l : t <> XCreators -> Forall2 (fun x b => bk_type b = fst x /\ kept (fst x) (snd x) (bk_data b)) xs l -> lookup t (ext_list l) = lookup t xs.
Proof.
  intros N. induction 1 as [|[t' b'] b xs l [H K] _ IH]; [reflexivity|]. cbn [ext_list map lookup fst snd] in *. rewrite H. destruct (ext_type_eqb t' t) eqn:E; [|exact IH].
  f_equal. destruct K as [K|(_ & K & _)]; [exact K|]. apply K. intro Q. subst t'. rewrite Q in E. destruct t; try discriminate. now apply N.
Qed.
Lemma kept_standard e st asset xs l : Forall2 (fun x b => bk_type b = fst x /\ kept (fst x) (snd x) (bk_data b)) xs l ->
  standard_ok e st asset l <-> standard_ok e st asset (map of_ext xs).
Proof.
  intro H. unfold standard_ok. rewrite (kept_types _ _ H), (kept_lookup XProxy _ _ ltac:(discriminate) H), ext_of_exts.
  assert (E : map bk_type (map of_ext xs) = map fst xs) by (rewrite map_map; apply map_ext; intros [t b]; reflexivity). rewrite E. reflexivity.
Qed.
Lemma kept_acceptable xs l : Forall2 (fun x b => bk_type b = fst x /\ kept (fst x) (snd x) (bk_data b)) xs l ->
  Forall (fun b => acceptable (bk_type b) (bk_data b)) l <-> Forall (fun x => acceptable (fst x) (snd x)) xs.
Proof.
  induction 1 as [|x b xs l [H K] _ IH]; [split; constructor|]. rewrite !Forall_cons_iff, IH, H, (kept_accept _ _ _ K). reflexivity.
Qed.

(** ** All extensions *)
Lemma space_nonneg xs : 0 <= space xs.
Proof. induction xs as [|[t b] xs IH]; cbn [space]; [lia|]. pose proof (zlen_nonneg b). pose proof (Z.div_pos (zlen b + 7) 8). lia. Qed.
Lemma full_space l (b : bytes) : full l (zlen b) = 168 + sect_size l + (16 + (zlen b + 7) / 8 * 8).
Proof. unfold full. lia. Qed.
Lemma kept_size l t b b' : kept t b b' -> 168 + sect_size (l ++ [blk_of t b']) = full l (zlen b).
Proof. intro K. rewrite sect_size_app. cbn [sect_size fold_right]. rewrite blk_of_size, (kept_len _ _ _ K). unfold full, pad8. lia. Qed.
Section Loop.
Variables (e : env) (w0 : world) (big infos : list ainfo) (asset p : pubkey) (T : Z) (n1 : ext_type * bytes -> nat) (n2 : nat).
Hypotheses (He : env_ok e) (Hz : e_prog e <> pk_zero) (M : rent_mono e) (C : crew e infos asset p) (HT : T < 18446744073709551616) (Hbig : incl (passed infos) (passed big)).
Hypotheses (Hn1 : forall x, (n1 x <= 2000)%nat) (Hn2 : (0 < n2 <= 2000)%nat).
Definition job_ixs (x : ext_type * bytes) : list ix := map (fun j => (fst j, write_instr (snd j))) (ext_job (n1 x) n2 infos (fst x) (snd x)).
Lemma loop_effect : forall xs w w' l, stage e big w0 asset p T w -> Forall (fun x => fst x <> XNone) xs ->
  open_account (data (w asset)) (repeat x00 168) l 0 -> 168 + sect_size l + space xs <= 10485760 ->
  run_ixs e (concat (map job_ixs xs)) w = Ok w' ->
  (forall x, In x xs -> lookup (fst x) (ext_list l) = None) /\ NoDup (map fst xs) /\
  exists l2, Forall2 (fun x b => bk_type b = fst x /\ kept (fst x) (snd x) (bk_data b)) xs l2 /\
    open_account (data (w' asset)) (repeat x00 168) (l ++ l2) 0 /\ stage e big w0 asset p T w' /\
    (forall k, k <> asset -> data (w' k) = data (w k)) /\ (xs <> [] -> data (w' asset) <> [] /\ e_rent e (168 + sect_size l + space xs) <= T).
Proof.
  induction xs as [|[t b] xs IH]; intros w w' l HS HX HO Hsz H.
  - cbn [map concat run_ixs] in H. apply Ok_inj in H. subst w'. split; [intros x []|]. split; [constructor|]. exists []. rewrite app_nil_r. split; [constructor|]. split; [assumption|]. split; [assumption|]. split; [reflexivity|]. intro Q. now elim Q.
  - cbn [map concat] in H. rewrite run_app in H. apply bind_ok in H as (w1 & H1 & H). apply Forall_cons_iff in HX as [Ht HX]. cbn [fst] in Ht.
    cbn [space] in Hsz. pose proof (space_nonneg xs) as Hsp. unfold job_ixs in H1. cbn [fst snd] in H1.
    assert (HF : full l (zlen b) <= 10485760) by (rewrite full_space; lia).
    destruct (job_effect e w0 big infos asset p T He Hz M C (n1 (t, b)) n2 t b w w1 l ltac:(lia) Ht HS HO HF H1) as (b' & K & O1 & N1 & F1 & NE1 & HS1 & R1).
    pose proof (kept_size l t b b' K) as Sz. rewrite full_space in Sz, R1.
    destruct (IH w1 w' (l ++ [blk_of t b']) HS1 HX O1 ltac:(lia) H) as (N2 & ND & l2 & F2 & O2 & HS2 & F3 & R2).
    assert (N3 : forall x, In x xs -> ~ In (fst x) (map bk_type l) /\ fst x <> t).
    { intros x Hx. specialize (N2 x Hx). apply lookup_none in N2. unfold ext_list in N2. rewrite map_map in N2. cbn [fst] in N2.
      rewrite map_app, in_app_iff in N2. cbn [map In bk_type blk_of] in N2. split; [tauto|]. intro Q. apply N2. right. left. now symmetry. }
    split. { intros x [<-|Hx]; [exact N1|]. apply lookup_none. unfold ext_list. rewrite map_map. cbn [fst]. now apply N3. }
    split. { cbn [map fst]. constructor; [|exact ND]. intro Q. apply in_map_iff in Q as (x & E & Hx). now destruct (N3 x Hx). }
    exists (blk_of t b' :: l2). split; [constructor; [split; [reflexivity|exact K]|exact F2]|]. rewrite <- app_assoc in O2. split; [exact O2|].
    split; [assumption|]. split; [intros k Hk; rewrite F3, F1 by assumption; reflexivity|]. intros _. cbn [space].
    destruct xs as [|x xs].
    + cbn [map concat run_ixs] in H. apply Ok_inj in H. subst w'. split; [assumption|]. cbn [space]. replace (168 + sect_size l + (16 + (zlen b + 7) / 8 * 8 + 0)) with (168 + sect_size l + (16 + (zlen b + 7) / 8 * 8)) by lia. assumption.
    + destruct (R2 ltac:(discriminate)) as [R3 R4]. split; [assumption|]. replace (168 + sect_size l + (16 + (zlen b + 7) / 8 * 8 + space (x :: xs))) with (168 + sect_size (l ++ [blk_of t b']) + space (x :: xs)) by lia. assumption.
Qed.
Lemma loop_goes : forall xs w l, stage e big w0 asset p T w -> Forall (fun x => fst x <> XNone) xs ->
  open_account (data (w asset)) (repeat x00 168) l 0 -> 168 + sect_size l + space xs <= 10485760 ->
  (forall x, In x xs -> lookup (fst x) (ext_list l) = None) -> NoDup (map fst xs) -> Forall (fun x => acceptable (fst x) (snd x)) xs ->
  e_rent e (168 + sect_size l + space xs) <= T ->
  goes (run_ixs e (concat (map job_ixs xs)) w).
Proof.
  induction xs as [|[t b] xs IH]; intros w l HS HX HO Hsz HL HN HA HR; [apply goes_ok|].
  cbn [map concat]. rewrite run_app, goes_bind. apply Forall_cons_iff in HX as [Ht HX]. cbn [fst] in Ht. apply Forall_cons_iff in HA as [HA1 HA]. cbn [fst snd] in HA1.
  cbn [map fst] in HN. apply NoDup_cons_iff in HN as [HN1 HN]. cbn [space] in Hsz, HR. pose proof (space_nonneg xs) as Hsp. pose proof (sect_size_nonneg l) as S0. pose proof (zlen_nonneg b) as Zb.
  assert (HF : full l (zlen b) <= 10485760) by (rewrite full_space; lia).
  assert (HR1 : e_rent e (full l (zlen b)) <= T) by (etransitivity; [|exact HR]; apply M; rewrite full_space; lia).
  destruct (job_goes e w0 big infos asset p T He Hz M C HT Hbig (n1 (t, b)) n2 t b w l (Hn1 _) Hn2 Ht HS HO HF (HL (t, b) (or_introl eq_refl)) HA1 HR1) as [w1 H1].
  exists w1. split; [exact H1|].
  destruct (job_effect e w0 big infos asset p T He Hz M C (n1 (t, b)) n2 t b w w1 l ltac:(lia) Ht HS HO HF H1) as (b' & K & O1 & N1 & F1 & NE1 & HS1 & R1).
  pose proof (kept_size l t b b' K) as Sz. rewrite full_space in Sz.
  apply (IH w1 (l ++ [blk_of t b'])); try assumption; [lia| |].
  - intros x Hx. apply lookup_none. unfold ext_list. rewrite map_map. cbn [fst]. rewrite map_app, in_app_iff. cbn [map In bk_type blk_of].
    specialize (HL x (or_intror Hx)). apply lookup_none in HL. unfold ext_list in HL. rewrite map_map in HL. cbn [fst] in HL. intros [Q|[Q|[]]]; [contradiction|]. apply HN1. rewrite Q. now apply in_map.
  - replace (168 + sect_size (l ++ [blk_of t b']) + space xs) with (168 + sect_size l + (16 + (zlen b + 7) / 8 * 8 + space xs)) by lia. assumption.
Qed.
End Loop.

(** ** mint() *)
Lemma stage_start e big asset p w : e_prog e <> pk_zero -> p <> asset -> acct_owner (w p) = pk_zero -> data (w p) = [] -> data (w asset) = [] -> acct_owner (w asset) = pk_zero -> lamports (w asset) = 0 ->
  sized w -> lam_ok w -> plain_accounts e big w -> stage e big w asset p (lamports (w p)) w.
Proof.
  intros Hz N P1 P2 D O L Hs Hl Hp. split; [|repeat (split; [assumption|]); intros k _; auto]. split; [assumption|]. split; [assumption|]. split; [assumption|]. split; [lia|]. split; [auto|contradiction].
Qed.
Lemma mint_exts_jobs e a : Forall (fun x => zlen (snd x) < 4294967296) (mi_exts a) -> flat_map (mint_ext e a) (mi_exts a) = concat (map (job_ixs (mint_infos a) (fun _ => MAX_ALLOCATE) MAX_WRITE) (mi_exts a)).
Proof.
  intro H. rewrite flat_map_concat_map. f_equal. apply map_ext_in. intros [t b] Hx. rewrite Forall_forall in H. apply mint_ext_jobs. exact (H _ Hx).
Qed.
Lemma space_each xs x : In x xs -> zlen (snd x) <= space xs.
Proof. induction xs as [|[t b] xs IH]; intros []; cbn [space]; [subst; cbn [snd]; pose proof (space_nonneg xs); lia|]. specialize (IH H). pose proof (zlen_nonneg b). lia. Qed.
Definition create_infos (e : env) (a : mint_args) : list ainfo :=
  [mkInfo (mi_asset a) true true; mkInfo (mi_owner a) false false; mkInfo (mi_owner a) false false; mkInfo (e_prog e) false false;
    mkInfo (e_prog e) false false; mkInfo (mint_payer a) true true; sys].
Lemma mint_goes0 e a w : env_ok e -> rent_mono e -> e_prog e <> pk_zero -> sized w -> lam_ok w ->
  data (w (mi_asset a)) = [] -> acct_owner (w (mi_asset a)) = pk_zero -> lamports (w (mi_asset a)) = 0 ->
  mint_payer a <> mi_asset a -> mint_payer a <> e_prog e -> acct_owner (w (mint_payer a)) = pk_zero -> data (w (mint_payer a)) = [] -> lamports (w (mint_payer a)) < 18446744073709551616 ->
  plain_accounts e (create_infos e a) w ->
  Forall (fun x => fst x <> XNone) (mi_exts a) -> 168 + space (mi_exts a) <= 10485760 -> text_ok (mi_name a) ->
  (exists w', run_ixs e (mint e a) w = Ok w') <->
  NoDup (map fst (mi_exts a)) /\ Forall (fun x => acceptable (fst x) (snd x)) (mi_exts a) /\
  standard_ok e (mi_standard a) (mi_asset a) (map (fun x => blk_of (fst x) (snd x)) (mi_exts a)) /\
  e_rent e (168 + space (mi_exts a)) <= lamports (w (mint_payer a)).
Proof.
  intros He M Hz Hs Hl D0 O0 L0 Npa Npe P1 P2 PT Hpl HX Hsz Hn.
  set (asset := mi_asset a) in *. set (p := mint_payer a) in *. set (T := lamports (w p)) in *.
  change (map (fun x => blk_of (fst x) (snd x)) (mi_exts a)) with (map of_ext (mi_exts a)).
  assert (C : crew e (mint_infos a) asset p).
  { unfold crew, mint_infos. fold asset p. split; [eexists; split; reflexivity|]. split; [eexists; split; reflexivity|]. split; [eexists; split; reflexivity|]. split; [assumption|].
    split; [|split; [|split]]; first [exists (mkInfo asset true true); split; [left; reflexivity|split; reflexivity]|exists (mkInfo p true true); split; [right; left; reflexivity|split; reflexivity]]. }
  assert (Pm : incl (passed (mint_infos a)) (passed (create_infos e a))).
  { intros i Hi. unfold mint_infos in Hi. unfold create_infos. change (passed [mkInfo (mi_asset a) true true; mkInfo (mint_payer a) true true; sys]) with [mkInfo (mi_asset a) true true; mkInfo (mint_payer a) true true; sys] in Hi.
    match goal with |- In i (passed ?l) => change (passed l) with l end. cbn [In] in *. tauto. }
  pose proof (stage_start e (create_infos e a) asset p w Hz Npa P1 P2 D0 O0 L0 Hs Hl Hpl) as HS. fold T in HS.
  assert (HO : open_account (data (w asset)) (repeat x00 168) [] 0) by (left; auto).
  assert (Hlen : Forall (fun x => zlen (snd x) < 4294967296) (mi_exts a)).
  { apply Forall_forall. intros x Hx. pose proof (space_each _ _ Hx). lia. }
  unfold mint. rewrite (mint_exts_jobs e a Hlen). fold asset p.
  assert (CR : forall w1 l2, Forall2 (fun x b => bk_type b = fst x /\ kept (fst x) (snd x) (bk_data b)) (mi_exts a) l2 -> open_account (data (w1 asset)) (repeat x00 168) l2 0 ->
     stage e (create_infos e a) w asset p T w1 ->
     (exists w', run_ixs e [create_ix e asset (mi_owner a) (mi_owner a) p (mkMetaInput (mi_name a) (mi_standard a) (mi_mutable a) None)] w1 = Ok w') <->
     (data (w1 asset) = [] -> e_rent e 168 <= T) /\ Forall (fun x => acceptable (fst x) (snd x)) (mi_exts a) /\ standard_ok e (mi_standard a) asset (map of_ext (mi_exts a))).
  { intros w1 l2 F2 O2 (P' & Hs1 & Hl1 & Hp1 & _). cbn [run_ixs]. unfold create_ix. rewrite entry_written by (split; [exact Hn|exact I]).
    change [mkInfo asset true true; mkInfo (mi_owner a) false false; mkInfo (mi_owner a) false false; mkInfo (e_prog e) false false; mkInfo (e_prog e) false false; mkInfo p true true; sys] with (create_infos e a).
    set (m := mkMetaInput (mi_name a) (mi_standard a) (mi_mutable a) None).
    assert (EB : (exists w', (w2 <- process e (create_infos e a) w1 (ICreate m) ;; Ok w2) = Ok w') <-> exists w', process e (create_infos e a) w1 (ICreate m) = Ok w').
    { destruct (process e (create_infos e a) w1 (ICreate m)); cbn [bind]; reflexivity. }
    rewrite EB. clear EB.
    assert (A0 : arg (create_infos e a) 0 asset) by (eexists; split; reflexivity).
    assert (A1 : arg (create_infos e a) 1 (mi_owner a)) by (eexists; split; reflexivity).
    assert (A2 : arg (create_infos e a) 2 (mi_owner a)) by (eexists; split; reflexivity).
    assert (A3 : optional e (create_infos e a) 3 None) by (eexists; split; reflexivity).
    assert (A4 : optional e (create_infos e a) 4 None) by (eexists; split; reflexivity).
    assert (A5 : optional e (create_infos e a) 5 (Some p)) by (split; [eexists; split; reflexivity|assumption]).
    assert (A6 : optional e (create_infos e a) 6 (Some pk_zero)) by (split; [eexists; split; reflexivity|congruence]).
    assert (S0 : signed (create_infos e a) asset) by (exists (mkInfo asset true true); split; [left; reflexivity|split; reflexivity]).
    assert (W0 : writable (create_infos e a) asset) by (exists (mkInfo asset true true); split; [left; reflexivity|split; reflexivity]).
    assert (S5 : signed (create_infos e a) p) by (exists (mkInfo p true true); split; [do 5 right; left; reflexivity|split; reflexivity]).
    assert (W5 : writable (create_infos e a) p) by (exists (mkInfo p true true); split; [do 5 right; left; reflexivity|split; reflexivity]).
    rewrite (create_goes e (create_infos e a) w1 m asset (mi_owner a) (mi_owner a) None None (Some p) (Some pk_zero) (repeat x00 168) l2 0 [] A0 A1 A2 A3 A4 A5 A6 O2); try assumption.
    2: { unfold inline. cbn [m m_exts]. constructor. }
    2: { right. cbn. lia. }
    2: { intros g Q. discriminate Q. }
    unfold inline. cbn [m m_exts m_standard inline_blks map sect_size fold_right]. rewrite app_nil_r.
    rewrite (kept_acceptable _ _ F2), (kept_standard _ _ _ _ _ F2). destruct P' as (_ & Q1 & Q2 & Q3 & Q4 & Q5).
    split.
    - intros (_ & B1 & _ & _ & _ & _ & B2 & B3 & _). split; [|split; assumption]. intro E. destruct (B1 E) as (_ & Z1 & _ & _ & _ & p' & Ep & _ & B4). assert (p' = p) by congruence. subst p'. destruct B4 as (_ & _ & _ & _ & B5). change (168 + 0) with 168 in B5. lia.
    - intros (B1 & B2 & B3). split; [assumption|]. split.
      + intro E. destruct (Q4 E) as [Z1 Z2]. split; [assumption|]. split; [assumption|]. change (168 + 0) with 168. specialize (B1 E). split; [lia|]. split; [lia|]. split; [reflexivity|]. exists p. split; [reflexivity|]. split; [assumption|].
        split; [assumption|]. split; [assumption|]. split; [assumption|]. split; [assumption|]. lia.
      + split; [intro E; split; [apply (Q5 E)|apply (open_zeros _ _ O2 E)]|]. split; [constructor|]. split; [constructor|]. split; [constructor|]. split; [assumption|]. split; [assumption|]. intros g Q. discriminate Q. }
  split.
  - intros [w' H]. rewrite run_app in H. apply bind_ok in H as (w1 & H1 & H).
    destruct (loop_effect e w (create_infos e a) (mint_infos a) asset p T (fun _ => MAX_ALLOCATE) MAX_WRITE He Hz M C ltac:(intro; unfold MAX_ALLOCATE; lia) ltac:(unfold MAX_WRITE; lia) (mi_exts a) w w1 [] HS HX HO ltac:(cbn [sect_size fold_right]; lia) H1) as (_ & ND & l2 & F2 & O2 & HS1 & _ & R).
    cbn [app] in O2. destruct (proj1 (CR w1 l2 F2 O2 HS1) (ex_intro _ w' H)) as (B1 & B2 & B3). split; [assumption|]. split; [assumption|]. split; [assumption|].
    destruct (mi_exts a) as [|x xs] eqn:Ex.
    + cbn [map concat run_ixs] in H1. apply Ok_inj in H1. subst w1. exact (B1 D0).
    + destruct (R ltac:(discriminate)) as [_ R1]. exact R1.
  - intros (ND & HA & HSt & HR). assert (G1 : goes (run_ixs e (concat (map (job_ixs (mint_infos a) (fun _ => MAX_ALLOCATE) MAX_WRITE) (mi_exts a))) w)).
    { apply (loop_goes e w (create_infos e a) (mint_infos a) asset p T (fun _ => MAX_ALLOCATE) MAX_WRITE He Hz M C PT Pm ltac:(intro; unfold MAX_ALLOCATE; lia) ltac:(unfold MAX_WRITE; lia) (mi_exts a) w [] HS HX HO); try assumption. intros x _. reflexivity. }
    destruct G1 as [w1 H1]. rewrite run_app, H1. cbn [bind].
    destruct (loop_effect e w (create_infos e a) (mint_infos a) asset p T (fun _ => MAX_ALLOCATE) MAX_WRITE He Hz M C ltac:(intro; unfold MAX_ALLOCATE; lia) ltac:(unfold MAX_WRITE; lia) (mi_exts a) w w1 [] HS HX HO ltac:(cbn [sect_size fold_right]; lia) H1) as (_ & _ & l2 & F2 & O2 & HS1 & _ & R).
    cbn [app] in O2. apply (CR w1 l2 F2 O2 HS1). split; [|split; assumption]. intro E. destruct (mi_exts a) as [|x xs] eqn:Ex; [exact HR|]. destruct (R ltac:(discriminate)) as [R0 _]. contradiction.
Qed.
Lemma mint_goes e a w : env_ok e -> rent_mono e -> e_prog e <> pk_zero -> sized w -> lam_ok w ->
  vacant w (mi_asset a) -> wallet w (mint_payer a) -> mint_payer a <> mi_asset a -> mint_payer a <> e_prog e ->
  plain_at e w (mi_owner a) -> plain_at e w (e_prog e) -> plain_at e w pk_zero ->
  Forall (fun x => fst x <> XNone) (mi_exts a) -> 168 + space (mi_exts a) <= 10485760 -> text_ok (mi_name a) ->
  (exists w', run_ixs e (mint e a) w = Ok w') <->
  NoDup (map fst (mi_exts a)) /\ Forall (fun x => acceptable (fst x) (snd x)) (mi_exts a) /\
  standard_ok e (mi_standard a) (mi_asset a) (map (fun x => blk_of (fst x) (snd x)) (mi_exts a)) /\
  e_rent e (168 + space (mi_exts a)) <= lamports (w (mint_payer a)).
Proof.
  intros He M Hz Hs Hl (D0 & O0 & L0) (P1 & P2 & PT) Npa Npe Q1 Q2 Q3 HX Hsz Hn. apply mint_goes0; try assumption.
  intros b Hb. unfold create_infos, passed in Hb. cbn [firstn In] in Hb.
  destruct Hb as [<-|[<-|[<-|[<-|[<-|[<-|[<-|[]]]]]]]]; cbn [ai_key sys]; try assumption; intros _; left; assumption.
Qed.

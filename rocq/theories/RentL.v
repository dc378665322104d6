(** Lemmas: every account of the program keeps its rent. *)
From Verif Require Import Base State Layout Constr Ext World Proc BaseL Spec SpecH SpecG SpecR SpecL SpecRent WorldL ProcSteps HeadL AuthL UpdateL CreateL CountH LiveL CreatorsL AllocM UpdateM TopL FrameL.
From Verif Require CodecL.
From Coq Require Import Strings.Byte.

(** ** Lengths *)
Lemma len_memcpy d o bs d' : memcpy_at d o bs = Ok d' -> zlen d' = zlen d.
Proof. intro H. apply memcpy_inv in H as (A & B & ->). now apply zlen_put. Qed.
Lemma len_memmove d o s n d' : 0 <= n -> memmove d o s n = Ok d' -> zlen d' = zlen d.
Proof.
  intros Hn H. unfold memmove in H. destruct (n =? 0); [now apply Ok_inj in H; subst|].
  match type of H with (if ?c then _ else _) = _ => destruct c eqn:G; [|discriminate] end. apply Ok_inj in H. subst d'. bnorm.
  apply zlen_put; rewrite ?zlen_fld; lia.
Qed.
Lemma len_fix delta : forall f d cur d', fix_boundaries f delta d cur = Ok d' -> zlen d' = zlen d.
Proof.
  induction f as [|f IH]; intros d cur d' H; [discriminate|]. cbn [fix_boundaries] in H. destruct (cur <? zlen d); [|apply Ok_inj in H; now subst].
  apply bind_ok in H as (h & Hh & H). apply load_range in Hh. cbv zeta in H. apply IH in H. rewrite H. apply zlen_put; rewrite ?le_enc_zlen; lia.
Qed.
Lemma len_on_create t al au b b' : on_create t al au b = Ok b' -> zlen b' = zlen b.
Proof. intro H. apply on_create_fresh in H as (H & _). unfold zlen. now rewrite H. Qed.
Lemma len_validate t al inp cur auth r : validate t al inp cur auth = Ok r -> zlen r = zlen inp.
Proof. intro H. apply validate_stored, stored_len in H. unfold zlen. now rewrite H. Qed.
Lemma len_loop auth : forall f d off seen r, 0 <= off -> create_loop f auth d off seen = Ok r -> zlen (fst r) = zlen d.
Proof.
  induction f as [|f IH]; intros d off seen r Ho H; [discriminate|]. cbn [create_loop] in H. destruct (_ <=? _); [|apply Ok_inj in H; subst; reflexivity].
  apply bind_ok in H as (h & Hh & H). apply load_range in Hh.
  destruct (ext_of_code (h_type h)) as [t|]; [|discriminate].
  destruct t; try (apply Ok_inj in H; subst; reflexivity).
  all: cbv zeta in H; apply require_ok in H as [G1 H]; apply guard_ok in H as [G2 H]; apply bind_ok in H as (b' & Hb & H); apply map_err_ok, len_on_create in Hb;
    unfold EXT_LEN in *; rewrite zlen_fld in Hb by lia; (etransitivity; [eapply IH; [|exact H]; lia|]); apply zlen_put; lia.
Qed.
Lemma len_header d m ow au : 168 <= zlen d -> zlen (init_header d m ow au) = zlen d.
Proof.
  intro L. unfold init_header. cbv zeta. pose proof (pk_zlen ow) as A. pose proof (pk_zlen au) as B. pose proof (zlen_pod (m_name m)) as C.
  assert (O : forall b : byte, zlen [b] = 1) by reflexivity.
  repeat (rewrite zlen_put; rewrite ?A, ?B, ?C, ?O; try lia).
Qed.
Lemma len_creators f l : (forall c, length (cr_addr (f c)) = length (cr_addr c)) -> length (enc_creators (map f l)) = length (enc_creators l).
Proof.
  intro H. unfold enc_creators. induction l as [|c l IH]; [reflexivity|]. cbn [map concat]. rewrite !app_length, IH. unfold enc_creator. rewrite !app_length, H. reflexivity.
Qed.
Lemma get_room t d o b : asset_get t d = Ok (Some (o, b)) -> 0 <= o /\ o + zlen b <= zlen d.
Proof.
  intro H. unfold asset_get, find_ext in H. apply bind_ok in H as (r & Hr & H). destruct r as [[c h]|]; [|discriminate].
  apply bind_ok in H as (x & Hx & H). injection H as <- <-. apply slice_ok in Hx. lia.
Qed.
Lemma sect_room t x : forall f cur o b, sect_loop f t x cur = Ok (Some (o, b)) -> 0 <= o /\ o + zlen b <= zlen x.
Proof.
  induction f as [|f IH]; intros cur o b H; [discriminate|]. cbn [sect_loop] in H. destruct (_ <=? zlen x); [|discriminate].
  apply bind_ok in H as (h & Hh & H). destruct (h_type h =? ext_code t).
  - apply bind_ok in H as (y & Hy & H). injection H as <- <-. apply slice_ok in Hy. lia.
  - destruct (h_type h =? 0); [discriminate|]. eapply IH; exact H.
Qed.
Lemma grouping_room al b g : grouping_from_bytes al b = Ok g -> 16 <= zlen b.
Proof. intro H. unfold grouping_from_bytes in H. apply guard_ok in H as [H _]. lia. Qed.
Lemma asset_room d : is_asset d = true -> 168 <= zlen d.
Proof. intro A. now apply is_asset_spec, initialized_len in A. Qed.

(** ** Worlds *)
Section Steps.
Variable e : env.
Hypothesis Hprog : e_prog e <> pk_zero.
Hypothesis He : env_ok e.
Hypothesis Hm : rent_mono e.
Definition paid (w : world) : Prop := paid_by (e_rent e) (e_prog e) w.
Definition paid_at (w : world) (k : pubkey) : Prop := acct_owner (w k) = e_prog e -> 0 < zlen (data (w k)) -> e_rent e (zlen (data (w k))) <= lamports (w k).

Lemma paid_upd w k a : (forall x, x <> k -> paid_at w x) -> (acct_owner a = e_prog e -> 0 < zlen (data a) -> e_rent e (zlen (data a)) <= lamports a) -> paid (upd w k a).
Proof. intros T H x. destruct (pk_dec x k) as [->|N]; [now rewrite upd_same|]. rewrite upd_other by assumption. exact (T x N). Qed.
Lemma paid_set infos w k d w' : paid w -> zlen d = zlen (data (w k)) -> set_data e infos w k d = Ok w' -> paid w'.
Proof.
  intros T L H. unfold set_data in H. destruct (bytes_eqb d (data (w k))); [now apply Ok_inj in H; subst|].
  apply require_ok in H as [_ H]. apply Ok_inj in H. subst w'. apply paid_upd; [intros y _; exact (T y)|]. cbn [acct_owner data lamports]. rewrite L. apply T.
Qed.
Lemma paid_sys infos w s t n w' : 0 <= n -> (forall x, x <> t -> paid_at w x) ->
  (acct_owner (w t) = e_prog e -> 0 < zlen (data (w t)) -> e_rent e (zlen (data (w t))) <= lamports (w t) + n) -> sys_transfer infos w s t n = Ok w' -> paid w'.
Proof.
  intros Hn T K H. unfold sys_transfer in H.
  apply require_ok in H as [_ H]. apply require_ok in H as [O H]. bnorm. apply require_ok in H as [_ H]. cbv zeta in H. apply require_ok in H as [_ H]. apply Ok_inj in H. subst w'.
  apply paid_upd; cbn [acct_owner data lamports].
  - intros x Nx. unfold paid_at. destruct (pk_dec x s) as [->|N]; [rewrite upd_same; cbn [acct_owner]; congruence|]. rewrite upd_other by assumption. now apply T.
  - destruct (pk_dec t s) as [->|N]; [rewrite upd_same; cbn [acct_owner]; congruence|]. rewrite upd_other by assumption. exact K.
Qed.
Lemma zlen_zeros_le n : 0 < zlen (zeros n) -> zlen (zeros n) = n.
Proof. unfold zeros, zlen. rewrite repeat_length. lia. Qed.
Lemma paid_create infos w p k n w' : paid w -> sys_create e infos w p k (e_rent e n) n = Ok w' -> paid w'.
Proof.
  intros T H. unfold sys_create in H. apply require_ok in H as [_ H]. apply require_ok in H as [G H]. bnorm. apply require_ok in H as [_ H]. cbv zeta in H.
  eapply paid_sys; [apply He| | |exact H].
  - intros x Nx. unfold paid_at. rewrite upd_other by assumption. apply T.
  - rewrite upd_same. cbn [acct_owner data lamports]. intros _ Z'. rewrite (zlen_zeros_le _ Z'). lia.
Qed.
Lemma realloc_lam infos w0 w k n w' x : realloc e infos w0 w k n = Ok w' -> lamports (w' x) = lamports (w x).
Proof. intro H. exact (realloc_money _ _ _ _ _ _ _ x H). Qed.
Lemma zlen_realloc_le d n : 0 < zlen (realloc_bytes d n) -> zlen (realloc_bytes d n) = n /\ 0 < n.
Proof.
  unfold realloc_bytes, zeros. pose proof (zlen_nonneg d). destruct (Z.leb_spec n (zlen d)); unfold zlen in *.
  - rewrite firstn_length. lia.
  - rewrite app_length, repeat_length. lia.
Qed.
Lemma paid_resize infos w0 w n k p s w' : paid w -> acct_owner (w k) = e_prog e -> resize e infos w0 w n k p s = Ok w' -> paid w'.
Proof.
  intros T O H. destruct (resize_data _ _ _ _ _ _ _ _ _ H) as (D & Do & Ow).
  unfold resize in H. cbv zeta in H. apply bind_ok in H as (w1 & H1 & H).
  assert (Q : (forall x, x <> k -> paid_at w1 x) /\ (forall x, acct_owner (w1 x) = acct_owner (w x)) /\ (forall x, data (w1 x) = data (w x)) /\ (0 < n -> e_rent e n <= lamports (w1 k))).
  { destruct (Z.ltb_spec n (zlen (data (w k)))) as [L|L].
    - apply bind_ok in H1 as (q & Hq & H1). pose proof (fun x => move_lamports_data _ _ _ _ _ _ _ x H1) as MD.
      split; [|split; [intro x; apply MD|split; [intro x; apply MD|]]].
      + intros x Nx. unfold paid_at. rewrite (proj1 (MD x)), (proj2 (MD x)). intros A B. pose proof (T x A B).
        unfold move_lamports in H1. destruct (_ || _); [apply Ok_inj in H1; now subst|].
        apply require_ok in H1 as [_ H1]. apply require_ok in H1 as [_ H1]. cbv zeta in H1. apply require_ok in H1 as [_ H1]. apply Ok_inj in H1. subst w1.
        destruct (pk_dec x q) as [->|N]; [rewrite upd_same|rewrite upd_other by assumption]; cbn [lamports]; rewrite upd_other by assumption; lia.
      + intro Hn. pose proof (Hm n (zlen (data (w k)))). assert (P : e_rent e (zlen (data (w k))) <= lamports (w k)) by (apply T; [assumption|lia]).
        unfold move_lamports in H1. destruct (_ || pk_eqb k q) eqn:E; [apply Ok_inj in H1; subst; lia|]. apply Bool.orb_false_iff in E as [_ E].
        apply require_ok in H1 as [_ H1]. apply require_ok in H1 as [_ H1]. cbv zeta in H1. apply require_ok in H1 as [_ H1]. apply Ok_inj in H1. subst w1.
        rewrite upd_other by (intros ->; rewrite pk_eqb_refl in E; discriminate E). rewrite upd_same. cbn [lamports]. replace (n =? 0) with false by lia. lia.
    - apply require_ok in H1 as [_ H1]. destruct (0 <? _) eqn:E.
      + apply bind_ok in H1 as (q & Hq & H1). apply bind_ok in H1 as (s0 & Hs & H1). apply require_ok in H1 as [_ H1]. apply require_ok in H1 as [_ H1].
        pose proof (fun x => sys_transfer_data _ _ _ _ _ _ x H1) as MD.
        split; [|split; [intro x; apply MD|split; [intro x; apply MD|]]].
        * intros x _. assert (P1 : paid w1); [|exact (P1 x)]. eapply paid_sys; [| | |exact H1]; [lia|intros y _; exact (T y)|]. intros A B. pose proof (T k A B). lia.
        * intros _. destruct (pk_dec q k) as [->|N]; [exfalso; eapply sys_transfer_self; eauto|].
          unfold sys_transfer in H1. apply require_ok in H1 as [_ H1]. apply require_ok in H1 as [_ H1]. apply require_ok in H1 as [_ H1]. cbv zeta in H1. apply require_ok in H1 as [_ H1]. apply Ok_inj in H1. subst w1.
          rewrite upd_same. cbn [lamports]. rewrite upd_other by congruence. lia.
      + apply Ok_inj in H1. subst w1. split; [intros x _; exact (T x)|]. split; [reflexivity|]. split; [reflexivity|]. intros _. lia. }
  destruct Q as (Q1 & Q2 & Q3 & Q4). intros x A B. rewrite (realloc_lam _ _ _ _ _ _ x H).
  destruct (pk_dec x k) as [->|N].
  - rewrite D in B |- *. destruct (zlen_realloc_le _ _ B) as [-> P]. now apply Q4.
  - rewrite Do in B |- * by assumption. rewrite <- (Q3 x) in B |- *. apply Q1; [assumption| |assumption]. rewrite Q2, <- Ow. exact A.
Qed.
Lemma paid_close infos w k r w' : lam_ok w -> paid w -> close_account e infos w k r = Ok w' -> paid w'.
Proof.
  intros LO T H. unfold close_account in H. apply require_ok in H as [_ H]. apply guard_ok in H as [_ H]. apply bind_ok in H as (w1 & H1 & H).
  apply require_ok in H as [_ H]. apply Ok_inj in H. subst w'. apply paid_upd; [|cbn; intros _ Q; change (zlen []) with 0 in Q; lia].
  intros x Nx. unfold move_lamports in H1. destruct (_ || _); [apply Ok_inj in H1; subst; exact (T x)|].
  apply require_ok in H1 as [_ H1]. apply require_ok in H1 as [_ H1]. cbv zeta in H1. apply require_ok in H1 as [_ H1]. apply Ok_inj in H1. subst w1.
  pose proof (LO k). unfold paid_at. destruct (pk_dec x r) as [->|N]; [rewrite upd_same|rewrite upd_other by assumption]; cbn [lamports acct_owner data]; rewrite upd_other by assumption; [|apply T].
  intros A B. pose proof (T r A B). lia.
Qed.

Ltac own := unfold owned_by_prog in *; bnorm.
Ltac room := repeat match goal with A : is_asset _ = true |- _ => apply asset_room in A end.

Lemma close_paid infos w w' : lam_ok w -> paid w -> process_close e infos w = Ok w' -> paid w'.
Proof. intros LO T H. unfold process_close in H. rinv H. eapply paid_close; eauto. Qed.
Lemma burn_paid infos w w' : lam_ok w -> paid w -> process_burn e infos w = Ok w' -> paid w'.
Proof.
  intros LO T H. unfold process_burn in H. rinv H.
  assert (Q : lam_ok x4 /\ paid x4); [|destruct Q; eapply paid_close; [| |exact H]; assumption]. clear H.
  destruct (nullable _); [|apply Ok_inj in Hx4; now subst].
  apply bind_ok in Hx4 as (ga & _ & G). apply require_ok in G as [_ G]. apply require_ok in G as [_ G]. cbv zeta in G. apply bind_ok in G as (r & G1 & G).
  destruct r as [[off b0]|]; [|discriminate]. apply bind_ok in G as (gr & G2 & G). apply require_ok in G as [_ G].
  split; [intro j; rewrite (set_data_lam _ _ _ _ _ _ j G); apply LO|].
  apply get_room in G1. apply grouping_room in G2. eapply paid_set; [exact T| |exact G]. apply zlen_put; rewrite ?le_enc_zlen; lia.
Qed.
Lemma len_clear d : 168 <= zlen d -> zlen (clear_delegate d) = zlen d.
Proof. intro L. unfold clear_delegate. apply zlen_put; [lia|]. change (zlen (zeros 33)) with 33. lia. Qed.
Lemma len1 d o b : 168 <= zlen d -> 0 <= o < 168 -> zlen (put d o [b]) = zlen d.
Proof. intros L Ho. apply zlen_put; [lia|]. change (zlen [b]) with 1. lia. Qed.
Lemma len32 d o k : 168 <= zlen d -> 0 <= o <= 100 -> zlen (put d o (pk_bytes k)) = zlen d.
Proof. intros L Ho. apply zlen_put; rewrite ?pk_zlen; lia. Qed.
Lemma len33 d o k b : 168 <= zlen d -> 0 <= o <= 100 -> zlen (put d o (pk_bytes k ++ [b])) = zlen d.
Proof. intros L Ho. apply zlen_put; rewrite ?zlen_app, ?pk_zlen; try lia. change (zlen [b]) with 1. lia. Qed.
Lemma approve_paid infos w a w' : paid w -> process_approve e infos w a = Ok w' -> paid w'.
Proof.
  intros T H. unfold process_approve in H. rinv H. own. room. eapply paid_set; [exact T| |exact H].
  repeat match goal with |- zlen (if ?c then _ else _) = _ => destruct c | |- zlen (match ?c with _ => _ end) = _ => destruct c end; rewrite ?len1, ?len33 by (assumption || lia); reflexivity.
Qed.
Lemma revoke_paid infos w a w' : paid w -> process_revoke e infos w a = Ok w' -> paid w'.
Proof.
  intros T H. unfold process_revoke in H. rinv H. own. room. eapply paid_set; [exact T| |exact H]. cbv zeta.
  repeat match goal with |- zlen (if ?c then _ else _) = _ => destruct c | |- zlen (match ?c with _ => _ end) = _ => destruct c end; rewrite ?len1, ?len_clear by (assumption || lia); reflexivity.
Qed.
Lemma set_state_paid st infos w w' : paid w -> process_set_state st e infos w = Ok w' -> paid w'.
Proof. intros T H. unfold process_set_state in H. rinv H. own. room. eapply paid_set; [exact T| |exact H]. apply len1; [assumption|lia]. Qed.
Lemma transfer_paid infos w w' : paid w -> process_transfer e infos w = Ok w' -> paid w'.
Proof.
  intros T H. unfold process_transfer in H. rinv H. own. room.
  match type of H with (if ?c then _ else _) = _ => destruct c end; [apply Ok_inj in H; now subst|]. rinv H.
  eapply paid_set; [exact T| |exact H]. rewrite len_clear; rewrite len32; (assumption || lia).
Qed.
Lemma set_verified_paid v infos w w' : paid w -> process_set_verified v e infos w = Ok w' -> paid w'.
Proof.
  intros T H. unfold process_set_verified in H. rinv H. destruct x1 as [[off b]|]; rinv H. own. room.
  eapply paid_set; [exact T| |exact H]. apply get_room in Hx1.
  match goal with Q : creators_from_bytes _ = Ok _ |- _ => apply CodecL.creators_exact in Q as [Q _] end.
  apply zlen_put; [lia|]. unfold zlen at 1. rewrite len_creators by (intro c; destruct (key_is (cr_addr c) _); reflexivity).
  match goal with Q : enc_creators _ = b |- _ => rewrite Q end. unfold zlen in *. lia.
Qed.
Lemma handover_paid infos w w' : paid w -> process_handover e infos w = Ok w' -> paid w'.
Proof. intros T H. unfold process_handover, check_authority in H. rinv H. own. room. eapply paid_set; [exact T| |exact H]. apply len32; (assumption || lia). Qed.
Lemma zlen_drop168 d : 168 <= zlen d -> zlen (drop ASSET_LEN d) = zlen d - 168.
Proof. intro L. unfold drop, ASSET_LEN, zlen in *. rewrite skipn_length. lia. Qed.
Lemma do_group_paid infos w a g k w' : paid w -> do_group e infos w a g k = Ok w' -> paid w'.
Proof.
  intros T H. unfold do_group in H. rinv H. destruct x as [[off b]|]; rinv H. own. room.
  match goal with Q : set_data _ _ w a _ = Ok ?y |- _ => rename y into w1; rename Q into S1 end.
  assert (T1 : paid w1) by (eapply paid_set; [exact T| |exact S1]; apply len32; (assumption || lia)).
  eapply paid_set; [exact T1| |exact H]. unfold sect_get in Hx. apply sect_room in Hx. rewrite zlen_drop168 in Hx by assumption.
  match goal with Q : grouping_from_bytes _ _ = Ok _ |- _ => apply grouping_room in Q end.
  assert (N : g <> a) by (match goal with Q : pk_eqb g a = false |- _ => intros ->; rewrite pk_eqb_refl in Q; discriminate Q | Q : g <> a |- _ => exact Q end).
  rewrite (set_data_other _ _ _ _ _ _ _ S1 N).
  unfold ASSET_LEN. apply zlen_put; rewrite ?le_enc_zlen; lia.
Qed.
Lemma group_paid infos w w' : paid w -> process_group e infos w = Ok w' -> paid w'.
Proof. intros T H. unfold process_group in H. rinv H. eapply do_group_paid; eauto. Qed.
Lemma ungroup_paid infos w w' : paid w -> process_ungroup e infos w = Ok w' -> paid w'.
Proof.
  intros T H. unfold process_ungroup in H. rinv H. destruct x2 as [[off b]|]; rinv H. own. room.
  match goal with Q : set_data _ _ w x _ = Ok ?y |- _ => rename y into w1; rename Q into S1 end.
  assert (T1 : paid w1). { eapply paid_set; [exact T| |exact S1]. apply zlen_put; [lia|]. change (zlen zero32) with 32. lia. }
  eapply paid_set; [exact T1| |exact H]. unfold sect_get in Hx2. apply sect_room in Hx2. rewrite zlen_drop168 in Hx2 by assumption.
  match goal with Q : grouping_from_bytes _ _ = Ok _ |- _ => apply grouping_room in Q end.
  assert (N : x0 <> x) by (match goal with Q : pk_eqb x0 x = false |- _ => intros ->; rewrite pk_eqb_refl in Q; discriminate Q | Q : x0 <> x |- _ => exact Q end).
  rewrite (set_data_other _ _ _ _ _ _ _ S1 N).
  unfold ASSET_LEN. apply zlen_put; rewrite ?le_enc_zlen; lia.
Qed.
Lemma alloc_create_paid infos w k p s n w' : paid w -> alloc_create_account e infos w k p s n = Ok w' -> paid w'.
Proof. intros T H. unfold alloc_create_account in H. rinv H. eapply paid_create; eauto. Qed.
Lemma save_paid infos w0 w k p s x ex off bs w' : paid w -> (ex = true -> acct_owner (w k) = e_prog e) ->
  save_extension_data e infos w0 w k p s x ex off bs = Ok w' -> paid w'.
Proof.
  intros T Ho H. unfold save_extension_data in H. cbv zeta in H. rinv H.
  assert (Hs : paid x0).
  { destruct ex; cbn [negb] in Hx.
    - specialize (Ho eq_refl). match type of Hx with (if ?c then _ else _) = _ => destruct c end; rinv Hx; [|assumption]. eapply paid_resize; eauto.
    - eapply alloc_create_paid; eauto. }
  apply set_hdr_inv in Hx0. eapply paid_set; [exact Hs| |exact H]. rewrite <- Hx0. destruct bs; [apply Ok_inj in Hx1; now subst|]. now apply len_memcpy in Hx1.
Qed.
Lemma do_allocate_paid infos w0 w k p s x w' : paid w -> do_allocate e infos w0 w k p s x = Ok w' -> paid w'.
Proof.
  intros T H. unfold do_allocate in H. rinv H. assert (Q : fst x0 = true -> acct_owner (w k) = e_prog e).
  { destruct (zlen (data (w k)) =? 0); [apply Ok_inj in Hx; subst; cbn; discriminate|]. rinv Hx. own. intros _. assumption. }
  eapply save_paid; [exact T|exact Q|exact H].
Qed.
Lemma allocate_paid infos w x w' : paid w -> process_allocate e infos w x = Ok w' -> paid w'.
Proof. intros T H. unfold process_allocate in H. rinv H. eapply do_allocate_paid; eauto. Qed.
Lemma allocate_all_paid infos w0 k p s l : forall w w', paid w -> allocate_all e infos w0 w k p s l = Ok w' -> paid w'.
Proof.
  induction l as [|x l IH]; intros w w' T H; cbn [allocate_all] in H; [apply Ok_inj in H; now subst|].
  apply bind_ok in H as (w1 & H1 & H). eapply IH; [|exact H]. eapply do_allocate_paid; eauto.
Qed.
Lemma write_paid infos w a w' : paid w -> process_write e infos w a = Ok w' -> paid w'.
Proof.
  intros T H. unfold process_write in H. rinv H. destruct x2 as [[h off]|]; rinv H. own.
  assert (T1 : paid x2) by (eapply paid_resize; [exact T| |eassumption]; assumption).
  match goal with Q : memcpy_at _ _ _ = Ok x3 |- _ => apply len_memcpy in Q; rename Q into L3 end.
  assert (T2 : paid x4) by (eapply paid_set; [exact T1|exact L3|eassumption]).
  match type of H with (if ?c then _ else _) = _ => destruct c end; [apply Ok_inj in H; now subst|]. rinv H.
  destruct x5 as [[h2 off2]|]; rinv H.
  match goal with Q : set_data _ _ x2 x x3 = Ok x4 |- _ => pose proof (set_data_data _ _ _ _ _ _ Q) as D4 end.
  match goal with Q : map_err _ _ = Ok _ |- _ => apply map_err_ok, len_on_create in Q; rename Q into L5 end.
  match goal with Q : slice _ _ _ = Ok _ |- _ => apply slice_ok in Q end.
  eapply paid_set; [exact T2| |exact H]. rewrite D4. apply zlen_put; lia.
Qed.
Lemma create_paid infos w m w' : paid w -> process_create e infos w m = Ok w' -> paid w'.
Proof.
  intros T H. unfold process_create in H. rinv H.
  assert (T1 : paid x6).
  { destruct (zlen (data (w x)) =? 0); [eapply alloc_create_paid; eauto|]. rinv Hx6. assumption. }
  assert (T2 : paid x7) by (destruct (m_exts m); [eapply allocate_all_paid; eauto|apply Ok_inj in Hx7; now subst]).
  assert (T3 : paid x12).
  { apply guard_ok in Hx8 as [G Hx8]. unfold ASSET_LEN in G. apply len_loop in Hx8; [|unfold ASSET_LEN; lia]. eapply paid_set; [exact T2| |eassumption].
    rewrite len_header; lia. }
  destruct x2; [eapply do_group_paid; eauto|]. apply Ok_inj in H. now subst.
Qed.
Lemma update_source_paid infos w k a b x t off f n src w' : paid w -> update_source e infos w k a b x t off f = Ok (n, src, w') -> paid w'.
Proof.
  intros T H. unfold update_source in H. destruct b as [bk|].
  - cbv zeta in H. apply bind_ok in H as (fe & Hf & H). destruct fe as [[h o]|]; [|discriminate]. rinv H.
    match goal with Q : validate _ _ _ _ _ = Ok _ |- _ => apply len_validate in Q end.
    match goal with Q : slice (data (w bk)) _ _ = Ok _ |- _ => apply slice_ok in Q end.
    eapply paid_set; [exact T| |eassumption]. apply zlen_put; lia.
  - destruct x as [x|]; [|discriminate]. apply bind_ok in H as (r & Hr & H). destruct r as [n0 o].
    do 2 (match type of H with (if ?c then _ else _) = _ => destruct c end; [discriminate|]). injection H as _ _ <-. assumption.
Qed.
Lemma update_room_paid infos w0 w k p s off f n w' : paid w -> acct_owner (w k) = e_prog e -> update_room e infos w0 w k p s off f n = Ok w' -> paid w'.
Proof.
  intros T Ow H. unfold update_room in H.
  destruct f as [c|]; cbv zeta in H; [|eapply paid_resize; [exact T|exact Ow|exact H]].
  destruct (h_len c =? n); [apply Ok_inj in H; now subst|]. rinv H. destruct x as [[lh lo]|]; rinv H.
  assert (T1 : paid x /\ acct_owner (x k) = e_prog e).
  { destruct (0 <? _); rinv Hx0; [|split; assumption]. split; [eapply paid_resize; [exact T|exact Ow|exact Hx0]|]. now rewrite (proj2 (proj2 (resize_data _ _ _ _ _ _ _ _ _ Hx0))). }
  apply len_memmove in Hx1; [|lia].
  assert (T2 : paid x1) by (eapply paid_set; [apply T1|exact Hx1|eassumption]).
  destruct (_ <? 0); rinv H; [|assumption]. eapply paid_resize; [exact T2| |exact H]. rewrite (set_data_owner _ _ _ _ _ _ k Hx2). apply T1.
Qed.
Lemma update_finish_paid infos w k b t off f n src w' : paid w -> update_finish e infos w k b t off f n src = Ok w' -> paid w'.
Proof.
  intros T H. unfold update_finish in H. cbv zeta in H. rinv H.
  eapply paid_set; [exact T| |exact H]. apply set_hdr_inv in Hx. apply len_fix in Hx0. rewrite <- Hx, <- Hx0.
  destruct (0 <? n); [|apply Ok_inj in Hx1; now subst].
  destruct b; [rinv Hx1; eapply len_memcpy; eauto|]. destruct src; [eapply len_memcpy; eauto|]. apply Ok_inj in Hx1. now subst.
Qed.
Lemma update_paid infos w a w' : paid w -> process_update e infos w a = Ok w' -> paid w'.
Proof.
  intros T H. unfold process_update, check_authority in H. rinv H. own. room.
  assert (T1 : paid x5).
  { eapply paid_set; [exact T| |eassumption].
    assert (L1 : zlen (match u_name a with Some n => put (data (w x)) 133 (pod_str35 n) | None => data (w x) end) = zlen (data (w x))).
    { destruct (u_name a) as [nm|]; [|reflexivity]. apply zlen_put; rewrite ?zlen_pod; lia. }
    destruct (u_mutable a) as [mu|]; [|exact L1]. etransitivity; [apply len1; [|lia]|exact L1]. refine (eq_ind_r (fun z => 168 <= z) _ L1). assumption. }
  assert (O1 : acct_owner (x5 x) = e_prog e) by (rewrite (set_data_owner _ _ _ _ _ _ x Hx5); assumption).
  assert (U : forall xx, update_ext e infos w x5 x x0 x1 x3 x4 xx = Ok w' -> paid w').
  { intros xx U. unfold update_ext in U. rinv U. destruct x7 as [off found]. rinv U. destruct x7 as [[n src] w2]. rinv U.
    match goal with Q : update_source _ _ _ _ _ _ _ _ _ _ = _ |- _ => pose proof (update_source_psteps e infos _ _ _ _ _ _ _ _ _ _ _ Q) as [_ O2]; apply update_source_paid in Q; [|assumption] end.
    match goal with Q : update_room _ _ _ _ _ _ _ _ _ _ = _ |- _ => apply update_room_paid in Q; [|assumption|congruence] end.
    eapply update_finish_paid; [|exact U]; assumption. }
  destruct (u_ext a), x1; try discriminate; try (eapply U; exact H). apply Ok_inj in H. now subst.
Qed.
Lemma remove_paid infos w t w' : paid w -> process_remove e infos w t = Ok w' -> paid w'.
Proof.
  intros T H. unfold process_remove, check_authority in H. rinv H. own. destruct x3 as [[off bnd]|]; rinv H.
  match goal with Q : memmove _ _ _ _ = Ok _ |- _ => apply len_memmove in Q; [rename Q into L|lia] end.
  match goal with Q : set_data _ _ w x _ = Ok ?y |- _ => rename y into w1; rename Q into S1 end.
  eapply paid_resize; [eapply paid_set; [exact T|exact L|exact S1]| |exact H]. rewrite (set_data_owner _ _ _ _ _ _ x S1). assumption.
Qed.
Lemma resize_paid infos w s w' : paid w -> process_resize e infos w s = Ok w' -> paid w'.
Proof. intros T H. unfold process_resize, check_authority in H. rinv H. own. eapply paid_resize; [exact T| |exact H]. assumption. Qed.
Lemma process_paid infos w i w' : lam_ok w -> paid w -> process e infos w i = Ok w' -> paid w'.
Proof.
  intros LO T H. apply process_dispatch in H.
  destruct i; cbn [dispatch] in H.
  - exact (close_paid _ _ _ LO T H).
  - exact (burn_paid _ _ _ LO T H).
  - exact (create_paid _ _ _ _ T H).
  - exact (approve_paid _ _ _ _ T H).
  - exact (allocate_paid _ _ _ _ T H).
  - exact (set_state_paid _ _ _ _ T H).
  - exact (revoke_paid _ _ _ _ T H).
  - exact (transfer_paid _ _ _ T H).
  - exact (set_state_paid _ _ _ _ T H).
  - exact (set_verified_paid _ _ _ _ T H).
  - exact (update_paid _ _ _ _ T H).
  - exact (set_verified_paid _ _ _ _ T H).
  - exact (write_paid _ _ _ _ T H).
  - exact (group_paid _ _ _ T H).
  - exact (ungroup_paid _ _ _ T H).
  - exact (handover_paid _ _ _ T H).
  - exact (remove_paid _ _ _ _ T H).
  - exact (resize_paid _ _ _ _ T H).
Qed.
End Steps.

Lemma paid_ext e p rent w : e_prog e = p -> (forall n, e_rent e n = rent n) -> paid_by rent p w <-> paid_by (e_rent e) (e_prog e) w.
Proof. intros <- E. unfold paid_by. split; intros H k A B; [rewrite E|rewrite <- E]; auto. Qed.
Lemma rented_paid rent p w w' : p <> pk_zero -> tariff rent -> rented rent p w w' -> lam_ok w -> paid_by rent p w -> paid_by rent p w'.
Proof.
  intros Hp [HM HN] H Hl HP. enough (Q : lam_ok w' /\ paid_by rent p w') by tauto.
  induction H as [w|w w1 e infos i w2 H IH E ER HI|w w1 w2 H IH HO HL HB].
  - auto.
  - destruct IH as [A B]; auto. assert (Hp' : e_prog e <> pk_zero) by congruence.
    assert (He : env_ok e) by (intro n; rewrite ER; apply HN). assert (HR : rent_mono e) by (intros a b; rewrite !ER; apply HM).
    split; [eapply lam_ok_preserved; eauto|]. apply (paid_ext e p rent w2 E ER). apply (paid_ext e p rent w1 E ER) in B.
    exact (process_paid e Hp' He HR infos w1 i w2 A B HI).
  - destruct IH as [A B]; auto. destruct HO as (O1 & _ & _ & O4). split; [exact O4|]. intros k Ok Hk.
    destruct (pk_dec (acct_owner (w1 k)) p) as [Y|N]; [|exact (HB k N Ok)].
    destruct (O1 k Y) as [_ G]. rewrite G in Hk |- *. pose proof (B k Y Hk). pose proof (HL k Y). lia.
Qed.

(** ** Shrinking leaves exactly the rent *)
Lemma resize_sweep e infos w0 w n k r s w' : rent_mono e -> paid_by (e_rent e) (e_prog e) w -> acct_owner (w k) = e_prog e -> r <> k ->
  0 < n < zlen (data (w k)) -> resize e infos w0 w n k (Some r) s = Ok w' ->
  lamports (w' k) = e_rent e n /\ lamports (w' r) = lamports (w r) + lamports (w k) - e_rent e n.
Proof.
  intros Hm T O N Hn H. pose proof (T k O ltac:(lia)) as P. pose proof (Hm n (zlen (data (w k))) ltac:(lia)) as M.
  unfold resize in H. cbv zeta in H. apply bind_ok in H as (w1 & H1 & H).
  rewrite !(realloc_money _ _ _ _ _ _ _ _ H). replace (n <? zlen (data (w k))) with true in H1 by lia. cbn [ok_or bind] in H1. replace (n =? 0) with false in H1 by lia.
  unfold move_lamports in H1. rewrite (proj2 (pk_eqb_neq k r)) in H1 by congruence. rewrite Bool.orb_false_r in H1.
  destruct (_ =? 0) eqn:E; [apply Ok_inj in H1; subst w1; lia|].
  apply require_ok in H1 as [_ H1]. apply require_ok in H1 as [_ H1]. cbv zeta in H1. apply require_ok in H1 as [_ H1]. apply Ok_inj in H1. subst w1.
  rewrite upd_same, upd_other by congruence. rewrite upd_same. cbn [lamports]. rewrite upd_other by congruence. lia.
Qed.

Lemma process_sweep e infos w i w' k r : rent_mono e -> paid_by (e_rent e) (e_prog e) w -> arg infos 0 k -> r <> k ->
  ((exists t, i = IRemove t /\ arg infos 3 r) \/ (exists s, i = IResize s /\ arg infos 2 r)) ->
  process e infos w i = Ok w' -> 0 < zlen (data (w' k)) < zlen (data (w k)) ->
  lamports (w' k) = e_rent e (zlen (data (w' k))) /\ lamports (w' r) = lamports (w r) + lamports (w k) - e_rent e (zlen (data (w' k))).
Proof.
  intros Hm T A N C H HZ. apply process_dispatch in H. destruct C as [(t & -> & A3)|(s & -> & A2)]; cbn [dispatch] in H.
  - unfold process_remove, check_authority in H. rinv H. destruct x3 as [[off bnd]|]; rinv H. unfold owned_by_prog in *. bnorm.
    repeat match goal with Q : acct (firstn MAX_ACCOUNTS infos) ?n = Ok ?y, Q' : arg infos ?n _ |- _ => apply (proj1 (acct_arg infos _ _)) in Q; pose proof (arg_det _ _ _ _ Q Q'); clear Q; subst y end.
    match goal with Q : memmove _ _ _ _ = Ok _ |- _ => apply len_memmove in Q; [rename Q into L|lia] end.
    match goal with Q : set_data _ _ w k _ = Ok ?y |- _ => rename y into w1; rename Q into S1 end.
    assert (T1 : paid_by (e_rent e) (e_prog e) w1) by (eapply paid_set; [exact T|exact L|exact S1]).
    destruct (resize_data _ _ _ _ _ _ _ _ _ H) as (D & _ & _).
    assert (D1 : zlen (data (w1 k)) = zlen (data (w k))) by (rewrite (set_data_data _ _ _ _ _ _ S1); exact L).
    rewrite D in HZ |- *. destruct (zlen_realloc_le _ _ (proj1 HZ)) as [E P]. rewrite E in *.
    rewrite <- !(set_data_lam _ _ _ _ _ _ _ S1). eapply resize_sweep; [exact Hm|exact T1| |exact N| |exact H]; [|lia].
    rewrite (set_data_owner _ _ _ _ _ _ k S1). assumption.
  - unfold process_resize, check_authority in H. rinv H. unfold owned_by_prog in *. bnorm.
    repeat match goal with Q : acct (firstn MAX_ACCOUNTS infos) ?n = Ok ?y, Q' : arg infos ?n _ |- _ => apply (proj1 (acct_arg infos _ _)) in Q; pose proof (arg_det _ _ _ _ Q Q'); clear Q; subst y end.
    destruct (resize_data _ _ _ _ _ _ _ _ _ H) as (D & _ & _). rewrite D in HZ |- *. destruct (zlen_realloc_le _ _ (proj1 HZ)) as [E P]. rewrite E in *.
    eapply resize_sweep; [exact Hm|exact T| |exact N| |exact H]; [assumption|lia].
Qed.

Lemma rented_new rent p w w' : p <> pk_zero -> tariff rent -> rented rent p w w' -> lam_ok w -> (forall k, acct_owner (w k) <> p) ->
  forall k, acct_owner (w' k) = p -> 0 < zlen (data (w' k)) -> rent (zlen (data (w' k))) <= lamports (w' k).
Proof. intros Hp HT H Hl N. apply (rented_paid rent p w w' Hp HT H Hl). intros k O _. now destruct (N k). Qed.

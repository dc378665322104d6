(** Resize, Allocate and Write on accounts whose section is followed by zeros. *)
From Verif Require Import Base State Layout Constr Ext World Proc BaseL Spec WorldL ProcSteps LayoutL LayoutE HeadL AuthL.
From Coq Require Import Strings.Byte.

Lemma resize_bound e infos w0 w size k payer sysp w' : resize e infos w0 w size k payer sysp = Ok w' ->
  size <= zlen (data (w k)) + 10240.
Proof.
  unfold resize. intro H. rinv H. destruct (size <? zlen (data (w k))) eqn:E; [lia|].
  rinv Hx. unfold MAX_INCREASE in *. lia.
Qed.
Lemma resize_world e infos w0 w size k payer sysp w' : resize e infos w0 w size k payer sysp = Ok w' ->
  data (w' k) = realloc_bytes (data (w k)) size /\ (forall k', k' <> k -> data (w' k') = data (w k')) /\
  (forall k', acct_owner (w' k') = acct_owner (w k')).
Proof. apply resize_data. Qed.

(** ** C47 *)
Lemma resize_inv e infos w s w' : process_resize e infos w s = Ok w' ->
  exists asset auth payer sysp size, acct infos 0 = Ok asset /\ acct infos 1 = Ok auth /\
    is_signer infos auth = true /\ initialized (data (w asset)) /\ s_authority (data (w asset)) = pk_bytes auth /\
    s_mutable (data (w asset)) <> x00 /\
    match s with
    | Trim => exists l, last_extension (data (w asset)) = Ok l /\
        size = match l with Some (h, _) => h_bnd h | None => 168 end
    | Extend v => size = zlen (data (w asset)) + v
    end /\ resize e infos w w size asset (Some payer) sysp = Ok w'.
Proof.
  unfold process_resize, check_authority. intro H. rinv H.
  apply is_asset_spec in Hc1. apply key_is_spec in Hc2.
  exists x, x0, x1, x2, x3. repeat (split; [assumption|]).
  split; [now apply beqb_neq, negb_true_iff|]. split; [|assumption].
  destruct s; rinv Hx3; eauto.
Qed.
Lemma layout_last_bnd d hd l tl : layout d hd l tl ->
  exists o, last_extension d = Ok o /\ match o with Some (h, _) => h_bnd h | None => 168 end = 168 + sect_size l.
Proof.
  intro HL. rewrite (layout_last _ _ _ _ HL). eexists. split; [reflexivity|].
  destruct (list_last_case l) as [->|(l' & b & ->)]; [reflexivity|].
  rewrite last_blk_app. cbn [last_res option_map fst snd blk_hdr h_bnd]. rewrite sect_size_app. cbn [sect_size]. lia.
Qed.
Lemma trim_effect e infos w w' asset hd l tl : arg infos 0 asset -> layout (data (w asset)) hd l tl ->
  process e infos w (IResize Trim) = Ok w' ->
  data (w' asset) = hd ++ enc_sect 168 l /\ layout (data (w' asset)) hd l [] /\
  (forall k, k <> asset -> data (w' k) = data (w k)) /\ (forall k, acct_owner (w' k) = acct_owner (w k)).
Proof.
  intros A0 HL H. apply process_dispatch in H. cbn [dispatch] in H.
  apply resize_inv in H as (a & au & p & sy & size & B0 & _ & _ & _ & _ & _ & (o & Ho & ->) & H).
  apply acct_arg in B0. rewrite <- (arg_det _ _ _ _ A0 B0) in *.
  apply resize_data in H as (H1 & H2 & H3).
  destruct (layout_last_bnd _ _ _ _ HL) as (o' & Ho' & E). rewrite Ho' in Ho. inv Ho. rewrite E in H1.
  destruct (layout_prefix _ _ _ _ HL) as [Ed Hz].
  assert (Hd : data (w' asset) = hd ++ enc_sect 168 l).
  { rewrite H1, Ed. rewrite realloc_app by lia. rewrite Hz, Z.sub_diag.
    rewrite realloc_shrink by (pose proof (zlen_nonneg tl); lia). cbn. apply app_nil_r. }
  split; [assumption|]. split; [|split; assumption].
  rewrite Hd. pose proof (layout_tail _ _ _ [] _ HL) as L. rewrite app_nil_r in L. apply L.
  - left. cbn. lia.
  - change (zlen []) with 0. pose proof (layout_len _ _ _ _ HL). destruct HL as (_ & _ & _ & _ & Hlt).
    pose proof (zlen_nonneg tl). lia.
Qed.
Lemma extend_effect e infos w w' asset v : arg infos 0 asset -> 0 <= v -> process e infos w (IResize (Extend v)) = Ok w' ->
  data (w' asset) = data (w asset) ++ zeros v /\
  (forall k, k <> asset -> data (w' k) = data (w k)) /\ (forall k, acct_owner (w' k) = acct_owner (w k)).
Proof.
  intros A0 Hv H. apply process_dispatch in H. cbn [dispatch] in H.
  apply resize_inv in H as (a & au & p & sy & size & B0 & _ & _ & _ & _ & _ & -> & H).
  apply acct_arg in B0. rewrite <- (arg_det _ _ _ _ A0 B0) in *.
  apply resize_data in H as (H1 & H2 & H3). split; [|split; assumption].
  rewrite H1. rewrite realloc_grow by lia. do 2 f_equal. lia.
Qed.
Lemma extend_layout hd l n v d : layout d hd l (zeros n) -> 0 <= n -> 0 <= v -> zlen d + v < 2147483648 ->
  layout (d ++ zeros v) hd l (zeros (n + v)).
Proof.
  intros HL Hn Hv Hz. destruct (layout_prefix _ _ _ _ HL) as [Ed Hp]. pose proof (layout_len _ _ _ _ HL) as Hl.
  rewrite zlen_zeros in Hl by lia.
  rewrite Ed, <- !app_assoc, zeros_app by lia. eapply layout_tail; [exact HL|apply tail_zeros|].
  rewrite zlen_zeros by lia. lia.
Qed.

(** ** Writing a header and payload into zeros *)
Lemma set_hdr_zeros P m t len bnd : zlen P mod 8 = 0 -> 16 <= m ->
  set_hdr (P ++ zeros m) (zlen P) t len bnd = Ok (P ++ enc_hdr t len bnd ++ zeros (m - 12)).
Proof.
  intros HP Hm. unfold set_hdr, guard. pose proof (zlen_nonneg P).
  replace ((0 <=? zlen P) && (zlen P + EXT_LEN <=? zlen (P ++ zeros m)) && (zlen P mod 4 =? 0)) with true
    by (rewrite zlen_app, zlen_zeros by lia; unfold EXT_LEN; lia).
  f_equal. replace (zeros m) with (zeros 12 ++ zeros (m - 12)) by (rewrite zeros_app by lia; f_equal; lia).
  apply put_mid; [reflexivity|]. reflexivity.
Qed.
Lemma write_block P m t len bnd bs : zlen P mod 8 = 0 -> 16 + zlen bs <= m ->
  (d1 <- set_hdr (P ++ zeros m) (zlen P) t len bnd ;;
   match bs with [] => Ok d1 | _ => memcpy_at d1 (zlen P + EXT_LEN) bs end) =
  Ok (P ++ enc_hdr t len bnd ++ zeros 4 ++ bs ++ zeros (m - 16 - zlen bs)).
Proof.
  intros HP Hm. pose proof (zlen_nonneg bs) as Hb. pose proof (zlen_nonneg P) as HP0. rewrite set_hdr_zeros by lia. cbn [bind].
  assert (E : zeros (m - 12) = zeros 4 ++ zeros (zlen bs) ++ zeros (m - 16 - zlen bs))
    by (rewrite !zeros_app by lia; f_equal; lia).
  rewrite E. destruct bs as [|b0 r] eqn:Eb; [change (zlen []) with 0 in *; reflexivity|]. rewrite <- Eb in *.
  assert (Hlen : zlen (P ++ enc_hdr t len bnd ++ zeros 4 ++ zeros (zlen bs) ++ zeros (m - 16 - zlen bs)) = zlen P + m).
  { rewrite !zlen_app. change (zlen (enc_hdr t len bnd)) with 12. rewrite !zlen_zeros by lia. lia. }
  unfold memcpy_at, guard. rewrite Hlen. unfold EXT_LEN.
  replace ((0 <=? zlen P + 16) && (zlen P + 16 <=? zlen P + m)) with true by lia.
  replace (zlen P + 16 + zlen bs <=? zlen P + m) with true by lia.
  f_equal. rewrite (app_assoc P), (app_assoc (P ++ _)). rewrite put_mid.
  - now rewrite <- !app_assoc.
  - rewrite !zlen_app. change (zlen (enc_hdr t len bnd)) with 12. rewrite zlen_zeros by lia. lia.
  - now rewrite zlen_zeros by lia.
Qed.
Lemma full_block p t bs k : p mod 8 = 0 -> 0 <= k ->
  enc_hdr (ext_code t) (zlen bs) (pad8 (p + 16 + zlen bs)) ++ zeros 4 ++ bs ++ zeros (pad8 (16 + zlen bs) - 16 - zlen bs + k) =
  enc_blk p (blk_of t bs) ++ zeros k.
Proof.
  intros Hp Hk. pose proof (pad8_ge (16 + zlen bs)).
  rewrite <- zeros_app by lia. unfold enc_blk. rewrite blk_of_size. cbn [blk_of bk_type bk_data bk_unused bk_pad].
  unfold enc_hdr. rewrite <- !app_assoc. change (repeat x00 4) with (zeros 4).
  replace (pad8 (p + 16 + zlen bs)) with (p + pad8 (16 + zlen bs)) by (unfold pad8; lia).
  do 5 f_equal. f_equal. unfold zeros. do 2 f_equal. unfold pad8. lia.
Qed.

(** ** Allocate *)
Lemma set_data_world e infos w k d w' : set_data e infos w k d = Ok w' ->
  data (w' k) = d /\ (forall k', k' <> k -> data (w' k') = data (w k')) /\
  (forall k', acct_owner (w' k') = acct_owner (w k')).
Proof.
  intro H. split; [eapply set_data_data; eauto|]. split.
  - intros k' Hk. now rewrite (set_data_other _ _ _ _ _ _ _ H Hk).
  - intro. eapply set_data_owner; eauto.
Qed.
Lemma sys_create_world e infos w p k lam space w' : sys_create e infos w p k lam space = Ok w' ->
  data (w' k) = zeros space /\ (forall k', k' <> k -> data (w' k') = data (w k') /\ acct_owner (w' k') = acct_owner (w k')) /\
  acct_owner (w' k) = e_prog e /\ space <= 10240 /\ data (w k) = [].
Proof.
  unfold sys_create. intro H. rinv H. bnorm. unfold MAX_INCREASE in *.
  split; [|split; [|split; [|split]]].
  - pose proof (sys_transfer_data _ _ _ _ _ _ k H) as [-> _]. now rewrite upd_same.
  - intros k' Hk. pose proof (sys_transfer_data _ _ _ _ _ _ k' H) as [-> ->]. now rewrite upd_other.
  - pose proof (sys_transfer_data _ _ _ _ _ _ k H) as [_ ->]. now rewrite upd_same.
  - lia.
  - apply zlen_0. lia.
Qed.

(** the account before the block: absent, or prefix and zeros *)
Definition room (d : bytes) (P : bytes) (n : Z) : Prop :=
  (d = [] /\ P = zeros 168 /\ n = 0) \/ (d = P ++ zeros n /\ 168 <= zlen P).

Lemma save_ext_effect e infos w0 w asset payer sysp x ex bs w' P n :
  room (data (w asset)) P n -> ex = negb (zlen (data (w asset)) =? 0) -> 0 <= n -> zlen P mod 8 = 0 -> 0 <= x_length x -> zlen bs < two32 ->
  save_extension_data e infos w0 w asset payer sysp x ex (zlen P) bs = Ok w' ->
  data (w' asset) = P ++ enc_hdr (ext_code (x_type x)) (x_length x) (pad8 (zlen P + 16 + x_length x)) ++ zeros 4 ++ bs ++
    zeros (if x_length x =? zlen bs then Z.max n (pad8 (16 + zlen bs)) - 16 - zlen bs else 0) /\
  (forall k, k <> asset -> data (w' k) = data (w k) /\ acct_owner (w' k) = acct_owner (w k)) /\
  acct_owner (w' asset) = (if ex then acct_owner (w asset) else e_prog e) /\
  (x_length x = zlen bs -> pad8 (zlen P + 16 + zlen bs) <= zlen (data (w asset)) + 10240 ).
Proof.
  intros Hr -> Hn HP Hx0 Hbs H. unfold save_extension_data in H. pose proof (zlen_nonneg bs) as Hb0. pose proof (zlen_nonneg P) as HP0.
  rewrite (Z.mod_small (zlen bs)) in H by (unfold two32 in *; lia). unfold EXT_LEN in H.
  set (bnd := pad8 (zlen P + 16 + x_length x)) in *.
  apply bind_ok in H as (w1 & Hw1 & H). cbv zeta in Hw1.
  assert (Eb : x_length x = zlen bs -> bnd = zlen P + pad8 (16 + zlen bs)) by (intro Q; unfold bnd; rewrite Q; unfold pad8; lia).
  pose proof (pad8_ge (16 + zlen bs)) as Hp8.
  set (m := if x_length x =? zlen bs then Z.max n (pad8 (16 + zlen bs)) else 16 + zlen bs).
  assert (S : data (w1 asset) = P ++ zeros m /\
     (forall k, k <> asset -> data (w1 k) = data (w k) /\ acct_owner (w1 k) = acct_owner (w k)) /\
     acct_owner (w1 asset) = (if negb (zlen (data (w asset)) =? 0) then acct_owner (w asset) else e_prog e) /\
     (x_length x = zlen bs -> pad8 (zlen P + 16 + zlen bs) <= zlen (data (w asset)) + 10240)).
  { destruct Hr as [(Ed & EP & En)|(Ed & HP1)].
    - rewrite Ed in Hw1 |- *. change (zlen []) with 0 in *. cbn [negb Z.eqb] in *.
      unfold alloc_create_account in Hw1. rinv Hw1. apply sys_create_world in Hw1 as (S1 & S2 & S3 & S4 & _).
      split; [|split; [exact S2|split; [exact S3|]]].
      + rewrite S1, EP. rewrite zeros_app; [|lia|unfold m; destruct (_ =? _); lia]. f_equal. unfold m.
        rewrite EP in *. rewrite zlen_zeros in * by lia.
        destruct (x_length x =? zlen bs) eqn:E; cbn [negb]; [|lia]. rewrite Eb by lia. lia.
      + intro Q. rewrite EP in *. rewrite zlen_zeros in * by lia. replace (x_length x =? zlen bs) with true in S4 by lia.
        cbn [negb] in S4. rewrite (Eb Q) in S4. unfold pad8 in *. lia.
    - assert (Hz : zlen (data (w asset)) = zlen P + n) by (rewrite Ed, zlen_app, zlen_zeros; lia).
      replace (zlen (data (w asset)) =? 0) with false in * by lia. cbn [negb] in *.
      rewrite Hz in *.
      assert (Hre : forall sz, zlen P <= sz -> realloc_bytes (data (w asset)) sz = P ++ zeros (sz - zlen P)).
      { intros sz Hsz. rewrite Ed, realloc_app, realloc_zeros by lia. reflexivity. }
      destruct (x_length x =? zlen bs) eqn:E; cbn [negb andb orb] in Hw1; rewrite ?orb_false_r in Hw1.
      + specialize (Eb ltac:(lia)). destruct (zlen P + n <? bnd) eqn:E2.
        * pose proof (resize_bound _ _ _ _ _ _ _ _ _ Hw1) as Hbd. apply resize_data in Hw1 as (S1 & S2 & S3).
          split; [|split; [|split]]; auto.
          -- rewrite S1, Hre by lia. unfold m. do 2 f_equal. lia.
          -- intro. replace (pad8 (zlen P + 16 + zlen bs)) with bnd by (unfold bnd; f_equal; lia). lia.
        * inv Hw1. split; [|split; [|split]]; auto.
          -- rewrite Ed. unfold m. do 2 f_equal. lia.
          -- intro. replace (pad8 (zlen P + 16 + zlen bs)) with bnd by (unfold bnd; f_equal; lia). lia.
      + destruct ((zlen P + n <? zlen P + 16 + zlen bs) || (zlen P + 16 + zlen bs <? zlen P + n)) eqn:E2.
        * apply resize_data in Hw1 as (S1 & S2 & S3).
          split; [|split; [|split]]; auto.
          -- rewrite S1, Hre by lia. unfold m. do 2 f_equal. lia.
          -- intro. lia.
        * inv Hw1. split; [|split; [|split]]; auto.
          -- rewrite Ed. unfold m. do 2 f_equal. lia.
          -- intro. lia. }
  destruct S as (S1 & S2 & S3 & S4).
  pose proof (write_block P m (ext_code (x_type x)) (x_length x) bnd bs HP) as WB.
  assert (Hm : 16 + zlen bs <= m) by (unfold m; destruct (x_length x =? zlen bs); lia).
  rewrite <- S1 in WB. specialize (WB Hm).
  rinv H. rewrite Hx in WB. cbn [bind] in WB. unfold EXT_LEN in WB. rewrite WB in Hx1. inv Hx1.
  apply set_data_world in H as (T1 & T2 & T3). split; [|split; [|split]].
  - rewrite T1.
    replace (if x_length x =? zlen bs then _ else 0) with (m - 16 - zlen bs); [reflexivity|].
    unfold m. destruct (x_length x =? zlen bs); lia.
  - intros k Hk. destruct (S2 k Hk) as [Q1 Q2]. rewrite T2, T3 by assumption. auto.
  - rewrite T3. exact S3.
  - exact S4.
Qed.


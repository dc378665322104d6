(** Lemmas about the proxy program's own instructions. *)
From Verif Require Import Base State Layout Constr Ext World Proc Borsh Proxy BaseL Spec SpecB SpecH SpecI SpecP WorldL ProcSteps LayoutL LayoutM GroupL CountL HeadL AuthL AuthM CreatorsL FrameL UpdateL UpdateT StepH BorshL CodecL ProxyL CreateL BuildL.
From Coq Require Import Strings.Byte.

(** ** Decimal text *)
Lemma parse_app a : forall acc b, parse_digits acc (a ++ b) = match parse_digits acc a with Some n => parse_digits n b | None => None end.
Proof. induction a as [|c a IH]; intros acc b; cbn [app parse_digits]; [reflexivity|]. destruct (_ && _); [apply IH|reflexivity]. Qed.
Lemma digit_byte d : 0 <= d <= 9 -> b2z (z2b (48 + d)) = 48 + d.
Proof. intro H. rewrite b2z_z2b. apply Z.mod_small. lia. Qed.
Lemma parse_digit acc d : 0 <= d <= 9 -> parse_digits acc [z2b (48 + d)] = Some (10 * acc + d).
Proof.
  intro H. cbn [parse_digits]. rewrite (digit_byte d H).
  destruct ((48 <=? 48 + d) && (48 + d <=? 57)) eqn:E; [|lia]. f_equal. lia.
Qed.
Lemma numeral_parse ds n : numeral ds n -> parse_digits 0 ds = Some n.
Proof.
  induction 1 as [d H|s n d Hs IH H]; [rewrite (parse_digit _ _ H); f_equal; lia|].
  rewrite parse_app, IH. now apply parse_digit.
Qed.
Lemma numeral_pos ds n : numeral ds n -> 0 <= n.
Proof. induction 1; lia. Qed.
(** a numeral begins and ends with a digit *)
Lemma numeral_ends ds n : numeral ds n -> (exists d r, 0 <= d <= 9 /\ ds = z2b (48 + d) :: r) /\ (exists d r, 0 <= d <= 9 /\ ds = r ++ [z2b (48 + d)]).
Proof.
  induction 1 as [d H|s n d Hs [(d1 & r1 & H1 & ->) _] H].
  - split; exists d, []; auto.
  - split; [exists d1, (r1 ++ [z2b (48 + d)]); auto|exists d, (z2b (48 + d1) :: r1); auto].
Qed.
Lemma digit_not_white d : 0 <= d <= 9 -> white (z2b (48 + d)) = false.
Proof. intro H. unfold white. rewrite (digit_byte d H). lia. Qed.
Lemma trim_left_blank k s : trim_left (repeat x20 k ++ s) = trim_left s.
Proof. induction k; cbn [repeat app trim_left]; auto. Qed.
Lemma trim_left_keep b s : white b = false -> trim_left (b :: s) = b :: s.
Proof. intro H. cbn [trim_left]. now rewrite H. Qed.
Lemma trim_text k b m d : white b = false -> 0 <= d <= 9 -> forall s, b :: m = s ++ [z2b (48 + d)] -> trim (repeat x20 k ++ b :: m) = b :: m.
Proof.
  intros Hb Hd s E. unfold trim. rewrite trim_left_blank, (trim_left_keep b m Hb). rewrite E, rev_app_distr. cbn [rev app].
  rewrite trim_left_keep by now apply digit_not_white. cbn [rev]. now rewrite rev_involutive.
Qed.
Lemma shows_parse s n : shows s n -> - 9223372036854775808 <= n <= 9223372036854775807 -> parse_i64 (trim s) = Some n.
Proof.
  intros (k & ds & [(Hn & -> & N)|(Hn & -> & N)]) R.
  - destruct (numeral_ends _ _ N) as [(d & r & Hd & E) (d' & r' & Hd' & E')].
    pose proof (numeral_parse _ _ N) as P. subst ds.
    rewrite (trim_text k _ r d' (digit_not_white d Hd) Hd' r' E'). unfold parse_i64. rewrite (digit_byte d Hd).
    assert (48 + d =? 45 = false) as -> by lia. assert (48 + d =? 43 = false) as -> by lia. rewrite P.
    destruct (_ && _) eqn:Q; [reflexivity|lia].
  - destruct (numeral_ends _ _ N) as [(d & r & Hd & E) (d' & r' & Hd' & E')].
    pose proof (numeral_parse _ _ N) as P.
    assert (T : trim (repeat x20 k ++ x2d :: ds) = x2d :: ds).
    { apply (trim_text k x2d ds d') with (s := x2d :: r'); [reflexivity|assumption|]. rewrite E'. reflexivity. }
    rewrite T. unfold parse_i64. change (b2z x2d =? 45) with true. cbv iota. subst ds. rewrite P. cbn [option_map].
    rewrite Z.opp_involutive. destruct (_ && _) eqn:Q; [reflexivity|lia].
Qed.
Lemma digits_numeral f : forall n, 0 <= n < 10 ^ Z.of_nat (S f) -> numeral (digits (S f) n) n.
Proof.
  induction f as [|f IH]; intros n H.
  { change (10 ^ Z.of_nat 1) with 10 in H. cbn [digits]. destruct (n <? 10) eqn:E; [apply num_digit; lia|lia]. }
  change (digits (S (S f)) n) with (if n <? 10 then [z2b (48 + n)] else digits (S f) (n / 10) ++ [z2b (48 + n mod 10)]).
  destruct (n <? 10) eqn:E; [apply num_digit; lia|].
  replace (numeral _ n) with (numeral (digits (S f) (n / 10) ++ [z2b (48 + n mod 10)]) (10 * (n / 10) + n mod 10))
    by (f_equal; symmetry; apply Z.div_mod; lia).
  apply num_more; [|pose proof (Z.mod_pos_bound n 10); lia].
  apply IH. split; [apply Z.div_pos; lia|]. apply Z.div_lt_upper_bound; [lia|].
  rewrite (Nat2Z.inj_succ (S f)), Z.pow_succ_r in H by lia. lia.
Qed.
Lemma decimal_shows w n : - 9223372036854775808 <= n <= 9223372036854775807 -> shows (pad_left w (decimal n)) n.
Proof.
  intro H. unfold pad_left. exists (w - length (decimal n))%nat. unfold decimal. destruct (n <? 0) eqn:E.
  - exists (digits 20 (- n)). right. split; [lia|]. split; [reflexivity|]. apply (digits_numeral 19). change (10 ^ Z.of_nat 20) with 100000000000000000000. lia.
  - exists (digits 20 n). left. split; [lia|]. split; [reflexivity|]. apply (digits_numeral 19). change (10 ^ Z.of_nat 20) with 100000000000000000000. lia.
Qed.
Lemma digits_length f : forall n, (length (digits f n) <= f)%nat.
Proof. induction f as [|f IH]; intro n; cbn [digits]; [cbn; lia|]. destruct (n <? 10); [cbn [length]; lia|]. rewrite app_length. cbn [length]. specialize (IH (n / 10)). lia. Qed.
Lemma decimal_length n : (length (decimal n) <= 21)%nat.
Proof. unfold decimal. destruct (n <? 0); [cbn [length]; pose proof (digits_length 20 (- n)); lia|pose proof (digits_length 20 n); lia]. Qed.
Lemma pad_length w s : length (pad_left w s) = Nat.max w (length s).
Proof. unfold pad_left. rewrite app_length, repeat_length. lia. Qed.
Lemma wrap_small n : - 9223372036854775808 <= n <= 9223372036854775807 -> i64_wrap n = n.
Proof. intro H. unfold i64_wrap, two64. rewrite Z.mod_small; lia. Qed.

(** the texts that are read *)
Lemma white_iff b : white b = true <-> blank b.
Proof.
  assert (E : white b = existsb (Byte.eqb b) [x20; x09; x0a; x0b; x0c; x0d]) by (destruct b; reflexivity).
  rewrite E, existsb_exists. unfold blank. split.
  - intros (x & I1 & H). apply byte_dec_bl in H. now subst x.
  - intro H. exists b. split; [assumption|]. now apply byte_dec_lb.
Qed.
Lemma trim_left_spec s : exists a, Forall blank a /\ s = a ++ trim_left s /\ (trim_left s = [] \/ exists b r, trim_left s = b :: r /\ white b = false).
Proof.
  induction s as [|b s (a & Fa & E & C)]; [exists []; auto|]. cbn [trim_left]. destruct (white b) eqn:W.
  - exists (b :: a). split; [constructor; [now apply white_iff|assumption]|]. split; [cbn [app]; congruence|assumption].
  - exists []. split; [constructor|]. split; [reflexivity|]. right. eauto.
Qed.
Lemma trim_left_app a s : Forall blank a -> trim_left (a ++ s) = trim_left s.
Proof. induction 1 as [|b a Hb _ IH]; [reflexivity|]. cbn [app trim_left]. apply white_iff in Hb. now rewrite Hb. Qed.
Lemma trim_parts s : exists a c, Forall blank a /\ Forall blank c /\ s = a ++ trim s ++ c.
Proof.
  destruct (trim_left_spec s) as (a & Fa & E & _). destruct (trim_left_spec (rev (trim_left s))) as (c & Fc & E2 & _).
  exists a, (rev c). split; [assumption|]. split; [now apply Forall_rev|]. unfold trim. apply (f_equal (@rev byte)) in E2. rewrite rev_involutive, rev_app_distr in E2.
  rewrite <- E2. exact E.
Qed.
Lemma trim_middle a b m d c : Forall blank a -> Forall blank c -> white b = false -> white d = false -> (exists s, b :: m = s ++ [d]) ->
  trim (a ++ (b :: m) ++ c) = b :: m.
Proof.
  intros Fa Fc Hb Hd (s & E). unfold trim. rewrite trim_left_app by assumption. cbn [app]. rewrite trim_left_keep by assumption.
  change (b :: m ++ c) with ((b :: m) ++ c). rewrite E, <- app_assoc, !rev_app_distr, <- app_assoc. rewrite trim_left_app by now apply Forall_rev.
  cbn [rev app]. rewrite trim_left_keep by assumption. cbn [rev]. now rewrite rev_involutive.
Qed.
Lemma parse_numeral m : m <> [] -> forall n, parse_digits 0 m = Some n -> numeral m n.
Proof.
  induction m as [|b m IH] using rev_ind; [congruence|]. intros _ n H. rewrite parse_app in H. destruct (parse_digits 0 m) as [k|] eqn:E; [|discriminate].
  cbn [parse_digits] in H. destruct ((48 <=? b2z b) && (b2z b <=? 57)) eqn:Q; [|discriminate]. injection H as <-.
  assert (B : b = z2b (48 + (b2z b - 48))) by (replace (48 + (b2z b - 48)) with (b2z b) by lia; symmetry; apply z2b_b2z).
  destruct m as [|x m].
  - cbn [parse_digits] in E. injection E as <-. cbn [app]. rewrite B at 1. replace (10 * 0 + (b2z b - 48)) with (b2z b - 48) by lia. apply num_digit. lia.
  - rewrite B at 1. apply num_more; [|lia]. apply IH; [discriminate|reflexivity].
Qed.
Lemma number_ends m n : numeral m n \/ (exists ds, m = x2b :: ds /\ numeral ds n) \/ (exists ds, m = x2d :: ds /\ numeral ds (- n)) ->
  exists b r d, m = b :: r /\ white b = false /\ white d = false /\ exists s, b :: r = s ++ [d].
Proof.
  intros [N|[(ds & -> & N)|(ds & -> & N)]]; destruct (numeral_ends _ _ N) as [(d & r & Hd & E) (d' & r' & Hd' & E')].
  - exists (z2b (48 + d)), r, (z2b (48 + d')). split; [assumption|]. split; [now apply digit_not_white|]. split; [now apply digit_not_white|]. exists r'. congruence.
  - exists x2b, ds, (z2b (48 + d')). split; [reflexivity|]. split; [reflexivity|]. split; [now apply digit_not_white|]. exists (x2b :: r'). rewrite E'. reflexivity.
  - exists x2d, ds, (z2b (48 + d')). split; [reflexivity|]. split; [reflexivity|]. split; [now apply digit_not_white|]. exists (x2d :: r'). rewrite E'. reflexivity.
Qed.
Lemma parse_iff s n : parse_i64 (trim s) = Some n <-> reads_as s n.
Proof.
  split.
  - intro H. destruct (trim_parts s) as (a & c & Fa & Fc & E). unfold parse_i64 in H.
    set (o := match trim s with [] => None | b :: r => _ end) in H. destruct o as [v|] eqn:Eo; [|discriminate].
    destruct ((-9223372036854775808 <=? v) && (v <=? 9223372036854775807)) eqn:Q; [|discriminate]. injection H as ->. split; [lia|].
    exists a, (trim s), c. split; [assumption|]. split; [assumption|]. split; [assumption|]. unfold o in Eo. clear o E.
    destruct (trim s) as [|b r]; [discriminate|]. destruct (b2z b =? 45) eqn:B1.
    + right. right. destruct r as [|x r]; [discriminate|]. exists (x :: r). split; [f_equal; apply b2z_inj; change (b2z x2d) with 45; lia|].
      destruct (parse_digits 0 (x :: r)) as [k|] eqn:P; [|discriminate]. cbn [option_map] in Eo. injection Eo as <-. rewrite Z.opp_involutive.
      apply parse_numeral; [discriminate|assumption].
    + destruct (b2z b =? 43) eqn:B2.
      * right. left. destruct r as [|x r]; [discriminate|]. exists (x :: r). split; [f_equal; apply b2z_inj; change (b2z x2b) with 43; lia|].
        apply parse_numeral; [discriminate|assumption].
      * left. apply parse_numeral; [discriminate|assumption].
  - intros (R & a & m & c & Fa & Fc & -> & N). destruct (number_ends _ _ N) as (b & r & d & -> & Hb & Hd & X).
    rewrite (trim_middle a b r d c Fa Fc Hb Hd X). unfold parse_i64.
    destruct N as [N|[(ds & E & N)|(ds & E & N)]].
    + destruct (numeral_ends _ _ N) as [(d0 & r0 & Hd0 & E) _]. pose proof (numeral_parse _ _ N) as P. assert (B : b2z b = 48 + d0) by (replace b with (z2b (48 + d0)) by congruence; now apply digit_byte). rewrite B.
      assert (48 + d0 =? 45 = false) as -> by lia. assert (48 + d0 =? 43 = false) as -> by lia. rewrite P. destruct (_ && _) eqn:Q; [reflexivity|lia].
    + injection E as -> ->. change (b2z x2b =? 45) with false. change (b2z x2b =? 43) with true. cbv iota. pose proof (numeral_parse _ _ N) as P.
      destruct (numeral_ends _ _ N) as [(d0 & r0 & _ & ->) _]. rewrite P. destruct (_ && _) eqn:Q; [reflexivity|lia].
    + injection E as -> ->. change (b2z x2d =? 45) with true. cbv iota. pose proof (numeral_parse _ _ N) as P.
      destruct (numeral_ends _ _ N) as [(d0 & r0 & _ & ->) _]. rewrite P. cbn [option_map]. rewrite Z.opp_involutive. destruct (_ && _) eqn:Q; [reflexivity|lia].
Qed.
Lemma shows_reads s n : shows s n -> - 9223372036854775808 <= n <= 9223372036854775807 -> reads_as s n.
Proof. intros H R. apply parse_iff. now apply shows_parse. Qed.
Lemma reads_det s n n' : reads_as s n -> reads_as s n' -> n = n'.
Proof. intros H H'. apply parse_iff in H, H'. congruence. Qed.
Lemma next_wrap n : - 9223372036854775808 <= n <= 9223372036854775807 -> i64_wrap (n + 1) = next_count n /\ - 9223372036854775808 <= next_count n <= 9223372036854775807.
Proof.
  intro H. unfold next_count. destruct (n =? 9223372036854775807) eqn:E.
  - apply Z.eqb_eq in E. subst n. split; [reflexivity|lia].
  - split; [apply wrap_small; lia|lia].
Qed.

(** the payload with the counter *)
Lemma counter_payload_entry n : counter_payload n = counter_entry (pad_left 12 (decimal n)).
Proof. unfold counter_payload, build_attributes, build_pairs, counter_entry. cbn [map concat]. unfold enc_pstr, TRANSFERS. cbn [app fst snd]. now rewrite app_nil_r. Qed.
Lemma entry_pairs s : counter_entry s = build_attributes [(TRANSFERS, s)].
Proof. unfold build_attributes, build_pairs, counter_entry. cbn [map concat]. unfold enc_pstr, TRANSFERS. cbn [app fst snd]. now rewrite app_nil_r. Qed.

(** ** Effects *)
Lemma same_section d d' l : well_formed d l -> length d' = length d ->
  (forall i, (168 <= i)%nat -> nth i d' x00 = nth i d x00) -> well_formed d' l.
Proof.
  intros (hd & tl & E & Hh & HF & HT & HZ) L N. exists (firstn 168 d'), tl.
  assert (Hl : length hd = 168%nat) by (unfold zlen in Hh; lia).
  assert (S : skipn 168 d' = skipn 168 d).
  { apply (nth_ext _ _ x00 x00); [rewrite !skipn_length; lia|]. intros i Hi. rewrite !nth_skipn. apply N. lia. }
  assert (S2 : skipn 168 d = enc_sect 168 l ++ tl).
  { rewrite E, <- Hl, skipn_app, skipn_all, Nat.sub_diag. reflexivity. }
  assert (Ld : (168 <= length d)%nat) by (rewrite E, app_length, Hl; lia).
  split; [rewrite <- S2, <- S; symmetry; apply firstn_skipn|].
  split; [unfold zlen; rewrite firstn_length; lia|]. split; [assumption|]. split; [assumption|]. unfold zlen in *. rewrite L. exact HZ.
Qed.

Definition simple (t : ext_type) : Prop := t <> XNone /\ t <> XCreators /\ t <> XGrouping.
Lemma stored_simple t a c b b' : simple t -> stored t a c b b' -> b' = b.
Proof.
  intros (_ & N2 & N3) S. destruct c as [c|]; cbn [stored] in S.
  - destruct S as ((_ & H & _) & _). auto.
  - destruct S as (_ & _ & (_ & H & _) & _). auto.
Qed.
Lemma metas_arg0 e asset : arg (update_metas e asset asset) 0 asset.
Proof. eexists. split; reflexivity. Qed.
Lemma metas_arg1 e asset k : arg (update_metas e asset asset) 1 k -> k = asset.
Proof. intros (a & H & <-). cbn in H. apply Some_inj in H. now subst a. Qed.
Lemma call_update e me infos w0 w asset t b seeds bump w' l : env_ok e -> e_prog e <> pk_zero -> sized w -> lam_ok w ->
  simple t -> zlen b <= 100000 -> well_formed (data (w asset)) l ->
  invoke e me infos w0 w (update_metas e asset asset) (write_instr (IUpdate (mkUpdInput None None (Some (ext_of t b))))) seeds bump = Ok w' ->
  sized w' /\ lam_ok w' /\ (forall k, k <> asset -> data (w' k) = data (w k)) /\
  s_authority (data (w asset)) = pk_bytes asset /\ mutable (data (w asset)) /\
  header_updated (mkUpdInput None None None) (data (w asset)) (data (w' asset)) /\
  exists l', well_formed (data (w' asset)) l' /\ ext_list l' = put_ext t b (ext_list l).
Proof.
  intros He Hp Hs Hl Ht Hb HW H. apply invoke_iff in H as (pda & i & I1 & I2 & I3 & I4 & I5 & I6 & I7).
  pose proof (zlen_nonneg b) as Z0.
  apply instr_unambiguous in I5; [subst i| |assumption].
  2:{ split; [exact I|]. split; cbn [x_length ext_of]; [unfold u32; lia|]. cbn [x_data opt_valid ext_of]. unfold fits. lia. }
  assert (He' : env_ok (in_cpi e)) by now apply in_cpi_ok.
  assert (Hp' : e_prog (in_cpi e) <> pk_zero) by exact Hp.
  assert (XA : ext_arg (ext_of t b)).
  { split; [apply Ht|]. cbn [x_length ext_of given x_data]. lia. }
  destruct (update_args (in_cpi e) _ w (mkUpdInput None None (Some (ext_of t b))) w' asset l (ext_of t b) b He' Hp' Hs (metas_arg0 e asset) HW eq_refl XA eq_refl I6)
    as (auth & l' & b' & A1 & Sg & Au & Mu & Hu & W' & EL & St & _ & Fr).
  cbn [x_type ext_of] in *. apply (stored_simple _ _ _ _ _ Ht) in St. subst b'.
  apply metas_arg1 in A1. subst auth.
  split; [exact (sized_preserved _ _ _ _ _ He' Hp' Hl Hs I6)|]. split; [exact (lam_ok_preserved _ _ _ _ _ He' Hp' Hl I6)|].
  split; [assumption|]. split; [assumption|]. split; [assumption|]. split; [exact Hu|]. exists l'. auto.
Qed.

Lemma process_transfer_effect e infos w w' asset l : sized w -> arg infos 0 asset -> well_formed (data (w asset)) l ->
  process e infos w ITransfer = Ok w' -> exists signer recipient, arg infos 1 signer /\ signed infos signer /\ arg infos 2 recipient /\
  s_owner (data (w' asset)) = pk_bytes recipient /\ well_formed (data (w' asset)) l /\
  same_terms (data (w asset)) (data (w' asset)) /\
  (s_owner (data (w asset)) <> pk_bytes recipient -> authorized (data (w asset)) l signer RTransfer) /\
  (forall k, k <> asset -> data (w' k) = data (w k)).
Proof.
  intros Hs A0 HW H. destruct (transfer_effect _ _ _ _ H) as (a & rec & B0 & B2 & Hc).
  assert (a = asset) as -> by exact (arg_det _ _ _ _ B0 A0).
  assert (SG : exists signer, arg infos 1 signer /\ signed infos signer).
  { pose proof H as H'. apply process_dispatch in H'. cbn [dispatch] in H'.
    apply transfer_inv in H' as (? & signer & ? & ? & ? & _ & A1 & _ & _ & _ & Hsg & _). exists signer. split; [now apply acct_arg|now apply signed_acct]. }
  destruct SG as (signer & A1 & Sg). exists signer, rec. split; [assumption|]. split; [assumption|]. split; [assumption|].
  destruct Hc as [[Ho Hw]|(Ho & (F & _ & _) & Ln & Ho' & Hd & Nn)].
  - rewrite !Hw. split; [assumption|]. split; [assumption|]. split; [unfold same_terms; auto 10|]. split; [contradiction|]. intros k _. now rewrite Hw.
  - split; [assumption|]. split; [apply (same_section _ _ _ HW Ln); intros; apply Nn; lia|].
    split.
    { unfold same_terms, s_disc, s_state, s_standard, s_mutable, s_group, s_authority, s_name.
      assert (SB : forall o n, (36 <= o /\ o + n <= 100 \/ 133 <= o)%nat -> sub (data (w' asset)) o n = sub (data (w asset)) o n).
      { intros o n Q. unfold sub. apply (nth_ext _ _ x00 x00); [rewrite !firstn_length, !skipn_length; lia|].
        intros i Hi. rewrite firstn_length in Hi. rewrite !nth_firstn_lt by lia. rewrite !nth_skipn. apply Nn. lia. }
      rewrite !SB by lia. rewrite !Nn by lia. auto 10. }
    split.
    { intros _. destruct (transfer_authorized e infos w w' asset Hs H ltac:(congruence)) as (s & _ & S1 & _ & _ & S2).
      assert (s = signer) as -> by exact (arg_det _ _ _ _ S1 A1). now apply S2. }
    intros k Hk. now rewrite (F k Hk).
Qed.

Lemma zlen_pad w s : zlen (pad_left w s) = Z.max (Z.of_nat w) (zlen s).
Proof. unfold zlen. rewrite pad_length. lia. Qed.
Lemma zlen_decimal n : zlen (decimal n) <= 21.
Proof. unfold zlen. pose proof (decimal_length n). lia. Qed.
Lemma image_payload_entry pe c : image_payload pe c = image_entry (pe_before pe ++ c ++ pe_after pe).
Proof. reflexivity. Qed.
Lemma stamp_payload_entry pe : stamp_payload pe = stamp_entry (pe_now pe mod two64).
Proof. unfold stamp_payload, build_properties. cbn [map concat]. rewrite app_nil_r. reflexivity. Qed.
Lemma zlen_colour h : zlen (colour_of h) <= 65.
Proof.
  unfold colour_of. rewrite !zlen_app, !zlen_pad. change (zlen [x2c]) with 1.
  pose proof (zlen_decimal (b2z (byte_at h 0))). pose proof (zlen_decimal (b2z (byte_at h 1))). pose proof (zlen_decimal (b2z (byte_at h 2))). lia.
Qed.
Lemma decimal_column b : column (b2z b) (pad_left 3 (decimal (b2z b))).
Proof. split; [apply decimal_shows; pose proof (b2z_range b); lia|]. destruct b; reflexivity. Qed.
Lemma colour_rgb h : rgb h (colour_of h).
Proof. exists (pad_left 3 (decimal (b2z (byte_at h 0)))), (pad_left 3 (decimal (b2z (byte_at h 1)))), (pad_left 3 (decimal (b2z (byte_at h 2)))). repeat split; try apply decimal_column. Qed.
Lemma zlen_image d : zlen (image_entry d) = 14 + zlen d.
Proof. unfold image_entry, zlen. cbn [length app]. lia. Qed.
Lemma zlen_stamp t : zlen (stamp_entry t) = 26.
Proof. unfold stamp_entry, zlen. cbn [length app]. rewrite le_enc_length. reflexivity. Qed.
Lemma zlen_counter s : zlen (counter_entry s) = 11 + zlen s.
Proof. unfold counter_entry, zlen. cbn [length app]. lia. Qed.

Lemma transfer_metas_args e asset signer recipient k : 
  (arg (transfer_metas e asset signer recipient) 1 k -> k = signer) /\ (arg (transfer_metas e asset signer recipient) 2 k -> k = recipient).
Proof. split; intros (a & H & <-); cbn in H; apply Some_inj in H; now subst a. Qed.
Lemma same_terms_of_update d d' : header_updated (mkUpdInput None None None) d d' ->
  same_terms d d' /\ s_owner d' = s_owner d /\ s_delegate d' = s_delegate d /\ s_roles d' = s_roles d.
Proof. unfold header_updated, same_terms. cbn [u_mutable u_name]. intuition congruence. Qed.
Lemma same_terms_trans a b c : same_terms a b -> same_terms b c -> same_terms a c.
Proof. unfold same_terms. intuition congruence. Qed.
Lemma authorized_same d d' l l' k r : s_owner d' = s_owner d -> s_delegate d' = s_delegate d -> s_roles d' = s_roles d ->
  lookup XManager (ext_list l') = lookup XManager (ext_list l) -> authorized d' l' k r -> authorized d l k r.
Proof. intros H1 H2 H3 H4. unfold authorized, delegate_is. rewrite H1, H2, H3, H4. auto. Qed.

Lemma nth_error_first {A} (l : list A) : forall n i, (i < n)%nat -> nth_error (firstn n l) i = nth_error l i.
Proof. induction l as [|x l IH]; intros [|n] [|i] H; cbn [firstn nth_error]; try reflexivity; try lia. apply IH. lia. Qed.
Lemma raw_acct infos i k : (i < 7)%nat -> acct infos i = Ok k -> arg infos i k.
Proof.
  intro Hi. unfold acct. destruct (nth_error infos i) as [a|] eqn:E; [|discriminate]. intro H. apply Ok_inj in H. subst k. exists a.
  split; [|reflexivity]. unfold passed. now rewrite nth_error_first.
Qed.

Lemma proxy_transfer_effect pe e me infos w w' asset l pb s : env_ok e -> e_prog e <> pk_zero -> sized w -> lam_ok w ->
  small_template pe -> arg infos 0 asset -> well_formed (data (w asset)) l ->
  lookup XProxy (ext_list l) = Some pb -> lookup XAttributes (ext_list l) = Some (counter_entry s) -> zlen s <= 255 ->
  proxy_transfer pe e me infos w = Ok w' ->
  exists signer recipient n s' l' c, arg infos 1 signer /\ arg infos 2 recipient /\
    signs_or_proxied e me infos pb signer /\ signs_or_proxied e me infos pb asset /\
    s_authority (data (w asset)) = pk_bytes asset /\ mutable (data (w asset)) /\
    (s_owner (data (w asset)) <> pk_bytes recipient -> authorized (data (w asset)) l signer RTransfer) /\
    s_owner (data (w' asset)) = pk_bytes recipient /\ same_terms (data (w asset)) (data (w' asset)) /\
    well_formed (data (w' asset)) l' /\ reads_as s n /\ shows s' (next_count n) /\ 12 <= zlen s' <= 21 /\
    rgb (pe_hash pe [pk_bytes asset; le_enc 8 (pe_now pe mod two64); le_enc 8 (n mod two64)]) c /\
    ext_list l' = put_ext XProperties (stamp_entry (pe_now pe mod two64)) (put_ext XBlob (image_entry (pe_before pe ++ c ++ pe_after pe))
                    (put_ext XAttributes (counter_entry s') (ext_list l))) /\
    (forall k, k <> asset -> data (w' k) = data (w k)).
Proof.
  intros He Hp Hs Hl Ht A0 HW HP HA Hz H. unfold proxy_transfer in H.
  apply bind_ok in H as (asset' & E0 & H). apply raw_acct in E0; [|lia]. assert (asset' = asset) as -> by exact (arg_det _ _ _ _ E0 A0).
  apply bind_ok in H as (signer & E1 & H). apply raw_acct in E1; [|lia]. apply bind_ok in H as (recipient & E2 & H). apply raw_acct in E2; [|lia].
  apply bind_ok in H as (grp & _ & H). apply bind_ok in H as (p & Hf & H). apply require_ok in H as [_ H].
  apply bind_ok in H as (a & G & H).
  destruct (get_wf _ _ XAttributes HW ltac:(discriminate)) as [[N _]|(off & b & L & G' & _)]; [congruence|].
  assert (b = counter_entry s) as -> by congruence. rewrite G' in G. apply Ok_inj in G. subst a. clear G' off L.
  apply bind_ok in H as (pl & P & H). rewrite entry_pairs in P. unfold attributes_from_bytes, build_attributes in P.
  rewrite (proj1 (pairs_round [(TRANSFERS, s)] ltac:(repeat constructor; cbn [fst snd]; [vm_compute; discriminate|exact Hz]))) in P.
  apply Ok_inj in P. subst pl. apply bind_ok in H as (cur & P & H).
  change (pairs_get TRANSFERS [(TRANSFERS, s)]) with (Some s) in P. cbn iota in P. rename cur into n.
  assert (RA : reads_as s n) by (apply parse_iff; destruct (parse_i64 (trim s)); [apply Ok_inj in P; congruence|discriminate P]). clear P.
  destruct (next_wrap n (proj1 RA)) as [NW NR]. rewrite NW in H.
  apply bind_ok in H as (w1 & U1 & H). apply bind_ok in H as (w2 & U2 & H). apply bind_ok in H as (w3 & U3 & H).
  rewrite counter_payload_entry in U1. rewrite image_payload_entry in U2. rewrite stamp_payload_entry in U3.
  set (s' := pad_left 12 (decimal (next_count n))) in *.
  assert (Zs : 12 <= zlen s' <= 21) by (unfold s'; rewrite zlen_pad; pose proof (zlen_decimal (next_count n)); lia).
  match type of U2 with context [image_entry ?d] => set (doc := d) in * end.
  assert (Zd : zlen doc <= 50065).
  { unfold doc. rewrite !zlen_app. match goal with |- context [colour_of ?h] => pose proof (zlen_colour h) end. unfold small_template in Ht. lia. }
  destruct (call_update e me infos w w asset XAttributes (counter_entry s') _ _ w1 l He Hp Hs Hl ltac:(repeat split; discriminate) ltac:(rewrite zlen_counter; lia) HW U1)
    as (S1 & L1 & F1 & Au & Mu & Hd1 & l1 & W1 & X1).
  destruct (call_update e me infos w w1 asset XBlob (image_entry doc) _ _ w2 l1 He Hp S1 L1 ltac:(repeat split; discriminate) ltac:(rewrite zlen_image; lia) W1 U2)
    as (S2 & L2 & F2 & _ & _ & Hd2 & l2 & W2 & X2).
  destruct (call_update e me infos w w2 asset XProperties _ _ _ w3 l2 He Hp S2 L2 ltac:(repeat split; discriminate) ltac:(rewrite zlen_stamp; lia) W2 U3)
    as (S3 & L3 & F3 & _ & _ & Hd3 & l3 & W3 & X3).
  pose proof H as H'. apply invoke_iff in H' as (pda & i & I1 & I2 & I3 & I4 & I5 & I6 & I7).
  assert (IT : instr_ok ITransfer) by exact I.
  apply instr_unambiguous in I5; [subst i|assumption|assumption].
  destruct (process_transfer_effect (in_cpi e) (transfer_metas e asset signer recipient) w3 w' asset l3 S3 ltac:(eexists; split; reflexivity) W3 I6)
    as (sg & rc & B1 & B2 & B3 & O' & W' & T' & AU & FF).
  apply transfer_metas_args in B1, B3. subst sg rc.
  apply same_terms_of_update in Hd1 as (T1 & O1 & D1 & R1), Hd2 as (T2 & O2 & D2 & R2), Hd3 as (T3 & O3 & D3 & R3).
  apply fetch_proxy_ok in Hf as (off & b & HX & Lb & ->). cbn [p_seeds p_bump] in I1.
  pose proof HW as (hd & tl & HL). pose proof (has_ext_lookup _ _ _ _ XProxy _ _ HL ltac:(discriminate) HX) as HX'.
  assert (b = pb) as -> by congruence.
  apply Forall_cons_iff in I3 as [Ga I3]. apply Forall_cons_iff in I3 as [Gs _]. apply granted_iff in Ga as (_ & Ga & _), Gs as (_ & Gs & _).
  specialize (Ga eq_refl). specialize (Gs eq_refl). cbn [ai_key] in Ga, Gs.
  exists signer, recipient, n, s', l3. eexists. split; [assumption|]. split; [assumption|].
  split; [destruct Gs as [Gs|Gs]; [now left|right; split; [assumption|congruence]]|].
  split; [destruct Ga as [Ga|Ga]; [now left|right; split; [assumption|congruence]]|].
  split; [assumption|]. split; [assumption|].
  split.
  { intro Q. apply (authorized_same (data (w asset)) (data (w3 asset)) l l3); try congruence.
    - rewrite X3, X2, X1. rewrite !lookup_put_ext_other by discriminate. reflexivity.
    - apply AU. congruence. }
  split; [assumption|]. split; [eapply same_terms_trans; [eapply same_terms_trans; [eapply same_terms_trans; eassumption|eassumption]|eassumption]|].
  split; [assumption|]. split; [assumption|]. split; [apply decimal_shows; lia|]. split; [assumption|]. split; [apply colour_rgb|].
  split; [rewrite X3, X2, X1; reflexivity|].
  intros k Hk. rewrite FF, F3, F2, F1 by assumption. reflexivity.
Qed.

Lemma proxy_update_effect e me infos w u w' asset l pb : env_ok e -> e_prog e <> pk_zero -> sized w -> instr_ok (IUpdate u) ->
  arg infos 0 asset -> well_formed (data (w asset)) l -> lookup XProxy (ext_list l) = Some pb ->
  proxy_update e me infos w u = Ok w' ->
  exists auth, arg infos 1 auth /\ signs infos auth /\ sub pb 65 32 = pk_bytes auth /\ signs_or_proxied e me infos pb asset /\
    s_authority (data (w asset)) = pk_bytes asset /\ mutable (data (w asset)) /\
    header_updated u (data (w asset)) (data (w' asset)) /\ well_formed (data (w' asset)) l /\
    (forall k, k <> asset -> data (w' k) = data (w k)).
Proof.
  intros He Hp Hs Hu A0 HW HP H. unfold proxy_update in H.
  apply bind_ok in H as (asset' & E0 & H). apply raw_acct in E0; [|lia]. assert (asset' = asset) as -> by exact (arg_det _ _ _ _ E0 A0).
  apply bind_ok in H as (auth & E1 & H). apply raw_acct in E1; [|lia]. do 4 (apply bind_ok in H as (? & _ & H)).
  apply bind_ok in H as (p & Hf & H). apply require_ok in H as [_ H]. apply require_ok in H as [Sg H].
  destruct (nullable (p_authority p)) as [a|] eqn:Na; [|discriminate]. apply require_ok in H as [Ka H].
  apply fetch_proxy_ok in Hf as (off & b & HX & Lb & ->). cbn [p_seeds p_bump p_authority] in *.
  pose proof HW as (hd & tl & HL). pose proof (has_ext_lookup _ _ _ _ XProxy _ _ HL ltac:(discriminate) HX) as HX'.
  assert (b = pb) as -> by congruence.
  apply invoke_iff in H as (pda & i & I1 & I2 & I3 & I4 & I5 & I6 & I7).
  apply instr_unambiguous in I5; [subst i|exact (conj (proj1 Hu) I)|assumption].
  destruct (update_header (in_cpi e) (update_metas e asset asset) w (mkUpdInput (u_name u) (u_mutable u) None) w' asset l (in_cpi_ok _ He) Hp Hs (metas_arg0 e asset) ltac:(eexists; split; reflexivity) HW eq_refl I6)
    as (au & A1 & _ & Au & Mu & Hd & W' & Fr).
  apply metas_arg1 in A1. subst au.
  exists auth. split; [assumption|]. split; [now apply is_signer_spec in Sg|].
  split. { unfold nullable in Na. destruct (bytes_eqb _ _) in Na; [discriminate|]. apply Some_inj in Na. subst a. unfold key_is in Ka. now apply bytes_eqb_eq in Ka. }
  split. { apply Forall_cons_iff in I3 as [Ga _]. apply granted_iff in Ga as (_ & Ga & _). destruct (Ga eq_refl) as [G|G]; cbn [ai_key] in G; [now left|right; split; [assumption|congruence]]. }
  auto 10.
Qed.

Lemma find_address_ok e seeds me n k b : find_address e seeds me n = Some (k, b) -> e_cpa e seeds b (pk_bytes me) = Some k.
Proof.
  induction n as [|n IH]; cbn [find_address]; [discriminate|]. destruct (e_cpa e seeds (z2b (Z.of_nat (S n))) (pk_bytes me)) eqn:E; [|exact IH].
  intro H. apply Some_inj in H. congruence.
Qed.
Lemma sub_app_exact a b c : sub (a ++ b ++ c) (length a) (length b) = b.
Proof. unfold sub. rewrite skipn_app, skipn_all, Nat.sub_diag. cbn [skipn app]. rewrite firstn_app, firstn_all, Nat.sub_diag. rewrite firstn_O. apply app_nil_r. Qed.
Lemma proxy_payload me seeds bump auth : length seeds = 32%nat -> let b := build_proxy me seeds bump (Some auth) in
  length b = 97%nat /\ sub b 0 32 = pk_bytes me /\ sub b 32 32 = seeds /\ nth 64 b x00 = bump /\ sub b 65 32 = pk_bytes auth.
Proof.
  intros L b. unfold b, build_proxy. pose proof (pk_length me) as L1. pose proof (pk_length auth) as L2.
  split; [rewrite !app_length; cbn [length]; lia|].
  split; [pose proof (sub_app_exact [] (pk_bytes me) (seeds ++ [bump] ++ pk_bytes auth)) as Q; rewrite L1 in Q; exact Q|].
  split; [pose proof (sub_app_exact (pk_bytes me) seeds ([bump] ++ pk_bytes auth)) as Q; rewrite L1, L in Q; exact Q|].
  split.
  - rewrite app_nth2 by lia. rewrite app_nth2 by lia. rewrite L1, L. reflexivity.
  - pose proof (sub_app_exact (pk_bytes me ++ seeds ++ [bump]) (pk_bytes auth) []) as Q. rewrite !app_length in Q. cbn [length] in Q.
    rewrite L1, L, L2 in Q. change (32 + (32 + 1))%nat with 65%nat in Q. rewrite app_nil_r, <- !app_assoc in Q. exact Q.
Qed.
Lemma ext_arg_of t b : t <> XNone -> zlen b <= 100000 -> ext_arg (ext_of t b).
Proof. intros H1 H2. pose proof (zlen_nonneg b). split; [assumption|]. cbn [x_length ext_of given x_data]. lia. Qed.
Lemma ext_ok_of t b : zlen b <= 100000 -> ext_ok (ext_of t b).
Proof. intro H. pose proof (zlen_nonneg b). split; cbn [x_length x_data ext_of opt_valid]; [unfold u32|unfold fits]; lia. Qed.
Lemma create_metas_args e asset owner payer sysp k : (arg (create_metas e asset owner payer sysp) 1 k -> k = asset) /\
  (arg (create_metas e asset owner payer sysp) 2 k -> k = owner).
Proof. split; intros (a & H & <-); cbn in H; apply Some_inj in H; now subst a. Qed.

Lemma proxy_create_effect pe e me infos w name w' asset : env_ok e -> e_prog e <> pk_zero -> sized w -> text_ok name ->
  small_template pe -> arg infos 0 asset -> data (w asset) = [] ->
  proxy_create pe e me infos w name = Ok w' ->
  exists stub owner auth s pb l', arg infos 1 stub /\ arg infos 2 owner /\ arg infos 3 auth /\ signs infos stub /\ signs infos auth /\
    s_owner (data (w' asset)) = pk_bytes owner /\ s_authority (data (w' asset)) = pk_bytes asset /\
    s_standard (data (w' asset)) = x03 /\ mutable (data (w' asset)) /\ s_name (data (w' asset)) = name_field name /\
    s_delegate (data (w' asset)) = no_key /\ acct_owner (w' asset) = e_prog e /\
    well_formed (data (w' asset)) l' /\ proxies e me pb asset /\ sub pb 32 32 = pk_bytes stub /\ sub pb 65 32 = pk_bytes auth /\ shows s 0 /\ zlen s = 12 /\
    ext_list l' = [(XAttributes, counter_entry s); (XProperties, stamp_entry (pe_now pe mod two64)); (XProxy, pb);
      (XBlob, image_entry (pe_before pe ++ black ++ pe_after pe))].
Proof.
  intros He Hp Hs Hname Ht A0 Hd H. unfold proxy_create in H.
  apply bind_ok in H as (asset' & E0 & H). apply raw_acct in E0; [|lia]. assert (asset' = asset) as -> by exact (arg_det _ _ _ _ E0 A0).
  apply bind_ok in H as (stub & E1 & H). apply raw_acct in E1; [|lia]. apply bind_ok in H as (owner & E2 & H). apply raw_acct in E2; [|lia].
  apply bind_ok in H as (auth & E3 & H). apply raw_acct in E3; [|lia]. apply bind_ok in H as (payer & _ & H). apply bind_ok in H as (sysp & _ & H).
  apply bind_ok in H as (prog & _ & H). apply require_ok in H as [S1 H]. apply require_ok in H as [S2 H].
  destruct (find_address e (pk_bytes stub) me 255) as [[k bump]|] eqn:Fa; [|discriminate]. apply find_address_ok in Fa.
  apply require_ok in H as [Ek H]. apply pk_eqb_eq in Ek. subst k.
  apply invoke_iff in H as (pda & i & I1 & I2 & I3 & I4 & I5 & I6 & I7).
  rewrite counter_payload_entry, image_payload_entry, stamp_payload_entry in I5.
  set (s := pad_left 12 (decimal 0)) in *. set (doc := pe_before pe ++ NO_COLOUR ++ pe_after pe) in *.
  set (pb := build_proxy me (pk_bytes stub) bump (Some auth)) in *.
  pose proof (proxy_payload me (pk_bytes stub) bump auth (pk_length stub)) as (P1 & P2 & P3 & P4 & P5). fold pb in P1, P2, P3, P4, P5.
  assert (Z1 : zlen (counter_entry s) <= 100000) by (rewrite zlen_counter; unfold s; rewrite zlen_pad; pose proof (zlen_decimal 0); lia).
  assert (Z2 : zlen (image_entry doc) <= 100000).
  { rewrite zlen_image. unfold doc. rewrite !zlen_app. change (zlen NO_COLOUR) with 11. unfold small_template in Ht. lia. }
  assert (Z3 : zlen pb <= 100000) by (unfold zlen; lia).
  assert (Z4 : zlen (stamp_entry (pe_now pe mod two64)) <= 100000) by (rewrite zlen_stamp; lia).
  set (m := mkMetaInput name Proxied true (Some [ext_of XAttributes (counter_entry s); ext_of XBlob (image_entry doc); ext_of XProxy pb; ext_of XProperties (stamp_entry (pe_now pe mod two64))])) in *.
  assert (IM : instr_ok (ICreate m)).
  { split; [exact Hname|]. split; [reflexivity|]. repeat (constructor; [apply ext_ok_of; assumption|]). constructor. }
  apply instr_unambiguous in I5; [subst i|assumption|assumption].
  assert (FA : Forall ext_arg (inline m)).
  { unfold inline, m, inline_order. cbn [m_exts rev app]. repeat (constructor; [apply ext_arg_of; [discriminate|assumption]|]). constructor. }
  destruct (create_initializes (in_cpi e) (create_metas e asset owner payer sysp) w m w' asset (repeat x00 168) [] 0 (in_cpi_ok _ He) Hp
    ltac:(eexists; split; reflexivity) (or_introl (conj Hd (conj eq_refl (conj eq_refl eq_refl)))) Hs FA I6)
    as (au & ow & l' & hd' & tl & A1 & A2 & Sg & HL & Ow & V & _ & _ & D1 & D2 & D3 & D4 & D5 & D6 & D7 & D8 & D9 & DN).
  apply create_metas_args in A1, A2. subst au ow.
  exists stub, owner, auth, s, pb, l'. split; [assumption|]. split; [assumption|]. split; [assumption|].
  split; [now apply is_signer_spec in S2|]. split; [now apply is_signer_spec in S1|].
  split; [assumption|]. split; [assumption|]. split; [exact D2|]. split; [unfold mutable; rewrite D3; discriminate|].
  split; [exact D6|]. split; [rewrite D8; apply (DN Hd)|]. split; [exact Ow|].
  split; [eexists; eexists; exact HL|]. split; [split; [exact P1|]; rewrite P3, P4; exact Fa|].
  split; [assumption|]. split; [assumption|].
  split; [unfold s; apply decimal_shows; lia|]. split; [reflexivity|].
  clear - V. unfold inline, m, inline_order in V. cbn [m_exts rev app inline_blks map] in V.
  assert (K : forall t b, t <> XCreators -> forall b', validated (pk_bytes asset) (blk_of t b) b' -> (bk_type b', bk_data b') = (t, b)).
  { intros t b Nt b' (T & _ & Q & _). cbn [bk_type bk_data blk_of] in T, Q. rewrite T, (Q Nt). reflexivity. }
  unfold ext_list.
  inversion V as [|b1 b1' r1 r1' V1 V1' Ea Eb]; subst. inversion V1' as [|b2 b2' r2 r2' V2 V2' Ea Eb]; subst.
  inversion V2' as [|b3 b3' r3 r3' V3 V3' Ea Eb]; subst. inversion V3' as [|b4 b4' r4 r4' V4 V4' Ea Eb]; subst. inversion V4'; subst.
  cbn [map]. apply K in V1, V2, V3, V4; try discriminate. rewrite V1, V2, V3, V4. reflexivity.
Qed.

(** ** Taking over *)
Lemma handover_run e infos w asset auth new : arg infos 0 asset -> arg infos 1 auth -> arg infos 2 new -> signed infos auth -> signed infos new ->
  (s_standard (data (w asset)) = x03 -> signed infos asset) -> writable infos asset -> plain_accounts e infos w -> zlen (data (w asset)) <= 10485760 ->
  acct_owner (w asset) = e_prog e -> initialized (data (w asset)) -> s_authority (data (w asset)) = pk_bytes auth -> mutable (data (w asset)) ->
  exists w', process e infos w IHandover = Ok w'.
Proof.
  intros A0 A1 A2 S1 S2 Sx Hw Hp Hz Ho Hi Ha Hm.
  destruct (gate_total e infos w asset A0 Ho Hi Hp Sx) as (r & Hr & _). unfold process. rewrite Hr. cbn [bind].
  assert (D : exists w', dispatch e (firstn MAX_ACCOUNTS infos) w IHandover = Ok w'); [|destruct r; exact D].
  cbn [dispatch]. unfold process_handover.
  pose proof (proj2 (acct_arg _ _ _) A0) as B0. pose proof (proj2 (acct_arg _ _ _) A1) as B1. pose proof (proj2 (acct_arg _ _ _) A2) as B2.
  pose proof (proj2 (signed_acct _ _) S1) as C1. pose proof (proj2 (signed_acct _ _) S2) as C2. pose proof (proj2 (writable_acct _ _) Hw) as Cw.
  change (firstn MAX_ACCOUNTS infos) with (passed infos) in *.
  rewrite B0, B1, B2. cbn [bind]. rewrite C1, C2. cbn [require]. unfold owned_by_prog. rewrite Ho, pk_eqb_refl. cbn [require].
  unfold check_authority. rewrite (proj2 (is_asset_spec _) Hi). cbn [require].
  assert (key_is (f_authority (data (w asset))) auth = true) as -> by (unfold key_is; apply bytes_eqb_eq; exact Ha). cbn [require].
  assert (pod_true (byte_at (data (w asset)) 3) = true) as ->.
  { unfold pod_true. apply negb_true_iff, beqb_neq. exact Hm. }
  cbn [require]. unfold set_data. destruct (bytes_eqb _ _); [eauto|]. rewrite Cw, Ho, pk_eqb_refl. pose proof (initialized_len _ Hi).
  rewrite zlen_put by (rewrite ?pk_zlen; lia). replace (zlen (data (w asset)) <=? MAX_DATA) with true by (unfold MAX_DATA; lia). cbn. eauto.
Qed.
Lemma takeover pe e me w asset k l pb : sized w -> acct_owner (w asset) = e_prog e -> initialized (data (w asset)) ->
  well_formed (data (w asset)) l -> lookup XProxy (ext_list l) = Some pb -> proxies e me pb asset ->
  s_authority (data (w asset)) = pk_bytes asset -> mutable (data (w asset)) ->
  acct_owner (w k) <> e_prog e -> acct_owner (w (e_prog e)) <> e_prog e ->
  exists w', proxy_entry pe e me (takeover_accounts e asset k) w (write_instr IHandover) = Ok w' /\ s_authority (data (w' asset)) = pk_bytes k.
Proof.
  intros Hs Ho Hi HW HP HD Ha Hm Hk Hpr. set (infos := takeover_accounts e asset k).
  assert (A0 : arg (first_signs infos) 0 asset) by (eexists; split; reflexivity).
  assert (A1 : arg (first_signs infos) 1 asset) by (eexists; split; reflexivity).
  assert (A2 : arg (first_signs infos) 2 k) by (eexists; split; reflexivity).
  assert (S1 : signed (first_signs infos) asset) by (eexists; split; [left; reflexivity|split; reflexivity]).
  assert (S2 : signed (first_signs infos) k) by (eexists; split; [right; right; left; reflexivity|split; reflexivity]).
  assert (Wr : writable (first_signs infos) asset) by (eexists; split; [left; reflexivity|split; reflexivity]).
  destruct (handover_run (in_cpi e) (first_signs infos) w asset asset k A0 A1 A2 S1 S2 (fun _ => S1) Wr) as (w' & H); try assumption.
  { assert (Da : (168 <= length (data (w asset)))%nat) by apply Hi.
    intros a [<-|[<-|[<-|[<-|[]]]]]; cbn [ai_key e_prog in_cpi]; intro Q; auto; contradiction. }
  { apply Hs. }
  pose proof (handover_effect _ _ _ _ H) as (as' & au & nw & B0 & B1 & B2 & _ & _ & _ & _ & _ & (F & _) & (Ln & _) & Au).
  assert (as' = asset) as -> by exact (arg_det _ _ _ _ B0 A0). assert (nw = k) as -> by exact (arg_det _ _ _ _ B2 A2).
  exists w'. split; [|assumption]. rewrite proxy_forwards; [|exact I|discriminate|discriminate].
  apply (iface_forward e me (mkInfo asset false true) [mkInfo asset false true; mkInfo k true false; mkInfo (e_prog e) false false] w IHandover w' l pb); try assumption; try exact I.
  { exists (mkInfo (e_prog e) false false). split; [right; right; right; left; reflexivity|reflexivity]. }
  split; [exact H|]. intros a _. destruct (pk_dec (ai_key a) asset) as [->|N]; [unfold zlen; lia|rewrite (F _ N); lia].
Qed.

(** ** At the entry point *)
Lemma proxy_entry_update pe e me infos w u w' asset l pb : env_ok e -> e_prog e <> pk_zero -> sized w -> instr_ok (IUpdate u) ->
  arg infos 0 asset -> well_formed (data (w asset)) l -> lookup XProxy (ext_list l) = Some pb ->
  proxy_entry pe e me infos w (write_instr (IUpdate u)) = Ok w' ->
  exists auth, arg infos 1 auth /\ signs infos auth /\ sub pb 65 32 = pk_bytes auth /\ signs_or_proxied e me infos pb asset /\
    s_authority (data (w asset)) = pk_bytes asset /\ mutable (data (w asset)) /\
    header_updated u (data (w asset)) (data (w' asset)) /\ well_formed (data (w' asset)) l /\
    (forall k, k <> asset -> data (w' k) = data (w k)).
Proof.
  intros He Hp Hs Hu A0 HW HP H. unfold proxy_entry in H. rewrite (asset_not_own _ Hu), (instr_round _ Hu) in H.
  exact (proxy_update_effect e me infos w u w' asset l pb He Hp Hs Hu A0 HW HP H).
Qed.
Lemma proxy_entry_transfer pe e me infos w w' asset l pb s : env_ok e -> e_prog e <> pk_zero -> sized w -> lam_ok w ->
  small_template pe -> arg infos 0 asset -> well_formed (data (w asset)) l ->
  lookup XProxy (ext_list l) = Some pb -> lookup XAttributes (ext_list l) = Some (counter_entry s) -> zlen s <= 255 ->
  proxy_entry pe e me infos w (write_instr ITransfer) = Ok w' ->
  exists signer recipient n s' l' c, arg infos 1 signer /\ arg infos 2 recipient /\
    signs_or_proxied e me infos pb signer /\ signs_or_proxied e me infos pb asset /\
    s_authority (data (w asset)) = pk_bytes asset /\ mutable (data (w asset)) /\
    (s_owner (data (w asset)) <> pk_bytes recipient -> authorized (data (w asset)) l signer RTransfer) /\
    s_owner (data (w' asset)) = pk_bytes recipient /\ same_terms (data (w asset)) (data (w' asset)) /\
    well_formed (data (w' asset)) l' /\ reads_as s n /\ shows s' (next_count n) /\ 12 <= zlen s' <= 21 /\
    rgb (pe_hash pe [pk_bytes asset; le_enc 8 (pe_now pe mod two64); le_enc 8 (n mod two64)]) c /\
    ext_list l' = put_ext XProperties (stamp_entry (pe_now pe mod two64)) (put_ext XBlob (image_entry (pe_before pe ++ c ++ pe_after pe))
                    (put_ext XAttributes (counter_entry s') (ext_list l))) /\
    (forall k, k <> asset -> data (w' k) = data (w k)).
Proof.
  intros He Hp Hs Hl Ht A0 HW HP HA Hz H. assert (IT : instr_ok ITransfer) by exact I.
  unfold proxy_entry in H. rewrite (asset_not_own _ IT), (instr_round _ IT) in H. eapply proxy_transfer_effect; eassumption.
Qed.
Lemma proxy_entry_create pe e me infos w name w' asset : env_ok e -> e_prog e <> pk_zero -> sized w ->
  small_template pe -> arg infos 0 asset -> data (w asset) = [] -> text_ok name ->
  proxy_entry pe e me infos w (write_proxy name) = Ok w' ->
  exists stub owner auth s pb l', arg infos 1 stub /\ arg infos 2 owner /\ arg infos 3 auth /\ signs infos stub /\ signs infos auth /\
    s_owner (data (w' asset)) = pk_bytes owner /\ s_authority (data (w' asset)) = pk_bytes asset /\
    s_standard (data (w' asset)) = x03 /\ mutable (data (w' asset)) /\ s_name (data (w' asset)) = name_field name /\
    s_delegate (data (w' asset)) = no_key /\ acct_owner (w' asset) = e_prog e /\
    well_formed (data (w' asset)) l' /\ proxies e me pb asset /\ sub pb 32 32 = pk_bytes stub /\ sub pb 65 32 = pk_bytes auth /\ shows s 0 /\ zlen s = 12 /\
    ext_list l' = [(XAttributes, counter_entry s); (XProperties, stamp_entry (pe_now pe mod two64)); (XProxy, pb);
      (XBlob, image_entry (pe_before pe ++ black ++ pe_after pe))].
Proof.
  intros He Hp Hs Ht A0 Hd Hn H. unfold proxy_entry in H. rewrite (proj2 (proxy_decode_iff _ name) (conj Hn eq_refl)) in H.
  eapply proxy_create_effect; eassumption.
Qed.

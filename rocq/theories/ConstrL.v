(** Parsing, building and evaluating constraints (C36, C37). *)
From Verif Require Import Base State Constr World BaseL Spec SpecC.
From Coq Require Import Strings.Byte.

Lemma Ok_inj {A} (a b : A) : Ok a = Ok b -> a = b.
Proof. congruence. Qed.
Lemma chunks_concat ks : Forall (fun k : bytes => length k = 32%nat) ks -> chunks32 (length ks) (concat ks) = ks.
Proof.
  induction 1 as [|k ks Hk _ IH]; [reflexivity|]. cbn [length concat chunks32].
  rewrite firstn_app, Hk, Nat.sub_diag, firstn_O, app_nil_r, firstn_all2 by lia.
  rewrite skipn_app, Hk, skipn_all2, Nat.sub_diag by lia. cbn [app skipn]. now rewrite IH.
Qed.
Lemma concat_length ks : Forall (fun k : bytes => length k = 32%nat) ks -> length (concat ks) = (32 * length ks)%nat.
Proof. induction 1 as [|k ks Hk _ IH]; [reflexivity|]. cbn [concat length]. rewrite app_length, IH, Hk. lia. Qed.
Lemma concat_chunks n : forall b, length b = (32 * n)%nat -> concat (chunks32 n b) = b /\ Forall (fun k => length k = 32%nat) (chunks32 n b).
Proof.
  induction n as [|n IH]; intros b H; cbn [chunks32 concat].
  - destruct b; [auto|discriminate].
  - destruct (IH (skipn 32 b)) as [E F]; [rewrite skipn_length; lia|]. rewrite E. split; [apply firstn_skipn|].
    constructor; [rewrite firstn_length; lia|assumption].
Qed.

(** ** Soundness of the parser *)
Lemma parse_keys_ok al b a ks : parse_keys al b = Ok (a, ks) -> key_list (cacct_code a) ks b.
Proof.
  unfold parse_keys. intro H. apply guard_ok in H as [H1 H]. apply guard_ok in H as [_ H]. apply bind_ok in H as (ks' & Hk & H).
  unfold cast_keys in Hk. apply guard_ok in Hk as [Hm Hk]. apply Ok_inj in Hk.
  assert (HL : length (skipn 8 b) = (32 * (length (skipn 8 b) / 32))%nat).
  { unfold zlen in Hm. pose proof (Nat.div_mod (length (skipn 8 b)) 32). assert (length (skipn 8 b) mod 32 = 0)%nat by (apply Nat2Z.inj; rewrite Nat2Z.inj_mod; lia). lia. }
  destruct (concat_chunks _ _ HL) as [E F]. rewrite Hk in *. clear Hk HL.
  assert (L8 : length (firstn 8 b) = 8%nat) by (rewrite firstn_length; unfold zlen in *; lia).
  assert (G : forall c, le_dec (firstn 8 b) = c -> 0 <= c <= 2 -> key_list c ks' b).
  { intros c Hc Hr. split; [assumption|]. split; [assumption|]. rewrite E, <- Hc, <- L8 at 1. rewrite le_enc_dec. symmetry. apply firstn_skipn. }
  cbv zeta in H.
  destruct (le_dec (firstn 8 b) =? 0) eqn:E0; [apply Ok_inj in H; replace a with AAsset by congruence; replace ks with ks' by congruence; apply G; cbn [cacct_code]; lia|].
  destruct (le_dec (firstn 8 b) =? 1) eqn:E1; [apply Ok_inj in H; replace a with AAuthority by congruence; replace ks with ks' by congruence; apply G; cbn [cacct_code]; lia|].
  destruct (le_dec (firstn 8 b) =? 2) eqn:E2; [apply Ok_inj in H; replace a with ARecipient by congruence; replace ks with ks' by congruence; apply G; cbn [cacct_code]; lia|].
  discriminate.
Qed.
Lemma parse_head b ty sz body : 8 <= zlen b -> le_dec (fld b 0 4) = ty -> le_dec (fld b 4 4) = sz -> slice b 8 (8 + sz) = Ok body ->
  sz = zlen body /\ operator ty body (skipn (Z.to_nat (8 + sz)) b) b.
Proof.
  intros H8 Ht Hz Hs. apply slice_ok in Hs as (_ & _ & S3 & S4 & S5).
  assert (R : 0 <= sz < 4294967296).
  { subst sz. pose proof (le_dec_range (fld b 4 4)) as R. rewrite zlen_fld in R by lia. exact R. }
  split; [lia|]. split; [lia|].
  assert (E0 : le_enc 4 ty = fld b 0 4).
  { rewrite <- Ht. rewrite <- (le_enc_dec (fld b 0 4)) at 2. f_equal. pose proof (zlen_fld b 0 4). unfold zlen in *. lia. }
  assert (E4 : le_enc 4 (zlen body) = fld b 4 4).
  { replace (zlen body) with sz by lia. rewrite <- Hz. rewrite <- (le_enc_dec (fld b 4 4)) at 2. f_equal. pose proof (zlen_fld b 4 4). unfold zlen in *. lia. }
  rewrite E0, E4, S4. replace (8 + sz - 8) with sz by lia.
  unfold fld. change (Z.to_nat 0) with 0%nat. change (Z.to_nat 4) with 4%nat. change (Z.to_nat 8) with 8%nat. cbn [skipn].
  replace (Z.to_nat (8 + sz)) with (8 + Z.to_nat sz)%nat by lia. rewrite <- skipn_skipn, firstn_skipn.
  change 8%nat with (4 + 4)%nat. rewrite <- (skipn_skipn 4 4 b). rewrite firstn_skipn. symmetry. apply firstn_skipn.
Qed.

Lemma parse_sound n : forall fuel, (fuel <= n)%nat ->
  (forall al b c, parse_constr fuel al b = Ok c -> reads b (erase c) (skipn (Z.to_nat (csize c)) b)) /\
  (forall al b cs, parse_constrs fuel al b = Ok cs -> reads_list b (map erase cs)).
Proof.
  induction n as [|n IH]; intros fuel Hf.
  { assert (fuel = 0%nat) as -> by lia. split; intros al b c H; discriminate H. }
  destruct fuel as [|f]; [split; intros al b c H; discriminate H|]. assert (Hf' : (f <= n)%nat) by lia. destruct (IH f Hf') as [IHc IHs]. split.
  - intros al b c H. cbn [parse_constr] in H. apply guard_ok in H as [H8 H]. apply guard_ok in H as [_ H]. cbv zeta in H.
    apply guard_ok in H as [Hty H]. apply bind_ok in H as (body & Hb & H).
    destruct (parse_head b _ _ body ltac:(lia) eq_refl eq_refl Hb) as [Hsz Hop].
    set (ty := le_dec (fld b 0 4)) in *. set (sz := le_dec (fld b 4 4)) in *.
    destruct (ty =? 0) eqn:T0.
    { apply bind_ok in H as (cs & Hc & H). apply Ok_inj in H. subst c. cbn [erase csize op_size]. apply Z.eqb_eq in T0. rewrite T0 in Hop.
      eapply reads_all; [exact Hop|]. eapply IHs; eauto. }
    destruct (ty =? 1) eqn:T1.
    { apply bind_ok in H as (c0 & Hc & H). apply Ok_inj in H. subst c. cbn [erase csize op_size]. apply Z.eqb_eq in T1. rewrite T1 in Hop.
      eapply reads_neg; [exact Hop|]. eapply IHc; eauto. }
    destruct (ty =? 2) eqn:T2.
    { apply bind_ok in H as (cs & Hc & H). apply Ok_inj in H. subst c. cbn [erase csize op_size]. apply Z.eqb_eq in T2. rewrite T2 in Hop.
      eapply reads_any; [exact Hop|]. eapply IHs; eauto. }
    destruct (ty =? 3) eqn:T3.
    { apply bind_ok in H as ([a ks] & Hc & H). apply Ok_inj in H. subst c. cbn [erase csize op_size fst snd]. apply Z.eqb_eq in T3. rewrite T3 in Hop.
      eapply reads_owner; [exact Hop|]. eapply parse_keys_ok; eauto. }
    destruct (ty =? 4) eqn:T4.
    { apply bind_ok in H as ([a ks] & Hc & H). apply Ok_inj in H. subst c. cbn [erase csize op_size fst snd]. apply Z.eqb_eq in T4. rewrite T4 in Hop.
      eapply reads_key; [exact Hop|]. eapply parse_keys_ok; eauto. }
    apply Ok_inj in H. subst c. cbn [erase csize op_size]. replace ty with 5 in Hop by lia. eapply reads_true; exact Hop.
  - intros al b cs H. cbn [parse_constrs] in H. destruct b as [|x b']; [apply Ok_inj in H; subst cs; constructor|].
    apply bind_ok in H as (c & Hc & H). apply bind_ok in H as (cs' & Hcs & H). apply Ok_inj in H. subst cs. cbn [map].
    econstructor; [eapply IHc; exact Hc|eapply IHs; exact Hcs].
Qed.
Lemma from_bytes_reads al b c : constr_from_bytes al b = Ok c -> reads b (erase c) (skipn (Z.to_nat (csize c)) b).
Proof. unfold constr_from_bytes. intro H. eapply (parse_sound (constr_fuel b) (constr_fuel b)); eauto. Qed.

(** ** The parser always terminates *)
Lemma parse_size fuel al b c : parse_constr fuel al b = Ok c -> 8 <= csize c <= zlen b.
Proof.
  destruct fuel as [|f]; [discriminate|]. intro H. cbn [parse_constr] in H. apply guard_ok in H as [H8 H]. apply guard_ok in H as [_ H]. cbv zeta in H.
  apply guard_ok in H as [Hty H]. apply bind_ok in H as (body & Hb & H). apply slice_ok in Hb as (_ & B2 & B3 & _ & _).
  assert (G : op_size c = le_dec (fld b 4 4) -> 8 <= csize c <= zlen b) by (unfold csize; lia). apply G. clear G.
  destruct (le_dec (fld b 0 4) =? 0); [apply bind_ok in H as (? & _ & H); apply Ok_inj in H; now subst c|].
  destruct (le_dec (fld b 0 4) =? 1); [apply bind_ok in H as (? & _ & H); apply Ok_inj in H; now subst c|].
  destruct (le_dec (fld b 0 4) =? 2); [apply bind_ok in H as (? & _ & H); apply Ok_inj in H; now subst c|].
  destruct (le_dec (fld b 0 4) =? 3); [apply bind_ok in H as (? & _ & H); apply Ok_inj in H; now subst c|].
  destruct (le_dec (fld b 0 4) =? 4); [apply bind_ok in H as (? & _ & H); apply Ok_inj in H; now subst c|].
  apply Ok_inj in H. now subst c.
Qed.
Lemma bind_div {A B} (m : res A) (k : A -> res B) : bind m k = Diverge -> m = Diverge \/ exists a, m = Ok a /\ k a = Diverge.
Proof. destruct m; cbn; intro H; try discriminate; eauto. Qed.
Lemma guard_div {A} c (k : res A) : guard c k = Diverge -> c = true /\ k = Diverge.
Proof. unfold guard. destruct c; [auto|discriminate]. Qed.
Lemma parse_keys_div al b : parse_keys al b <> Diverge.
Proof.
  unfold parse_keys. intro H. apply guard_div in H as [_ H]. apply guard_div in H as [_ H]. apply bind_div in H as [H|(ks & _ & H)].
  - unfold cast_keys in H. apply guard_div in H as [_ H]. discriminate.
  - cbv zeta in H. repeat match type of H with (if ?q then _ else _) = _ => destruct q end; discriminate.
Qed.
Lemma parse_total n : forall fuel, (fuel <= n)%nat ->
  (forall al b, (2 * length b + 1 <= fuel)%nat -> parse_constr fuel al b <> Diverge) /\
  (forall al b, (2 * length b + 2 <= fuel)%nat -> parse_constrs fuel al b <> Diverge).
Proof.
  induction n as [|n IH]; intros fuel Hf; [split; intros; lia|].
  destruct fuel as [|f]; [split; intros; lia|]. assert (Hf' : (f <= n)%nat) by lia. destruct (IH f Hf') as [IHc IHs]. split.
  - intros al b Hl H. cbn [parse_constr] in H. apply guard_div in H as [H8 H]. apply guard_div in H as [_ H]. cbv zeta in H.
    apply guard_div in H as [_ H]. apply bind_div in H as [H|(body & Hb & H)].
    { unfold slice in H. apply guard_div in H as [_ H]. discriminate. }
    apply slice_ok in Hb as (_ & _ & B3 & _ & B5).
    assert (L : (length body + 8 <= length b)%nat) by (unfold zlen in *; lia).
    assert (Ls : parse_constrs f (al + 8) body <> Diverge) by (apply IHs; lia).
    assert (Lc : parse_constr f (al + 8) body <> Diverge) by (apply IHc; lia).
    destruct (le_dec (fld b 0 4) =? 0). { apply bind_div in H as [H|(? & _ & H)]; [contradiction|discriminate]. }
    destruct (le_dec (fld b 0 4) =? 1). { apply bind_div in H as [H|(? & _ & H)]; [contradiction|discriminate]. }
    destruct (le_dec (fld b 0 4) =? 2). { apply bind_div in H as [H|(? & _ & H)]; [contradiction|discriminate]. }
    destruct (le_dec (fld b 0 4) =? 3). { apply bind_div in H as [H|(? & _ & H)]; [now apply parse_keys_div in H|discriminate]. }
    destruct (le_dec (fld b 0 4) =? 4). { apply bind_div in H as [H|(? & _ & H)]; [now apply parse_keys_div in H|discriminate]. }
    discriminate.
  - intros al b Hl H. cbn [parse_constrs] in H. destruct b as [|x b']; [discriminate|].
    apply bind_div in H as [H|(c & Hc & H)]; [revert H; apply IHc; lia|].
    apply bind_div in H as [H|(? & _ & H)]; [|discriminate]. revert H. apply IHs.
    apply parse_size in Hc. rewrite skipn_length. unfold zlen in *. lia.
Qed.
Lemma from_bytes_total al b : constr_from_bytes al b <> Diverge.
Proof. unfold constr_from_bytes. apply (parse_total (constr_fuel b) (constr_fuel b) (le_n _)). unfold constr_fuel. lia. Qed.

(** ** What the builders produce *)
Section FormInd.
Variable P : form -> Prop.
Hypothesis Hand : forall l, Forall P l -> P (FAnd l).
Hypothesis Hor : forall l, Forall P l -> P (FOr l).
Hypothesis Hnot : forall x, P x -> P (FNot x).
Hypothesis Howned : forall a ks, P (FOwnedBy a ks).
Hypothesis Hmatch : forall a ks, P (FPubkeyMatch a ks).
Hypothesis Hempty : P FEmpty.
Fixpoint form_ind2 (f : form) : P f :=
  let fix go (l : list form) : Forall P l := match l with [] => Forall_nil P | x :: l' => Forall_cons x (form_ind2 x) (go l') end in
  match f with
  | FAnd l => Hand l (go l) | FOr l => Hor l (go l) | FNot x => Hnot x (form_ind2 x)
  | FOwnedBy a ks => Howned a ks | FPubkeyMatch a ks => Hmatch a ks | FEmpty => Hempty
  end.
End FormInd.

Lemma with_header_len ty p : zlen (with_header ty p) = 8 + zlen p.
Proof. unfold with_header. rewrite !zlen_app, !le_enc_zlen. lia. Qed.
Lemma keys_len ks : zlen (concat (map pk_bytes ks)) = 32 * zlen ks.
Proof. unfold zlen. rewrite concat_length, map_length; [lia|]. apply Forall_forall. intros k Hk. apply in_map_iff in Hk as (p & <- & _). apply pk_length. Qed.
Lemma build_len f : 8 <= zlen (build f) /\ zlen (build f) mod 8 = 0.
Proof.
  assert (L : forall l, Forall (fun f => 8 <= zlen (build f) /\ zlen (build f) mod 8 = 0) l -> zlen (concat (map build l)) mod 8 = 0).
  { induction 1 as [|x l [H1 H2] _ IH]; [reflexivity|]. cbn [map concat]. rewrite zlen_app. lia. }
  induction f as [l IH|l IH|x IH|a ks|a ks|] using form_ind2; cbn [build]; rewrite with_header_len.
  - specialize (L l IH). pose proof (zlen_nonneg (concat (map build l))). lia.
  - specialize (L l IH). pose proof (zlen_nonneg (concat (map build l))). lia.
  - lia.
  - unfold keys_payload. rewrite zlen_app, le_enc_zlen, keys_len. pose proof (zlen_nonneg ks). lia.
  - unfold keys_payload. rewrite zlen_app, le_enc_zlen, keys_len. pose proof (zlen_nonneg ks). lia.
  - cbn. lia.
Qed.
Lemma head_fields ty p rest : 0 <= ty <= 5 -> zlen p <= u32_max ->
  8 <= zlen (with_header ty p ++ rest) /\ le_dec (fld (with_header ty p ++ rest) 0 4) = ty /\ le_dec (fld (with_header ty p ++ rest) 4 4) = zlen p /\
  slice (with_header ty p ++ rest) 8 (8 + zlen p) = Ok p.
Proof.
  intros Ht Hp. pose proof (zlen_nonneg p). pose proof (zlen_nonneg rest).
  assert (E : with_header ty p ++ rest = le_enc 4 ty ++ le_enc 4 (zlen p) ++ p ++ rest) by (unfold with_header; now rewrite <- !app_assoc).
  split; [rewrite zlen_app, with_header_len; lia|].
  split. { rewrite E. change (le_enc 4 ty ++ ?x) with ([] ++ le_enc 4 ty ++ x). rewrite fld_mid by reflexivity. apply le_dec_enc4. unfold u32_max. lia. }
  split. { rewrite E. rewrite fld_mid by reflexivity. apply le_dec_enc4. lia. }
  rewrite slice_in by (rewrite ?zlen_app, ?with_header_len; lia). f_equal. rewrite E, app_assoc. apply fld_mid; [rewrite zlen_app, !le_enc_zlen; lia|lia].
Qed.
Lemma parse_keys_build al a ks : al mod 8 = 0 -> parse_keys al (keys_payload a ks) = Ok (a, map pk_bytes ks).
Proof.
  intro Ha. assert (F : Forall (fun k : bytes => length k = 32%nat) (map pk_bytes ks)).
  { apply Forall_forall. intros k Hk. apply in_map_iff in Hk as (p & <- & _). apply pk_length. }
  unfold parse_keys, keys_payload. set (X := concat (map pk_bytes ks)) in *.
  assert (E1 : firstn 8 (le_enc 8 (cacct_code a) ++ X) = le_enc 8 (cacct_code a)) by (rewrite firstn_app, le_enc_length, Nat.sub_diag, firstn_O, app_nil_r; apply firstn_all2; rewrite le_enc_length; lia).
  assert (E2 : skipn 8 (le_enc 8 (cacct_code a) ++ X) = X) by (rewrite skipn_app, le_enc_length, skipn_all2, Nat.sub_diag by (rewrite le_enc_length; lia); reflexivity).
  rewrite E1, E2, zlen_app, le_enc_zlen. pose proof (zlen_nonneg X). unfold guard at 1 2. replace (8 <=? Z.of_nat 8 + zlen X) with true by lia. rewrite Ha. cbn [Z.eqb].
  assert (C : cast_keys X = Ok (map pk_bytes ks)).
  { unfold cast_keys. assert (zlen X mod 32 = 0) as -> by (unfold X; rewrite keys_len; lia). cbn [guard Z.eqb]. f_equal.
    unfold X. rewrite concat_length by assumption. rewrite Nat.mul_comm, Nat.div_mul by lia. now apply chunks_concat. }
  rewrite C. cbn [bind]. rewrite le_dec_enc8 by (unfold two64; destruct a; cbn; lia). destruct a; reflexivity.
Qed.
Lemma parse_step f al b ty p rest : b = with_header ty p ++ rest -> 0 <= ty <= 5 -> zlen p <= u32_max -> al mod 8 = 0 ->
  parse_constr (S f) al b =
    if ty =? 0 then cs <- parse_constrs f (al + 8) p ;; Ok (CAnd (zlen p) cs)
    else if ty =? 1 then c <- parse_constr f (al + 8) p ;; Ok (CNot (zlen p) c)
    else if ty =? 2 then cs <- parse_constrs f (al + 8) p ;; Ok (COr (zlen p) cs)
    else if ty =? 3 then q <- parse_keys (al + 8) p ;; Ok (COwnedBy (zlen p) (fst q) (snd q))
    else if ty =? 4 then q <- parse_keys (al + 8) p ;; Ok (CPubkeyMatch (zlen p) (fst q) (snd q))
    else Ok (CEmpty (zlen p)).
Proof.
  intros -> Ht Hp Ha. destruct (head_fields ty p rest Ht Hp) as (F1 & F2 & F3 & F4). cbn [parse_constr]. unfold guard at 1 2.
  replace (8 <=? zlen (with_header ty p ++ rest)) with true by lia. replace (al mod 4 =? 0) with true by lia. cbv zeta. rewrite F2, F3. unfold guard.
  replace ((0 <=? ty) && (ty <=? 5)) with true by lia. rewrite F4. reflexivity.
Qed.

Definition parses_to (f : form) : Prop := forall fuel al rest, al mod 8 = 0 -> zlen (build f) <= u32_max -> (2 * length (build f) <= fuel)%nat ->
  exists c, parse_constr fuel al (build f ++ rest) = Ok c /\ erase c = wanted f /\ csize c = zlen (build f) /\ (negation_free f -> as_bytes c = build f).
Lemma build_list l : Forall parses_to l -> forall fuel al, al mod 8 = 0 -> zlen (concat (map build l)) <= u32_max ->
  (2 * length (concat (map build l)) + 1 <= fuel)%nat ->
  exists cs, parse_constrs fuel al (concat (map build l)) = Ok cs /\ map erase cs = map wanted l /\
    (fold_right (fun x P => negation_free x /\ P) True l -> concat (map as_bytes cs) = concat (map build l)).
Proof.
  induction 1 as [|x l Hx Hl IH]; intros fuel al Ha Hz Hf.
  { cbn [map concat] in *. destruct fuel as [|f]; [cbn in Hf; lia|]. exists []. auto. }
  cbn [map concat] in *. destruct fuel as [|f]; [lia|]. rewrite zlen_app in Hz. rewrite app_length in Hf.
  destruct (build_len x) as [B1 B2]. pose proof (zlen_nonneg (concat (map build l))).
  assert (B3 : (8 <= length (build x))%nat) by (unfold zlen in B1; lia).
  destruct (Hx f al (concat (map build l)) Ha) as (c & C1 & C2 & C3 & C4); [lia|lia|].
  destruct (IH f (al + csize c)) as (cs & D1 & D2 & D3); [rewrite C3; lia|lia|lia|].
  exists (c :: cs). split; [|split; [cbn [map]; congruence|]].
  - cbn [parse_constrs]. destruct (build x ++ concat (map build l)) as [|y ys] eqn:E; [destruct (build x); [cbn in B3; lia|discriminate]|].
    rewrite <- E in *. rewrite C1. cbn [bind].
    replace (skipn (Z.to_nat (csize c)) (build x ++ concat (map build l))) with (concat (map build l)); [rewrite D1; reflexivity|].
    rewrite C3. unfold zlen. rewrite Nat2Z.id, skipn_app, Nat.sub_diag, skipn_all. reflexivity.
  - cbn [fold_right map concat]. intros [N1 N2]. now rewrite C4, D3.
Qed.
Lemma build_parses f : parses_to f.
Proof.
  induction f as [l IH|l IH|x IH|a ks|a ks|] using form_ind2; intros fuel al rest Ha Hz Hf; cbn [build] in *;
    (assert (fuel = S (pred fuel)) as -> by (pose proof (with_header_len 0 []); unfold with_header in Hf; rewrite !app_length, !le_enc_length in Hf; lia));
    set (fu := pred fuel) in *; rewrite with_header_len in Hz; unfold with_header in Hf; rewrite !app_length, !le_enc_length in Hf.
  - erewrite parse_step by (try reflexivity; lia). cbn [Z.eqb].
    destruct (build_list l IH fu (al + 8)) as (cs & D1 & D2 & D3); [lia|lia|lia|]. rewrite D1. cbn [bind]. eexists. split; [reflexivity|].
    cbn [erase wanted csize op_size]. rewrite D2, with_header_len. split; [reflexivity|]. split; [unfold csize; cbn [op_size]; lia|].
    cbn [negation_free as_bytes]. intro N. rewrite D3 by assumption. unfold op_header, with_header. cbn [op_code op_size]. now rewrite <- app_assoc.
  - erewrite parse_step by (try reflexivity; lia). cbn [Z.eqb].
    destruct (build_list l IH fu (al + 8)) as (cs & D1 & D2 & D3); [lia|lia|lia|]. rewrite D1. cbn [bind]. eexists. split; [reflexivity|].
    cbn [erase wanted csize op_size]. rewrite D2, with_header_len. split; [reflexivity|]. split; [unfold csize; cbn [op_size]; lia|].
    cbn [negation_free as_bytes]. intro N. rewrite D3 by assumption. unfold op_header, with_header. cbn [op_code op_size]. now rewrite <- app_assoc.
  - erewrite parse_step by (try reflexivity; lia). cbn [Z.eqb].
    destruct (IH fu (al + 8) []) as (c & D1 & D2 & D3 & _); [lia|lia|lia|]. rewrite app_nil_r in D1. rewrite D1. cbn [bind]. eexists. split; [reflexivity|].
    cbn [erase wanted]. rewrite D2, with_header_len. split; [reflexivity|]. split; [unfold csize; cbn [op_size]; lia|]. cbn [negation_free]. tauto.
  - erewrite parse_step by (try reflexivity; lia). cbn [Z.eqb]. rewrite parse_keys_build by lia. cbn [bind fst snd]. eexists. split; [reflexivity|].
    cbn [erase wanted]. rewrite with_header_len. split; [reflexivity|]. split; [unfold csize; cbn [op_size]; lia|].
    intros _. cbn [as_bytes]. unfold op_header, with_header, keys_payload. cbn [op_code op_size]. now rewrite <- !app_assoc.
  - erewrite parse_step by (try reflexivity; lia). cbn [Z.eqb]. rewrite parse_keys_build by lia. cbn [bind fst snd]. eexists. split; [reflexivity|].
    cbn [erase wanted]. rewrite with_header_len. split; [reflexivity|]. split; [unfold csize; cbn [op_size]; lia|].
    intros _. cbn [as_bytes]. unfold op_header, with_header, keys_payload. cbn [op_code op_size]. now rewrite <- !app_assoc.
  - erewrite parse_step by (try reflexivity; lia). cbn [Z.eqb]. eexists. split; [reflexivity|]. split; [reflexivity|]. split; reflexivity.
Qed.
Lemma build_round_trip f al rest : al mod 8 = 0 -> zlen (build f) <= u32_max ->
  exists c, constr_from_bytes al (build f ++ rest) = Ok c /\ erase c = wanted f /\ csize c = zlen (build f) /\
    (negation_free f -> as_bytes c = build f).
Proof. intros Ha Hz. apply build_parses; [assumption|assumption|]. unfold constr_fuel. rewrite app_length. lia. Qed.

Lemma map_wanted_inj l : Forall (fun f => forall f', wanted f = wanted f' -> f = f') l -> forall l', map wanted l = map wanted l' -> l = l'.
Proof.
  induction 1 as [|x l Hx _ IH]; intros [|y l'] H; cbn [map] in H; try discriminate; [reflexivity|].
  assert (wanted x = wanted y /\ map wanted l = map wanted l') as [E1 E2] by (split; congruence). f_equal; auto.
Qed.
Lemma map_pk_inj l : forall l', map pk_bytes l = map pk_bytes l' -> l = l'.
Proof.
  induction l as [|x l IH]; intros [|y l'] H; cbn [map] in H; try discriminate; [reflexivity|].
  assert (pk_bytes x = pk_bytes y /\ map pk_bytes l = map pk_bytes l') as [E1 E2] by (split; congruence). f_equal; [now apply pk_ext|auto].
Qed.
Lemma code_inj a b : cacct_code a = cacct_code b -> a = b.
Proof. destruct a, b; cbn; congruence. Qed.
Lemma wanted_inj f : forall f', wanted f = wanted f' -> f = f'.
Proof.
  induction f as [l IH|l IH|x IH|a ks|a ks|] using form_ind2; intros [l'|x'|l'|a' ks'|a' ks'|] H; cbn [wanted] in H; try discriminate; f_equal.
  - apply map_wanted_inj; [assumption|congruence].
  - apply map_wanted_inj; [assumption|congruence].
  - apply IH. congruence.
  - apply code_inj. congruence.
  - apply map_pk_inj. congruence.
  - apply code_inj. congruence.
  - apply map_pk_inj. congruence.
  - reflexivity.
Qed.
Lemma build_unambiguous f f' r r' : zlen (build f) <= u32_max -> zlen (build f') <= u32_max ->
  build f ++ r = build f' ++ r' -> f = f' /\ r = r'.
Proof.
  intros H H' E. destruct (build_round_trip f 0 r eq_refl H) as (c & C1 & C2 & _). destruct (build_round_trip f' 0 r' eq_refl H') as (c' & D1 & D2 & _).
  rewrite E, D1 in C1. apply Ok_inj in C1. subst c'. assert (f = f') as -> by (apply wanted_inj; congruence). split; [reflexivity|]. eapply app_inv_head; eauto.
Qed.

(** ** Evaluation *)
Section ConstrInd.
Variable P : constr -> Prop.
Hypothesis Hand : forall s l, Forall P l -> P (CAnd s l).
Hypothesis Hor : forall s l, Forall P l -> P (COr s l).
Hypothesis Hnot : forall s x, P x -> P (CNot s x).
Hypothesis Howned : forall s a ks, P (COwnedBy s a ks).
Hypothesis Hmatch : forall s a ks, P (CPubkeyMatch s a ks).
Hypothesis Hempty : forall s, P (CEmpty s).
Fixpoint constr_ind2 (c : constr) : P c :=
  let fix go (l : list constr) : Forall P l := match l with [] => Forall_nil P | x :: l' => Forall_cons x (constr_ind2 x) (go l') end in
  match c with
  | CAnd s l => Hand s l (go l) | COr s l => Hor s l (go l) | CNot s x => Hnot s x (constr_ind2 x)
  | COwnedBy s a ks => Howned s a ks | CPubkeyMatch s a ks => Hmatch s a ks | CEmpty s => Hempty s
  end.
End ConstrInd.
Lemma mem_bytes_in k ks : mem_bytes k ks = true <-> In k ks.
Proof.
  unfold mem_bytes. rewrite existsb_exists. split.
  - intros (x & Hx & E). apply bytes_eqb_eq in E. now subst x.
  - intro H. exists k. split; [assumption|apply bytes_eqb_refl].
Qed.
Lemma eval_holds c ctx v : sees ctx v -> exists b, eval_constr c ctx = Ok b /\ (b = true <-> holds (erase c) v).
Proof.
  intros (V0 & V1 & t & Ht & V2).
  assert (G : forall a, exists t, get_account a ctx = Ok t /\ v (cacct_code a) = party_in t).
  { intros []; cbn [get_account cacct_code]; [eauto|eauto|]. rewrite Ht. cbn. eauto. }
  induction c as [s l IH|s l IH|s x IH|s a ks|s a ks|s] using constr_ind2; cbn [eval_constr erase holds].
  - induction IH as [|x l Hx _ IH]; [exists true; cbn; tauto|]. destruct Hx as (bx & X1 & X2), IH as (bl & L1 & L2).
    cbn [map fold_right]. rewrite X1. cbn [bind]. destruct bx.
    + exists bl. split; [exact L1|]. tauto.
    + exists false. split; [reflexivity|]. split; [discriminate|]. intros [Q _]. tauto.
  - induction IH as [|x l Hx _ IH]; [exists false; cbn; split; [reflexivity|]; split; [discriminate|tauto]|]. destruct Hx as (bx & X1 & X2), IH as (bl & L1 & L2).
    cbn [map fold_right]. rewrite X1. cbn [bind]. destruct bx.
    + exists true. split; [reflexivity|]. tauto.
    + exists bl. split; [exact L1|]. rewrite L2. split; [tauto|]. intros [Q|Q]; [apply X2 in Q; discriminate|assumption].
  - destruct IH as (b & B1 & B2). rewrite B1. cbn [bind]. exists (negb b). split; [reflexivity|]. destruct b; cbn [negb]; split; try tauto; try discriminate.
    intros _ Q. apply B2 in Q. discriminate.
  - destruct (G a) as (ta & Ga & Va). rewrite Ga. cbn [bind]. eexists. split; [reflexivity|]. rewrite Va. cbn [party_in p_owner p_empty].
    rewrite andb_true_iff, mem_bytes_in, negb_true_iff, not_true_iff_false. tauto.
  - destruct (G a) as (ta & Ga & Va). rewrite Ga. cbn [bind]. eexists. split; [reflexivity|]. rewrite Va. cbn [party_in p_key]. apply mem_bytes_in.
  - exists true. tauto.
Qed.
Lemma parsed_eval al b c ctx v : constr_from_bytes al b = Ok c -> sees ctx v ->
  exists r rest x, reads b r rest /\ r = erase c /\ eval_constr c ctx = Ok x /\ (x = true <-> holds r v).
Proof.
  intros H S. destruct (eval_holds c _ _ S) as (x & X1 & X2). exists (erase c). eexists. exists x.
  split; [exact (from_bytes_reads _ _ _ H)|]. auto.
Qed.
Lemma built_eval f al rest ctx v : al mod 8 = 0 -> zlen (build f) <= u32_max -> sees ctx v ->
  exists c x, constr_from_bytes al (build f ++ rest) = Ok c /\ eval_constr c ctx = Ok x /\ (x = true <-> holds (wanted f) v).
Proof.
  intros Ha Hz S. destruct (build_round_trip f al rest Ha Hz) as (c & C1 & C2 & _). destruct (eval_holds c _ _ S) as (x & X1 & X2).
  exists c, x. rewrite <- C2. auto.
Qed.

(** Which payloads the validation hooks accept. *)
From Verif Require Import Base State Layout Constr Ext World Proc BaseL Spec SpecB SpecC SpecF WorldL LayoutL HeadL CreatorsL AuthL AuthM GroupL AllocM ValidL ConstrL ReadsL CodecL SpecE ExactL.
From Coq Require Import Strings.Byte.

(** ** Constraints *)
Lemma header_of ty body rest b : operator ty body rest b -> b = with_header ty body ++ rest /\ zlen body <= u32_max.
Proof. intros [H ->]. unfold with_header, u32_max. rewrite <- !app_assoc. split; [reflexivity|lia]. Qed.
Lemma parse_head_eq f al b ty body rest : operator ty body rest b -> 0 <= ty <= 5 -> al mod 4 = 0 ->
  parse_constr (S f) al b =
    (if ty =? 0 then cs <- parse_constrs f (al + 8) body ;; Ok (CAnd (zlen body) cs)
    else if ty =? 1 then c <- parse_constr f (al + 8) body ;; Ok (CNot (zlen body) c)
    else if ty =? 2 then cs <- parse_constrs f (al + 8) body ;; Ok (COr (zlen body) cs)
    else if ty =? 3 then q <- parse_keys (al + 8) body ;; Ok (COwnedBy (zlen body) (fst q) (snd q))
    else if ty =? 4 then q <- parse_keys (al + 8) body ;; Ok (CPubkeyMatch (zlen body) (fst q) (snd q))
    else Ok (CEmpty (zlen body))) /\ skipn (Z.to_nat (8 + zlen body)) b = rest.
Proof.
  intros Hop Ht Ha. destruct (header_of _ _ _ _ Hop) as [E Hp]. destruct (head_fields ty body rest Ht Hp) as (F1 & F2 & F3 & F4). rewrite E. split.
  - cbn [parse_constr]. unfold guard at 1 2.
    replace (8 <=? zlen (with_header ty body ++ rest)) with true by lia. replace (al mod 4 =? 0) with true by lia. cbv zeta. rewrite F2, F3. unfold guard.
    replace ((0 <=? ty) && (ty <=? 5)) with true by lia. rewrite F4. reflexivity.
  - rewrite <- with_header_len with (ty := ty). unfold zlen. rewrite Nat2Z.id, skipn_app, skipn_all, Nat.sub_diag. reflexivity.
Qed.
Lemma parse_keys_goes al who ks body : al mod 8 = 0 -> key_list who ks body -> exists a, parse_keys al body = Ok (a, ks) /\ cacct_code a = who.
Proof.
  intros Ha (Hw & F & ->). unfold parse_keys. set (X := concat ks).
  assert (E1 : firstn 8 (le_enc 8 who ++ X) = le_enc 8 who) by (rewrite firstn_app, le_enc_length, Nat.sub_diag, firstn_O, app_nil_r; apply firstn_all2; rewrite le_enc_length; lia).
  assert (E2 : skipn 8 (le_enc 8 who ++ X) = X) by (rewrite skipn_app, le_enc_length, skipn_all2, Nat.sub_diag by (rewrite le_enc_length; lia); reflexivity).
  rewrite E1, E2, zlen_app, le_enc_zlen. pose proof (zlen_nonneg X). unfold guard at 1 2. replace (8 <=? Z.of_nat 8 + zlen X) with true by lia. rewrite Ha. cbn [Z.eqb].
  assert (C : cast_keys X = Ok ks).
  { unfold cast_keys, zlen, X. rewrite concat_length by assumption. unfold guard. replace (Z.of_nat (32 * length ks) mod 32 =? 0) with true by lia. f_equal.
    rewrite Nat.mul_comm, Nat.div_mul by lia. now apply chunks_concat. }
  rewrite C. cbn [bind]. rewrite le_dec_enc8 by (unfold two64; lia).
  assert (who = 0 \/ who = 1 \/ who = 2) as [-> | [-> | ->]] by lia; cbn [Z.eqb Pos.eqb]; eexists; split; reflexivity.
Qed.
Scheme sits_mut := Induction for sits Sort Prop with sits_list_mut := Induction for sits_list Sort Prop.
Combined Scheme sits_both from sits_mut, sits_list_mut.
Lemma sits_parse : (forall al b r rest, sits al b r rest -> forall fuel, parse_constr fuel al b <> Diverge ->
    exists c, parse_constr fuel al b = Ok c /\ erase c = r /\ skipn (Z.to_nat (csize c)) b = rest) /\
  (forall al b l, sits_list al b l -> forall fuel, parse_constrs fuel al b <> Diverge ->
    exists cs, parse_constrs fuel al b = Ok cs /\ map erase cs = l).
Proof.
  apply sits_both.
  - intros al b body rest l Ha Hop _ IH fuel ND. destruct fuel as [|f]; [now elim ND|].
    destruct (parse_head_eq f al b 0 body rest Hop ltac:(lia) Ha) as [E Er]. rewrite E in *. cbn [Z.eqb] in *.
    destruct (IH f) as (cs & E1 & E2); [intro Q; rewrite Q in ND; now elim ND|]. rewrite E1. cbn [bind]. eexists. split; [reflexivity|]. cbn [erase csize op_size]. split; [now rewrite E2|exact Er].
  - intros al b body rest r junk Ha Hop _ IH fuel ND. destruct fuel as [|f]; [now elim ND|].
    destruct (parse_head_eq f al b 1 body rest Hop ltac:(lia) Ha) as [E Er]. rewrite E in *. cbn [Z.eqb Pos.eqb] in *.
    destruct (IH f) as (cs & E1 & E2 & _); [intro Q; rewrite Q in ND; now elim ND|]. rewrite E1. cbn [bind]. eexists. split; [reflexivity|]. cbn [erase csize op_size]. split; [now rewrite E2|exact Er].
  - intros al b body rest l Ha Hop _ IH fuel ND. destruct fuel as [|f]; [now elim ND|].
    destruct (parse_head_eq f al b 2 body rest Hop ltac:(lia) Ha) as [E Er]. rewrite E in *. cbn [Z.eqb Pos.eqb] in *.
    destruct (IH f) as (cs & E1 & E2); [intro Q; rewrite Q in ND; now elim ND|]. rewrite E1. cbn [bind]. eexists. split; [reflexivity|]. cbn [erase csize op_size]. split; [now rewrite E2|exact Er].
  - intros al b body rest who ks Ha Hop Hk fuel ND. destruct fuel as [|f]; [now elim ND|].
    destruct (parse_head_eq f al b 3 body rest Hop ltac:(lia) ltac:(lia)) as [E Er]. rewrite E. cbn [Z.eqb Pos.eqb].
    destruct (parse_keys_goes (al + 8) who ks body ltac:(lia) Hk) as (a & -> & Hc). cbn [bind fst snd]. eexists. split; [reflexivity|]. cbn [erase csize op_size]. split; [now rewrite Hc|exact Er].
  - intros al b body rest who ks Ha Hop Hk fuel ND. destruct fuel as [|f]; [now elim ND|].
    destruct (parse_head_eq f al b 4 body rest Hop ltac:(lia) ltac:(lia)) as [E Er]. rewrite E. cbn [Z.eqb Pos.eqb].
    destruct (parse_keys_goes (al + 8) who ks body ltac:(lia) Hk) as (a & -> & Hc). cbn [bind fst snd]. eexists. split; [reflexivity|]. cbn [erase csize op_size]. split; [now rewrite Hc|exact Er].
  - intros al b body rest Ha Hop fuel ND. destruct fuel as [|f]; [now elim ND|].
    destruct (parse_head_eq f al b 5 body rest Hop ltac:(lia) ltac:(lia)) as [E Er]. rewrite E. cbn [Z.eqb Pos.eqb]. eexists. split; [reflexivity|]. cbn [erase csize op_size]. split; [reflexivity|exact Er].
  - intros al fuel ND. destruct fuel as [|f]; [now elim ND|]. cbn [parse_constrs]. eexists. split; reflexivity.
  - intros al b r rest l Hs IH1 _ IH2 fuel ND. destruct fuel as [|f]; [now elim ND|]. cbn [parse_constrs] in *.
    destruct b as [|x b'] eqn:Eb.
    { exfalso. inversion Hs; match goal with H : operator _ _ _ [] |- _ => destruct H as [_ H]; discriminate H end. }
    rewrite <- Eb in *. destruct (IH1 f) as (c & E1 & E2 & E3); [intro Q; rewrite Q in ND; now elim ND|]. rewrite E1 in *. cbn [bind] in *. rewrite E3 in *.
    pose proof (parse_size _ _ _ _ E1) as Z1.
    assert (Ez : al + csize c = al + zlen b - zlen rest). { rewrite <- E3. unfold zlen. rewrite skipn_length. unfold zlen in Z1. lia. }
    rewrite Ez in *. destruct (IH2 f) as (cs & E4 & E5); [intro Q; rewrite Q in ND; now elim ND|]. rewrite E4. cbn [bind]. eexists. split; [reflexivity|]. cbn [map]. now rewrite E2, E5.
Qed.
Lemma parse_sits n : forall fuel, (fuel <= n)%nat ->
  (forall al b c, parse_constr fuel al b = Ok c -> sits al b (erase c) (skipn (Z.to_nat (csize c)) b)) /\
  (forall al b cs, parse_constrs fuel al b = Ok cs -> sits_list al b (map erase cs)).
Proof.
  induction n as [|n IH]; intros fuel Hf.
  { assert (fuel = 0%nat) as -> by lia. split; intros al b c H; discriminate H. }
  destruct fuel as [|f]; [split; intros al b c H; discriminate H|]. assert (Hf' : (f <= n)%nat) by lia. destruct (IH f Hf') as [IHc IHs]. split.
  - intros al b c H. cbn [parse_constr] in H. apply guard_ok in H as [H8 H]. apply guard_ok in H as [Ha H]. cbv zeta in H.
    apply guard_ok in H as [Hty H]. apply bind_ok in H as (body & Hb & H). assert (Ha4 : al mod 4 = 0) by lia.
    destruct (parse_head b _ _ body ltac:(lia) eq_refl eq_refl Hb) as [Hsz Hop].
    set (ty := le_dec (fld b 0 4)) in *. set (sz := le_dec (fld b 4 4)) in *.
    assert (K8 : forall p, parse_keys (al + 8) body = Ok p -> al mod 8 = 0).
    { intros p Hp. unfold parse_keys in Hp. apply guard_ok in Hp as [_ Hp]. apply guard_ok in Hp as [Hp _]. lia. }
    destruct (ty =? 0) eqn:T0.
    { apply bind_ok in H as (cs & Hc & H). apply Ok_inj in H. subst c. cbn [erase csize op_size]. apply Z.eqb_eq in T0. rewrite T0 in Hop.
      eapply sits_all; [exact Ha4|exact Hop|]. eapply IHs; eauto. }
    destruct (ty =? 1) eqn:T1.
    { apply bind_ok in H as (c0 & Hc & H). apply Ok_inj in H. subst c. cbn [erase csize op_size]. apply Z.eqb_eq in T1. rewrite T1 in Hop.
      eapply sits_neg; [exact Ha4|exact Hop|]. eapply IHc; eauto. }
    destruct (ty =? 2) eqn:T2.
    { apply bind_ok in H as (cs & Hc & H). apply Ok_inj in H. subst c. cbn [erase csize op_size]. apply Z.eqb_eq in T2. rewrite T2 in Hop.
      eapply sits_any; [exact Ha4|exact Hop|]. eapply IHs; eauto. }
    destruct (ty =? 3) eqn:T3.
    { apply bind_ok in H as ([a ks] & Hc & H). apply Ok_inj in H. subst c. cbn [erase csize op_size fst snd]. apply Z.eqb_eq in T3. rewrite T3 in Hop.
      eapply sits_owner; [eapply K8; eauto|exact Hop|]. eapply parse_keys_ok; eauto. }
    destruct (ty =? 4) eqn:T4.
    { apply bind_ok in H as ([a ks] & Hc & H). apply Ok_inj in H. subst c. cbn [erase csize op_size fst snd]. apply Z.eqb_eq in T4. rewrite T4 in Hop.
      eapply sits_key; [eapply K8; eauto|exact Hop|]. eapply parse_keys_ok; eauto. }
    apply Ok_inj in H. subst c. cbn [erase csize op_size]. replace ty with 5 in Hop by lia. eapply sits_true; [exact Ha4|exact Hop].
  - intros al b cs H. cbn [parse_constrs] in H. destruct b as [|x b']; [apply Ok_inj in H; subst cs; constructor|].
    apply bind_ok in H as (c & Hc & H). apply bind_ok in H as (cs' & Hcs & H). apply Ok_inj in H. subst cs. cbn [map].
    econstructor; [eapply IHc; exact Hc|]. apply IHs in Hcs. pose proof (parse_size _ _ _ _ Hc) as Z1.
    replace (al + zlen (x :: b') - zlen (skipn (Z.to_nat (csize c)) (x :: b'))) with (al + csize c); [exact Hcs|].
    unfold zlen. rewrite skipn_length. unfold zlen in Z1. lia.
Qed.
Lemma constr_goes al b : goes (constr_from_bytes al b) <-> exists r rest, sits al b r rest.
Proof.
  split.
  - intros [c H]. unfold constr_from_bytes in H. apply (parse_sits (constr_fuel b) (constr_fuel b) (le_n _)) in H. eauto.
  - intros (r & rest & H). destruct (proj1 sits_parse _ _ _ _ H (constr_fuel b) (from_bytes_total al b)) as (c & E & _). now exists c.
Qed.
Lemma mod_shift a b k m : 0 < k -> 0 < m -> k mod m = 0 -> a mod k = b mod k -> a mod m = b mod m.
Proof.
  intros Hk Hm Hd H. apply Z.mod_divide in Hd; [|lia]. destruct Hd as [q Hq].
  rewrite (Z.div_mod a k), (Z.div_mod b k) by lia. rewrite H. rewrite Hq.
  replace (q * m * (a / (q * m)) + b mod (q * m)) with (b mod (q * m) + (q * (a / (q * m))) * m) by lia.
  replace (q * m * (b / (q * m)) + b mod (q * m)) with (b mod (q * m) + (q * (b / (q * m))) * m) by lia.
  now rewrite !Z.mod_add by lia.
Qed.
Lemma sits_shift : (forall al b r rest, sits al b r rest -> forall al', al mod 8 = al' mod 8 -> sits al' b r rest) /\
  (forall al b l, sits_list al b l -> forall al', al mod 8 = al' mod 8 -> sits_list al' b l).
Proof.
  assert (M4 : forall a b, a mod 8 = b mod 8 -> a mod 4 = b mod 4) by (intros; apply (mod_shift _ _ 8); auto; lia).
  apply sits_both; intros.
  - eapply sits_all; [|eassumption|]; [rewrite <- (M4 al al') by assumption; assumption|]. match goal with H : forall _, _ -> sits_list _ _ _ |- _ => apply H end. lia.
  - eapply sits_neg; [|eassumption|]; [rewrite <- (M4 al al') by assumption; assumption|]. match goal with H : forall _, _ -> sits _ _ _ _ |- _ => apply H end. lia.
  - eapply sits_any; [|eassumption|]; [rewrite <- (M4 al al') by assumption; assumption|]. match goal with H : forall _, _ -> sits_list _ _ _ |- _ => apply H end. lia.
  - eapply sits_owner; [congruence|eassumption|assumption].
  - eapply sits_key; [congruence|eassumption|assumption].
  - eapply sits_true; [rewrite <- (M4 al al') by assumption; assumption|eassumption].
  - constructor.
  - econstructor; [eauto|]. match goal with H : forall _, _ -> sits_list _ _ _ |- _ => apply H end. lia.
Qed.

(** ** Strings *)
Lemma pstring_enc s b : pstring s b <-> short s /\ b = enc_pstr s.
Proof. reflexivity. Qed.
Lemma pairs_goes b : goes (parse_pairs (S (length b)) b) <-> pairs_in b.
Proof.
  split.
  - intros [l H]. apply parse_pairs_exact in H as [F <-]. induction F as [|[n v] l [Hn Hv] F IH]; [constructor|].
    unfold build_pairs. cbn [map concat fst snd]. rewrite <- app_assoc. econstructor; [now apply pstring_enc| now apply pstring_enc|exact IH].
  - intro H. assert (exists l, Forall short_pair l /\ build_pairs l = b) as (l & F & <-).
    { induction H as [|n v bn bv r Hn Hv _ (l & F & <-)]; [exists []; split; [constructor|reflexivity]|].
      destruct (proj1 (pstring_enc _ _) Hn) as [Sn ->]. destruct (proj1 (pstring_enc _ _) Hv) as [Sv ->].
      exists ((n, v) :: l). split; [constructor; [split; assumption|assumption]|]. unfold build_pairs. cbn [map concat fst snd]. now rewrite <- app_assoc. }
    eexists. apply parse_pairs_build; [assumption|lia].
Qed.
Lemma value_goes b : (exists v, parse_prop_val b = Ok v) <-> exists bv r, value_in bv /\ b = bv ++ r.
Proof.
  split.
  - intros [v H]. apply parse_val_ok in H as (_ & _ & E & Hv). eexists _, _. split; [|exact E].
    destruct v; [constructor 1 with s; now apply pstring_enc|constructor 2; unfold zlen in Hv; lia|constructor].
  - intros (bv & r & H & ->). destruct H as [s b H|b H|y].
    + destruct (proj1 (pstring_enc _ _) H) as [Ss ->]. cbn [app parse_prop_val]. change (b2z x00 =? 0) with true. cbv iota. rewrite pstr_enc by assumption. cbn [bind]. eauto.
    + cbn [app parse_prop_val]. change (b2z x01 =? 0) with false. change (b2z x01 =? 1) with true. cbv iota. unfold guard, zlen. rewrite app_length.
      replace (8 <=? Z.of_nat (length b + length r)) with true by lia. eauto.
    + cbn. eauto.
Qed.
Lemma props_goes_in fuel : forall b, goes (parse_props fuel b) -> props_in b.
Proof.
  induction fuel as [|fuel IH]; intros b [l H]; [discriminate H|]. cbn [parse_props] in H.
  destruct b as [|x b0]; [constructor|]. set (b := x :: b0) in *. apply bind_ok in H as (n & Hn & H). apply bind_ok in H as (v & Hv & H). apply bind_ok in H as (r & Hr & H).
  apply pstr_ok in Hn as [Sn En]. apply parse_val_ok in Hv as (L1 & L2 & Ev & Sv).
  assert (D : drop (pstr_size n + prop_val_size v) b = drop (prop_val_size v) (drop (pstr_size n) b)).
  { unfold drop. rewrite skipn_skipn. f_equal. unfold pstr_size. pose proof (zlen_nonneg n). lia. }
  rewrite D in Hr. rewrite En, Ev. econstructor; [now apply pstring_enc| |apply IH; eexists; exact Hr].
  destruct v; [constructor 1 with s; now apply pstring_enc|constructor 2; unfold zlen in Sv; lia|constructor].
Qed.
Lemma props_in_goes b : props_in b -> forall fuel, (length b < fuel)%nat -> goes (parse_props fuel b).
Proof.
  induction 1 as [|n bn bv r Hn Hv _ IH]; intros fuel F; (destruct fuel as [|fuel]; [lia|]); [now eexists|].
  destruct (proj1 (pstring_enc _ _) Hn) as [Sn ->]. rewrite !app_length in F. cbn [enc_pstr length] in F.
  cbn [parse_props]. unfold enc_pstr at 1. cbn [app]. change (z2b (zlen n) :: n ++ bv ++ r) with (enc_pstr n ++ bv ++ r).
  rewrite pstr_enc by assumption. cbn [bind]. rewrite (drop_app (enc_pstr n)) by now rewrite enc_pstr_size.
  destruct (proj2 (value_goes (bv ++ r))) as [v Ev]; [exists bv, r; auto|]. rewrite Ev. cbn [bind].
  assert (S : prop_val_size v = zlen bv).
  { destruct Hv as [s b H|b H|y].
    - destruct (proj1 (pstring_enc _ _) H) as [Ss ->]. cbn [app parse_prop_val] in Ev. change (b2z x00 =? 0) with true in Ev. cbv iota in Ev. rewrite pstr_enc in Ev by assumption.
      cbn [bind] in Ev. apply Ok_inj in Ev. subst v. cbn [prop_val_size]. now rewrite zlen_cons, enc_pstr_size.
    - cbn [app parse_prop_val] in Ev. change (b2z x01 =? 0) with false in Ev. change (b2z x01 =? 1) with true in Ev. cbv iota in Ev. apply guard_ok in Ev as [_ Ev]. apply Ok_inj in Ev. subst v.
      cbn [prop_val_size]. rewrite zlen_cons. unfold zlen. rewrite firstn_length, app_length. lia.
    - cbn in Ev. apply Ok_inj in Ev. subst v. reflexivity. }
  rewrite app_assoc, (drop_app (enc_pstr n ++ bv)) by (rewrite zlen_app, enc_pstr_size; lia).
  destruct (IH fuel) as [l El]; [lia|]. rewrite El. now eexists.
Qed.
Lemma props_goes b : goes (properties_from_bytes b) <-> props_in b.
Proof. split; [apply props_goes_in|]. intro H. apply props_in_goes; [assumption|lia]. Qed.
Lemma blob_goes b : goes (blob_from_bytes b) <-> blob_in b.
Proof.
  split.
  - intros [p H]. apply blob_exact in H as (S1 & <- & _). exists (fst p), (enc_pstr (fst p)), (snd p). split; [now apply pstring_enc|reflexivity].
  - intros (s & bs & dat & H & ->). destruct (proj1 (pstring_enc _ _) H) as [Ss ->]. eexists. apply blob_round. assumption.
Qed.
Lemma metadata_goes b : goes (metadata_from_bytes b) <-> metadata_in b.
Proof.
  split.
  - intros [p H]. unfold metadata_from_bytes in H. apply bind_ok in H as (s & Hs & H). apply bind_ok in H as (d & Hd & H). apply bind_ok in H as (u & Hu & H).
    apply pstr_ok in Hs as [Ss Es]. apply pstr_ok in Hd as [Sd Ed]. apply pstr_ok in Hu as [Su Eu].
    exists s, d, u, (enc_pstr s), (enc_pstr d), (enc_pstr u), (drop (pstr_size u) (drop (pstr_size d) (drop (pstr_size s) b))).
    split; [now apply pstring_enc|]. split; [now apply pstring_enc|]. split; [now apply pstring_enc|]. split; [now rewrite <- Eu, <- Ed, <- Es|].
    destruct (drop (pstr_size u) _) as [|x r]; [now left|right]. apply bind_ok in H as (i & Hi & H). apply pstr_ok in Hi as [Si Ei].
    exists i, (enc_pstr i). eexists. split; [now apply pstring_enc|exact Ei].
  - intros (s & d & u & bs & bd & bu & rest & Hs & Hd & Hu & -> & Hr).
    destruct (proj1 (pstring_enc _ _) Hs) as [Ss ->]. destruct (proj1 (pstring_enc _ _) Hd) as [Sd ->]. destruct (proj1 (pstring_enc _ _) Hu) as [Su ->].
    unfold metadata_from_bytes. rewrite pstr_enc by assumption. cbn [bind]. rewrite drop_app by now rewrite enc_pstr_size.
    rewrite pstr_enc by assumption. cbn [bind]. rewrite drop_app by now rewrite enc_pstr_size.
    rewrite pstr_enc by assumption. cbn [bind]. rewrite drop_app by now rewrite enc_pstr_size.
    destruct Hr as [->|(i & bi & junk & Hi & ->)]; [now eexists|]. destruct (proj1 (pstring_enc _ _) Hi) as [Si ->].
    unfold enc_pstr at 1. cbn [app]. change (z2b (zlen i) :: i ++ junk) with (enc_pstr i ++ junk). rewrite pstr_enc by assumption. now eexists.
Qed.

(** ** The other types *)
Lemma creators_goes b : goes (creators_from_bytes b) <-> length b = (34 * cr_count b)%nat.
Proof.
  split.
  - intros [l H]. now apply from_bytes_ok in H as (H & _).
  - intro H. unfold creators_from_bytes. rewrite goes_guard. split; [|apply goes_ok]. unfold zlen. rewrite H. lia.
Qed.
Lemma grouping_goes al b : al mod 8 = 0 -> goes (grouping_from_bytes al b) <-> (16 <= length b <= 48)%nat.
Proof.
  intro Ha. unfold grouping_from_bytes. rewrite !goes_guard. unfold zlen. rewrite skipn_length. split.
  - intros (H1 & _ & H2 & _). lia.
  - intro H. split; [lia|]. split; [lia|]. split; [lia|apply goes_ok].
Qed.
Lemma royalties_goes al b : al mod 8 = 0 -> goes (royalties_from_bytes al b) <-> parses XRoyalties b.
Proof.
  intro Ha. unfold royalties_from_bytes. rewrite !goes_guard. rewrite goes_bind. cbn [parses]. split.
  - intros (H1 & _ & c & Hc & _). split; [unfold zlen in H1; lia|]. destruct (proj1 (constr_goes (al + 8) (skipn 8 b))) as (r & rest & H); [now exists c|].
    exists r, rest. eapply (proj1 sits_shift); [exact H|lia].
  - intros (H1 & r & rest & H). split; [unfold zlen; lia|]. split; [lia|].
    destruct (proj2 (constr_goes (al + 8) (skipn 8 b))) as [c Hc]; [exists r, rest; eapply (proj1 sits_shift); [exact H|lia]|].
    exists c. split; [assumption|apply goes_ok].
Qed.
Lemma manager_goes b : goes (manager_from_bytes b) <-> (33 <= length b)%nat.
Proof.
  unfold manager_from_bytes, load_delegate. rewrite goes_guard. split.
  - intros [H _]. unfold zlen in H. lia.
  - intro H. split; [unfold zlen; lia|apply goes_ok].
Qed.
Lemma proxy_goes b : goes (proxy_from_bytes b) <-> length b = 97%nat.
Proof.
  unfold proxy_from_bytes. rewrite goes_guard. split.
  - intros [H _]. unfold zlen in H. lia.
  - intro H. split; [unfold zlen; lia|apply goes_ok].
Qed.
Lemma goes_then {A B} (m : res A) (b : B) : goes (x <- m ;; Ok b) <-> goes m.
Proof. rewrite goes_bind. split; [intros (x & H & _); now exists x|intros [x H]; exists x; split; [assumption|apply goes_ok]]. Qed.
Lemma goes_map {A B} (m : res A) (f : A -> B) : goes (x <- m ;; Ok (f x)) <-> goes m.
Proof. rewrite goes_bind. split; [intros (x & H & _); now exists x|intros [x H]; exists x; split; [assumption|apply goes_ok]]. Qed.
Lemma goes_both {A B C} (m1 : res A) (m2 : res B) (c : C) : goes (x <- m1 ;; y <- m2 ;; Ok c) <-> goes m1 /\ goes m2.
Proof.
  rewrite goes_bind. split; [intros (x & H & H2); split; [now exists x|now apply goes_then in H2]|].
  intros [[x H] H2]. exists x. split; [assumption|]. now apply goes_then.
Qed.
Lemma goes_if {A} (c : bool) er (x : A) : goes (if c then Err er else Ok x) <-> c = false.
Proof. destruct c; split; intro H; try discriminate; try reflexivity; [elim (goes_err _ H)|apply goes_ok]. Qed.

Lemma share_reflag f l : share_total (map (fun c => mkCreator (cr_addr c) (f c) (cr_share c)) l) = share_total l.
Proof.
  unfold share_total. generalize 0. induction l as [|c l IH]; intro z; [reflexivity|]. cbn [map fold_left cr_share]. apply IH.
Qed.
Lemma on_create_goes t al auth b : al mod 8 = 0 -> goes (on_create t al auth b) <-> acceptable t b.
Proof.
  intro Ha. unfold acceptable. destruct t; cbn [on_create].
  - split; [intros _; repeat split; discriminate|intros _; apply goes_ok].
  - rewrite goes_then. unfold attributes_from_bytes. rewrite pairs_goes. split; [intro H; repeat split; try discriminate; exact H|intros [H _]; exact H].
  - rewrite goes_then, blob_goes. split; [intro H; repeat split; try discriminate; exact H|intros [H _]; exact H].
  - split.
    + intros [b' H]. apply bind_ok in H as (l & Hl & H). apply bind_ok in H as (l' & Hl' & H).
      unfold creators_on_create in Hl'. cbv zeta in Hl'.
      match type of Hl' with (if ?c then _ else _) = _ => destruct c eqn:E; [|discriminate Hl'] end.
      split; [now apply from_bytes_ok in Hl as (H0 & _)|]. split; [intros _|split; discriminate].
      rewrite <- (share_total_bytes _ _ Hl). apply Z.eqb_eq in E. rewrite <- E. symmetry. apply share_reflag.
    + intros (H1 & H2 & _). destruct (proj2 (creators_goes b) H1) as [l Hl]. rewrite goes_bind. exists l. split; [assumption|]. rewrite (goes_map _ enc_creators).
      unfold creators_on_create. cbv zeta. match goal with |- goes (if ?c then _ else _) => assert (c = true) as -> end; [|apply goes_ok].
      apply Z.eqb_eq. rewrite <- (H2 eq_refl), <- (share_total_bytes _ _ Hl). apply share_reflag.
  - rewrite goes_then. unfold links_from_bytes. rewrite pairs_goes. split; [intro H; repeat split; try discriminate; exact H|intros [H _]; exact H].
  - rewrite goes_then, metadata_goes. split; [intro H; repeat split; try discriminate; exact H|intros [H _]; exact H].
  - rewrite goes_bind. split.
    + intros (g & Hg & H). rewrite goes_if in H. destruct (grouping_ok _ _ _ Hg) as (Hb & -> & _). cbn [g_size] in H. pose proof (gr_size_range b).
      split; [exact Hb|]. split; [discriminate|]. split; [intros _; lia|discriminate].
    + intros (H1 & _ & H2 & _). destruct (proj2 (grouping_goes al b Ha) H1) as [g Hg]. exists g. split; [assumption|].
      destruct (grouping_ok _ _ _ Hg) as (Hb & -> & _). cbn [g_size]. rewrite (H2 eq_refl). apply goes_ok.
  - rewrite goes_bind. split.
    + intros (g & Hg & H). rewrite goes_if in H. destruct (royalties_ok _ _ _ Hg) as [_ Hf].
      split; [apply (royalties_goes al); [assumption|now exists g]|]. split; [discriminate|]. split; [discriminate|intros _; lia].
    + intros (H1 & _ & _ & H2). destruct (proj2 (royalties_goes al b Ha) H1) as [g Hg]. exists g. split; [assumption|].
      destruct (royalties_ok _ _ _ Hg) as [_ Hf]. rewrite goes_if. specialize (H2 eq_refl). lia.
  - rewrite goes_then, manager_goes. split; [intro H; repeat split; try discriminate; exact H|intros [H _]; exact H].
  - rewrite goes_then, proxy_goes. split; [intro H; repeat split; try discriminate; exact H|intros [H _]; exact H].
  - rewrite goes_then, props_goes. split; [intro H; repeat split; try discriminate; exact H|intros [H _]; exact H].
  - split; [intros _; repeat split; discriminate|intros _; apply goes_ok].
Qed.

Lemma check_kept_goes orig other : goes (check_kept orig other) <->
  forall c, In c orig -> cr_verified c <> x00 -> exists u, creators_get (cr_addr c) other = Some u /\ cr_verified u <> x00.
Proof.
  induction orig as [|o orig IH]; cbn [check_kept]; [split; [intros _ c []|intros _; apply goes_ok]|].
  destruct (pod_true (cr_verified o)) eqn:E.
  - apply ValidL.pod_true_spec in E. destruct (creators_get (cr_addr o) other) as [u|] eqn:Eu.
    + destruct (pod_true (cr_verified u)) eqn:E2.
      * apply ValidL.pod_true_spec in E2. rewrite IH. split; intros H c; [intros [<-|Hin] Hc; [now exists u|now apply H]|intros Hin; apply H; now right].
      * split; [intro H; elim (goes_err _ H)|]. intro H. destruct (H o (or_introl eq_refl) E) as (u' & Q & Hu). rewrite Eu in Q. apply some_inj in Q. subst u'. apply ValidL.pod_true_spec in Hu. congruence.
    + split; [intro H; elim (goes_err _ H)|]. intro H. destruct (H o (or_introl eq_refl) E) as (u' & Q & Hu). congruence.
  - rewrite IH. split; intros H c; [intros [<-|Hin] Hc; [apply ValidL.pod_true_spec in Hc; congruence|now apply H]|intros Hin; apply H; now right].
Qed.
Lemma get_reflag f a l : creators_get a (map (fun c => mkCreator (cr_addr c) (f c) (cr_share c)) l) =
  option_map (fun c => mkCreator (cr_addr c) (f c) (cr_share c)) (creators_get a l).
Proof. unfold creators_get. now rewrite find_map. Qed.
Lemma get_in_dec a n b : (exists c, creators_get a (dec_creators n b) = Some c) <-> exists j, (j < n)%nat /\ cr_addr_at b j = a.
Proof.
  split.
  - intros [c H]. apply creators_get_in in H as [H1 H2]. apply dec_in in H1 as (j & Hj & ->). now exists j.
  - intros (j & Hj & Ha). destruct (creators_get a (dec_creators n b)) as [c|] eqn:E; [now exists c|]. exfalso. unfold creators_get in E.
    assert (Q : In (mkCreator (cr_addr_at b j) (cr_flag_at b j) (cr_share_at b j)) (dec_creators n b)) by (apply dec_in; now exists j).
    apply (find_none _ _ E) in Q. cbn [cr_addr] in Q. rewrite Ha, bytes_eqb_refl in Q. discriminate Q.
Qed.
Lemma creators_update_goes auth cur b c l : creators_from_bytes cur = Ok c -> creators_from_bytes b = Ok l ->
  goes (creators_on_update auth c l) <-> shares (cr_count b) b mod 256 = 100 /\
    forall i, (i < cr_count cur)%nat -> cr_flag_at cur i <> x00 ->
       (exists j, (j < cr_count b)%nat /\ cr_addr_at b j = cr_addr_at cur i) /\
       flag_of (cr_count cur) cur (cr_addr_at cur i) <> Some x00.
Proof.
  intros Hc Hl. unfold creators_on_update. cbv zeta. rewrite <- (share_total_bytes _ _ Hl).
  set (f := fun c0 : creator => match creators_get (cr_addr c0) c with Some o => cr_verified o | None => initial_verified auth (cr_addr c0) end).
  change (map _ l) with (map (fun c0 => mkCreator (cr_addr c0) (f c0) (cr_share c0)) l). rewrite share_reflag.
  destruct (share_total l =? 100) eqn:E; [apply Z.eqb_eq in E|apply Z.eqb_neq in E; split; [intro H; elim (goes_err _ H)|intros [H _]; contradiction]].
  rewrite goes_then, check_kept_goes. apply from_bytes_ok in Hc as (_ & Hc & _). apply from_bytes_ok in Hl as (_ & Hl & _).
  assert (K : forall i, (i < cr_count cur)%nat -> (exists u, creators_get (cr_addr_at cur i) (map (fun c0 => mkCreator (cr_addr c0) (f c0) (cr_share c0)) l) = Some u /\ cr_verified u <> x00) <->
     (exists j, (j < cr_count b)%nat /\ cr_addr_at b j = cr_addr_at cur i) /\ flag_of (cr_count cur) cur (cr_addr_at cur i) <> Some x00).
  { intros i Hi. rewrite get_reflag, <- get_in_dec, <- Hl, <- get_flag_of, <- Hc.
    destruct (proj2 (get_in_dec (cr_addr_at cur i) (cr_count cur) cur)) as [o Ho]; [now exists i|]. rewrite <- Hc in Ho. rewrite Ho. cbn [option_map].
    destruct (creators_get (cr_addr_at cur i) l) as [u|] eqn:Eu; cbn [option_map].
    - assert (Fu : f u = cr_verified o). { unfold f. apply creators_get_in in Eu as [_ ->]. now rewrite Ho. }
      split.
      + intros (u' & Q & H). apply some_inj in Q. subst u'. cbn [cr_verified] in H. split; [now exists u|]. rewrite <- Fu. intro Q. apply some_inj in Q. contradiction.
      + intros (_ & H). eexists. split; [reflexivity|]. cbn [cr_verified]. rewrite Fu. intro Q. apply H. now rewrite Q.
    - split; [intros (u' & Q & _); discriminate Q|intros ((u' & Q) & _); discriminate Q]. }
  split.
  - intro H. split; [assumption|]. intros i Hi Hf. apply K; [assumption|]. apply (H (mkCreator (cr_addr_at cur i) (cr_flag_at cur i) (cr_share_at cur i))); [|assumption].
    rewrite Hc. apply dec_in. now exists i.
  - intros [_ H] x Hx Hf. rewrite Hc in Hx. apply dec_in in Hx as (i & Hi & ->). cbn [cr_addr cr_verified] in *. apply K; [assumption|]. now apply H.
Qed.
Lemma sub65_inv (b cur : bytes) : sub b 0 65 = sub cur 0 65 -> sub b 0 32 = sub cur 0 32 /\ sub b 32 32 = sub cur 32 32 /\ nth 64 b x00 = nth 64 cur x00.
Proof.
  assert (E1 : forall b : bytes, sub b 0 32 = firstn 32 (sub b 0 65)) by (intro x; unfold sub; cbn [skipn]; now rewrite firstn_firstn).
  assert (E2 : forall b : bytes, sub b 32 32 = firstn 32 (skipn 32 (sub b 0 65))) by (intro x; unfold sub; rewrite skipn_firstn_comm, firstn_firstn; reflexivity).
  assert (E3 : forall b : bytes, nth 64 b x00 = nth 64 (sub b 0 65) x00).
  { intro x. unfold sub. cbn [skipn]. destruct (Nat.ltb_spec 64 (length x)).
    - rewrite <- (firstn_skipn 65 x) at 1. rewrite app_nth1; [reflexivity|]. rewrite firstn_length. lia.
    - rewrite !nth_overflow; [reflexivity| |lia]. rewrite firstn_length. lia. }
  intro H. rewrite (E1 b), (E1 cur), (E2 b), (E2 cur), (E3 b), (E3 cur), H. auto.
Qed.
Lemma on_update_goes t al1 cur al b auth : al1 mod 8 = 0 -> al mod 8 = 0 -> goes (on_update t al1 cur al b auth) <-> replaceable t cur b.
Proof.
  intros Ha1 Ha. unfold replaceable.
  destruct t; cbn [on_update].
  - split; [intros _; split; [now left|]; split; [exact I|]; split; [discriminate|split; [discriminate|split; discriminate]]|intros _; apply goes_ok].
  - rewrite goes_both. unfold attributes_from_bytes. rewrite !pairs_goes. cbn [parses].
    split; [intros [H1 H2]; split; [right; right; exact H1|]; split; [exact H2|]; split; [discriminate|split; [discriminate|split; discriminate]]|intros ([H|[H|H]] & H2 & _); try discriminate H; auto].
  - rewrite goes_both, !blob_goes. cbn [parses].
    split; [intros [H1 H2]; split; [right; right; exact H1|]; split; [exact H2|]; split; [discriminate|split; [discriminate|split; discriminate]]|intros ([H|[H|H]] & H2 & _); try discriminate H; auto].
  - split.
    + intros [b' H]. apply bind_ok in H as (c & Hc & H). apply bind_ok in H as (l & Hl & H). apply bind_ok in H as (l' & Hl' & H).
      split; [right; right; apply creators_goes; now exists c|]. split; [apply creators_goes; now exists l|]. split; [|split; [discriminate|split; discriminate]].
      intros _. apply (creators_update_goes auth _ _ _ _ Hc Hl). now exists l'.
    + intros ([H|[H|H]] & H2 & H3 & _); try discriminate H. apply creators_goes in H as [c Hc]. apply creators_goes in H2 as [l Hl].
      rewrite Hc, Hl. cbn [bind]. rewrite (goes_map _ enc_creators). apply (creators_update_goes auth _ _ _ _ Hc Hl). auto.
  - rewrite goes_both. unfold links_from_bytes. rewrite !pairs_goes. cbn [parses].
    split; [intros [H1 H2]; split; [right; right; exact H1|]; split; [exact H2|]; split; [discriminate|split; [discriminate|split; discriminate]]|intros ([H|[H|H]] & H2 & _); try discriminate H; auto].
  - rewrite goes_both, !metadata_goes. cbn [parses].
    split; [intros [H1 H2]; split; [right; right; exact H1|]; split; [exact H2|]; split; [discriminate|split; [discriminate|split; discriminate]]|intros ([H|[H|H]] & H2 & _); try discriminate H; auto].
  - split.
    + intros [b' H]. apply bind_ok in H as (c & Hc & H). apply bind_ok in H as (g & Hg & H).
      split; [right; right; apply (grouping_goes al1); [assumption|now exists c]|]. split; [apply (grouping_goes al); [assumption|now exists g]|].
      split; [discriminate|]. split; [intros _|split; discriminate].
      apply grouping_ok in Hc as (_ & -> & _). apply grouping_ok in Hg as (_ & -> & _). cbn [g_max g_size] in H.
      match type of H with (if ?c then _ else _) = _ => destruct c eqn:E; [discriminate H|] end. apply andb_false_iff in E as [E|E]; [left|right]; lia.
    + intros ([H|[H|H]] & H2 & _ & H3 & _); try discriminate H. apply (grouping_goes al1) in H as [c Hc]; [|assumption]. apply (grouping_goes al) in H2 as [g Hg]; [|assumption].
      rewrite Hc, Hg. cbn [bind]. apply grouping_ok in Hc as (_ & -> & _). apply grouping_ok in Hg as (_ & -> & _). cbn [g_max g_size]. rewrite goes_if.
      destruct (H3 eq_refl) as [Q|Q]; [rewrite Q; reflexivity|]. apply andb_false_iff. right. lia.
  - split.
    + intros [b' H]. apply bind_ok in H as (c & Hc & H). apply bind_ok in H as (g & Hg & H).
      split; [right; right; apply (royalties_goes al1); [assumption|now exists c]|]. split; [apply (royalties_goes al); [assumption|now exists g]|].
      split; [discriminate|]. split; [discriminate|]. split; [|discriminate]. intros _. apply royalties_ok in Hg as [_ Hf].
      destruct (10000 <? fst g) eqn:E; [discriminate H|]. lia.
    + intros ([H|[H|H]] & H2 & _ & _ & H3 & _); try discriminate H. apply (royalties_goes al1) in H as [c Hc]; [|assumption]. apply (royalties_goes al) in H2 as [g Hg]; [|assumption].
      rewrite Hc, Hg. cbn [bind]. apply royalties_ok in Hg as [_ Hf]. rewrite goes_if. specialize (H3 eq_refl). lia.
  - rewrite goes_both, !manager_goes. cbn [parses].
    split; [intros [H1 H2]; split; [right; right; exact H1|]; split; [exact H2|]; split; [discriminate|split; [discriminate|split; discriminate]]|intros ([H|[H|H]] & H2 & _); try discriminate H; auto].
  - split.
    + intros [b' H]. apply bind_ok in H as (c & Hc & H). apply bind_ok in H as (g & Hg & H).
      pose proof (proxy_len _ _ Hc) as [Lc ->]. pose proof (proxy_len _ _ Hg) as [Lb ->]. cbn [p_program p_seeds p_bump] in H.
      match type of H with (if ?c then _ else _) = _ => destruct c eqn:E; [discriminate H|] end.
      apply orb_false_iff in E as [E E3]. apply orb_false_iff in E as [E1 E2].
      apply negb_false_iff in E1, E2, E3. apply bytes_eqb_eq in E1, E2. apply beqb_eq in E3.
      split; [right; right; exact Lc|]. split; [exact Lb|]. split; [discriminate|]. split; [discriminate|]. split; [discriminate|]. intros _. apply sub65; auto.
    + intros ([H|[H|H]] & H2 & _ & _ & _ & H3); try discriminate H. apply proxy_goes in H as [c Hc]. apply proxy_goes in H2 as [g Hg].
      rewrite Hc, Hg. cbn [bind]. pose proof (proxy_len _ _ Hc) as [Lc ->]. pose proof (proxy_len _ _ Hg) as [Lb ->]. cbn [p_program p_seeds p_bump].
      destruct (sub65_inv _ _ (H3 eq_refl)) as (Q1 & Q2 & Q3). rewrite Q1, Q2, Q3, !bytes_eqb_refl, beqb_refl. apply goes_ok.
  - rewrite goes_both, !props_goes. cbn [parses].
    split; [intros [H1 H2]; split; [right; right; exact H1|]; split; [exact H2|]; split; [discriminate|split; [discriminate|split; discriminate]]|intros ([H|[H|H]] & H2 & _); try discriminate H; auto].
  - split; [intros _; split; [right; now left|]; split; [exact I|]; split; [discriminate|split; [discriminate|split; discriminate]]|intros _; apply goes_ok].
Qed.

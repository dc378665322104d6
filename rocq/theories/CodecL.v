(** What the extension builders write parses back. *)
From Verif Require Import Base State Layout Constr Ext ExtLen World Proc BaseL Spec SpecC WorldL LayoutL HeadL CreatorsL ConstrL.
From Coq Require Import Strings.Byte.

Definition short (s : bytes) : Prop := zlen s <= 255.

(** ** Strings *)
Lemma drop_app a b n : n = zlen a -> drop n (a ++ b) = b.
Proof.
  intros ->. unfold drop, zlen. rewrite Nat2Z.id, skipn_app, skipn_all, Nat.sub_diag. reflexivity.
Qed.
Lemma fld_head A B n : n = zlen A -> fld (A ++ B) 0 n = A.
Proof. intro H. exact (fld_mid [] A B 0 n eq_refl H). Qed.
Lemma enc_pstr_size s : zlen (enc_pstr s) = pstr_size s.
Proof. unfold enc_pstr, pstr_size. now rewrite zlen_cons. Qed.
Lemma pstr_enc s rest : short s -> pstr (enc_pstr s ++ rest) = Ok s.
Proof.
  intro H. unfold enc_pstr, pstr. cbn [app]. pose proof (zlen_nonneg s). unfold short in H.
  rewrite b2z_z2b, Z.mod_small by lia. rewrite zlen_app. pose proof (zlen_nonneg rest).
  unfold guard. replace (zlen s <=? zlen s + zlen rest) with true by lia. f_equal.
  unfold zlen. rewrite Nat2Z.id, firstn_app, firstn_all, Nat.sub_diag. cbn [firstn]. apply app_nil_r.
Qed.
Lemma pstr_ok b s : pstr b = Ok s -> short s /\ b = enc_pstr s ++ drop (pstr_size s) b.
Proof.
  unfold pstr. destruct b as [|n r]; [discriminate|]. intro H. apply guard_ok in H as [H1 H2]. apply Ok_inj in H2. subst s.
  pose proof (b2z_range n). assert (L : zlen (firstn (Z.to_nat (b2z n)) r) = b2z n) by (unfold zlen in *; rewrite firstn_length; lia).
  split; [unfold short; lia|]. unfold enc_pstr, pstr_size, drop. rewrite L, z2b_b2z. cbn [app].
  replace (Z.to_nat (1 + b2z n)) with (S (Z.to_nat (b2z n))) by lia. cbn [skipn]. now rewrite firstn_skipn.
Qed.

(** ** Attributes and Links *)
Definition short_pair (p : bytes * bytes) : Prop := short (fst p) /\ short (snd p).
Lemma parse_pairs_build l : Forall short_pair l -> forall fuel, (length (build_pairs l) < fuel)%nat -> parse_pairs fuel (build_pairs l) = Ok l.
Proof.
  induction 1 as [|[n v] l [Hn Hv] Hl IH]; intros fuel F; (destruct fuel as [|fuel]; [lia|]); [reflexivity|].
  cbn [fst snd] in Hn, Hv. unfold build_pairs in *. cbn [map concat fst snd] in *. rewrite <- app_assoc in *.
  set (R := concat (map (fun p : bytes * bytes => enc_pstr (fst p) ++ enc_pstr (snd p)) l)) in *.
  cbn [parse_pairs]. unfold enc_pstr at 1. cbn [app]. change (z2b (zlen n) :: n ++ enc_pstr v ++ R) with (enc_pstr n ++ enc_pstr v ++ R).
  rewrite pstr_enc by assumption. cbn [bind].
  rewrite (drop_app (enc_pstr n)) by now rewrite enc_pstr_size. rewrite pstr_enc by assumption. cbn [bind].
  rewrite app_assoc, (drop_app (enc_pstr n ++ enc_pstr v)) by (rewrite zlen_app, !enc_pstr_size; reflexivity).
  rewrite IH; [reflexivity|]. rewrite !app_length in F. cbn [enc_pstr length] in F. lia.
Qed.
Lemma pairs_length_build l : pairs_length l = zlen (build_pairs l).
Proof.
  unfold pairs_length, build_pairs. induction l as [|[n v] l IH]; [reflexivity|]. cbn [map concat sumz fold_right fst snd].
  rewrite !zlen_app, !enc_pstr_size. unfold sumz in IH. rewrite IH. reflexivity.
Qed.
Lemma parse_pairs_exact fuel : forall b l, parse_pairs fuel b = Ok l -> Forall short_pair l /\ build_pairs l = b.
Proof.
  induction fuel as [|fuel IH]; intros b l H; [discriminate|]. cbn [parse_pairs] in H.
  destruct b as [|x b]; [apply Ok_inj in H; subst; split; [constructor|reflexivity]|].
  set (B := x :: b) in *. apply bind_ok in H as (n & Hn & H). apply bind_ok in H as (v & Hv & H). apply bind_ok in H as (r & Hr & H).
  apply Ok_inj in H. subst l. apply pstr_ok in Hn as [Sn En]. apply pstr_ok in Hv as [Sv Ev].
  apply IH in Hr as [Fr Er]. split; [constructor; [split; assumption|assumption]|].
  unfold build_pairs in *. cbn [map concat fst snd]. rewrite Er, <- app_assoc.
  replace (drop (pstr_size n + pstr_size v) B) with (drop (pstr_size v) (drop (pstr_size n) B)).
  - rewrite <- Ev. symmetry. exact En.
  - unfold drop. rewrite skipn_skipn. f_equal. unfold pstr_size. pose proof (zlen_nonneg n). pose proof (zlen_nonneg v). lia.
Qed.
Lemma pairs_round l : Forall short_pair l -> parse_pairs (S (length (build_pairs l))) (build_pairs l) = Ok l /\ pairs_length l = zlen (build_pairs l).
Proof. intro H. split; [apply parse_pairs_build; [assumption|lia]|apply pairs_length_build]. Qed.
Lemma pairs_exact b l : parse_pairs (S (length b)) b = Ok l -> Forall short_pair l /\ build_pairs l = b /\ pairs_length l = zlen b.
Proof. intro H. apply parse_pairs_exact in H as [H1 H2]. rewrite pairs_length_build, H2. auto. Qed.
Lemma pairs_total fuel : forall b, (length b < fuel)%nat -> parse_pairs fuel b = Panic \/ exists l, parse_pairs fuel b = Ok l.
Proof.
  assert (P : forall b, pstr b = Panic \/ exists s, pstr b = Ok s).
  { intro b. unfold pstr, guard. destruct b; [auto|]. destruct (_ <=? _); eauto. }
  induction fuel as [|fuel IH]; intros b F; [lia|]. cbn [parse_pairs]. destruct b as [|x b]; [eauto|]. set (B := x :: b) in *.
  destruct (P B) as [Q|[n Q]]; rewrite Q; cbn [bind]; [auto|].
  destruct (P (drop (pstr_size n) B)) as [Q2|[v Q2]]; rewrite Q2; cbn [bind]; [auto|].
  destruct (IH (drop (pstr_size n + pstr_size v) B)) as [Q3|[r Q3]].
  - unfold drop. rewrite skipn_length. unfold pstr_size. pose proof (zlen_nonneg n). pose proof (zlen_nonneg v). subst B. cbn [length] in *. lia.
  - rewrite Q3. auto.
  - rewrite Q3. cbn [bind]. eauto.
Qed.

(** ** Blob, Metadata *)
Lemma blob_round ct dat : short ct -> blob_from_bytes (build_blob ct dat) = Ok (ct, dat) /\ blob_length (ct, dat) = zlen (build_blob ct dat).
Proof.
  intro H. unfold blob_from_bytes, build_blob. rewrite pstr_enc by assumption. cbn [bind].
  rewrite drop_app by now rewrite enc_pstr_size. split; [reflexivity|].
  unfold blob_length. cbn [fst snd]. now rewrite zlen_app, enc_pstr_size.
Qed.
Lemma blob_exact b p : blob_from_bytes b = Ok p -> short (fst p) /\ build_blob (fst p) (snd p) = b /\ blob_length p = zlen b.
Proof.
  unfold blob_from_bytes. intro H. apply bind_ok in H as (s & Hs & H). apply Ok_inj in H. subst p. cbn [fst snd].
  apply pstr_ok in Hs as [S1 E]. split; [assumption|]. unfold build_blob. split; [now rewrite <- E|].
  unfold blob_length. cbn [fst snd]. rewrite E at 2. now rewrite zlen_app, enc_pstr_size.
Qed.
Definition text_of (o : option bytes) : bytes := match o with Some s => s | None => [] end.
Lemma opt_pstr_enc o : opt_pstr o = enc_pstr (text_of o).
Proof. now destruct o. Qed.
Lemma metadata_round s d u i : short (text_of s) -> short (text_of d) -> short (text_of u) -> short (text_of i) ->
  metadata_from_bytes (build_metadata s d u i) = Ok (text_of s, text_of d, text_of u, text_of i) /\
  metadata_length (text_of s, text_of d, text_of u, text_of i) = zlen (build_metadata s d u i).
Proof.
  intros Hs Hd Hu Hi. unfold build_metadata. rewrite !opt_pstr_enc. split.
  - unfold metadata_from_bytes. rewrite pstr_enc by assumption. cbn [bind]. rewrite drop_app by now rewrite enc_pstr_size.
    rewrite pstr_enc by assumption. cbn [bind]. rewrite drop_app by now rewrite enc_pstr_size.
    rewrite pstr_enc by assumption. cbn [bind]. rewrite drop_app by now rewrite enc_pstr_size.
    unfold enc_pstr at 1. cbn [app]. fold (enc_pstr (text_of i)). rewrite <- (app_nil_r (enc_pstr (text_of i))).
    rewrite pstr_enc by assumption. reflexivity.
  - unfold metadata_length. rewrite !zlen_app, !enc_pstr_size. lia.
Qed.

(** ** Properties *)
Definition short_val (v : typed_val) : Prop :=
  match v with TText s => short s | TNumber n => 0 <= n < two64 | TBool _ => True end.
Definition raw_val (v : typed_val) : prop_val :=
  match v with TText s => PText s | TNumber n => PNumber (le_enc 8 n) | TBool b => PBoolean (bool_byte b) end.
Definition short_prop (p : bytes * typed_val) : Prop := short (fst p) /\ short_val (snd p).
Definition raw_prop (p : bytes * typed_val) : bytes * prop_val := (fst p, raw_val (snd p)).
Lemma raw_size v : prop_val_size (raw_val v) = zlen (enc_typed v).
Proof.
  destruct v as [s|n|b]; cbn [raw_val prop_val_size enc_typed]; rewrite ?zlen_cons, ?enc_pstr_size, ?le_enc_zlen; reflexivity.
Qed.
Lemma parse_val_enc v rest : short_val v -> parse_prop_val (enc_typed v ++ rest) = Ok (raw_val v).
Proof.
  destruct v as [s|n|b]; intro H; cbn [enc_typed raw_val short_val] in *.
  - change (pstr (enc_pstr s ++ rest)) with (pstr (enc_pstr s ++ rest)). unfold parse_prop_val. cbn [app].
    change (b2z x00 =? 0) with true. cbv iota. rewrite pstr_enc by assumption. reflexivity.
  - unfold parse_prop_val. cbn [app]. change (b2z x01 =? 0) with false. change (b2z x01 =? 1) with true. cbv iota.
    unfold guard. rewrite zlen_app, le_enc_zlen. pose proof (zlen_nonneg rest).
    replace (8 <=? Z.of_nat 8 + zlen rest) with true by lia. do 2 f_equal.
  - reflexivity.
Qed.
Lemma deref_raw v : short_val v -> prop_deref (raw_val v) = Ok v.
Proof.
  destruct v as [s|n|b]; intro H; cbn [raw_val prop_deref short_val] in *; [reflexivity|now rewrite le_dec_enc8|now destruct b].
Qed.
Lemma parse_props_build l : Forall short_prop l -> forall fuel, (length (build_properties l) < fuel)%nat ->
  parse_props fuel (build_properties l) = Ok (map raw_prop l).
Proof.
  induction 1 as [|[n v] l [Hn Hv] Hl IH]; intros fuel F; (destruct fuel as [|fuel]; [lia|]); [reflexivity|].
  cbn [fst snd] in Hn, Hv. unfold build_properties in *. cbn [map concat fst snd] in *. rewrite <- app_assoc in *.
  set (R := concat (map (fun p : bytes * typed_val => enc_pstr (fst p) ++ enc_typed (snd p)) l)) in *.
  cbn [parse_props]. unfold enc_pstr at 1. cbn [app]. change (z2b (zlen n) :: n ++ enc_typed v ++ R) with (enc_pstr n ++ enc_typed v ++ R).
  rewrite pstr_enc by assumption. cbn [bind].
  rewrite (drop_app (enc_pstr n)) by now rewrite enc_pstr_size. rewrite parse_val_enc by assumption. cbn [bind].
  rewrite app_assoc, (drop_app (enc_pstr n ++ enc_typed v)) by (rewrite zlen_app, enc_pstr_size, raw_size; reflexivity).
  rewrite IH; [reflexivity|]. rewrite !app_length in F. cbn [enc_pstr length] in F. lia.
Qed.
Lemma props_length_build l : props_length (map raw_prop l) = zlen (build_properties l).
Proof.
  unfold props_length, build_properties. induction l as [|[n v] l IH]; [reflexivity|]. cbn [map concat sumz fold_right fst snd raw_prop].
  rewrite !zlen_app, enc_pstr_size, raw_size. unfold sumz in IH. rewrite IH. reflexivity.
Qed.
Lemma props_round l : Forall short_prop l -> exists r, properties_from_bytes (build_properties l) = Ok r /\
  map fst r = map fst l /\ map (fun p => prop_deref (snd p)) r = map (fun p => Ok (snd p)) l /\ props_length r = zlen (build_properties l).
Proof.
  intro H. exists (map raw_prop l). split; [apply parse_props_build; [assumption|lia]|]. split; [now rewrite map_map|].
  split; [|apply props_length_build]. rewrite map_map. induction H as [|p l [Hp1 Hp2] Hl IH]; [reflexivity|]. cbn [map]. rewrite IH. f_equal.
  now apply deref_raw.
Qed.
Lemma parse_val_ok b v : parse_prop_val b = Ok v ->
  prop_val_size v <= zlen b /\ 0 < prop_val_size v /\
  b = match v with PText s => x00 :: enc_pstr s | PNumber b8 => x01 :: b8 | PBoolean y => [x02; y] end ++ drop (prop_val_size v) b /\
  match v with PText s => short s | PNumber b8 => zlen b8 = 8 | PBoolean _ => True end.
Proof.
  unfold parse_prop_val. destruct b as [|t r]; [discriminate|]. pose proof (zlen_nonneg r) as Z0.
  assert (T : forall z, b2z t =? z = true -> 0 <= z < 256 -> t = z2b z).
  { intros z Q Hz. apply Z.eqb_eq in Q. rewrite <- Q. symmetry. apply z2b_b2z. }
  destruct (b2z t =? 0) eqn:Q0; [|destruct (b2z t =? 1) eqn:Q1; [|destruct (b2z t =? 2) eqn:Q2; [|discriminate]]]; intro H.
  - apply bind_ok in H as (s & Hs & H). apply Ok_inj in H. subst v. apply pstr_ok in Hs as [S1 E]. cbn [prop_val_size].
    pose proof (zlen_nonneg s). assert (L : zlen r = pstr_size s + zlen (drop (pstr_size s) r)) by (rewrite E at 1; now rewrite zlen_app, enc_pstr_size).
    pose proof (zlen_nonneg (drop (pstr_size s) r)). rewrite zlen_cons. unfold pstr_size in *. split; [lia|]. split; [lia|]. split; [|assumption].
    rewrite (T 0 Q0) by lia. change (z2b 0) with x00. cbn [app]. f_equal.
    unfold drop. replace (Z.to_nat (1 + (1 + zlen s))) with (S (Z.to_nat (1 + zlen s))) by lia. cbn [skipn]. exact E.
  - apply guard_ok in H as [H1 H]. apply Ok_inj in H. subst v. cbn [prop_val_size].
    assert (L : zlen (firstn 8 r) = 8) by (unfold zlen in *; rewrite firstn_length; lia). rewrite L, zlen_cons. split; [lia|]. split; [lia|]. split; [|reflexivity].
    rewrite (T 1 Q1) by lia. change (z2b 1) with x01. cbn [app]. f_equal. change (drop (1 + 8) (x01 :: r)) with (skipn 8 r). symmetry. apply firstn_skipn.
  - destruct r as [|y r]; [discriminate|]. apply Ok_inj in H. subst v. cbn [prop_val_size]. rewrite zlen_cons in Z0.
    rewrite !zlen_cons. pose proof (zlen_nonneg r). split; [lia|]. split; [lia|]. split; [|exact I]. rewrite (T 2 Q2) by lia. reflexivity.
Qed.
Definition enc_raw (v : prop_val) : bytes :=
  match v with PText s => x00 :: enc_pstr s | PNumber b8 => x01 :: b8 | PBoolean y => [x02; y] end.
Lemma parse_props_exact fuel : forall b l, parse_props fuel b = Ok l ->
  concat (map (fun p => enc_pstr (fst p) ++ enc_raw (snd p)) l) = b /\ props_length l = zlen b.
Proof.
  induction fuel as [|fuel IH]; intros b l H; [discriminate|]. cbn [parse_props] in H.
  destruct b as [|x b]; [apply Ok_inj in H; subst; split; reflexivity|].
  set (B := x :: b) in *. apply bind_ok in H as (n & Hn & H). apply bind_ok in H as (v & Hv & H). apply bind_ok in H as (r & Hr & H).
  apply Ok_inj in H. subst l. apply pstr_ok in Hn as [Sn En]. apply parse_val_ok in Hv as (L1 & L2 & Ev & _).
  apply IH in Hr as [Er Lr]. pose proof (zlen_nonneg n).
  assert (D : drop (pstr_size n + prop_val_size v) B = drop (prop_val_size v) (drop (pstr_size n) B)).
  { unfold drop. rewrite skipn_skipn. f_equal. unfold pstr_size. lia. }
  rewrite D in Er, Lr. change (drop (pstr_size n) B = enc_raw v ++ drop (prop_val_size v) (drop (pstr_size n) B)) in Ev. split.
  - cbn [map concat fst snd]. rewrite Er, <- app_assoc. rewrite <- Ev. symmetry. exact En.
  - unfold props_length in *. cbn [map sumz fold_right fst snd]. unfold sumz in Lr. rewrite Lr.
    rewrite En at 2. rewrite zlen_app, enc_pstr_size. rewrite Ev at 2. rewrite zlen_app.
    replace (zlen (enc_raw v)) with (prop_val_size v); [lia|]. destruct v; cbn [enc_raw prop_val_size]; rewrite ?zlen_cons, ?enc_pstr_size; reflexivity.
Qed.
Lemma props_exact b l : properties_from_bytes b = Ok l -> props_length l = zlen b /\ (forall b', properties_from_bytes b' = Ok l -> b' = b).
Proof.
  intro H. apply parse_props_exact in H as [H1 H2]. split; [assumption|]. intros b' H'. apply parse_props_exact in H' as [H3 _]. congruence.
Qed.
Lemma find_map {A B} (f : A -> B) (p : B -> bool) (l : list A) : find p (map f l) = option_map f (find (fun x => p (f x)) l).
Proof. induction l as [|x l IH]; [reflexivity|]. cbn [map find]. destruct (p (f x)); [reflexivity|apply IH]. Qed.
Lemma props_read l t name : Forall short_prop l -> exists r, properties_from_bytes (build_properties l) = Ok r /\
  props_get t name r = match find (fun p => bytes_eqb (fst p) name) l with
    | None => Ok None
    | Some p => if ptype_eqb (prop_type (raw_val (snd p))) t then Ok (Some (snd p)) else UB end.
Proof.
  intro H. exists (map raw_prop l). split; [apply parse_props_build; [assumption|lia]|].
  unfold props_get. rewrite find_map. change (fun x : bytes * typed_val => bytes_eqb (fst (raw_prop x)) name) with (fun x : bytes * typed_val => bytes_eqb (fst x) name).
  destruct (find _ l) as [p|] eqn:E; [|reflexivity]. cbn [option_map raw_prop snd]. destruct (ptype_eqb _ t); [|reflexivity].
  apply find_some in E as [E _]. rewrite Forall_forall in H. destruct (H p E) as [_ Hv]. now rewrite deref_raw.
Qed.

(** ** Creators *)
Definition entry (c : pubkey * bool * byte) : creator := mkCreator (pk_bytes (fst (fst c))) (bool_byte (snd (fst c))) (snd c).
Lemma entries_wf l : cr_wf (map entry l).
Proof. unfold cr_wf. rewrite Forall_map. apply Forall_forall. intros c _. apply pk_length. Qed.
Lemma add_fold l : cr_wf l -> forall done, cr_wf done -> zlen done + zlen l <= 256 ->
  fold_left add_creator l (zlen done mod 256, enc_creators done) = ((zlen done + zlen l) mod 256, enc_creators (done ++ l)).
Proof.
  induction l as [|c l IH]; intros Hl done Hd L.
  - cbn [fold_left]. rewrite app_nil_r. unfold zlen at 3. cbn [length]. now rewrite Z.add_0_r.
  - unfold cr_wf in Hl. apply Forall_cons_iff in Hl as [Hc Hl]. rewrite zlen_cons in L. pose proof (zlen_nonneg done). pose proof (zlen_nonneg l).
    cbn [fold_left add_creator]. rewrite (Z.mod_small (zlen done)) by lia.
    assert (P : put (enc_creators done ++ zeros 34) (zlen done * 34) (enc_creator c) = enc_creators (done ++ [c])).
    { rewrite <- (app_nil_r (zeros 34)), put_mid.
      - unfold enc_creators. rewrite map_app, concat_app. cbn [map concat]. reflexivity.
      - unfold zlen. rewrite enc_length by assumption. lia.
      - unfold zlen. rewrite enc_creator_length by assumption. reflexivity. }
    rewrite P. replace (zlen done + 1) with (zlen (done ++ [c])) by len.
    rewrite IH; [|assumption| |len].
    + rewrite <- app_assoc. cbn [app]. do 2 f_equal. len.
    + unfold cr_wf. apply Forall_app. split; [assumption|]. constructor; [assumption|constructor].
Qed.
Lemma build_creators_enc l : cr_wf l -> zlen l <= 256 -> build_creators l = enc_creators l.
Proof.
  intros Hl L. unfold build_creators. change (0, @nil byte) with (zlen (@nil creator) mod 256, enc_creators []).
  rewrite add_fold; [reflexivity|assumption|constructor|exact L].
Qed.
Lemma creators_round l : zlen l <= 256 -> creators_from_bytes (build_creators (map entry l)) = Ok (map entry l) /\
  creators_length (map entry l) = zlen (build_creators (map entry l)).
Proof.
  intro L. pose proof (entries_wf l) as W. rewrite build_creators_enc; [|assumption|unfold zlen in *; now rewrite map_length].
  split; [now apply from_bytes_enc|]. unfold creators_length, zlen. rewrite enc_length by assumption. lia.
Qed.
Lemma creators_exact b l : creators_from_bytes b = Ok l -> enc_creators l = b /\ creators_length l = zlen b.
Proof.
  intro H. apply from_bytes_ok in H as (L & E & W & N). split.
  - rewrite E. now apply enc_dec.
  - unfold creators_length, zlen. rewrite N, L. lia.
Qed.
Lemma build_creators_wrap l c : cr_wf l -> zlen l = 256 -> cr_wf [c] -> firstn 34 (build_creators (l ++ [c])) = enc_creator c.
Proof.
  intros Hl L Hc. unfold build_creators. rewrite fold_left_app.
  change (0, @nil byte) with (zlen (@nil creator) mod 256, enc_creators []).
  rewrite add_fold; [|assumption|constructor|rewrite L; cbn; lia]. rewrite L. cbn [app fold_left add_creator snd].
  change ((zlen (@nil creator) + 256) mod 256 * 34) with 0. unfold put. change (Z.to_nat 0) with 0%nat. rewrite (firstn_O (_ ++ zeros 34)). cbn [app].
  apply Forall_cons_iff in Hc as [Hc _]. rewrite firstn_app, enc_creator_length, Nat.sub_diag by assumption. rewrite firstn_O.
  rewrite app_nil_r. apply firstn_all2. rewrite enc_creator_length by assumption. lia.
Qed.

(** ** Grouping, Royalties, Manager, Proxy *)
Definition max_of (o : option Z) : Z := match o with Some m => m | None => 0 end.
Definition key_of (o : option pubkey) : bytes := match o with Some k => pk_bytes k | None => zero32 end.
Lemma key_of_len o : zlen (key_of o) = 32.
Proof. destruct o; cbn [key_of]; [apply pk_zlen|reflexivity]. Qed.
Lemma grouping_round al max del : al mod 8 = 0 -> 0 <= max_of max < two64 ->
  grouping_from_bytes al (build_grouping max del) = Ok (mkGrouping 0 (max_of max) (key_of del)) /\
  grouping_length (mkGrouping 0 (max_of max) (key_of del)) = zlen (build_grouping max del).
Proof.
  intros Ha Hm. change (build_grouping max del) with (le_enc 8 0 ++ le_enc 8 (max_of max) ++ key_of del). pose proof (key_of_len del) as K.
  assert (L : zlen (le_enc 8 0 ++ le_enc 8 (max_of max) ++ key_of del) = 48) by (rewrite !zlen_app, !le_enc_zlen, K; reflexivity).
  split; [|rewrite L; reflexivity]. unfold grouping_from_bytes, guard. rewrite L.
  replace (16 <=? 48) with true by reflexivity. replace (al mod 8 =? 0) with true by lia. cbv iota.
  assert (S : skipn 16 (le_enc 8 0 ++ le_enc 8 (max_of max) ++ key_of del) = key_of del).
  { rewrite app_assoc, skipn_app, skipn_all2 by (rewrite app_length, !le_enc_length; lia).
    rewrite app_length, !le_enc_length. reflexivity. }
  rewrite S, K. cbv zeta. change (32 <=? 32) with true. change (32 <? 32) with false. cbv iota.
  rewrite (fld_head (le_enc 8 0)) by (rewrite le_enc_zlen; reflexivity).
  rewrite (fld_mid (le_enc 8 0) (le_enc 8 (max_of max)) (key_of del)) by (rewrite le_enc_zlen; reflexivity).
  rewrite !le_dec_enc8 by (try assumption; unfold two64; lia). reflexivity.
Qed.
Lemma royalties_round al bp f : al mod 8 = 0 -> 0 <= bp < two64 -> zlen (build f) <= u32_max ->
  exists c, royalties_from_bytes al (build_royalties bp f) = Ok (bp, c) /\ erase c = wanted f /\ royalties_length (bp, c) = zlen (build_royalties bp f).
Proof.
  intros Ha Hb Hf. unfold build_royalties, royalties_from_bytes. destruct (build_round_trip f (al + 8) [] ltac:(lia) Hf) as (c & H1 & H2 & H3 & _).
  rewrite app_nil_r in H1. exists c. pose proof (zlen_nonneg (build f)).
  assert (S : skipn 8 (le_enc 8 bp ++ build f) = build f).
  { rewrite skipn_app, skipn_all2 by (rewrite le_enc_length; lia). rewrite le_enc_length. reflexivity. }
  rewrite S, H1, zlen_app, le_enc_zlen. cbn [bind]. unfold guard.
  replace (8 <=? Z.of_nat 8 + zlen (build f)) with true by lia. replace (al mod 8 =? 0) with true by lia. cbv iota.
  rewrite (fld_head (le_enc 8 bp)) by (rewrite le_enc_zlen; reflexivity). rewrite le_dec_enc8 by assumption.
  split; [reflexivity|]. split; [assumption|]. unfold royalties_length. cbn [snd]. rewrite H3. reflexivity.
Qed.
Lemma manager_round k roles : manager_from_bytes (build_manager (mkDelegate (pk_bytes k) roles)) = Ok (mkDelegate (pk_bytes k) roles) /\
  manager_length (mkDelegate (pk_bytes k) roles) = zlen (build_manager (mkDelegate (pk_bytes k) roles)).
Proof.
  unfold manager_from_bytes, build_manager, load_delegate. cbn [del_addr del_roles]. rewrite zlen_app, pk_zlen.
  change (zlen [roles]) with 1. split; [|reflexivity]. unfold guard. change (33 <=? 32 + 1) with true. cbv iota. f_equal. f_equal.
  - apply (fld_mid [] (pk_bytes k) [roles]); [reflexivity|now rewrite pk_zlen].
  - unfold byte_at. change (Z.to_nat 32) with 32%nat. rewrite app_nth2; rewrite pk_length; [reflexivity|lia].
Qed.
Lemma proxy_round prog seeds bump auth : zlen seeds = 32 ->
  proxy_from_bytes (build_proxy prog seeds bump auth) = Ok (mkProxy (pk_bytes prog) seeds bump (key_of auth)) /\
  proxy_length (mkProxy (pk_bytes prog) seeds bump (key_of auth)) = zlen (build_proxy prog seeds bump auth).
Proof.
  intro S. change (build_proxy prog seeds bump auth) with (pk_bytes prog ++ seeds ++ [bump] ++ key_of auth). pose proof (key_of_len auth) as K. pose proof (pk_zlen prog) as P.
  assert (L : zlen (pk_bytes prog ++ seeds ++ [bump] ++ key_of auth) = 97) by (rewrite !zlen_app, S, K, P; reflexivity).
  split; [|rewrite L; reflexivity]. unfold proxy_from_bytes. rewrite L. unfold guard. change (97 =? 97) with true. cbv iota. f_equal. f_equal.
  - apply (fld_mid [] (pk_bytes prog)); [reflexivity|now rewrite P].
  - apply fld_mid; [now rewrite P|now rewrite S].
  - unfold byte_at. rewrite app_assoc. rewrite app_nth2; rewrite app_length, pk_length; unfold zlen in S.
    + change (Z.to_nat 64) with 64%nat. replace (64 - (32 + length seeds))%nat with 0%nat by lia. reflexivity.
    + change (Z.to_nat 64) with 64%nat. lia.
  - replace (pk_bytes prog ++ seeds ++ [bump] ++ key_of auth) with ((pk_bytes prog ++ seeds ++ [bump]) ++ key_of auth ++ [])
      by (rewrite app_nil_r, <- !app_assoc; reflexivity).
    apply fld_mid; [rewrite !zlen_app, P, S; reflexivity|now rewrite K].
Qed.

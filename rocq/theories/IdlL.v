(** Lemmas: the interface description inside a program binary. *)
From Verif Require Import Base Idl SpecT BaseL ReadsL.
From Coq Require Import Strings.Byte.

Lemma part_iff buf a s : part buf a s <-> 0 <= a /\ a + zlen s <= zlen buf /\ s = fld buf a (zlen s).
Proof.
  split.
  - intros (l & r & -> & <-). unfold zlen, fld. rewrite !app_length. split; [lia|]. split; [lia|].
    rewrite !Nat2Z.id, skipn_app, skipn_all, Nat.sub_diag. cbn [skipn app]. now rewrite firstn_app, firstn_all, Nat.sub_diag, firstn_O, app_nil_r.
  - intros (H0 & H1 & H2). exists (firstn (Z.to_nat a) buf), (skipn (Z.to_nat (zlen s)) (skipn (Z.to_nat a) buf)). split.
    + rewrite H2 at 1. unfold fld at 1. rewrite firstn_skipn. symmetry. apply firstn_skipn.
    + unfold zlen in *. rewrite firstn_length. lia.
Qed.
Lemma part_app buf a s1 s2 : part buf a (s1 ++ s2) <-> part buf a s1 /\ part buf (a + zlen s1) s2.
Proof.
  split.
  - intros (l & r & -> & <-). split; [exists l, (s2 ++ r)|exists (l ++ s1), r]; rewrite <- ?app_assoc; (split; [reflexivity|]); unfold zlen; rewrite ?app_length; lia.
  - intros [(l & r & E & L) (l2 & r2 & E2 & L2)]. exists l, r2. split; [|exact L].
    assert (Q : l2 = l ++ s1 /\ s2 ++ r2 = r).
    { assert (LL : length l2 = length (l ++ s1)) by (rewrite app_length; unfold zlen in *; lia).
      rewrite E, app_assoc in E2. split; [|].
      - apply (f_equal (firstn (length l2))) in E2. rewrite firstn_app, LL, firstn_all, Nat.sub_diag, firstn_O, app_nil_r in E2. rewrite E2, <- LL, firstn_app, firstn_all, Nat.sub_diag, firstn_O, app_nil_r. reflexivity.
      - apply (f_equal (skipn (length l2))) in E2. rewrite skipn_app, LL, skipn_all, Nat.sub_diag, skipn_O in E2. rewrite <- LL, skipn_app, skipn_all, Nat.sub_diag, skipn_O in E2. cbn [app] in E2. now symmetry. }
    destruct Q as [-> Q]. rewrite E, <- Q, <- app_assoc. reflexivity.
Qed.
Lemma slice_part buf a b s : slice buf a b = Ok s <-> part buf a s /\ b = a + zlen s.
Proof.
  unfold slice, guard. rewrite part_iff. destruct ((0 <=? a) && (a <=? b) && (b <=? zlen buf)) eqn:E.
  - apply andb_prop in E as [E E3]. apply andb_prop in E as [E1 E2]. apply Z.leb_le in E1, E2, E3.
    assert (L : zlen (fld buf a (b - a)) = b - a) by (unfold fld, zlen in *; rewrite firstn_length, skipn_length; lia).
    split; [intro H; assert (fld buf a (b - a) = s) as <- by congruence; rewrite L; split; [|lia]; split; [lia|split; [lia|reflexivity]]|].
    intros ((_ & _ & H) & Hb). replace (b - a) with (zlen s) by lia. now rewrite <- H.
  - split; [discriminate|]. intros ((H0 & H1 & _) & ->). exfalso. apply andb_false_iff in E as [E|E]; [apply andb_false_iff in E as [E|E]|]; apply Z.leb_gt in E; unfold zlen in *; lia.
Qed.
Lemma slice_cases buf a b : (exists s, slice buf a b = Ok s) \/ slice buf a b = Panic.
Proof. unfold slice, guard. destruct (_ && _); eauto. Qed.

Lemma points_iff buf off s : 0 <= off -> off + 16 < two64 -> zlen buf < two64 -> section_bytes buf off = Ok s <-> points_to buf off s.
Proof.
  intros H0 H1 HB. unfold section_bytes, section_loc.
  rewrite (Z.mod_small (off + 4)), (Z.mod_small (off + 8)), (Z.mod_small (off + 16)) by (unfold two64 in *; lia). split.
  - intro H. destruct (slice buf (off + 4) (off + 8)) as [a| | | |] eqn:E1; try discriminate. cbn [bind] in H.
    destruct (slice buf (off + 8) (off + 16)) as [b| | | |] eqn:E2; try discriminate. cbn [bind fst snd] in H.
    apply slice_part in E1 as [P1 L1]. apply slice_part in E2 as [P2 L2]. apply slice_part in H as [P3 L3].
    assert (La : zlen a = 4) by lia. assert (Lb : zlen b = 8) by lia.
    pose proof (le_dec_range a) as Ra. pose proof (le_dec_range b) as Rb. rewrite La in Ra. rewrite Lb in Rb. change (256 ^ 4) with 4294967296 in Ra. change (256 ^ 8) with two64 in Rb.
    assert (Sz : zlen s = le_dec b).
    { apply part_iff in P3 as (Q0 & Q1 & _). revert L3. destruct (Z_lt_ge_dec (le_dec a + le_dec b) two64) as [Q|Q].
      - rewrite Z.mod_small; lia.
      - intro L3. exfalso. assert (le_dec a < 4294967296 /\ le_dec b < two64) as [A1 A2].
        { split; lia. }
        replace (le_dec a + le_dec b) with (le_dec a + le_dec b - two64 + 1 * two64) in L3 by lia. rewrite Z_mod_plus_full, Z.mod_small in L3 by (unfold two64 in *; lia).
        unfold zlen in L3. unfold two64 in *. lia. }
    exists (fld buf off 4), (le_dec a).
    assert (P0 : part buf off (fld buf off 4)).
    { apply part_iff in P1 as (Q0 & Q1 & _). apply part_iff. assert (zlen (fld buf off 4) = 4) as -> by (unfold fld, zlen in *; rewrite firstn_length, skipn_length; lia). split; [lia|]. split; [lia|reflexivity]. }
    assert (L0 : zlen (fld buf off 4) = 4) by (apply part_iff in P1 as (Q0 & Q1 & _); unfold fld, zlen in *; rewrite firstn_length, skipn_length; lia).
    assert (E4 : le_enc 4 (le_dec a) = a) by (replace 4%nat with (length a) by (unfold zlen in La; lia); apply le_enc_dec).
    assert (E8 : le_enc 8 (zlen s) = b) by (rewrite Sz; replace 8%nat with (length b) by (unfold zlen in Lb; lia); apply le_enc_dec).
    rewrite E4, E8. split; [|split; [exact L0|split; [|exact P3]]].
    + apply part_app. split; [exact P0|]. rewrite L0. apply part_app. split; [exact P1|]. rewrite La. replace (off + 4 + 4) with (off + 8) by lia. exact P2.
    + lia.
  - intros (low & loc & P & L & Rl & Ps). apply part_app in P as [_ P]. rewrite L in P. apply part_app in P as [P1 P2].
    assert (L4 : zlen (le_enc 4 loc) = 4) by (unfold zlen; now rewrite le_enc_length). assert (L8 : zlen (le_enc 8 (zlen s)) = 8) by (unfold zlen; now rewrite le_enc_length).
    rewrite L4 in P2. replace (off + 4 + 4) with (off + 8) in P2 by lia.
    assert (S1 : slice buf (off + 4) (off + 8) = Ok (le_enc 4 loc)) by (apply slice_part; split; [exact P1|lia]).
    assert (S2 : slice buf (off + 8) (off + 16) = Ok (le_enc 8 (zlen s))) by (apply slice_part; split; [exact P2|lia]).
    rewrite S1. cbn [bind]. rewrite S2. cbn [bind fst snd].
    pose proof (proj1 (part_iff _ _ _) Ps) as (Q0 & Q1 & _). assert (0 <= zlen s) by (unfold zlen; lia).
    rewrite le_dec_enc4 by (unfold u32_max; lia). rewrite le_dec_enc8 by lia.
    rewrite Z.mod_small by lia. apply slice_part. split; [exact Ps|reflexivity].
Qed.
Lemma section_cases buf off : (exists s, section_bytes buf off = Ok s) \/ section_bytes buf off = Panic.
Proof.
  unfold section_bytes, section_loc. destruct (slice_cases buf ((off + 4) mod two64) ((off + 8) mod two64)) as [[s ->]| ->]; [|now right]. cbn [bind].
  destruct (slice_cases buf ((off + 8) mod two64) ((off + 16) mod two64)) as [[s2 ->]| ->]; [|now right]. cbn [bind]. apply slice_cases.
Qed.
Lemma lower_is x y : 97 <= b2z y <= 122 -> lower x = y <-> same_letter x y.
Proof.
  unfold same_letter, lower. intro R. destruct ((65 <=? b2z x) && (b2z x <=? 90)) eqn:E.
  - apply andb_prop in E as [E1 E2]. apply Z.leb_le in E1, E2. split.
    + intros <-. right. rewrite b2z_z2b, Z.mod_small; lia.
    + intros [->|H]; [lia|]. rewrite H. apply z2b_b2z.
  - split; [now left|]. intros [H|H]; [exact H|]. exfalso. apply andb_false_iff in E as [E|E]; apply Z.leb_gt in E; lia.
Qed.
Lemma lower_all s n : Forall (fun y => 97 <= b2z y <= 122) n -> map lower s = n <-> Forall2 same_letter s n.
Proof.
  revert n. induction s as [|x s IH]; intros [|y n] F; cbn [map].
  - split; constructor.
  - split; [discriminate|intro H; inversion H].
  - split; [discriminate|intro H; inversion H].
  - apply Forall_cons_iff in F as [F1 F]. split.
    + intro H. assert (lower x = y /\ map lower s = n) as [H1 H2] by (split; congruence). constructor; [now apply lower_is|now apply IH].
    + intro H. inversion H; subst. f_equal; [now apply lower_is|now apply IH].
Qed.
Lemma from_str_iff s t : idl_from_str s = Some t <-> spells s t.
Proof.
  unfold idl_from_str, spells.
  assert (FA : Forall (fun y => 97 <= b2z y <= 122) (idl_str Anchor)) by (repeat constructor; vm_compute; discriminate).
  assert (FC : Forall (fun y => 97 <= b2z y <= 122) (idl_str Codama)) by (repeat constructor; vm_compute; discriminate).
  pose proof (lower_all s _ FA) as LA. pose proof (lower_all s _ FC) as LC.
  destruct (bytes_eqb (map lower s) (idl_str Anchor)) eqn:EA.
  - apply bytes_eqb_eq in EA. split; [intro H; assert (t = Anchor) as -> by congruence; now apply LA|].
    destruct t; [reflexivity|]. intro H. apply LC in H. rewrite EA in H. discriminate H.
  - assert (NA : ~ Forall2 same_letter s (idl_str Anchor)) by (intro H; apply LA in H; rewrite H in EA; vm_compute in EA; discriminate).
    destruct (bytes_eqb (map lower s) (idl_str Codama)) eqn:EC.
    + apply bytes_eqb_eq in EC. split; [intro H; assert (t = Codama) as -> by congruence; now apply LC|]. destruct t; [intro H; contradiction|reflexivity].
    + assert (NC : ~ Forall2 same_letter s (idl_str Codama)) by (intro H; apply LC in H; rewrite H in EC; vm_compute in EC; discriminate).
      split; [discriminate|]. destruct t; intro H; contradiction.
Qed.

Section Loop.
Variables (V : Type) (ie : idl_env V) (buf : bytes).
Hypothesis (HB : zlen buf < two64).
Definition kept {A} (P : option bytes * Z -> Prop) (R : option bytes * Z -> A -> Prop) (l : list (option bytes * Z)) (o o' : option A) : Prop :=
  (exists h x, last_such P l h /\ R h x /\ o' = Some x) \/ (Forall (fun h => ~ P h) l /\ o' = o).
Lemma kept_skip A (P : option bytes * Z -> Prop) (R : _ -> A -> Prop) h l o o' : ~ P h -> kept P R (h :: l) o o' <-> kept P R l o o'.
Proof using.
  intro N. unfold kept. split; (intros [(k & x & (a & b & E & Pk & F) & Rk & Eo)|[F Eo]]; [left|right]).
  - exists k, x. split; [|auto]. destruct a as [|y a]; [cbn [app] in E; assert (h = k) by congruence; subst; contradiction|]. exists a, b. split; [cbn [app] in E; congruence|auto].
  - apply Forall_cons_iff in F as [_ F]. auto.
  - exists k, x. split; [|auto]. exists (h :: a), b. split; [cbn [app]; congruence|auto].
  - split; [constructor; assumption|exact Eo].
Qed.
Lemma kept_take A (P : option bytes * Z -> Prop) (R : _ -> A -> Prop) h l o o' y : (forall h x x', R h x -> R h x' -> x = x') -> P h -> R h y -> kept P R (h :: l) o o' <-> kept P R l (Some y) o'.
Proof using.
  intros U Ph Rh. unfold kept. split.
  - intros [(k & x & (a & b & E & Pk & F) & Rk & Eo)|[F _]]; [|apply Forall_cons_iff in F as [F _]; contradiction].
    destruct a as [|z a]; cbn [app] in E.
    + right. assert (h = k) as -> by congruence. assert (l = b) as -> by congruence. split; [exact F|]. rewrite Eo. f_equal. exact (U _ _ _ Rk Rh).
    + left. exists k, x. split; [|auto]. exists a, b. split; [congruence|auto].
  - intros [(k & x & (a & b & E & Pk & F) & Rk & Eo)|[F Eo]]; left.
    + exists k, x. split; [|auto]. exists (h :: a), b. split; [cbn [app]; congruence|auto].
    + exists h, y. split; [|auto]. exists [], l. split; [reflexivity|auto].
Qed.
Lemma part_det a s s' : part buf a s -> part buf a s' -> zlen s = zlen s' -> s = s'.
Proof using. intros H H' L. apply part_iff in H as (_ & _ & ->). apply part_iff in H' as (_ & _ & ->). now rewrite L. Qed.
Lemma points_det off s s' : points_to buf off s -> points_to buf off s' -> s = s'.
Proof using HB.
  intros (lo & a & P & L & Ra & Ps) (lo' & a' & P' & L' & Ra' & Ps').
  assert (0 <= zlen s < two64 /\ 0 <= zlen s' < two64) as [Z1 Z2] by (apply part_iff in Ps as (? & ? & _); apply part_iff in Ps' as (? & ? & _); unfold zlen in *; lia).
  assert (E : lo ++ le_enc 4 a ++ le_enc 8 (zlen s) = lo' ++ le_enc 4 a' ++ le_enc 8 (zlen s')).
  { apply (part_det off); [assumption|assumption|]. unfold zlen in *. rewrite !app_length, !le_enc_length. lia. }
  apply app_inj_len in E as [_ E]; [|unfold zlen in *; lia]. apply app_inj_len in E as [E4 E8]; [|now rewrite !le_enc_length].
  apply (f_equal le_dec) in E4, E8. rewrite !le_dec_enc4 in E4 by (unfold u32_max; lia). rewrite !le_dec_enc8 in E8 by assumption. subst a'.
  exact (part_det _ _ _ Ps Ps' E8).
Qed.
Lemma spells_det s t t' : spells s t -> spells s t' -> t = t'.
Proof using. intros H H'. apply from_str_iff in H, H'. congruence. Qed.
Lemma reads_type_det h t t' : reads_type buf h t -> reads_type buf h t' -> t = t'.
Proof using HB. intros (s & P & S) (s' & P' & S'). rewrite (points_det _ _ _ P' P) in S'. exact (spells_det _ _ _ S S'). Qed.
Lemma reads_data_det h (v v' : V) : reads_data ie buf h v -> reads_data ie buf h v' -> v = v'.
Proof using HB. intros (s & d & P & D & J) (s' & d' & P' & D' & J'). rewrite (points_det _ _ _ P' P) in D'. congruence. Qed.
Lemma sections_differ h : type_section h -> data_section h -> False.
Proof using. unfold type_section, data_section. intros H H'. rewrite H in H'. discriminate H'. Qed.
Lemma type_run h : 0 <= snd h /\ snd h + 16 < two64 -> forall t, bind (section_bytes buf (snd h)) (fun s => unwrap (idl_from_str s)) = Ok t <-> reads_type buf h t.
Proof using HB.
  intros [R1 R2] t. unfold reads_type. split.
  - intro H. destruct (section_bytes buf (snd h)) as [s| | | |] eqn:E; try discriminate. cbn [bind] in H. unfold unwrap in H. destruct (idl_from_str s) eqn:F; [|discriminate].
    exists s. split; [now apply points_iff|]. apply from_str_iff. congruence.
  - intros (s & P & S). apply points_iff in P; [|assumption..]. rewrite P. cbn [bind]. apply from_str_iff in S. now rewrite S.
Qed.
Lemma data_run h : 0 <= snd h /\ snd h + 16 < two64 -> forall v, bind (section_bytes buf (snd h)) (fun s => bind (unwrap (ie_inflate ie s)) (fun d => unwrap (ie_json ie d))) = Ok v <-> reads_data ie buf h v.
Proof using HB.
  intros [R1 R2] v. unfold reads_data. split.
  - intro H. destruct (section_bytes buf (snd h)) as [s| | | |] eqn:E; try discriminate. cbn [bind] in H. destruct (ie_inflate ie s) as [d|] eqn:F; [|discriminate]. cbn [bind unwrap] in H.
    destruct (ie_json ie d) as [x|] eqn:G; [|discriminate]. exists s, d. split; [now apply points_iff|]. split; [exact F|]. cbn [unwrap] in H. congruence.
  - intros (s & d & P & F & G). apply points_iff in P; [|assumption..]. rewrite P. cbn [bind]. rewrite F. cbn [bind unwrap]. now rewrite G.
Qed.
Lemma name_dec (h : option bytes * Z) : type_section h \/ data_section h \/ (~ type_section h /\ ~ data_section h).
Proof using.
  unfold type_section, data_section. destruct h as [[n|] o]; cbn [fst]; [|right; right; split; discriminate].
  destruct (bytes_eqb n IDL_TYPE_SECTION) eqn:E; [left; apply bytes_eqb_eq in E; now rewrite E|]. destruct (bytes_eqb n IDL_DATA_SECTION) eqn:F; [right; left; apply bytes_eqb_eq in F; now rewrite F|].
  right. right. apply bytes_eqb_neq in E, F. split; intro Q; [apply E|apply F]; unfold IDL_TYPE_SECTION, IDL_DATA_SECTION; congruence.
Qed.
Lemma loop_type h l t v : type_section h -> idl_loop ie buf (h :: l) t v =
  bind (bind (section_bytes buf (snd h)) (fun s => unwrap (idl_from_str s))) (fun x => idl_loop ie buf l (Some x) v).
Proof using.
  destruct h as [n o]. unfold type_section. cbn [fst snd]. intros ->. cbn [idl_loop]. change (bytes_eqb _ IDL_DATA_SECTION) with false. change (bytes_eqb _ IDL_TYPE_SECTION) with true.
  destruct (section_bytes buf o); reflexivity.
Qed.
Lemma loop_data h l t v : data_section h -> idl_loop ie buf (h :: l) t v =
  bind (bind (section_bytes buf (snd h)) (fun s => bind (unwrap (ie_inflate ie s)) (fun d => unwrap (ie_json ie d)))) (fun x => idl_loop ie buf l t (Some x)).
Proof using.
  destruct h as [n o]. unfold data_section. cbn [fst snd]. intros ->. cbn [idl_loop]. change (bytes_eqb _ IDL_DATA_SECTION) with true.
  destruct (section_bytes buf o) as [s| | | |]; try reflexivity. cbn [bind]. destruct (ie_inflate ie s) as [d|]; try reflexivity. 
Qed.
Lemma loop_other h l t v : ~ type_section h -> ~ data_section h -> idl_loop ie buf (h :: l) t v = idl_loop ie buf l t v.
Proof using.
  destruct h as [[n|] o]; unfold type_section, data_section; cbn [fst]; intros N1 N2; cbn [idl_loop]; [|reflexivity].
  assert (bytes_eqb n IDL_DATA_SECTION = false) as -> by (apply bytes_eqb_neq; intro Q; apply N2; now rewrite Q).
  assert (bytes_eqb n IDL_TYPE_SECTION = false) as -> by (apply bytes_eqb_neq; intro Q; apply N1; now rewrite Q). reflexivity.
Qed.
Lemma loop_iff l : Forall (fun h => 0 <= snd h /\ snd h + 16 < two64) l -> forall t v t' v',
  idl_loop ie buf l t v = Ok (t', v') <-> Forall (readable ie buf) l /\ kept type_section (reads_type buf) l t t' /\ kept data_section (reads_data ie buf) l v v'.
Proof using HB.
  induction l as [|h l IH]; intros FN t v t' v'.
  - cbn [idl_loop]. unfold kept. split.
    + intro H. assert (t = t' /\ v = v') as [-> ->] by (split; congruence). split; [constructor|]. split; right; auto.
    + intros (_ & [(k & x & (a & b & E & _) & _)|[_ ->]] & [(k' & x' & (a' & b' & E' & _) & _)|[_ ->]]); [destruct a; discriminate|destruct a; discriminate|destruct a'; discriminate|reflexivity].
  - apply Forall_cons_iff in FN as [Rh FN]. destruct (name_dec h) as [T|[D|[NT ND]]].
    + assert (ND : ~ data_section h) by (intro D; exact (sections_differ h T D)).
      rewrite (loop_type h l t v T), (kept_skip _ data_section _ h l v v' ND). pose proof (type_run h Rh) as TR. split.
      * intro H. destruct (bind (section_bytes buf (snd h)) (fun s => unwrap (idl_from_str s))) as [x| | | |] eqn:E; try discriminate. cbn [bind] in H.
        pose proof (proj1 (TR x) eq_refl) as X. apply IH in H as (F & K1 & K2); [|assumption]. split; [constructor; [split; [eauto|contradiction]|exact F]|].
        split; [|exact K2]. now apply (kept_take _ type_section (reads_type buf) h l t t' x reads_type_det T X).
      * intros (F & K1 & K2). apply Forall_cons_iff in F as [[F1 _] F]. destruct (F1 T) as [x X]. rewrite (proj2 (TR x) X). cbn [bind]. apply IH; [assumption|].
        split; [exact F|]. split; [|exact K2]. now apply (kept_take _ type_section (reads_type buf) h l t t' x reads_type_det T X).
    + assert (NT : ~ type_section h) by (intro T; exact (sections_differ h T D)).
      rewrite (loop_data h l t v D), (kept_skip _ type_section _ h l t t' NT). pose proof (data_run h Rh) as DR. split.
      * intro H. destruct (bind (section_bytes buf (snd h)) _) as [x| | | |] eqn:E; try discriminate. cbn [bind] in H.
        pose proof (proj1 (DR x) eq_refl) as X. apply IH in H as (F & K1 & K2); [|assumption]. split; [constructor; [split; [contradiction|eauto]|exact F]|].
        split; [exact K1|]. now apply (kept_take _ data_section (reads_data ie buf) h l v v' x reads_data_det D X).
      * intros (F & K1 & K2). apply Forall_cons_iff in F as [[_ F1] F]. destruct (F1 D) as [x X]. rewrite (proj2 (DR x) X). cbn [bind]. apply IH; [assumption|].
        split; [exact F|]. split; [exact K1|]. now apply (kept_take _ data_section (reads_data ie buf) h l v v' x reads_data_det D X).
    + rewrite (loop_other h l t v NT ND), (IH FN), (kept_skip _ type_section _ h l t t' NT), (kept_skip _ data_section _ h l v v' ND). split; intros (F & K); (split; [|exact K]).
      * constructor; [split; contradiction|exact F].
      * now apply Forall_cons_iff in F as [_ F].
Qed.
Lemma loop_cases l : forall t v, (exists p, idl_loop ie buf l t v = Ok p) \/ idl_loop ie buf l t v = Panic.
Proof using.
  induction l as [|h l IH]; intros t v; [left; eexists; reflexivity|]. destruct (name_dec h) as [T|[D|[NT ND]]].
  - rewrite (loop_type h l t v T). destruct (section_cases buf (snd h)) as [[s ->]| ->]; [|now right]. cbn [bind]. destruct (idl_from_str s); [|now right]. cbn [bind unwrap]. apply IH.
  - rewrite (loop_data h l t v D). destruct (section_cases buf (snd h)) as [[s ->]| ->]; [|now right]. cbn [bind]. destruct (ie_inflate ie s) as [d|]; [|now right]. cbn [bind unwrap].
    destruct (ie_json ie d); [|now right]. cbn [bind unwrap]. apply IH.
  - rewrite (loop_other h l t v NT ND). apply IH.
Qed.
End Loop.

Lemma parse_iff V (ie : idl_env V) buf l t v : ie_elf ie buf = Some l -> near buf l -> parse_idl ie buf = Ok (t, v) <->
  Forall (readable ie buf) l /\ (exists h, last_such type_section l h /\ reads_type buf h t) /\ (exists h, last_such data_section l h /\ reads_data ie buf h v).
Proof.
  intros He [HB FN]. unfold parse_idl. rewrite He. pose proof (fun t' v' => loop_iff V ie buf HB l FN None None t' v') as LI. split.
  - intro H. destruct (idl_loop ie buf l None None) as [[t' v']| | | |] eqn:E; try discriminate. cbn [bind] in H. destruct t' as [t'|]; [|discriminate]. destruct v' as [v'|]; [|discriminate].
    assert (t' = t /\ v' = v) as [-> ->] by (split; congruence). destruct (proj1 (LI _ _) eq_refl) as (F & K1 & K2). split; [exact F|].
    destruct K1 as [(h & x & L & R & Q)|[_ Q]]; [|discriminate]. destruct K2 as [(h2 & x2 & L2 & R2 & Q2)|[_ Q2]]; [|discriminate].
    split; [exists h; split; [exact L|congruence]|exists h2; split; [exact L2|congruence]].
  - intros (F & (h & L & R) & (h2 & L2 & R2)).
    rewrite (proj2 (LI (Some t) (Some v))); [reflexivity|]. split; [exact F|]. split; left; eauto 6.
Qed.
Lemma no_last {A} (P : A -> Prop) l : (forall x, P x \/ ~ P x) -> (exists h, last_such P l h) \/ Forall (fun x => ~ P x) l.
Proof.
  intro D. induction l as [|x l IH]; [right; constructor|]. destruct IH as [[h (a & b & -> & Ph & F)]|F].
  - left. exists h, (x :: a), b. auto.
  - destruct (D x) as [Px|N]; [left; exists x, [], l; auto|right; constructor; assumption].
Qed.
Lemma parse_panics V (ie : idl_env V) buf l : ie_elf ie buf = Some l -> near buf l -> parse_idl ie buf = Panic <-> ~ Forall (readable ie buf) l.
Proof.
  intros He [HB FN]. unfold parse_idl. rewrite He. pose proof (fun t' v' => loop_iff V ie buf HB l FN None None t' v') as LI.
  destruct (loop_cases V ie buf l None None) as [[[t' v'] E]|E]; rewrite E; cbn [bind].
  - split; [destruct t'; [destruct v'|]; discriminate|]. intro N. exfalso. apply N. now apply LI in E.
  - split; [|reflexivity]. intros _ F.
    assert (DT : forall x, type_section x \/ ~ type_section x) by (intro x; destruct (name_dec x) as [T|[D|[T _]]]; auto; right; intro T; exact (sections_differ x T D)).
    assert (DD : forall x, data_section x \/ ~ data_section x) by (intro x; destruct (name_dec x) as [T|[D|[_ D]]]; auto; right; intro D; exact (sections_differ x T D)).
    assert (K1 : exists t', kept type_section (reads_type buf) l None t').
    { destruct (no_last type_section l DT) as [[h L]|N]; [|exists None; right; auto]. pose proof L as (a & b & Eq & Th & _).
      assert (RH : readable ie buf h) by (rewrite Forall_forall in F; apply F; rewrite Eq; apply in_app_iff; right; now left). destruct (proj1 RH Th) as [x X]. exists (Some x). left. eauto 6. }
    assert (K2 : exists v', kept data_section (reads_data ie buf) l None v').
    { destruct (no_last data_section l DD) as [[h L]|N]; [|exists None; right; auto]. pose proof L as (a & b & Eq & Th & _).
      assert (RH : readable ie buf h) by (rewrite Forall_forall in F; apply F; rewrite Eq; apply in_app_iff; right; now left). destruct (proj2 RH Th) as [x X]. exists (Some x). left. eauto 6. }
    destruct K1 as [t' K1], K2 as [v' K2]. pose proof (proj2 (LI t' v') (conj F (conj K1 K2))) as H. rewrite H in E. discriminate E.
Qed.
Lemma parse_none V (ie : idl_env V) buf l : ie_elf ie buf = Some l -> near buf l -> idl_cli ie buf = Ok None <->
  Forall (readable ie buf) l /\ (Forall (fun h => ~ type_section h) l \/ Forall (fun h => ~ data_section h) l).
Proof.
  intros He [HB FN]. unfold idl_cli, parse_idl. rewrite He. pose proof (fun t' v' => loop_iff V ie buf HB l FN None None t' v') as LI. split.
  - intro H. destruct (idl_loop ie buf l None None) as [[t' v']| | | |] eqn:E; cbn [bind] in H; try discriminate;
      [|destruct (loop_cases V ie buf l None None) as [[p Q]|Q]; congruence].
    destruct (proj1 (LI _ _) eq_refl) as (F & K1 & K2). split; [exact F|]. destruct K1 as [(h & x & L & R & Q)|[N _]]; [|now left].
    destruct K2 as [(h2 & x2 & L2 & R2 & Q2)|[N _]]; [|now right]. subst. discriminate H.
  - intros [F N]. destruct (loop_cases V ie buf l None None) as [[[t' v'] E]|E].
    + rewrite E. cbn [bind]. apply LI in E as (_ & K1 & K2). destruct N as [N|N].
      * destruct K1 as [(h & x & (a & b & -> & Th & _) & _)|[_ ->]]; [|reflexivity]. apply Forall_app in N as [_ N]. apply Forall_cons_iff in N as [N _]. contradiction.
      * destruct K2 as [(h & x & (a & b & -> & Th & _) & _)|[_ ->]]; [|destruct t'; reflexivity]. apply Forall_app in N as [_ N]. apply Forall_cons_iff in N as [N _]. contradiction.
    + exfalso. assert (P : parse_idl ie buf = Panic) by (unfold parse_idl; rewrite He, E; reflexivity). apply (parse_panics V ie buf l He (conj HB FN)) in P. contradiction.
Qed.
(** what include_idl! and compress_idl leave *)
Lemma included_read V (ie : idl_env V) buf l t z j v h h2 : ie_elf ie buf = Some l -> near buf l ->
  (forall x, In x l -> type_section x <-> x = h) -> (forall x, In x l -> data_section x <-> x = h2) -> In h l -> In h2 l ->
  points_to buf (snd h) (idl_str t) -> points_to buf (snd h2) z -> ie_inflate ie z = Some j -> ie_json ie j = Some v ->
  idl_cli ie buf = Ok (Some (idl_str t, v)).
Proof.
  intros He HN HT HD I1 I2 P1 P2 ZI J. unfold idl_cli.
  assert (RT : reads_type buf h t) by (exists (idl_str t); split; [exact P1|]; unfold spells; destruct t; repeat constructor).
  assert (RD : reads_data ie buf h2 v) by (exists z, j; auto).
  assert (LS : forall (P : option bytes * Z -> Prop) k, (forall x, In x l -> P x <-> x = k) -> In k l -> (forall x, P x \/ ~ P x) -> last_such P l k).
  { intros P k U Ik D. destruct (no_last P l D) as [[y L]|N].
    - pose proof L as (a & b & Eq & Py & _). assert (y = k) as <- by (apply U; [rewrite Eq; apply in_app_iff; right; now left|exact Py]). exact L.
    - exfalso. rewrite Forall_forall in N. exact (N k Ik (proj2 (U k Ik) eq_refl)). }
  rewrite (proj2 (parse_iff V ie buf l t v He HN)); [reflexivity|]. split.
  - apply Forall_forall. intros x Ix. split; intro Q; [apply HT in Q|apply HD in Q]; try assumption; subst; eauto.
  - split; [exists h|exists h2]; (split; [|assumption]); apply LS; try assumption; intro x; destruct (name_dec x) as [T|[D|[T D]]]; auto; right; intro Q; eauto using sections_differ.
Qed.

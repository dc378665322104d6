(** The JavaScript account reader. *)
From Verif Require Import Base State Layout Constr Ext ExtLen World Proc Borsh Client Js BaseL Spec SpecB SpecC SpecI SpecF SpecJ WorldL LayoutL LayoutE HeadL AuthL CreatorsL ConstrL ReadsL CodecL BorshL ExactL AcceptL JsL JsM.
From Coq Require Import Strings.Byte.

(** ** Primitive readers *)
Lemma fixed_app n a r : length a = n -> jr_fixed n (a ++ r) = Some (a, r).
Proof.
  intro H. unfold jr_fixed. rewrite app_length, H. replace (Nat.leb n (n + length r)) with true by (symmetry; apply Nat.leb_le; lia).
  rewrite firstn_app, skipn_app, H, Nat.sub_diag, firstn_all2, skipn_all2 by lia. rewrite firstn_O, app_nil_r. reflexivity.
Qed.
Lemma fixed_inv n b a r : jr_fixed n b = Some (a, r) -> length a = n /\ b = a ++ r.
Proof.
  unfold jr_fixed. destruct (Nat.leb n (length b)) eqn:E; [|discriminate]. intro H. apply Some_inj in H. apply pair_equal_spec in H as [<- <-].
  apply Nat.leb_le in E. split; [rewrite firstn_length; lia|]. now rewrite firstn_skipn.
Qed.
Lemma u_app n a r : length a = n -> jr_u n (a ++ r) = Some (le_dec a, r).
Proof. intro H. unfold jr_u, rbind. now rewrite fixed_app. Qed.
Lemma u_inv n b z r : jr_u n b = Some (z, r) -> exists a, length a = n /\ b = a ++ r /\ z = le_dec a.
Proof.
  unfold jr_u, rbind. destruct (jr_fixed n b) as [[a r']|] eqn:E; [|discriminate]. unfold rret. intro H. apply Some_inj in H. apply pair_equal_spec in H as [<- <-].
  apply fixed_inv in E as [L ->]. eauto.
Qed.
Lemma u1_cons x r : jr_u 1 (x :: r) = Some (b2z x, r).
Proof. change (x :: r) with ([x] ++ r). rewrite u_app by reflexivity. cbn [le_dec]. now rewrite Z.mul_0_r, Z.add_0_r. Qed.
Lemma bool_cons x r : jr_bool (x :: r) = Some (beqb x x01, r).
Proof.
  unfold jr_bool, rbind. rewrite u1_cons. unfold rret. do 2 f_equal. destruct (beqb x x01) eqn:E.
  - apply beqb_eq in E as ->. reflexivity.
  - apply Z.eqb_neq. intro H. apply (f_equal z2b) in H. rewrite z2b_b2z in H. subst x. discriminate E.
Qed.
Lemma str8_pstr b : jr_str8 b = match pstr b with Ok s => Some (seen_text s, drop (pstr_size s) b) | _ => None end.
Proof.
  destruct b as [|n r]; [reflexivity|]. unfold jr_str8, rbind. rewrite u1_cons. unfold pstr, guard, jr_fixed. pose proof (b2z_range n) as R.
  destruct (Z.leb_spec (b2z n) (zlen r)) as [L|L]; unfold zlen in L.
  - replace (Nat.leb (Z.to_nat (b2z n)) (length r)) with true by (symmetry; apply Nat.leb_le; lia). unfold rret. do 2 f_equal. unfold drop, pstr_size, zlen.
    rewrite firstn_length. replace (Z.to_nat (1 + Z.of_nat (Nat.min (Z.to_nat (b2z n)) (length r)))) with (S (Z.to_nat (b2z n))) by lia. reflexivity.
  - replace (Nat.leb (Z.to_nat (b2z n)) (length r)) with false by (symmetry; apply Nat.leb_gt; lia). reflexivity.
Qed.
Lemma pstr_total b : pstr b = Panic \/ exists s, pstr b = Ok s.
Proof. unfold pstr, guard. destruct b; [auto|]. destruct (_ <=? _); eauto. Qed.
Lemma nullable_app k r : length k = 32%nat -> jr_nullable (k ++ r) = Some (seen_key k, r).
Proof. intro H. unfold jr_nullable, rbind. now rewrite fixed_app. Qed.
Lemma roles_cons m r : jr_roles (m :: r) = Some (seen_roles m, r).
Proof. unfold jr_roles, rbind. rewrite u1_cons. unfold rret. do 2 f_equal. now destruct m. Qed.

(** ** Lists *)
Lemma many_pairs fuel : forall b, (length b < fuel)%nat ->
  jr_many fuel jr_pair b = match parse_pairs fuel b with Ok l => Some (map seen_pair l) | _ => None end.
Proof.
  induction fuel as [|fuel IH]; intros b F; [lia|]. cbn [jr_many parse_pairs]. destruct b as [|x b]; [reflexivity|]. set (B := x :: b) in *.
  unfold jr_pair, rbind at 1. rewrite str8_pstr. destruct (pstr_total B) as [Q|[n Q]]; rewrite Q; [reflexivity|]. cbn [bind].
  unfold rbind. rewrite str8_pstr. destruct (pstr_total (drop (pstr_size n) B)) as [Q2|[v Q2]]; rewrite Q2; [reflexivity|]. cbn [bind]. unfold rret.
  replace (drop (pstr_size v) (drop (pstr_size n) B)) with (drop (pstr_size n + pstr_size v) B)
    by (unfold drop; rewrite skipn_skipn; f_equal; unfold pstr_size; pose proof (zlen_nonneg n); pose proof (zlen_nonneg v); lia).
  rewrite IH; [destruct (parse_pairs fuel _); reflexivity|]. unfold drop. rewrite skipn_length. unfold pstr_size. pose proof (zlen_nonneg n). pose proof (zlen_nonneg v). cbn [length B] in *. lia.
Qed.
Lemma property_val b n r0 : jr_str8 b = Some (n, r0) -> jr_property b =
  match parse_prop_val r0 with Ok v => Some ((n, seen_value v), drop (prop_val_size v) r0) | _ => None end.
Proof.
  intro H. unfold jr_property, rbind at 1. rewrite H. destruct r0 as [|t r]; [reflexivity|]. unfold rbind at 1. rewrite u1_cons. unfold parse_prop_val.
  destruct (b2z t =? 0); [|destruct (b2z t =? 1); [|destruct (b2z t =? 2); [|reflexivity]]].
  - unfold rbind. rewrite str8_pstr. destruct (pstr_total r) as [Q|[s Q]]; rewrite Q; [reflexivity|]. cbn [bind seen_value prop_val_size]. unfold rret. do 2 f_equal.
    unfold drop, pstr_size. pose proof (zlen_nonneg s). replace (Z.to_nat (1 + (1 + zlen s))) with (S (Z.to_nat (1 + zlen s))) by lia. reflexivity.
  - unfold rbind, jr_u, jr_fixed, rbind, guard. destruct (Z.leb_spec 8 (zlen r)) as [L|L]; unfold zlen in L.
    + replace (Nat.leb 8 (length r)) with true by (symmetry; apply Nat.leb_le; lia). unfold rret. cbn [seen_value prop_val_size]. do 2 f_equal.
      unfold drop, zlen. rewrite firstn_length. replace (Z.to_nat (1 + Z.of_nat (Nat.min 8 (length r)))) with 9%nat by lia. reflexivity.
    + replace (Nat.leb 8 (length r)) with false by (symmetry; apply Nat.leb_gt; lia). reflexivity.
  - destruct r as [|y r]; [reflexivity|]. unfold rbind. rewrite bool_cons. reflexivity.
Qed.
Lemma prop_val_total b : parse_prop_val b = Panic \/ exists v, parse_prop_val b = Ok v.
Proof.
  unfold parse_prop_val, guard. destruct b as [|t r]; [auto|]. destruct (b2z t =? 0).
  - destruct (pstr_total r) as [Q|[s Q]]; rewrite Q; cbn [bind]; eauto.
  - destruct (b2z t =? 1); [destruct (_ <=? _); eauto|]. destruct (b2z t =? 2); [destruct r; eauto|auto].
Qed.
Definition seen_prop (p : bytes * prop_val) : bytes * jval := (seen_text (fst p), seen_value (snd p)).
Lemma many_props fuel : forall b, (length b < fuel)%nat ->
  jr_many fuel jr_property b = match parse_props fuel b with Ok l => Some (map seen_prop l) | _ => None end.
Proof.
  induction fuel as [|fuel IH]; intros b F; [lia|]. cbn [jr_many parse_props]. destruct b as [|x b]; [reflexivity|]. set (B := x :: b) in *.
  destruct (pstr_total B) as [Q|[n Q]]; rewrite Q.
  { cbn [bind]. unfold jr_property, rbind at 1. rewrite str8_pstr, Q. reflexivity. }
  rewrite (property_val B (seen_text n) (drop (pstr_size n) B)) by (rewrite str8_pstr, Q; reflexivity). cbn [bind].
  destruct (prop_val_total (drop (pstr_size n) B)) as [Q2|[v Q2]]; rewrite Q2; [reflexivity|]. cbn [bind].
  pose proof (parse_val_ok _ _ Q2) as (_ & V & _). pose proof (zlen_nonneg n).
  replace (drop (prop_val_size v) (drop (pstr_size n) B)) with (drop (pstr_size n + prop_val_size v) B)
    by (unfold drop; rewrite skipn_skipn; f_equal; unfold pstr_size; lia).
  rewrite IH; [destruct (parse_props fuel _); reflexivity|]. unfold drop. rewrite skipn_length. unfold pstr_size. cbn [length B] in *. lia.
Qed.
Lemma creator_app k v s r : length k = 32%nat -> jr_creator (k ++ [v; s] ++ r) = Some ((k, beqb v x01, b2z s), r).
Proof. intro H. unfold jr_creator, rbind. rewrite fixed_app by assumption. cbn [app]. now rewrite bool_cons, u1_cons. Qed.
Lemma creator_inv b c r : jr_creator b = Some (c, r) -> exists k v s, length k = 32%nat /\ b = k ++ [v; s] ++ r.
Proof.
  unfold jr_creator, rbind. destruct (jr_fixed 32 b) as [[k b1]|] eqn:E1; [|discriminate]. apply fixed_inv in E1 as [K ->].
  destruct b1 as [|v b1]; [discriminate|]. rewrite bool_cons. destruct b1 as [|s b1]; [discriminate|]. rewrite u1_cons. unfold rret. intro H. apply Some_inj in H.
  apply pair_equal_spec in H as [_ <-]. exists k, v, s. auto.
Qed.
Lemma many_creators l : forall fuel, cr_wf l -> (length (enc_creators l) < fuel)%nat -> jr_many fuel jr_creator (enc_creators l) = Some (map seen_creator l).
Proof.
  induction l as [|c l IH]; intros fuel W F; (destruct fuel as [|fuel]; [lia|]); [reflexivity|]. apply Forall_cons_iff in W as [Wc Wl].
  change (enc_creators (c :: l)) with (enc_creator c ++ enc_creators l) in *. unfold enc_creator in *. rewrite <- app_assoc in *.
  cbn [jr_many]. destruct (cr_addr c ++ [cr_verified c; cr_share c] ++ enc_creators l) as [|y ys] eqn:E; [destruct (cr_addr c); discriminate E|].
  rewrite <- E. rewrite creator_app by assumption. rewrite IH; [reflexivity|assumption|]. rewrite <- E in F. rewrite !app_length in F. cbn [length] in F. lia.
Qed.
Lemma many_creators_len fuel : forall b l, jr_many fuel jr_creator b = Some l -> exists n, length b = (34 * n)%nat.
Proof.
  induction fuel as [|fuel IH]; intros [|x b] l H; try (exists 0%nat; reflexivity); [discriminate H|]. cbn [jr_many] in H. set (B := x :: b) in *.
  destruct (jr_creator B) as [[c r]|] eqn:E; [|discriminate]. destruct (jr_many fuel jr_creator r) as [l'|] eqn:E2; [|discriminate].
  apply IH in E2 as (n & N). apply creator_inv in E as (k & v & s & K & ->). exists (S n). rewrite !app_length, N, K. cbn [length]. lia.
Qed.
Lemma many_keys ks : forall fuel, Forall key32 ks -> (length (concat ks) < fuel)%nat -> jr_many fuel (jr_fixed 32) (concat ks) = Some ks.
Proof.
  induction ks as [|k ks IH]; intros fuel W F; (destruct fuel as [|fuel]; [lia|]); [reflexivity|]. apply Forall_cons_iff in W as [Wk Wl]. cbn [concat] in *.
  cbn [jr_many]. destruct (k ++ concat ks) as [|y ys] eqn:E; [destruct k; discriminate|]. rewrite <- E. rewrite fixed_app by exact Wk. rewrite IH; [reflexivity|assumption|].
  rewrite <- E in F. rewrite app_length in F. unfold key32 in Wk. lia.
Qed.

(** ** Constraints *)
Lemma keys_read who ks body : key_list who ks body -> exists a, jr_keys body = Some ((a, ks), []) /\ cacct_code a = who.
Proof.
  intros (W & F & ->). unfold jr_keys, rbind at 1. unfold jr_account, rbind at 1. rewrite u_app by apply le_enc_length.
  rewrite le_dec_enc8 by (unfold two64; lia).
  assert (R : rbind (jr_remainder (jr_fixed 32)) (fun ks0 => rret (AAsset, ks0)) (concat ks) = Some ((AAsset, ks), []) /\
              rbind (jr_remainder (jr_fixed 32)) (fun ks0 => rret (AAuthority, ks0)) (concat ks) = Some ((AAuthority, ks), []) /\
              rbind (jr_remainder (jr_fixed 32)) (fun ks0 => rret (ARecipient, ks0)) (concat ks) = Some ((ARecipient, ks), []))
    by (unfold rbind, jr_remainder; rewrite many_keys by (try exact F; lia); auto).
  destruct R as (R1 & R2 & R3).
  assert (who = 0 \/ who = 1 \/ who = 2) as [E | [E | E]] by lia; subst who; cbn [Z.eqb]; unfold rret at 1;
    [exists AAsset|exists AAuthority|exists ARecipient]; (split; [assumption|reflexivity]).
Qed.
Lemma op_read ty body rest b : 0 <= ty <= 5 -> operator ty body rest b ->
  exists x tl, b = x :: tl /\ b2z x = ty /\ rbind (jr_u 4) (fun _ => jr_u 4) b = Some (zlen body, body ++ rest) /\ (length body + 8 + length rest = length b)%nat.
Proof.
  intros Ht (L & ->). pose proof (zlen_nonneg body).
  exists (z2b ty), (skipn 1 (le_enc 4 ty) ++ le_enc 4 (zlen body) ++ body ++ rest). split; [reflexivity|].
  split; [rewrite b2z_z2b, Z.mod_small; lia|]. split.
  - unfold rbind. rewrite u_app by apply le_enc_length. rewrite u_app by apply le_enc_length. rewrite le_dec_enc4 by (unfold u32_max; lia). reflexivity.
  - rewrite !app_length, !le_enc_length. lia.
Qed.
Lemma reads_js : (forall b r rest, reads b r rest -> forall fuel, (2 * length b + 2 <= fuel)%nat -> exists c, jr_constr fuel b = Some (c, rest) /\ jrule c = r) /\
  (forall b l, reads_list b l -> forall fuel, (2 * length b + 3 <= fuel)%nat -> exists cs, jr_constrs fuel b = Some cs /\ map jrule cs = l).
Proof.
  assert (HB : forall ty body rest b, operator ty body rest b -> 0 <= ty <= 5 -> forall f,
    jr_constr (S f) b =
      match ty with
      | 0 => match jr_constrs f body with Some l => Some (JAnd l, rest) | None => None end
      | 1 => match jr_constr f body with Some (c, _) => Some (JNot c, rest) | None => None end
      | 2 => match jr_constrs f body with Some l => Some (JOr l, rest) | None => None end
      | 3 => match jr_keys body with Some (p, _) => Some (JOwnedBy (fst p) (snd p), rest) | None => None end
      | 4 => match jr_keys body with Some (p, _) => Some (JPubkeyMatch (fst p) (snd p), rest) | None => None end
      | _ => Some (JEmpty, rest)
      end).
  { intros ty body rest b O Ht f. destruct (op_read ty body rest b Ht O) as (x & tl & E & X & R & _). cbn [jr_constr]. rewrite R. rewrite E, X.
    assert (F1 : firstn (Z.to_nat (zlen body)) (body ++ rest) = body) by (unfold zlen; rewrite Nat2Z.id, firstn_app, firstn_all, Nat.sub_diag, firstn_O; apply app_nil_r).
    assert (F2 : skipn (Z.to_nat (zlen body)) (body ++ rest) = rest) by (unfold zlen; rewrite Nat2Z.id, skipn_app, skipn_all, Nat.sub_diag; reflexivity).
    rewrite F1, F2. assert (ty = 0 \/ ty = 1 \/ ty = 2 \/ ty = 3 \/ ty = 4 \/ ty = 5) as [-> | [-> | [-> | [-> | [-> | ->]]]]] by lia; try reflexivity.
    - now destruct (jr_constrs f body).
    - now destruct (jr_constr f body) as [[c ?]|].
    - now destruct (jr_constrs f body).
    - now destruct (jr_keys body) as [[c ?]|].
    - now destruct (jr_keys body) as [[c ?]|]. }
  assert (LB : forall ty body rest b, operator ty body rest b -> (length body + 8 + length rest = length b)%nat).
  { intros ty body rest b [_ ->]. rewrite !app_length, !le_enc_length. lia. }
  apply reads_mut.
  - intros b body rest l O _ IH fuel F. destruct fuel as [|f]; [lia|]. rewrite (HB 0 body rest b O) by lia. apply LB in O. destruct (IH f) as (cs & E & R); [lia|]. rewrite E. exists (JAnd cs). split; [reflexivity|]. cbn [jrule]. now rewrite R.
  - intros b body rest r junk O _ IH fuel F. destruct fuel as [|f]; [lia|]. rewrite (HB 1 body rest b O) by lia. apply LB in O. destruct (IH f) as (cs & E & R); [lia|]. rewrite E. exists (JNot cs). split; [reflexivity|]. cbn [jrule]. now rewrite R.
  - intros b body rest l O _ IH fuel F. destruct fuel as [|f]; [lia|]. rewrite (HB 2 body rest b O) by lia. apply LB in O. destruct (IH f) as (cs & E & R); [lia|]. rewrite E. exists (JOr cs). split; [reflexivity|]. cbn [jrule]. now rewrite R.
  - intros b body rest who ks O K fuel F. destruct fuel as [|f]; [lia|]. rewrite (HB 3 body rest b O) by lia. destruct (keys_read _ _ _ K) as (a & E & A). rewrite E. cbn [fst snd]. eexists. split; [reflexivity|]. cbn [jrule]. now rewrite A.
  - intros b body rest who ks O K fuel F. destruct fuel as [|f]; [lia|]. rewrite (HB 4 body rest b O) by lia. destruct (keys_read _ _ _ K) as (a & E & A). rewrite E. cbn [fst snd]. eexists. split; [reflexivity|]. cbn [jrule]. now rewrite A.
  - intros b body rest O fuel F. destruct fuel as [|f]; [lia|]. rewrite (HB 5 body rest b O) by lia. exists JEmpty. auto.
  - intros fuel F. destruct fuel as [|f]; [lia|]. exists []. auto.
  - intros b r rest l R1 IH1 R2 IH2 fuel F. destruct fuel as [|f]; [lia|]. destruct (IH1 f) as (c & E & R); [lia|].
    assert (L : (length rest + 8 <= length b)%nat) by (inversion R1; subst; match goal with O : operator _ _ _ _ |- _ => apply LB in O; lia end).
    destruct (IH2 f) as (cs & E2 & R3); [lia|]. exists (c :: cs). cbn [jr_constrs]. destruct b as [|x b]; [cbn [length] in L; lia|]. rewrite E, E2. split; [reflexivity|]. cbn [map]. congruence.
Qed.
Lemma jrule_inj c : forall c', jrule c = jrule c' -> c = c'.
Proof.
  assert (L : forall l, Forall (fun c => forall c', jrule c = jrule c' -> c = c') l -> forall l', map jrule l = map jrule l' -> l = l').
  { induction 1 as [|x l H _ IH]; intros [|y l'] E; try discriminate E; [reflexivity|]. cbn [map] in E. injection E as E1 E2. f_equal; auto. }
  assert (A : forall a a', cacct_code a = cacct_code a' -> a = a') by (intros [] []; cbn; congruence).
  induction c as [l IH|l IH|x IH|a ks|a ks|] using jcon_ind2; intros [l'|x'|l'|a' ks'|a' ks'|] E; cbn [jrule] in E; try discriminate E.
  - f_equal. apply (L l IH). congruence.
  - f_equal. apply (L l IH). congruence.
  - f_equal. apply IH. congruence.
  - injection E as E1 E2. f_equal; auto.
  - injection E as E1 E2. f_equal; auto.
  - reflexivity.
Qed.

(** ** Payloads *)
Definition whole (t : ext_type) (b pad : bytes) : bytes := match t with XMetadata => b ++ pad | _ => b end.
Definition js_reads (t : ext_type) (b : bytes) (x : jext) : Prop := exists r, js_read t b = Some (x, r).
Lemma some_pair {A B} (a a' : A) (b b' : B) : Some (a, b) = Some (a', b') <-> a = a' /\ b = b'.
Proof. split; [intro H; apply Some_inj in H; now apply pair_equal_spec|intros [-> ->]; reflexivity]. Qed.
Lemma pstring_app s bs r : pstring s bs -> jr_str8 (bs ++ r) = Some (seen_text s, r).
Proof.
  intros [L ->]. rewrite str8_pstr. change (z2b (zlen s) :: s) with (enc_pstr s). rewrite pstr_enc by exact L. now rewrite drop_app by now rewrite enc_pstr_size.
Qed.
Lemma str8_inv b s r : jr_str8 b = Some (s, r) -> exists s' bs, pstring s' bs /\ b = bs ++ r /\ s = seen_text s'.
Proof.
  rewrite str8_pstr. destruct (pstr_total b) as [Q|[n Q]]; rewrite Q; [discriminate|]. intro H. apply some_pair in H as [<- <-].
  apply pstr_ok in Q as [S1 E]. exists n, (enc_pstr n). split; [split; [exact S1|reflexivity]|]. auto.
Qed.
Lemma metadata_read b x : js_reads XMetadata b x <-> exists s d u i s' d' u' i' bs bd bu bi junk, x = JMetadata s d u i /\
   pstring s' bs /\ pstring d' bd /\ pstring u' bu /\ pstring i' bi /\ b = bs ++ bd ++ bu ++ bi ++ junk /\
   s = seen_text s' /\ d = seen_text d' /\ u = seen_text u' /\ i = seen_text i'.
Proof.
  unfold js_reads, js_read. split.
  - intros (r & H). unfold rbind in H.
    destruct (jr_str8 b) as [[s b1]|] eqn:E1; [|discriminate]. destruct (jr_str8 b1) as [[d b2]|] eqn:E2; [|discriminate].
    destruct (jr_str8 b2) as [[u b3]|] eqn:E3; [|discriminate]. destruct (jr_str8 b3) as [[i b4]|] eqn:E4; [|discriminate].
    unfold rret in H. apply some_pair in H as [<- _].
    apply str8_inv in E1 as (s' & bs & P1 & -> & Q1). apply str8_inv in E2 as (d' & bd & P2 & -> & Q2). apply str8_inv in E3 as (u' & bu & P3 & -> & Q3). apply str8_inv in E4 as (i' & bi & P4 & -> & Q4).
    exists s, d, u, i, s', d', u', i', bs, bd, bu, bi, b4. auto 12.
  - intros (s & d & u & i & s' & d' & u' & i' & bs & bd & bu & bi & junk & -> & P1 & P2 & P3 & P4 & -> & -> & -> & -> & ->). exists junk. unfold rbind.
    rewrite (pstring_app s') by assumption. rewrite (pstring_app d') by assumption. rewrite (pstring_app u') by assumption. rewrite (pstring_app i') by assumption. reflexivity.
Qed.
Lemma js_read_type t b x r : js_read t b = Some (x, r) -> t = jext_type x.
Proof.
  destruct t; cbn [js_read]; unfold rbind, rfail, rret; try discriminate;
    repeat match goal with |- context[match ?p with Some _ => _ | None => _ end] => destruct p as [[? ?]|]; [|discriminate] end;
    intro H; apply some_pair in H as [<- _]; reflexivity.
Qed.
Lemma split_at (b : bytes) n : (n <= length b)%nat -> exists a c, b = a ++ c /\ length a = n.
Proof. intro H. exists (firstn n b), (skipn n b). split; [now rewrite firstn_skipn|]. rewrite firstn_length. lia. Qed.
Lemma read_shown t b pad x : parses t b -> (js_reads t (whole t b pad) x <-> shown t b pad x).
Proof.
  intro P. split.
  - intros (r & H). pose proof (js_read_type _ _ _ _ H) as T. split; [exact T|].
    destruct t; cbn [js_read whole parses] in H, P; try (unfold rfail in H; discriminate H).
    + unfold rbind, jr_remainder in H. rewrite many_pairs in H by lia. unfold attributes_from_bytes. destruct (parse_pairs (S (length b)) b) as [l| | | |]; try discriminate.
      unfold rret in H. apply some_pair in H as [<- _]. exists l. auto.
    + unfold rbind in H. rewrite str8_pstr in H. unfold blob_from_bytes. destruct (pstr_total b) as [Q|[n Q]]; rewrite Q in *; [discriminate|].
      unfold jr_rest, rret in H. apply some_pair in H as [<- _]. exists n. auto.
    + unfold rbind, jr_remainder in H. destruct (proj2 (creators_goes b) P) as (l & E). pose proof E as E'. apply creators_exact in E' as [E' _]. pose proof E as F. apply from_bytes_ok in F as (_ & _ & W & _).
      rewrite <- E' in H. rewrite many_creators in H by (try assumption; lia). unfold rret in H. apply some_pair in H as [<- _]. exists l. auto.
    + unfold rbind, jr_remainder in H. rewrite many_pairs in H by lia. unfold links_from_bytes. destruct (parse_pairs (S (length b)) b) as [l| | | |]; try discriminate.
      unfold rret in H. apply some_pair in H as [<- _]. exists l. auto.
    + destruct (proj1 (metadata_read (b ++ pad) x) (ex_intro _ r H)) as (s & d & u & i & s' & d' & u' & i' & bs & bd & bu & bi & junk & -> & Q).
      exists s', d', u', i', bs, bd, bu, bi, junk. exact Q.
    + unfold rbind in H. destruct (jr_u 8 b) as [[s b1]|] eqn:E1; [|discriminate]. destruct (jr_u 8 b1) as [[m b2]|] eqn:E2; [|discriminate].
      apply u_inv in E1 as (a1 & L1 & -> & ->). apply u_inv in E2 as (a2 & L2 & -> & ->). unfold jr_nullable, rbind in H.
      destruct (jr_fixed 32 b2) as [[k b3]|] eqn:E3; [|discriminate]. apply fixed_inv in E3 as [L3 ->]. unfold rret in H. apply some_pair in H as [<- <-].
      rewrite !app_length in P. assert (b3 = []) as -> by (apply length_zero_iff_nil; lia). rewrite app_nil_r in *. exists k.
      assert (L : zlen (a1 ++ a2 ++ k) = 48) by (unfold zlen; rewrite !app_length; lia). split; [exact L|]. split; [|reflexivity].
      unfold grouping_from_bytes, guard. rewrite L. change (16 <=? 48) with true. change (0 mod 8 =? 0) with true. cbv iota.
      assert (S : skipn 16 (a1 ++ a2 ++ k) = k) by (rewrite app_assoc, skipn_app, skipn_all2 by (rewrite app_length; lia); rewrite app_length, L1, L2; reflexivity).
      rewrite S. replace (zlen k) with 32 by (unfold zlen; lia). cbv zeta. change (32 <=? 32) with true. change (32 <? 32) with false. cbv iota.
      rewrite (fld_head a1) by (unfold zlen; lia). rewrite (fld_mid a1 a2) by (unfold zlen; lia). reflexivity.
    + destruct (proj2 (royalties_goes 0 b eq_refl) P) as ([bp c] & R). pose proof R as R'. unfold royalties_from_bytes in R'. apply guard_ok in R' as [L8 R']. apply guard_ok in R' as [_ R'].
      apply bind_ok in R' as (c' & Hc & R'). apply Ok_inj in R'. apply pair_equal_spec in R' as [Eb Ec]. subst c'.
      destruct (split_at b 8) as (a1 & b1 & -> & L1); [unfold zlen in L8; lia|]. unfold rbind in H. rewrite u_app in H by assumption.
      assert (S : skipn 8 (a1 ++ b1) = b1) by (rewrite skipn_app, skipn_all2, L1 by lia; reflexivity). rewrite S in Hc. apply from_bytes_reads in Hc.
      destruct (proj1 reads_js _ _ _ Hc (constr_fuel b1)) as (jc & J1 & J2); [unfold constr_fuel; lia|]. unfold jr_constraint in H. rewrite J1 in H. unfold rret in H. apply some_pair in H as [<- _].
      rewrite (fld_head a1) in Eb by (unfold zlen; lia). subst bp. exists c. auto.
    + unfold rbind, jr_nullable, rbind in H. destruct (jr_fixed 32 b) as [[k b1]|] eqn:E1; [|discriminate]. apply fixed_inv in E1 as [L1 ->]. unfold rret at 1 in H.
      destruct b1 as [|m b2]; [discriminate|]. rewrite roles_cons in H. unfold rret in H. apply some_pair in H as [<- <-]. exists k, m. split; [|auto].
      unfold manager_from_bytes, load_delegate, guard. replace (33 <=? zlen (k ++ m :: b2)) with true by (unfold zlen; rewrite app_length; cbn [length]; lia).
      f_equal. f_equal.
      * change 0 with (zlen (@nil byte)). rewrite <- (app_nil_l (k ++ _)). apply fld_mid; [reflexivity|unfold zlen; lia].
      * unfold byte_at. rewrite app_nth2 by (change (Z.to_nat 32) with 32%nat; lia). rewrite L1. reflexivity.
    + unfold rbind, jr_nullable, rbind in H. destruct (jr_fixed 32 b) as [[p b1]|] eqn:E1; [|discriminate]. apply fixed_inv in E1 as [L1 ->].
      destruct (jr_fixed 32 b1) as [[s b2]|] eqn:E2; [|discriminate]. apply fixed_inv in E2 as [L2 ->]. destruct b2 as [|n b3]; [discriminate|]. rewrite u1_cons in H.
      destruct (jr_fixed 32 b3) as [[a b4]|] eqn:E3; [|discriminate]. apply fixed_inv in E3 as [L3 ->]. unfold rret in H. apply some_pair in H as [<- <-].
      rewrite !app_length in P. cbn [length] in P. rewrite app_length in P. assert (b4 = []) as -> by (apply length_zero_iff_nil; lia). rewrite app_nil_r. exists n, a. split; [|auto].
      unfold proxy_from_bytes, guard. replace (zlen (p ++ s ++ n :: a) =? 97) with true by (unfold zlen; rewrite !app_length; cbn [length]; lia). f_equal.
      rewrite (fld_head p) by (unfold zlen; lia). rewrite (fld_mid p s) by (unfold zlen; lia). f_equal.
      * unfold byte_at. rewrite app_assoc, app_nth2 by (rewrite app_length; change (Z.to_nat 64) with 64%nat; lia). rewrite app_length, L1, L2. reflexivity.
      * change (n :: a) with ([n] ++ a). rewrite !app_assoc. rewrite <- (app_nil_r a) at 1. apply fld_mid; [unfold zlen; rewrite !app_length; cbn [length]; lia|unfold zlen; lia].
    + unfold rbind, jr_remainder in H. rewrite many_props in H by lia. unfold properties_from_bytes. destruct (parse_props (S (length b)) b) as [l| | | |]; try discriminate.
      unfold rret in H. apply some_pair in H as [<- _]. exists l. auto.
    + unfold rbind, jr_rest, rret in H. apply some_pair in H as [<- _]. reflexivity.
  - intros [-> S]. destruct x as [v|ct dat|v|v|s d u i|size max del|bp c|addr roles|prog seeds bump auth|v|dat]; cbn [jext_type whole js_read] in *.
    + destruct S as (l & E & ->). exists []. unfold js_read, rbind, jr_remainder. rewrite many_pairs by lia. unfold attributes_from_bytes in E. rewrite E. reflexivity.
    + destruct S as (s & E & ->). unfold blob_from_bytes in E. apply bind_ok in E as (s' & E1 & E2). apply Ok_inj in E2. apply pair_equal_spec in E2 as [-> <-].
      exists []. unfold js_read, rbind. rewrite str8_pstr, E1. reflexivity.
    + destruct S as (l & E & ->). pose proof E as E'. apply creators_exact in E' as [E' _]. apply from_bytes_ok in E as (_ & _ & W & _).
      exists []. unfold js_read, rbind, jr_remainder. rewrite <- E'. rewrite many_creators by (try assumption; lia). reflexivity.
    + destruct S as (l & E & ->). exists []. unfold js_read, rbind, jr_remainder. rewrite many_pairs by lia. unfold links_from_bytes in E. rewrite E. reflexivity.
    + apply metadata_read. destruct S as (s' & d' & u' & i' & bs & bd & bu & bi & junk & Q). exists s, d, u, i, s', d', u', i', bs, bd, bu, bi, junk. split; [reflexivity|exact Q].
    + destruct S as (k & L & E & ->). unfold zlen in L. destruct (split_at b 8) as (a1 & b1 & -> & L1); [lia|]. rewrite app_length in L.
      destruct (split_at b1 8) as (a2 & b2 & -> & L2); [lia|]. rewrite app_length in L. exists []. unfold js_read, rbind. rewrite u_app by assumption. rewrite u_app by assumption.
      rewrite <- (app_nil_r b2). rewrite nullable_app by lia. unfold rret. do 2 f_equal.
      unfold grouping_from_bytes in E. apply guard_ok in E as [_ E]. apply guard_ok in E as [_ E]. cbv zeta in E. apply guard_ok in E as [_ E]. apply Ok_inj in E.
      pose proof (f_equal g_size E) as E1. pose proof (f_equal g_max E) as E2. pose proof (f_equal g_delegate E) as E3. clear E. cbn [g_size g_max g_delegate] in E1, E2, E3.
      assert (S : skipn 16 (a1 ++ a2 ++ b2) = b2) by (rewrite app_assoc, skipn_app, skipn_all2 by (rewrite app_length; lia); rewrite app_length, L1, L2; reflexivity).
      rewrite S in E3. replace (zlen b2 <? 32) with false in E3 by (unfold zlen; lia). rewrite (fld_head a1) in E1 by (unfold zlen; lia). rewrite (fld_mid a1 a2) in E2 by (unfold zlen; lia). congruence.
    + destruct S as (r & E & J). pose proof E as R'. unfold royalties_from_bytes in R'. apply guard_ok in R' as [L8 R']. apply guard_ok in R' as [_ R'].
      apply bind_ok in R' as (c' & Hc & R'). apply Ok_inj in R'. apply pair_equal_spec in R' as [Eb Ec]. subst c'.
      destruct (split_at b 8) as (a1 & b1 & -> & L1); [unfold zlen in L8; lia|]. unfold js_reads, js_read, rbind. rewrite u_app by assumption.
      assert (S : skipn 8 (a1 ++ b1) = b1) by (rewrite skipn_app, skipn_all2, L1 by lia; reflexivity). rewrite S in Hc. apply from_bytes_reads in Hc.
      destruct (proj1 reads_js _ _ _ Hc (constr_fuel b1)) as (jc & J1 & J2); [unfold constr_fuel; lia|]. unfold jr_constraint. rewrite J1. unfold rret.
      rewrite (fld_head a1) in Eb by (unfold zlen; lia). subst bp. assert (jc = c) as -> by (apply jrule_inj; congruence). eauto.
    + destruct S as (k & m & E & -> & ->). unfold manager_from_bytes, load_delegate in E. apply guard_ok in E as [L E]. apply Ok_inj in E. pose proof (f_equal del_addr E) as E1. pose proof (f_equal del_roles E) as E2. clear E. cbn [del_addr del_roles] in E1, E2. unfold zlen in L.
      destruct (split_at b 32) as (a1 & b1 & -> & L1); [lia|]. rewrite app_length in L. destruct b1 as [|y b2]; [cbn [length] in L; lia|].
      exists b2. unfold js_read, rbind. rewrite nullable_app by assumption. rewrite roles_cons. unfold rret.
      rewrite (fld_head a1) in E1 by (unfold zlen; lia). unfold byte_at in E2. rewrite app_nth2 in E2 by (change (Z.to_nat 32) with 32%nat; lia). rewrite L1 in E2. change (nth (Z.to_nat 32 - 32) (y :: b2) x00) with y in E2. now rewrite E1, E2.
    + destruct S as (n & a & E & -> & ->). unfold proxy_from_bytes in E. apply guard_ok in E as [L E]. apply Ok_inj in E. pose proof (f_equal p_program E) as E1. pose proof (f_equal p_seeds E) as E2. pose proof (f_equal p_bump E) as E3. pose proof (f_equal p_authority E) as E4. clear E.
      cbn [p_program p_seeds p_bump p_authority] in E1, E2, E3, E4. unfold zlen in L.
      destruct (split_at b 32) as (p & b1 & -> & L1); [lia|]. rewrite app_length in L. destruct (split_at b1 32) as (s & b2 & -> & L2); [lia|]. rewrite app_length in L.
      destruct b2 as [|y b3]; [cbn [length] in L; lia|]. cbn [length] in L. exists []. unfold js_read, rbind. rewrite fixed_app by assumption. rewrite fixed_app by assumption. rewrite u1_cons.
      rewrite <- (app_nil_r b3). rewrite nullable_app by lia. unfold rret. do 2 f_equal.
      rewrite (fld_head p) in E1 by (unfold zlen; lia). rewrite (fld_mid p s) in E2 by (unfold zlen; lia).
      assert (E3' : y = n). { rewrite <- E3. unfold byte_at. rewrite app_assoc, app_nth2 by (rewrite app_length; change (Z.to_nat 64) with 64%nat; lia). rewrite app_length, L1, L2. reflexivity. }
      assert (E4' : b3 = a). { rewrite <- E4. symmetry. change (y :: b3) with ([y] ++ b3). rewrite !app_assoc. rewrite <- (app_nil_r b3) at 1. apply fld_mid; [unfold zlen; rewrite !app_length; cbn [length]; lia|unfold zlen; lia]. }
      congruence.
    + destruct S as (l & E & ->). exists []. unfold js_read, rbind, jr_remainder. rewrite many_props by lia. unfold properties_from_bytes in E. rewrite E. reflexivity.
    + subst dat. exists []. reflexivity.
Qed.

(** ** The extension loop *)
Lemma subarray_fld d a b : subarray d a b = fld d a (b - a).
Proof. reflexivity. Qed.
Lemma kind_of t : t <> XNone -> js_ext_of (ext_code t) = Some t /\ ext_code t =? 0 = false.
Proof. destruct t; try (intro H; now elim H); intros _; split; reflexivity. Qed.
Lemma blk_whole A C k cur : cur = zlen A -> blk_ok k -> 
  subarray (A ++ enc_blk cur k ++ C) (cur + 16) (match bk_type k with XMetadata => cur + blk_size k | _ => cur + 16 + zlen (bk_data k) end) = whole (bk_type k) (bk_data k) (bk_pad k).
Proof.
  intros Hc K. rewrite subarray_fld.
  assert (D : fld (A ++ enc_blk cur k ++ C) (cur + 16) (cur + 16 + zlen (bk_data k) - (cur + 16)) = bk_data k).
  { replace (cur + 16 + zlen (bk_data k) - (cur + 16)) with (zlen (bk_data k)) by lia. now apply fld_blk_data. }
  assert (M : fld (A ++ enc_blk cur k ++ C) (cur + 16) (cur + blk_size k - (cur + 16)) = bk_data k ++ bk_pad k).
  { rewrite enc_blk_head. rewrite <- !app_assoc, (app_assoc (bk_data k)), (app_assoc A). apply fld_mid; [rewrite zlen_app, zlen_blk_head by assumption; lia|]. unfold blk_size. rewrite zlen_app. lia. }
  destruct (bk_type k); assumption.
Qed.
Lemma loop_step f A C k cur : cur = zlen A -> blk_ok k -> cur mod 8 = 0 -> cur + blk_size k <= u32_max ->
  js_loop (S f) (A ++ enc_blk cur k ++ C) cur =
  match js_read (bk_type k) (whole (bk_type k) (bk_data k) (bk_pad k)) with
  | None => JThrow
  | Some (x, _) => match js_loop f (A ++ enc_blk cur k ++ C) (cur + blk_size k) with JDone l => JDone (x :: l) | JThrow => JThrow | JHang => JHang end
  end.
Proof.
  intros Hc K Hm Hu. pose proof (load_hdr_blk A C k cur Hc K Hm Hu) as H. pose proof (zlen_enc_blk cur k K) as L. pose proof (blk_size_pos k). pose proof (zlen_nonneg A). pose proof (zlen_nonneg C).
  pose proof (blk_whole A C k cur Hc K) as W. set (d := A ++ enc_blk cur k ++ C) in *.
  assert (D : zlen d = zlen A + blk_size k + zlen C) by (unfold d; rewrite !zlen_app, L; lia).
  cbn [js_loop]. replace (zlen d <=? cur) with false by lia. replace (zlen d <? cur + 16) with false by lia.
  unfold load_hdr in H. apply guard_ok in H as [_ H]. apply Ok_inj in H. pose proof (f_equal h_type H) as Q1. pose proof (f_equal h_len H) as Q2. pose proof (f_equal h_bnd H) as Q3.
  cbn [h_type h_len h_bnd] in Q1, Q2, Q3. clear H. rewrite Q1, Q2, Q3. cbv zeta. destruct (kind_of (bk_type k) (proj1 K)) as [K1 K2]. rewrite K1, K2, W. reflexivity.
Qed.
Lemma loop_tail f A tl : zlen A mod 8 = 0 -> tail_ok tl ->
  js_loop (S f) (A ++ tl) (zlen A) = if (zlen tl =? 0) || (16 <=? zlen tl) then JDone [] else JThrow.
Proof.
  intros Hm T. pose proof (zlen_nonneg tl). cbn [js_loop]. rewrite zlen_app. destruct (Z.eqb_spec (zlen tl) 0) as [E|E].
  - replace (zlen A + zlen tl <=? zlen A) with true by lia. reflexivity.
  - replace (zlen A + zlen tl <=? zlen A) with false by lia. destruct (Z.leb_spec 16 (zlen tl)) as [L|L].
    + replace (zlen A + zlen tl <? zlen A + 16) with false by lia. destruct T as [T|T]; [lia|]. rewrite le32_fld in T.
      rewrite fld_app_r by lia. rewrite Z.sub_diag, T. reflexivity.
    + replace (zlen A + zlen tl <? zlen A + 16) with true by lia. reflexivity.
Qed.
Definition reads_blk (k : blk) (x : jext) : Prop := js_reads (bk_type k) (whole (bk_type k) (bk_data k) (bk_pad k)) x.
Lemma loop_sect tl : tail_ok tl -> forall l A fuel, zlen A mod 8 = 0 -> Forall blk_ok l -> zlen A + sect_size l <= u32_max -> (length l < fuel)%nat ->
  js_loop fuel (A ++ enc_sect (zlen A) l ++ tl) (zlen A) <> JHang /\
  forall xs, js_loop fuel (A ++ enc_sect (zlen A) l ++ tl) (zlen A) = JDone xs <-> end_ok tl /\ Forall2 reads_blk l xs.
Proof.
  intro T. induction l as [|k l IH]; intros A fuel Hm K U F; (destruct fuel as [|fuel]; [lia|]); cbn [enc_sect].
  - cbn [app]. rewrite loop_tail by assumption. unfold end_ok. pose proof (zlen_nonneg tl).
    assert (E : (zlen tl =? 0) || (16 <=? zlen tl) = true <-> tl = [] \/ 16 <= zlen tl).
    { rewrite orb_true_iff, Z.eqb_eq, Z.leb_le. split; intros [Q|Q]; auto; left; [|now subst]. destruct tl; [reflexivity|]. rewrite zlen_cons in Q. pose proof (zlen_nonneg tl). lia. }
    destruct ((zlen tl =? 0) || (16 <=? zlen tl)) eqn:B; (split; [discriminate|]); intro xs; split; intro H0.
    + assert (xs = []) as -> by congruence. split; [now apply E|constructor].
    + destruct H0 as [_ H0]. inversion H0. reflexivity.
    + discriminate.
    + destruct H0 as [H0 _]. apply E in H0. discriminate.
  - apply Forall_cons_iff in K as [Kk Kl]. cbn [sect_size] in U. pose proof (sect_size_nonneg l). pose proof (blk_size_mod k Kk). rewrite <- app_assoc.
    rewrite loop_step by (try assumption; try reflexivity; lia).
    assert (Z1 : zlen (A ++ enc_blk (zlen A) k) = zlen A + blk_size k) by (rewrite zlen_app, zlen_enc_blk by assumption; reflexivity).
    destruct (IH (A ++ enc_blk (zlen A) k) fuel) as [H1 H2]; [rewrite Z1; lia|assumption|rewrite Z1; lia|cbn [length] in F; lia|].
    rewrite Z1, <- app_assoc in H1, H2. set (d := A ++ enc_blk (zlen A) k ++ enc_sect (zlen A + blk_size k) l ++ tl) in *.
    destruct (js_read (bk_type k) (whole (bk_type k) (bk_data k) (bk_pad k))) as [[x r]|] eqn:R.
    + destruct (js_loop fuel d (zlen A + blk_size k)) as [ys| |] eqn:Q; try (elim H1; reflexivity).
      * split; [discriminate|]. intro xs. destruct (proj1 (H2 ys) eq_refl) as [E2 E3]. split.
        -- intro H3. assert (xs = x :: ys) as -> by congruence. split; [exact E2|]. constructor; [now exists r|exact E3].
        -- intros [_ H3]. inversion H3 as [|? x' ? ys' [r' R'] Y]; subst. assert (x' = x) as -> by congruence. assert (JDone ys = JDone ys') by (apply H2; auto). congruence.
      * split; [discriminate|]. intro xs. split; [discriminate|]. intros [E2 H3]. inversion H3 as [|? x' ? ys' [r' R'] Y]; subst. assert (@JThrow (list jext) = JDone ys') by (apply H2; auto). discriminate.
    + split; [discriminate|]. intro xs. split; [discriminate|]. intros [_ H3]. inversion H3 as [|? x' ? ys' [r' R'] Y]; subst. congruence.
Qed.

(** ** The header *)
Lemma header_split (d : bytes) : (168 <= length d)%nat -> exists x0 x1 x2 x3 ow g au de ro nm rest,
  d = x0 :: x1 :: x2 :: x3 :: ow ++ g ++ au ++ de ++ ro :: nm ++ rest /\
  length ow = 32%nat /\ length g = 32%nat /\ length au = 32%nat /\ length de = 32%nat /\ length nm = 35%nat.
Proof.
  intro L. destruct d as [|x0 [|x1 [|x2 [|x3 d]]]]; cbn [length] in L; try lia.
  destruct (split_at d 32) as (ow & d1 & -> & L1); [lia|]. rewrite app_length in L. destruct (split_at d1 32) as (g & d2 & -> & L2); [lia|]. rewrite app_length in L.
  destruct (split_at d2 32) as (au & d3 & -> & L3); [lia|]. rewrite app_length in L. destruct (split_at d3 32) as (de & d4 & -> & L4); [lia|]. rewrite app_length in L.
  destruct d4 as [|ro d5]; cbn [length] in L; [lia|]. destruct (split_at d5 35) as (nm & d6 & -> & L5); [lia|].
  exists x0, x1, x2, x3, ow, g, au, de, ro, nm, d6. auto 8.
Qed.
Lemma sub_mid (A B C : bytes) o n : o = length A -> n = length B -> sub (A ++ B ++ C) o n = B.
Proof. intros -> ->. rewrite sub_fld. now apply fld_mid. Qed.
Lemma header_read d : (168 <= length d)%nat -> exists rest,
  jr_header d = if (b2z (s_disc d) =? 1) && (b2z (s_state d) <? 2) && (b2z (s_standard d) <? 4)
    then Some (mkJasset (b2z (s_state d)) (b2z (s_standard d)) (beqb (s_mutable d) x01) (s_owner d) (seen_key (s_group d)) (s_authority d)
                 (match seen_key (s_delegate d) with Some k => Some (k, seen_roles (s_roles d)) | None => None end) (seen_text (s_name d)) [], rest)
    else None.
Proof.
  intro L. destruct (header_split d L) as (x0 & x1 & x2 & x3 & ow & g & au & de & ro & nm & rest & E & L1 & L2 & L3 & L4 & L5). exists rest.
  assert (S1 : s_owner d = ow). { unfold s_owner. rewrite E. apply (sub_mid [x0; x1; x2; x3] ow); [reflexivity|lia]. }
  assert (S2 : s_group d = g). { unfold s_group. rewrite E. change (x0 :: x1 :: x2 :: x3 :: ?t) with ([x0; x1; x2; x3] ++ t). rewrite app_assoc. apply sub_mid; [rewrite app_length; cbn [length]; lia|lia]. }
  assert (S3 : s_authority d = au). { unfold s_authority. rewrite E. change (x0 :: x1 :: x2 :: x3 :: ?t) with ([x0; x1; x2; x3] ++ t). rewrite 2app_assoc. apply sub_mid; [rewrite !app_length; cbn [length]; lia|lia]. }
  assert (S4 : s_delegate d = de). { unfold s_delegate. rewrite E. change (x0 :: x1 :: x2 :: x3 :: ?t) with ([x0; x1; x2; x3] ++ t). rewrite 3app_assoc. apply sub_mid; [rewrite !app_length; cbn [length]; lia|lia]. }
  assert (S5 : s_roles d = ro). { unfold s_roles. rewrite E. change (x0 :: x1 :: x2 :: x3 :: ?t) with ([x0; x1; x2; x3] ++ t). rewrite 4app_assoc. rewrite app_nth2 by (rewrite !app_length; cbn [length]; lia).
    rewrite !app_length, L1, L2, L3, L4. reflexivity. }
  assert (S6 : s_name d = nm). { unfold s_name. rewrite E. change (ro :: ?t) with ([ro] ++ t). change (x0 :: x1 :: x2 :: x3 :: ?t) with ([x0; x1; x2; x3] ++ t). rewrite 5app_assoc. apply sub_mid; [rewrite !app_length; cbn [length]; lia|lia]. }
  rewrite S1, S2, S3, S4, S5, S6. rewrite E at 1. unfold jr_header, jr_enum. unfold rbind at 1 2. rewrite u1_cons.
  assert (V0 : s_disc d = x0) by now rewrite E. assert (V1 : s_state d = x1) by now rewrite E. assert (V2 : s_standard d = x2) by now rewrite E. assert (V3 : s_mutable d = x3) by now rewrite E.
  rewrite V0, V1, V2, V3. clear - L1 L2 L3 L4 L5.
  assert (R : forall A (a : A) b, rret a b = Some (a, b)) by reflexivity.
  destruct (Z.ltb_spec (b2z x0) 2) as [D|D]; [|replace (b2z x0 =? 1) with false by lia; reflexivity]. rewrite R. cbv iota beta. unfold rbind at 1 2. rewrite u1_cons.
  destruct (b2z x1 <? 2); [|rewrite andb_false_r; reflexivity]. rewrite R. unfold rbind at 1 2. rewrite u1_cons.
  destruct (b2z x2 <? 4); [|rewrite andb_false_r; reflexivity]. rewrite R. unfold rbind at 1. rewrite bool_cons.
  unfold rbind at 1. rewrite fixed_app by assumption. unfold rbind at 1. rewrite nullable_app by assumption. unfold rbind at 1. rewrite fixed_app by assumption.
  unfold rbind at 1. rewrite nullable_app by assumption. unfold rbind at 1. rewrite roles_cons. unfold rbind at 1. rewrite fixed_app by assumption.
  rewrite !andb_true_r. destruct (b2z x0 =? 1); [|reflexivity]. destruct (seen_key de); reflexivity.
Qed.

(** ** Accounts *)
Lemma asset_read d hd l tl a : layout d hd l tl -> valid_header d ->
  (js_asset d = JDone a <-> end_ok tl /\ shown_header d a /\ Forall2 reads_blk l (ja_exts a)) /\ js_asset d <> JHang.
Proof.
  intros Y (I1 & I2 & I3). pose proof Y as (E & Lh & K & T & Sz). pose proof (layout_len _ _ _ _ Y) as DL. pose proof (layout_u32 _ _ _ _ Y) as U.
  unfold js_asset. destruct I1 as [I1 I4]. destruct (header_read d I1) as (rest & H). rewrite H. 
  replace (b2z (s_disc d) =? 1) with true by (rewrite I4; reflexivity). replace (b2z (s_state d) <? 2) with true by lia. replace (b2z (s_standard d) <? 4) with true by lia. cbn [andb].
  destruct (loop_sect tl T l hd (S (length d))) as [N P]; [rewrite Lh; reflexivity|assumption|lia| |].
  { pose proof (sect_size_length l). pose proof (zlen_nonneg tl). unfold zlen in DL. unfold zlen in *. lia. }
  rewrite Lh, <- E in N, P. cbn [ja_state ja_standard ja_mutable ja_owner ja_group ja_authority ja_delegate ja_name].
  destruct (js_loop (S (length d)) d 168) as [xs| |]; [| |now elim N].
  - split; [|discriminate]. destruct (proj1 (P xs) eq_refl) as [P1 P2]. split.
    + intro Q. assert (Q' : a = mkJasset (b2z (s_state d)) (b2z (s_standard d)) (beqb (s_mutable d) x01) (s_owner d) (seen_key (s_group d)) (s_authority d)
                 (match seen_key (s_delegate d) with Some k => Some (k, seen_roles (s_roles d)) | None => None end) (seen_text (s_name d)) xs) by congruence. subst a.
      split; [exact P1|]. split; [|exact P2]. unfold shown_header. cbn [ja_state ja_standard ja_mutable ja_owner ja_group ja_authority ja_delegate ja_name]. auto 10.
    + intros (_ & (A1 & A2 & A3 & A4 & A5 & A6 & A7 & A8) & F). assert (JDone xs = JDone (ja_exts a)) as X by (apply P; auto). f_equal. destruct a. cbn in *. congruence.
  - split; [|discriminate]. split; [discriminate|]. intros (E1 & _ & F). assert (@JThrow (list jext) = JDone (ja_exts a)) by (apply P; auto). discriminate.
Qed.
Lemma account_shown d hd l tl a : layout d hd l tl -> valid_header d -> readable l ->
  (js_asset d = JDone a <-> end_ok tl /\ shown_header d a /\ Forall2 (fun k x => shown (bk_type k) (bk_data k) (bk_pad k) x) l (ja_exts a)).
Proof.
  intros Y V R. rewrite (proj1 (asset_read d hd l tl a Y V)). split; intros (E1 & E2 & F); (split; [exact E1|]; split; [exact E2|]); clear - R F.
  - induction F as [|k x l xs H _ IH]; constructor; apply Forall_cons_iff in R as [Rk Rl]; [now apply read_shown|auto].
  - induction F as [|k x l xs H _ IH]; constructor; apply Forall_cons_iff in R as [Rk Rl]; [now apply read_shown|auto].
Qed.

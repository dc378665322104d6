(** The payloads the JavaScript client writes. *)
From Verif Require Import Base State Layout Constr Ext ExtLen World Proc Borsh Client Js BaseL Spec SpecB SpecC SpecI SpecJ WorldL LayoutL HeadL AuthL CreatorsL ConstrL CodecL BorshL JsL.
From Coq Require Import Strings.Byte.

(** ** Constraints *)
Section JconInd.
Variable P : jcon -> Prop.
Variable Hand : forall l, Forall P l -> P (JAnd l).
Variable Hor : forall l, Forall P l -> P (JOr l).
Variable Hnot : forall x, P x -> P (JNot x).
Variable Howned : forall a ks, P (JOwnedBy a ks).
Variable Hmatch : forall a ks, P (JPubkeyMatch a ks).
Variable Hempty : P JEmpty.
Fixpoint jcon_ind2 (f : jcon) : P f :=
  let fix go (l : list jcon) : Forall P l := match l with [] => Forall_nil P | x :: l' => Forall_cons x (jcon_ind2 x) (go l') end in
  match f with
  | JAnd l => Hand l (go l) | JOr l => Hor l (go l) | JNot x => Hnot x (jcon_ind2 x)
  | JOwnedBy a ks => Howned a ks | JPubkeyMatch a ks => Hmatch a ks | JEmpty => Hempty
  end.
End JconInd.
Fixpoint jof (f : form) : jcon :=
  match f with
  | FAnd l => JAnd (map jof l) | FNot x => JNot (jof x) | FOr l => JOr (map jof l)
  | FOwnedBy a ks => JOwnedBy a (map pk_bytes ks) | FPubkeyMatch a ks => JPubkeyMatch a (map pk_bytes ks)
  | FEmpty => JEmpty
  end.
Lemma key_pk k : key32 k -> exists p, pk_bytes p = k.
Proof. intro H. exists (mkPk k (proj2 (Nat.eqb_eq (length k) 32) H)). reflexivity. Qed.
Lemma keys_pk ks : Forall key32 ks -> exists l, ks = map pk_bytes l.
Proof.
  induction 1 as [|k ks H _ (l & ->)]; [now exists []|]. destruct (key_pk k H) as (p & <-). now exists (p :: l).
Qed.
Lemma jof_all c : jcon_keys c -> exists f, c = jof f.
Proof.
  assert (L : forall l, Forall (fun c => jcon_keys c -> exists f, c = jof f) l -> fold_right (fun x P => jcon_keys x /\ P) True l -> exists fs, l = map jof fs).
  { induction 1 as [|y l H _ IH]; cbn [fold_right]; [now exists []|]. intros [K1 K2]. destruct (H K1) as (f & ->). destruct (IH K2) as (fs & ->). now exists (f :: fs). }
  induction c as [l IH|l IH|x IH|a ks|a ks|] using jcon_ind2; cbn [jcon_keys]; intro K.
  - destruct (L l IH K) as (fs & ->). now exists (FAnd fs).
  - destruct (L l IH K) as (fs & ->). now exists (FOr fs).
  - destruct (IH K) as (f & ->). now exists (FNot f).
  - destruct (keys_pk ks K) as (l & ->). now exists (FOwnedBy a l).
  - destruct (keys_pk ks K) as (l & ->). now exists (FPubkeyMatch a l).
  - now exists FEmpty.
Qed.
Lemma jof_rule f : jrule (jof f) = wanted f.
Proof.
  assert (L : forall l, Forall (fun f => jrule (jof f) = wanted f) l -> map jrule (map jof l) = map wanted l)
    by (induction 1 as [|x l H _ IH]; cbn [map]; congruence).
  induction f as [l IH|l IH|x IH|a ks|a ks|] using form_ind2; cbn [jof jrule wanted]; try rewrite (L l IH); congruence.
Qed.
Lemma jof_size f : jcon_size (jof f) = zlen (build f).
Proof.
  assert (L : forall l, Forall (fun f => jcon_size (jof f) = zlen (build f)) l ->
     fold_right (fun x s => jcon_size x + s) 0 (map jof l) = zlen (concat (map build l))).
  { induction 1 as [|x l H _ IH]; [reflexivity|]. cbn [map fold_right concat]. rewrite zlen_app. congruence. }
  assert (K : forall a ks, 8 + 32 * zlen (map pk_bytes ks) = zlen (keys_payload a ks)).
  { intros a ks. unfold keys_payload. rewrite zlen_app, le_enc_zlen, keys_len. unfold zlen. rewrite map_length. lia. }
  induction f as [l IH|l IH|x IH|a ks|a ks|] using form_ind2; cbn [jof jcon_size build]; rewrite with_header_len; try rewrite (L l IH); try rewrite IH; try rewrite <- (K a ks); try reflexivity; lia.
Qed.
Lemma wr_wrap ty o v g : 0 <= ty <= 5 -> wr o v g -> wr (jwrap ty o) (v /\ zlen g <= u32_max) (with_header ty g).
Proof.
  intros Ht O b. unfold jwrap. pose proof (zlen_nonneg g) as G0. destruct o as [p|].
  - destruct (proj1 (O p) eq_refl) as [V ->].
    rewrite (wr_cons _ _ _ _ _ _ (wr_ju 4 ty) (wr_cons _ _ _ _ _ _ (wr_ju 4 (zlen g)) (wr_cons _ _ _ _ _ _ (wr_const g) wr_nil)) b).
    rewrite app_nil_r. fold (with_header ty g). change (256 ^ Z.of_nat 4) with 4294967296. unfold u32_max.
    split; intros [H ->]; (split; [|reflexivity]); [split; [assumption|lia]|]. intuition lia.
  - split; [discriminate|]. intros [[V _] _]. discriminate (proj2 (O g) (conj V eq_refl)).
Qed.
Lemma wr_keys a ks : wr (jkeys a (map pk_bytes ks)) True (keys_payload a ks).
Proof.
  eapply wr_ext; [apply wr_cons; [apply wr_ju|apply wr_cons; [apply wr_const|apply wr_nil]]| |].
  - destruct a; cbn; lia.
  - intros _. rewrite app_nil_r. now destruct a.
Qed.
Lemma in_concat_len (l : list form) x : In x l -> zlen (build x) <= zlen (concat (map build l)).
Proof.
  induction l as [|y l IH]; [easy|]. intros [->|H]; cbn [map concat]; rewrite zlen_app; [pose proof (zlen_nonneg (concat (map build l))); lia|]. pose proof (zlen_nonneg (build y)). specialize (IH H). lia.
Qed.
Lemma wr_constr f : wr (jconstr (jof f)) (zlen (build f) <= 8 + u32_max) (build f).
Proof.
  assert (L : forall l, Forall (fun f => wr (jconstr (jof f)) (zlen (build f) <= 8 + u32_max) (build f)) l ->
    wr (jseq (map jconstr (map jof l))) (Forall (fun f => zlen (build f) <= 8 + u32_max) l) (concat (map build l))).
  { intros l F. rewrite map_map. apply wr_map. intros a Ha. rewrite Forall_forall in F. now apply F. }
  induction f as [l IH|l IH|x IH|a ks|a ks|] using form_ind2; cbn [jof jconstr build]; rewrite with_header_len.
  - eapply wr_ext; [apply wr_wrap; [lia|apply L; exact IH]| |reflexivity]. split; [intros [_ H]; lia|]. intro H. split; [|lia].
    apply Forall_forall. intros x Hx. apply in_concat_len in Hx. lia.
  - eapply wr_ext; [apply wr_wrap; [lia|apply L; exact IH]| |reflexivity]. split; [intros [_ H]; lia|]. intro H. split; [|lia].
    apply Forall_forall. intros x Hx. apply in_concat_len in Hx. lia.
  - eapply wr_ext; [apply wr_wrap; [lia|exact IH]|lia|reflexivity].
  - eapply wr_ext; [apply wr_wrap; [lia|apply wr_keys]|lia|reflexivity].
  - eapply wr_ext; [apply wr_wrap; [lia|apply wr_keys]|lia|reflexivity].
  - eapply wr_ext; [apply wr_wrap; [lia|apply wr_nil]|unfold u32_max; cbn; lia|reflexivity].
Qed.

(** ** Roles *)
Lemma lor_neg a l : a < 0 -> fold_left Z.lor l a < 0.
Proof. revert a. induction l as [|x l IH]; intros a H; [assumption|]. cbn [fold_left]. apply IH. apply Z.lor_neg. now left. Qed.
Lemma shifts_none l : In RNone l -> forall a, fold_left Z.lor (map role_shift l) a < 0.
Proof.
  induction l as [|r l IH]; [easy|]. intros [->|H] a; cbn [map fold_left].
  - apply lor_neg. apply Z.lor_neg. right. cbn. lia.
  - now apply IH.
Qed.
Lemma shifts_some l : ~ In RNone l -> forall a, fold_left Z.lor (map role_shift l) a = fold_left (fun all r => Z.lor all (role_mask r)) l a.
Proof.
  induction l as [|r l IH]; intros N a; [reflexivity|]. cbn [map fold_left]. rewrite IH by (intro H; apply N; now right). f_equal. f_equal.
  destruct r; try reflexivity. exfalso. apply N. now left.
Qed.
Lemma wr_roles l : wr (jroles l) (~ In RNone l) [z2b (roles_of (DSome l))].
Proof.
  unfold jroles. destruct (in_dec (fun a b : role => ltac:(decide equality)) RNone l) as [H|H].
  - intro b. pose proof (shifts_none l H 0). split; [intro E; apply wr_ju in E as [E _]; lia|tauto].
  - rewrite shifts_some by assumption. change (fold_left _ l 0) with (roles_of (DSome l)). pose proof (roles_of_range (DSome l)).
    eapply wr_ext; [apply wr_ju| |reflexivity]. change (256 ^ Z.of_nat 1) with 256. split; [auto|lia].
Qed.

(** ** Payloads *)
Lemma wr_str8 s : wr (jstr8 s) (text255 s) (enc_pstr s).
Proof.
  eapply wr_ext; [apply wr_cons; [apply wr_ju|apply wr_cons; [apply wr_const|apply wr_nil]]| |].
  - change (256 ^ Z.of_nat 1) with 256. unfold text255. pose proof (zlen_nonneg s). lia.
  - intros _. rewrite app_nil_r. reflexivity.
Qed.
Definition of_value (v : jval) : typed_val := match v with JText s => TText s | JNumber n => TNumber n | JBoolean b => TBool b end.
Fixpoint jcon_bytes (c : jcon) : bytes :=
  match c with
  | JAnd l => with_header 0 (concat (map jcon_bytes l))
  | JNot x => with_header 1 (jcon_bytes x)
  | JOr l => with_header 2 (concat (map jcon_bytes l))
  | JOwnedBy a ks => with_header 3 (le_enc 8 (cacct_code a) ++ concat ks)
  | JPubkeyMatch a ks => with_header 4 (le_enc 8 (cacct_code a) ++ concat ks)
  | JEmpty => with_header 5 []
  end.
Lemma jof_bytes f : jcon_bytes (jof f) = build f.
Proof.
  assert (L : forall l, Forall (fun f => jcon_bytes (jof f) = build f) l -> map jcon_bytes (map jof l) = map build l)
    by (induction 1 as [|x l H _ IH]; cbn [map]; congruence).
  induction f as [l IH|l IH|x IH|a ks|a ks|] using form_ind2; cbn [jof jcon_bytes build]; try rewrite (L l IH); try rewrite IH; reflexivity.
Qed.
(** the bytes *)
Definition jbytes (x : jext) : bytes :=
  match x with
  | JAttributes l | JLinks l => build_pairs l
  | JBlob ct dat => build_blob ct dat
  | JCreators l => enc_creators (map as_creator l)
  | JMetadata s d u i => build_metadata (Some s) (Some d) (Some u) (Some i)
  | JGrouping size max del => le_enc 8 size ++ le_enc 8 max ++ key_or_zero del
  | JRoyalties bp c => le_enc 8 bp ++ jcon_bytes c
  | JManager addr roles => key_or_zero addr ++ [z2b (roles_of (DSome roles))]
  | JProxy prog seeds bump auth => prog ++ seeds ++ [z2b bump] ++ key_or_zero auth
  | JProperties l => build_properties (map (fun p => (fst p, of_value (snd p))) l)
  | JBucket dat => dat
  end.
Lemma wr_nullable o : wr (jnullable o) True (key_or_zero o).
Proof. apply wr_const. Qed.
Lemma wr_pair p : wr (jpair p) (text255 (fst p) /\ text255 (snd p)) (enc_pstr (fst p) ++ enc_pstr (snd p)).
Proof. eapply wr_ext; [apply wr_cons; [apply wr_str8|apply wr_cons; [apply wr_str8|apply wr_nil]]|tauto|]. intros _. now rewrite app_nil_r. Qed.
Lemma wr_creator c : wr (jcreator c) (is_u8 (snd c)) (enc_creator (as_creator c)).
Proof.
  destruct c as [[k v] s]. eapply wr_ext; [apply wr_cons; [apply wr_const|apply wr_cons; [apply wr_bool|apply wr_cons; [apply wr_ju|apply wr_nil]]]| |].
  - change (256 ^ Z.of_nat 1) with 256. unfold is_u8. cbn [snd]. tauto.
  - intros _. unfold enc_creator, as_creator. cbn [fst snd le_enc app]. now destruct v.
Qed.
Lemma wr_property p : wr (jproperty p) (text255 (fst p) /\ value_fits (snd p)) (enc_pstr (fst p) ++ enc_typed (of_value (snd p))).
Proof.
  destruct p as [n [s|z|b]]; unfold jproperty; cbn [fst snd value_fits of_value enc_typed].
  - eapply wr_ext; [apply wr_cons; [apply wr_str8|apply wr_cons; [apply (wr_byte 0 x00); [lia|reflexivity]|apply wr_cons; [apply wr_str8|apply wr_nil]]]|tauto|]. intros _. now rewrite app_nil_r.
  - eapply wr_ext; [apply wr_cons; [apply wr_str8|apply wr_cons; [apply (wr_byte 1 x01); [lia|reflexivity]|apply wr_cons; [apply wr_ju|apply wr_nil]]]| |].
    + change (256 ^ Z.of_nat 8) with 18446744073709551616. unfold is_u64. tauto.
    + intros _. now rewrite app_nil_r.
  - eapply wr_ext; [apply wr_cons; [apply wr_str8|apply wr_cons; [apply (wr_byte 2 x02); [lia|reflexivity]|apply wr_cons; [apply wr_bool|apply wr_nil]]]|tauto|]. intros _. reflexivity.
Qed.
Lemma payload_wr x : typed x -> wr (js_payload x) (in_range x) (jbytes x).
Proof.
  destruct x as [l|ct dat|l|l|s d u i|size max del|bp c|addr roles|prog seeds bump auth|l|dat]; cbn [typed js_payload in_range jbytes]; intro T.
  - apply wr_map. intros p _. apply wr_pair.
  - eapply wr_ext; [apply wr_cons; [apply wr_str8|apply wr_cons; [apply wr_const|apply wr_nil]]|tauto|]. intros _. now rewrite app_nil_r.
  - unfold enc_creators. rewrite map_map. apply wr_map. intros p _. apply wr_creator.
  - apply wr_map. intros p _. apply wr_pair.
  - eapply wr_ext; [apply wr_cons; [apply wr_str8|apply wr_cons; [apply wr_str8|apply wr_cons; [apply wr_str8|apply wr_cons; [apply wr_str8|apply wr_nil]]]]|tauto|].
    intros _. now rewrite app_nil_r.
  - eapply wr_ext; [apply wr_cons; [apply wr_ju|apply wr_cons; [apply wr_ju|apply wr_cons; [apply wr_nullable|apply wr_nil]]]| |].
    + change (256 ^ Z.of_nat 8) with 18446744073709551616. unfold is_u64. tauto.
    + intros _. now rewrite app_nil_r.
  - destruct (jof_all c T) as (f & ->). rewrite jof_size, jof_bytes.
    eapply wr_ext; [apply wr_cons; [apply wr_ju|apply wr_cons; [apply wr_constr|apply wr_nil]]| |].
    + change (256 ^ Z.of_nat 8) with 18446744073709551616. unfold is_u64, u32_max. tauto.
    + intros _. now rewrite app_nil_r.
  - eapply wr_ext; [apply wr_cons; [apply wr_nullable|apply wr_cons; [apply wr_roles|apply wr_nil]]|tauto|]. intros _. reflexivity.
  - assert (S : wr (if Nat.eqb (length seeds) 32 then Some seeds else None) (key32 seeds) seeds).
    { intro b. unfold key32. destruct (Nat.eqb_spec (length seeds) 32) as [E|E]; [|split; [discriminate|tauto]]. split; [intro H; apply Some_inj in H; auto|intros [_ ->]; reflexivity]. }
    eapply wr_ext; [apply wr_cons; [apply wr_const|apply wr_cons; [exact S|apply wr_cons; [apply wr_ju|apply wr_cons; [apply wr_nullable|apply wr_nil]]]]| |].
    + change (256 ^ Z.of_nat 1) with 256. unfold is_u8. tauto.
    + intros _. now rewrite app_nil_r.
  - unfold build_properties. rewrite map_map. apply wr_map. intros p _. apply wr_property.
  - apply wr_const.
Qed.

(** ** The program reads the values written *)
Lemma opt_key_pk o : opt_key32 o -> exists p, key_or_zero o = pk_bytes p.
Proof. destruct o as [k|]; cbn [opt_key32 key_or_zero]; [intro H; destruct (key_pk k H) as (p & <-); now exists p|]. intros _. now exists pk_zero. Qed.
Lemma opt_key_len o : opt_key32 o -> zlen (key_or_zero o) = 32.
Proof. intro H. destruct (opt_key_pk o H) as (p & ->). apply pk_zlen. Qed.
Lemma payload_says x : typed x -> in_range x -> zlen (jbytes x) <= u32_max -> says x (jbytes x).
Proof.
  destruct x as [l|ct dat|l|l|s d u i|size max del|bp c|addr roles|prog seeds bump auth|l|dat]; cbn [typed in_range jbytes says]; intros T R Z.
  - exact (proj1 (pairs_round l R)).
  - now apply blob_round.
  - apply from_bytes_enc. unfold cr_wf. apply Forall_forall. intros c Hc. apply in_map_iff in Hc as (y & <- & Hy). rewrite Forall_forall in T. exact (T y Hy).
  - exact (proj1 (pairs_round l R)).
  - destruct R as (A & B & C & D). exact (proj1 (metadata_round (Some s) (Some d) (Some u) (Some i) A B C D)).
  - destruct R as [R1 R2]. pose proof (opt_key_len del T) as K.
    assert (L : zlen (le_enc 8 size ++ le_enc 8 max ++ key_or_zero del) = 48) by (rewrite !zlen_app, !le_enc_zlen, K; reflexivity).
    unfold grouping_from_bytes, guard. rewrite L. change (16 <=? 48) with true. change (0 mod 8 =? 0) with true. cbv iota.
    assert (S : skipn 16 (le_enc 8 size ++ le_enc 8 max ++ key_or_zero del) = key_or_zero del).
    { rewrite app_assoc, skipn_app, skipn_all2 by (rewrite app_length, !le_enc_length; lia). rewrite app_length, !le_enc_length. reflexivity. }
    rewrite S, K. cbv zeta. change (32 <=? 32) with true. change (32 <? 32) with false. cbv iota.
    rewrite (fld_head (le_enc 8 size)) by (rewrite le_enc_zlen; reflexivity). rewrite (fld_mid (le_enc 8 size) (le_enc 8 max)) by (rewrite le_enc_zlen; reflexivity).
    rewrite !le_dec_enc8 by assumption. reflexivity.
  - destruct (jof_all c T) as (f & ->). rewrite jof_size, jof_bytes in *. destruct R as [R1 R2]. rewrite jof_rule.
    rewrite zlen_app, le_enc_zlen in Z. destruct (royalties_round 0 bp f eq_refl R1 ltac:(lia)) as (r & H1 & H2 & _). exists r. auto.
  - destruct (opt_key_pk addr T) as (p & ->). exists (z2b (roles_of (DSome roles))). split; [exact (proj1 (manager_round p _))|].
    intros r Hr. rewrite granted_roles. cbn [requested]. tauto.
  - destruct T as [T1 T2]. destruct R as [R1 R2]. destruct (key_pk prog T1) as (p & <-).
    assert (exists a, key_of a = key_or_zero auth) as (a & A).
    { destruct auth as [k|]; [|now exists None]. destruct (key_pk k T2) as (q & <-). now exists (Some q). }
    rewrite <- A. apply (proxy_round p seeds (z2b bump) a). unfold key32 in R1. unfold zlen. lia.
  - assert (F : Forall short_prop (map (fun p => (fst p, of_value (snd p))) l)).
    { apply Forall_forall. intros q Hq. apply in_map_iff in Hq as (p & <- & Hp). rewrite Forall_forall in R. destruct (R p Hp) as [R1 R2]. split; [exact R1|].
      destruct p as [n [t|z|b]]; exact R2. }
    unfold properties_from_bytes. rewrite parse_props_build by (try assumption; lia). f_equal. rewrite map_map. apply map_ext. intros [n [t|z|b]]; [reflexivity|reflexivity|now destruct b].
  - reflexivity.
Qed.

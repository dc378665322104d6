(** Lemmas: the JavaScript client from values to values (C79). *)
From Verif Require Import Base State Layout Constr Ext ExtLen World Proc Borsh Client Js BaseL Spec SpecB SpecC SpecE SpecF SpecI SpecJ SpecK SpecL SpecJs WorldL LayoutL LayoutE HeadL FrameL AuthL ProcSteps AllocM AuthM CreatorsL CountL ValidL AcceptL ExactL ExactO LiveL CreateL BuildL JsL JsM JsN JsO JsP JsR.
From Coq Require Import Strings.Byte Sorting.Permutation.

(** ** Which values are acceptable *)
Lemma share_total_map l : Forall (fun c => is_u8 (snd c)) l -> share_total (map as_creator l) = share_sum l mod 256.
Proof.
  intro H. unfold share_total. change 0 with (0 mod 256) at 1. rewrite share_total_fold by lia. rewrite Z.add_0_l. f_equal.
  induction H as [|c l Hc _ IH]; [reflexivity|]. cbn [map fold_right share_sum]. rewrite IH. cbn [as_creator cr_share]. unfold is_u8 in Hc. rewrite b2z_z2b, Z.mod_small by exact Hc. reflexivity.
Qed.
Lemma sensible_iff x b : typed x -> js_payload x = Some b -> zlen b <= u32_max -> (acceptable (jext_type x) b <-> sensible x).
Proof.
  intros T P L. pose proof (payload_read x b T P L) as S. pose proof (says_parses _ _ S) as Q. apply (payload_wr x T) in P as [R _].
  unfold acceptable. destruct x as [l|ct dat|l|l|s d u i|size max del|bp c|addr roles|prog seeds bump auth|l|dat]; cbn [jext_type sensible says in_range] in *;
    try (split; [intros _; exact I|intros _; split; [exact Q|split; [discriminate|split; discriminate]]]).
  - rewrite <- (share_total_bytes _ _ S), (share_total_map l R). split; [intros (_ & H & _); now apply H|]. intro H. split; [exact Q|]. split; [auto|split; discriminate].
  - destruct (AuthM.grouping_ok _ _ _ S) as (_ & E & _). assert (size = gr_size b) as -> by congruence. split; [intros (_ & _ & H & _); now apply H|].
    intro H. split; [exact Q|]. split; [discriminate|]. split; [auto|discriminate].
  - destruct S as (r & S & _). destruct (royalties_ok _ _ _ S) as [_ E]. cbn [fst] in E. subst bp. split; [intros (_ & _ & _ & H); now apply H|].
    intro H. split; [exact Q|]. split; [discriminate|]. split; [discriminate|auto].
Qed.

(** ** What is shown of a stored payload *)
Lemma dec_map_at n : forall b b' (f : creator -> creator), (forall i, (i < n)%nat -> mkCreator (cr_addr_at b' i) (cr_flag_at b' i) (cr_share_at b' i) = f (mkCreator (cr_addr_at b i) (cr_flag_at b i) (cr_share_at b i))) ->
  dec_creators n b' = map f (dec_creators n b).
Proof.
  induction n as [|n IH]; intros b b' f H; [reflexivity|]. rewrite !dec_snoc, map_app. cbn [map]. rewrite <- H by lia. f_equal. apply IH. intros i Hi. apply H. lia.
Qed.
Lemma minted_shown auth x b k : typed x -> js_payload x = Some b -> zlen b <= u32_max -> bk_type k = jext_type x ->
  fresh_payload (jext_type x) (Some auth) b (bk_data k) ->
  parses (bk_type k) (bk_data k) /\ exists y, shown (bk_type k) (bk_data k) (bk_pad k) y /\ minted_value auth x y.
Proof.
  intros T P L Ek (F1 & F2 & F3). rewrite Ek. pose proof (payload_read x b T P L) as S. destruct (ext_type_eqb (jext_type x) XCreators) eqn:EC.
  - apply ext_type_eqb_eq in EC. destruct x as [l|ct dat|l|l|s d u i|size max del|bp c|addr roles|prog seeds bump auth0|l|dat]; try discriminate EC. clear F2 EC. specialize (F3 eq_refl). cbn [jext_type says minted_value] in *.
    destruct (from_bytes_ok _ _ S) as (B1 & B2 & _ & _).
    assert (B3 : cr_count (bk_data k) = cr_count b) by (unfold cr_count; now rewrite F1).
    assert (PK : parses XCreators (bk_data k)) by (cbn [parses]; rewrite B3, F1; exact B1).
    split; [exact PK|]. destruct (proj2 (creators_goes (bk_data k)) PK) as [l' Hl']. destruct (from_bytes_ok _ _ Hl') as (_ & E' & _ & _). rewrite B3 in E'.
    set (f := fun c => mkCreator (cr_addr c) (if bytes_eqb (cr_addr c) auth then x01 else x00) (cr_share c)).
    assert (E2 : l' = map f (map as_creator l)).
    { rewrite E', B2. apply dec_map_at. intros i Hi. destruct (F3 i Hi) as (G1 & G2 & G3 & G4). unfold f. cbn [cr_addr cr_share]. rewrite G1, G2. f_equal.
      destruct (bytes_eqb (cr_addr_at b i) auth) eqn:Eb; [apply bytes_eqb_eq in Eb; apply G3; now rewrite Eb|]. apply G4. intro Q. apply some_inj in Q. subst auth. rewrite bytes_eqb_refl in Eb. discriminate Eb. }
    eexists. split; [|reflexivity]. split; [reflexivity|]. exists l'. split; [exact Hl'|]. rewrite E2, !map_map. apply map_ext_in. intros [[a v] sh] Hc.
    apply (payload_wr (JCreators l) T) in P as [R _]. cbn [in_range] in R. rewrite Forall_forall in R. specialize (R _ Hc). unfold is_u8 in R. cbn [snd] in R.
    unfold seen_creator, f, as_creator. cbn [fst snd cr_addr cr_verified cr_share]. rewrite b2z_z2b, Z.mod_small by exact R. destruct (bytes_eqb a auth); reflexivity.
  - assert (NC : jext_type x <> XCreators) by (intro Q; rewrite Q in EC; discriminate EC). rewrite (F2 NC). pose proof (says_parses _ _ S) as PS. split; [exact PS|].
    destruct (read_back x b T P L) as (y & r & Y1 & Y2).
    assert (MV : minted_value auth x y) by (destruct x; try exact Y2; now elim NC).
    destruct (ext_type_eqb (jext_type x) XMetadata) eqn:EM.
    + apply ext_type_eqb_eq in EM. destruct x as [l|ct dat|l|l|s d u i|size max del|bp c|addr roles|prog seeds bump auth0|l|dat]; try discriminate EM. clear Y1 Y2 MV y r.
      apply (payload_wr _ T) in P as [R ->]. destruct R as (R1 & R2 & R3 & R4). eexists. split; [|reflexivity]. split; [reflexivity|].
      exists s, d, u, i, (enc_pstr s), (enc_pstr d), (enc_pstr u), (enc_pstr i), (bk_pad k). repeat (split; [split; [assumption|reflexivity]|]).
      split; [|auto]. cbn [jbytes]. unfold build_metadata, opt_pstr. now rewrite !app_assoc.
    + exists y. split; [|exact MV]. apply read_shown; [exact PS|]. exists r. unfold whole. destruct (jext_type x); try exact Y1; discriminate EM.
Qed.

(** ** The account *)
Lemma seen_zeros n : seen_text (repeat x00 n) = [].
Proof. induction n as [|n IH]; [reflexivity|exact IH]. Qed.
Lemma seen_name s : seen_text (name_field s) = seen_text (firstn 35 s).
Proof.
  unfold name_field. rewrite firstn_app. unfold seen_text at 1. rewrite filter_app. fold (seen_text (firstn 35 s)).
  assert (E : forall n m, filter (fun x => negb (beqb x x00)) (firstn n (repeat x00 m)) = []).
  { intros n m. revert n. induction m as [|m IH]; intros [|n]; try reflexivity. exact (IH n). }
  rewrite E. apply app_nil_r.
Qed.
Lemma parts_sizes xs ps : parts xs ps -> 168 + space ps <= 10485760 -> Forall (fun p => zlen (snd p) <= u32_max) ps.
Proof.
  intros _. induction ps as [|[t b] ps IH]; intro H; constructor; cbn [space] in H; pose proof (zlen_nonneg b); pose proof (LiveL.space_nonneg ps).
  - cbn [snd]. unfold u32_max. lia.
  - apply IH. lia.
Qed.
Lemma values_shown auth xs : forall ps l, Forall typed xs -> parts xs ps -> Forall (fun p => zlen (snd p) <= u32_max) ps -> map bk_type l = map jext_type xs ->
  Forall2 (fun x b => fresh_payload (fst x) (Some auth) (snd x) (bk_data b)) ps l ->
  readable l /\ exists ys, Forall2 (fun k y => shown (bk_type k) (bk_data k) (bk_pad k) y) l ys /\ Forall2 (minted_value auth) xs ys.
Proof.
  induction xs as [|x xs IH]; intros ps l T P Z E F; inversion P as [|? [t b] ? ps' [P1 P2] P3]; subst; inversion F as [|? k ? l' F1 F2]; subst.
  - split; [constructor|]. exists []. split; constructor.
  - apply Forall_cons_iff in T as [T1 T2]. apply Forall_cons_iff in Z as [Z1 Z2]. cbn [map] in E. injection E as E1 E2. cbn [fst snd] in *. subst t.
    destruct (minted_shown auth x b k T1 P2 Z1 E1 F1) as (R1 & y & Y1 & Y2). destruct (IH ps' l' T2 P3 Z2 E2 F2) as (R2 & ys & Y3 & Y4).
    split; [constructor; assumption|]. exists (y :: ys). split; constructor; assumption.
Qed.
Lemma display c a xs ps d l hd : Forall typed xs -> parts xs ps -> 168 + space ps <= 10485760 ->
  layout d hd l [] -> map bk_type l = map jext_type xs ->
  Forall2 (fun x b => fresh_payload (fst x) (Some (pk_bytes (js_authority c a))) (snd x) (bk_data b)) ps l ->
  s_disc d = x01 -> s_state d = x00 -> s_standard d = standard_code (match jm_standard a with Some s => s | None => NonFungible end) ->
  s_mutable d = (match jm_mutable a with Some false => x00 | _ => x01 end) ->
  s_owner d = pk_bytes (js_owner c a) -> s_authority d = pk_bytes (js_authority c a) ->
  s_group d = (match jm_group a with Some g => pk_bytes g | None => no_key end) -> s_delegate d = no_key -> s_name d = name_field (jm_name a) ->
  exists s, js_asset d = JDone s /\ displayed c a xs s.
Proof.
  intros T P Sz HL Et F D1 D2 D3 D4 D5 D6 D7 D8 D9.
  destruct (values_shown _ xs ps l T P (parts_sizes _ _ P Sz) Et F) as (R & ys & Y1 & Y2).
  assert (VH : valid_header d).
  { split; [split; [pose proof (layout_len _ _ _ _ HL) as Q; pose proof (sect_size_nonneg l); change (zlen []) with 0 in Q; unfold zlen in Q; lia|exact D1]|].
    rewrite D2, D3. split; [reflexivity|]. destruct (jm_standard a) as [[]|]; reflexivity. }
  eexists (mkJasset _ _ _ _ _ _ _ _ ys). split.
  - apply (account_shown _ _ _ _ _ HL VH R). split; [now left|]. split; [|exact Y1]. unfold shown_header. cbn [ja_state ja_standard ja_mutable ja_owner ja_group ja_authority ja_delegate ja_name]. repeat split.
  - unfold displayed. cbn [ja_state ja_standard ja_mutable ja_owner ja_group ja_authority ja_delegate ja_name ja_exts]. rewrite D2, D3, D4, D5, D6, D7, D8, D9.
    repeat split; try exact Y2.
    + destruct (jm_standard a) as [[]|]; reflexivity.
    + destruct (jm_mutable a) as [[]|]; reflexivity.
    + destruct (jm_group a); reflexivity.
    + apply seen_name.
Qed.
Lemma mint_displayed e c a ps ixs w w' : env_ok e -> e_prog e <> pk_zero -> sized w -> lam_ok w -> data (w (jm_asset a)) = [] ->
  Forall typed (jm_exts a) -> parts (jm_exts a) ps -> 168 + space ps <= 10485760 -> utf8_text (jm_name a) -> jm_group a <> Some (e_prog e) ->
  js_mint e c a = Some ixs -> run_ixs e ixs w = Ok w' ->
  exists s, js_asset (data (w' (jm_asset a))) = JDone s /\ displayed c a (jm_exts a) s.
Proof.
  intros He Hz Hs Hl Hd T P Sz U G M H. destruct (js_mint_effect e c a ps ixs w w' He Hz Hs Hl Hd P Sz U G M H) as (_ & _ & Q).
  assert (J : js_minted c a ps (match jm_group a with Some g => pk_bytes g | None => no_key end) (data (w' (jm_asset a)))) by (destruct (jm_group a); apply Q).
  destruct J as (l & [hd HL] & Et & F & _ & D1 & D2 & D3 & D4 & D5 & D6 & D7 & D8 & _ & D9). eapply display; eassumption.
Qed.

(** ** The standard *)
Lemma proxy_payload prog seeds bump auth b e k : typed (JProxy prog seeds bump auth) -> js_payload (JProxy prog seeds bump auth) = Some b ->
  (proxy_derives e b k <-> e_cpa e seeds (z2b bump) prog = Some k).
Proof.
  intros T P. apply (payload_wr _ T) in P as [R ->]. destruct T as [T1 T2]. destruct R as [R1 R2]. cbn [jbytes]. pose proof (opt_key_len auth T2) as K. unfold key32, zlen in *.
  unfold proxy_derives. rewrite (sub_mid prog seeds) by auto.
  assert (E1 : sub (prog ++ seeds ++ [z2b bump] ++ key_or_zero auth) 0 32 = prog) by (apply (sub_mid [] prog); auto).
  assert (E2 : nth 64 (prog ++ seeds ++ [z2b bump] ++ key_or_zero auth) x00 = z2b bump).
  { rewrite app_nth2, app_nth2 by lia. rewrite T1, R1. reflexivity. }
  rewrite E1, E2, !app_length. cbn [length]. rewrite T1, R1. split; [tauto|]. intro Q. split; [lia|exact Q].
Qed.
Lemma parts_lookup t xs : forall ps, parts xs ps -> NoDup (map jext_type xs) ->
  forall b, lookup t ps = Some b <-> exists x, In x xs /\ jext_type x = t /\ js_payload x = Some b.
Proof.
  induction xs as [|x xs IH]; intros ps P N b; inversion P as [|? [t' b'] ? ps' [P1 P2] P3]; subst; cbn [lookup].
  - split; [discriminate|]. intros (x & [] & _).
  - cbn [fst snd] in *. subst t'. inversion N as [|? ? N1 N2]; subst. destruct (ext_type_eqb (jext_type x) t) eqn:E.
    + apply ext_type_eqb_eq in E. subst t. split; [intro Q; apply some_inj in Q; subst b'; exists x; split; [now left|auto]|].
      intros (y & [<-|Hy] & Q1 & Q2); [congruence|]. elim N1. rewrite <- Q1. now apply in_map.
    + rewrite (IH ps' P3 N2). split; intros (y & Hy & Q1 & Q2); [exists y; split; [now right|auto]|].
      destruct Hy as [<-|Hy]; [rewrite Q1, ext_type_eqb_refl in E; discriminate E|]. exists y. auto.
Qed.
Lemma exts_of_parts ps : ext_list (map of_ext ps) = ps /\ map bk_type (map of_ext ps) = map fst ps.
Proof. unfold ext_list. rewrite !map_map. split; [rewrite <- (map_id ps) at 2|]; apply map_ext; intros [t b]; reflexivity. Qed.
Lemma suits_iff e st asset xs ps : Forall typed xs -> parts xs ps -> NoDup (map jext_type xs) ->
  (standard_ok e st asset (map of_ext ps) <-> suits e st asset xs).
Proof.
  intros T P N. unfold standard_ok, suits. destruct (exts_of_parts ps) as [-> ->]. rewrite (proj2 (parts_kinds _ _ P)).
  pose proof (parts_lookup XProxy xs ps P N) as PL. rewrite Forall_forall in T.
  assert (PB : forall x, In x xs -> exists b, js_payload x = Some b).
  { clear -P. induction P as [|x p xs ps [_ P] _ IH]; intros y []; [subst; eauto|now apply IH]. }
  assert (PX : forall x, In x xs -> jext_type x = XProxy -> exists prog seeds bump auth, x = JProxy prog seeds bump auth).
  { intros x _ E. destruct x; try discriminate E. eauto. }
  split; intros (M & A & B); split; try exact M; clear M.
  - assert (HP : st = Proxied <-> In XProxy (map jext_type xs)).
    { split.
      - intro E. destruct (A E) as (b & Q & _). apply PL in Q as (x & X1 & X2 & _). rewrite <- X2. now apply in_map.
      - intro I1. destruct st; try reflexivity; exfalso; apply in_map_iff in I1 as (x & X1 & X2); destruct (PB x X2) as (b & X3);
          assert (Q : lookup XProxy ps = Some b) by (apply PL; exists x; auto); rewrite B in Q; discriminate. }
    split; [exact HP|]. intros prog seeds bump auth I1. destruct (PB _ I1) as (b & Q).
    assert (Es : st = Proxied) by (apply HP, in_map_iff; eexists; split; [|exact I1]; reflexivity).
    destruct (A Es) as (b' & L & D). assert (L' : lookup XProxy ps = Some b) by (apply PL; eexists; split; [exact I1|split; [reflexivity|exact Q]]).
    rewrite L' in L. apply some_inj in L. subst b'. now apply (proxy_payload prog seeds bump auth b e asset (T _ I1) Q).
  - split.
    + intro E. apply A, in_map_iff in E as (x & X1 & X2). destruct (PB x X2) as (b & X3). exists b. split; [apply PL; exists x; auto|].
      destruct (PX x X2 X1) as (prog & seeds & bump & auth & ->). apply (proxy_payload prog seeds bump auth b e asset (T _ X2) X3). exact (B _ _ _ _ X2).
    + intro E. destruct (lookup XProxy ps) as [b|] eqn:L; [|reflexivity]. destruct (proj1 (PL b) eq_refl) as (x & X1 & X2 & _). elim E. apply A, in_map_iff. exists x. auto.
Qed.
Lemma sensible_all xs ps : Forall typed xs -> parts xs ps -> Forall (fun p => zlen (snd p) <= u32_max) ps ->
  (Forall (fun x => acceptable (fst x) (snd x)) ps <-> Forall sensible xs).
Proof.
  intros T P. induction P as [|x [t b] xs ps [P1 P2] _ IH]; intro Z; [split; constructor|]. cbn [fst snd] in *. subst t.
  apply Forall_cons_iff in T as [T1 T2]. apply Forall_cons_iff in Z as [Z1 Z2]. rewrite !Forall_cons_iff. cbn [fst snd]. rewrite (IH T2 Z2), (sensible_iff x b T1 P2 Z1). reflexivity.
Qed.

(** ** When mint goes through *)
Lemma mint_values e c a ps ixs w p lg : env_ok e -> rent_mono e -> e_prog e <> pk_zero -> sized w -> lam_ok w ->
  vacant w (jm_asset a) -> jm_payer a = Some p -> (jm_sysp a = None \/ jm_sysp a = Some pk_zero) -> wallet w p -> p <> jm_asset a -> p <> e_prog e ->
  plain_accounts e (jmint_create_metas e c a) w -> jm_group a <> Some (e_prog e) -> jm_gauth a <> Some (e_prog e) ->
  (forall g, jm_group a = Some g -> acct_owner (w g) = e_prog e -> initialized (data (w g)) -> well_formed (data (w g)) lg /\ grouping_sane lg) ->
  Forall typed (jm_exts a) -> parts (jm_exts a) ps -> 168 + space ps <= 10485760 -> utf8_text (jm_name a) ->
  js_mint e c a = Some ixs ->
  (exists w', run_ixs e ixs w = Ok w') <->
  NoDup (map jext_type (jm_exts a)) /\ Forall sensible (jm_exts a) /\
  suits e (match jm_standard a with Some s => s | None => NonFungible end) (jm_asset a) (jm_exts a) /\
  e_rent e (168 + space ps) <= lamports (w p) /\
  forall g, jm_group a = Some g -> may_join e (jmint_create_metas e c a) w (jm_asset a) g
    (match jm_gauth a with Some k => k | None => js_authority c a end) lg no_key (pk_bytes (js_authority c a)).
Proof.
  intros He M Hz Hs Hl V Ep Hy W N1 N2 Pl G1 G2 GI T P Sz U J.
  rewrite (js_mint_goes e c a ps ixs w p lg He M Hz Hs Hl V Ep Hy W N1 N2 Pl G1 G2 GI P Sz U J).
  rewrite (sensible_all _ _ T P (parts_sizes _ _ P Sz)).
  change (map (fun x => blk_of (fst x) (snd x)) ps) with (map of_ext ps). change (js_default NonFungible (jm_standard a)) with (match jm_standard a with Some s => s | None => NonFungible end).
  split; intros (A & B & C & D); split; try exact A; split; try exact B; (split; [|exact D]).
  - now apply (suits_iff _ _ _ _ _ T P A).
  - now apply (suits_iff _ _ _ _ _ T P A).
Qed.

(** ** getExtension *)
Lemma get_first t l : first_of t l (js_get t l).
Proof.
  unfold js_get. induction l as [|x l IH]; [intros []|]. cbn [find]. destruct (ext_type_eqb (jext_type x) t) eqn:E.
  - apply ext_type_eqb_eq in E. exists [], l. split; [reflexivity|]. split; [exact E|intros []].
  - destruct (find _ l) as [y|]; cbn [first_of] in *.
    + destruct IH as (b & r & -> & H1 & H2). exists (x :: b), r. split; [reflexivity|]. split; [exact H1|]. intros [Q|Q]; [|now apply H2]. rewrite Q, ext_type_eqb_refl in E. discriminate E.
    + intros [Q|Q]; [|now apply IH]. rewrite Q, ext_type_eqb_refl in E. discriminate E.
Qed.
Lemma get_shown l ys t : Forall2 (fun k y => shown (bk_type k) (bk_data k) (bk_pad k) y) l ys ->
  match js_get t ys with
  | Some y => exists k, In k l /\ bk_type k = t /\ lookup t (ext_list l) = Some (bk_data k) /\ shown t (bk_data k) (bk_pad k) y
  | None => lookup t (ext_list l) = None
  end.
Proof.
  unfold js_get. induction 1 as [|k y l ys S _ IH]; [reflexivity|]. cbn [find map]. pose proof (proj1 S) as Et.
  change (ext_list (k :: l)) with ((bk_type k, bk_data k) :: ext_list l). cbn [lookup].
  rewrite Et. destruct (ext_type_eqb (jext_type y) t) eqn:E.
  - apply ext_type_eqb_eq in E. exists k. split; [now left|]. split; [congruence|]. split; [reflexivity|]. rewrite <- E, <- Et. exact S.
  - destruct (find _ ys) as [z|].
    + destruct IH as (k' & H1 & H2 & H3 & H4). exists k'. split; [now right|]. auto.
    + exact IH.
Qed.
Lemma get_minted auth xs ys t : Forall2 (minted_value auth) xs ys ->
  match js_get t xs with
  | Some x => exists y, js_get t ys = Some y /\ minted_value auth x y
  | None => js_get t ys = None
  end.
Proof.
  assert (Ty : forall x y, minted_value auth x y -> jext_type y = jext_type x).
  { intros x y H. destruct x; cbn [minted_value same_value] in H; try (subst y; reflexivity). destruct H as (r & -> & _). reflexivity. }
  unfold js_get. induction 1 as [|x y xs ys S _ IH]; [reflexivity|]. cbn [find]. rewrite (Ty _ _ S). destruct (ext_type_eqb (jext_type x) t); [exists y; auto|exact IH].
Qed.

(** ** The helpers that make the values *)
Lemma helper_sensible : (forall l, sensible (js_creators l) <-> share_sum (map (fun c => (fst c, false, snd c)) l) mod 256 = 100) /\
  (forall m k, sensible (js_grouping m k)) /\ (forall s d u i, sensible (js_metadata s d u i)) /\ (forall bp o, sensible (js_royalties bp o) <-> bp <= 10000).
Proof. repeat split; auto. Qed.

(** ** create with the extensions inline *)
Lemma inline_perm {A} (l : list A) : Permutation (inline_order l) l.
Proof. destruct l as [|x l]; [constructor|]. cbn [inline_order]. constructor. apply Permutation_sym, Permutation_rev. Qed.
Lemma inline_map {A B} (f : A -> B) l : inline_order (map f l) = map f (inline_order l).
Proof. destruct l as [|x l]; [reflexivity|]. cbn [inline_order map]. now rewrite map_rev. Qed.
Lemma forall2_rev {A B} (R : A -> B -> Prop) l l' : Forall2 R l l' -> Forall2 R (rev l) (rev l').
Proof. induction 1 as [|x y l l' H _ IH]; [constructor|]. cbn [rev]. apply Forall2_app; [exact IH|]. repeat constructor. exact H. Qed.
Lemma inline_parts xs ps : parts xs ps -> parts (inline_order xs) (inline_order ps).
Proof. intro H. inversion H; subst; cbn [inline_order]; [constructor|]. constructor; [assumption|]. now apply forall2_rev. Qed.
Definition as_input (p : ext_type * bytes) : ext_input := mkExtInput (fst p) (zlen (snd p)) (Some (snd p)).
Lemma jinputs_parts xs : forall ys, jinputs xs = Some ys <-> exists ps, parts xs ps /\ ys = map as_input ps.
Proof.
  induction xs as [|x xs IH]; intro ys; cbn [jinputs].
  - split; [intro H; apply some_inj in H; subst ys; exists []; split; [constructor|reflexivity]|]. intros (ps & P & ->). inversion P; subst. reflexivity.
  - split.
    + intro H. destruct (js_payload x) as [b|] eqn:E; [|discriminate]. destruct (jinputs xs) as [zs|]; [|discriminate]. apply some_inj in H. subst ys.
      destruct (proj1 (IH zs) eq_refl) as (ps & P & ->). exists ((jext_type x, b) :: ps). split; [constructor; auto|reflexivity].
    + intros (ps & P & ->). inversion P as [|? [t b] ? ps' [P1 P2] P3]; subst. cbn [fst snd] in *. subst t. rewrite P2. rewrite (proj2 (IH (map as_input ps')) (ex_intro _ ps' (conj P3 eq_refl))). reflexivity.
Qed.
Lemma space_perm ps qs : Permutation ps qs -> space ps = space qs.
Proof. induction 1 as [|[t b] ? ? _ IH|[t b] [t' b'] ?|? ? ? _ IH1 _ IH2]; cbn [space]; lia. Qed.
Lemma space_sect ps : sect_size (map of_ext ps) = space ps.
Proof.
  induction ps as [|[t b] ps IH]; [reflexivity|]. cbn [map space]. change (sect_size (of_ext (t, b) :: map of_ext ps)) with (blk_size (blk_of t b) + sect_size (map of_ext ps)).
  rewrite IH, blk_of_size. unfold pad8. lia.
Qed.
Definition jcreate_meta (a : jmint) (o : option (list ext_input)) : metadata_input :=
  mkMetaInput (jm_name a) (js_default NonFungible (jm_standard a)) (js_default true (jm_mutable a)) o.
Lemma inline_inputs a ps : inline (jcreate_meta a (Some (map as_input ps))) = map as_input (inline_order ps) /\
  inline_blks (inline (jcreate_meta a (Some (map as_input ps)))) = map of_ext (inline_order ps).
Proof.
  assert (E : inline (jcreate_meta a (Some (map as_input ps))) = map as_input (inline_order ps)) by (unfold inline, jcreate_meta; cbn [m_exts]; apply inline_map).
  split; [exact E|]. rewrite E. unfold inline_blks. rewrite map_map. apply map_ext. intros [t b]. reflexivity.
Qed.
Lemma create_run e c a xs ps i w : parts xs ps -> utf8_text (jm_name a) -> js_create e c a (Some xs) = Some i ->
  run_ixs e [i] w = process e (jmint_create_metas e c a) w (ICreate (jcreate_meta a (Some (map as_input ps)))).
Proof.
  intros P U H. unfold js_create in H. rewrite (proj2 (jinputs_parts xs (map as_input ps)) (ex_intro _ ps (conj P eq_refl))) in H. cbn [option_map] in H.
  fold (jcreate_meta a (Some (map as_input ps))) in H. unfold jix in H.
  destruct (js_instr (ICreate (jcreate_meta a (Some (map as_input ps))))) as [b|] eqn:E; [|discriminate H]. apply some_inj in H. subst i. cbn [run_ixs].
  rewrite (js_instr_runs e _ w (ICreate (jcreate_meta a (Some (map as_input ps)))) b U E). destruct (process e _ w _); reflexivity.
Qed.
Lemma inputs_args ps : Forall (fun x => fst x <> XNone) ps -> 168 + space ps <= 10485760 -> Forall ext_arg (map as_input ps).
Proof.
  induction ps as [|[t b] ps IH]; intros N H; constructor; cbn [space] in H; pose proof (zlen_nonneg b); pose proof (LiveL.space_nonneg ps); apply Forall_cons_iff in N as [N1 N2].
  - split; [exact N1|]. unfold as_input, given. cbn [x_length x_data fst snd]. lia.
  - apply IH; [exact N2|]. lia.
Qed.
Lemma inline_kinds ps : Forall (fun x => fst x <> XNone) ps -> Forall (fun x : ext_type * bytes => fst x <> XNone) (inline_order ps).
Proof. intro H. eapply Permutation_Forall; [apply Permutation_sym, inline_perm|exact H]. Qed.
Lemma typed_order xs : Forall typed xs -> Forall typed (inline_order xs).
Proof. intro H. eapply Permutation_Forall; [apply Permutation_sym, inline_perm|exact H]. Qed.

Lemma create_displayed e c a xs ps i w w' : env_ok e -> e_prog e <> pk_zero -> sized w -> data (w (jm_asset a)) = [] ->
  Forall typed xs -> parts xs ps -> 168 + space ps <= 10485760 -> utf8_text (jm_name a) -> jm_group a <> Some (e_prog e) ->
  js_create e c a (Some xs) = Some i -> run_ixs e [i] w = Ok w' ->
  exists s, js_asset (data (w' (jm_asset a))) = JDone s /\ displayed c a (inline_order xs) s.
Proof.
  intros He Hz Hs Hd T P Sz U HG J H. rewrite (create_run e c a xs ps i w P U J) in H.
  set (infos := jmint_create_metas e c a) in *. set (m := jcreate_meta a (Some (map as_input ps))) in *.
  assert (A0 : arg infos 0 (jm_asset a)) by (eexists; split; reflexivity).
  assert (A1 : arg infos 1 (js_authority c a)) by (unfold js_authority; eexists; split; [reflexivity|]; destruct (jm_auth a) as [[k s]|]; reflexivity).
  assert (A2 : arg infos 2 (js_owner c a)) by (eexists; split; reflexivity).
  assert (A3 : arg infos 3 match jm_group a with Some g => g | None => e_prog e end) by (eexists; split; [reflexivity|]; destruct (jm_group a); reflexivity).
  destruct (parts_kinds _ _ P) as [HK _]. destruct (inline_inputs a ps) as [I1 I2]. fold m in I1, I2.
  pose proof (Permutation_sym (inline_perm ps)) as PP. pose proof (space_perm _ _ PP) as SP.
  assert (HF : Forall ext_arg (inline m)) by (rewrite I1; apply inputs_args; [now apply inline_kinds|lia]).
  assert (HO : open_account (data (w (jm_asset a))) (repeat x00 168) [] 0) by (left; auto).
  destruct (create_effect _ _ _ _ _ _ _ _ _ He Hz A0 HO Hs HF H) as (auth & owner & l' & hd' & B1 & B2 & _ & HL & HC & _ & Ow & D1 & D2 & D3 & D4 & D5 & D6 & D7 & D8 & D9 & _ & _ & _ & G & _).
  rewrite (arg_det _ _ _ _ B1 A1), (arg_det _ _ _ _ B2 A2) in *. cbn [app] in HC. rewrite I2 in HC.
  assert (R : create_room (data (w (jm_asset a))) 0 m = 0) by (rewrite Hd; reflexivity). rewrite R in HL. cbn [Z.to_nat repeat] in HL.
  pose proof (hd_fields _ _ _ _ HL) as (Q1 & Q2 & Q3 & Q4 & Q5 & Q6 & Q7 & Q8 & Q9 & Q10).
  pose proof (created_validated _ _ _ HC) as HV. pose proof (inline_parts _ _ P) as P'. pose proof (proj2 (parts_kinds _ _ P')) as HK'.
  assert (FP : Forall2 (fun x b => bk_type b = fst x /\ fresh_payload (fst x) (Some (pk_bytes (js_authority c a))) (snd x) (bk_data b)) (inline_order ps) l').
  { clear -HV. revert l' HV. induction (inline_order ps) as [|[t b] qs IH]; intros l' HV; inversion HV as [|? b' ? l3 [T' F'] HV']; subst; constructor; [split; assumption|now apply IH]. }
  eapply (display c a (inline_order xs) (inline_order ps)).
  - now apply typed_order.
  - exact P'.
  - lia.
  - exact HL.
  - rewrite <- HK'. clear -FP. induction FP as [|x b xs l [E _] _ IH]; [reflexivity|]. cbn [map]. congruence.
  - clear -FP. induction FP as [|x b xs l [_ E] _ IH]; constructor; assumption.
  - congruence.
  - rewrite Q2, D7. reflexivity.
  - rewrite Q3, D2. unfold m, jcreate_meta, js_default. cbn [m_standard]. destruct (jm_standard a); reflexivity.
  - rewrite Q4, D3. unfold m, jcreate_meta, js_default. cbn [m_mutable]. destruct (jm_mutable a) as [[]|]; reflexivity.
  - congruence.
  - congruence.
  - destruct G as [(B3 & G & _)|(g & aa & off & b & B3 & Hg & _ & _ & G & _)]; pose proof (arg_det _ _ _ _ B3 A3) as E3.
    + destruct (jm_group a) as [g|]; [now elim HG; congruence|]. rewrite Q6, G. reflexivity.
    + destruct (jm_group a) as [g'|]; [congruence|contradiction].
  - rewrite Q8, D8. reflexivity.
  - rewrite Q10. exact D6.
Qed.
Lemma suits_perm e st asset xs ys : Permutation xs ys -> (suits e st asset xs <-> suits e st asset ys).
Proof.
  intro P. assert (I1 : forall t, In t (map jext_type xs) <-> In t (map jext_type ys)).
  { intro t. pose proof (Permutation_map jext_type P) as Q. split; apply Permutation_in; [exact Q|now apply Permutation_sym]. }
  unfold suits. rewrite !I1. split; intros (A & B & C); split; try exact A; split; try exact B; intros prog seeds bump auth H; apply (C prog seeds bump auth); [apply (Permutation_in _ (Permutation_sym P) H)|apply (Permutation_in _ P H)].
Qed.
Lemma create_values e c a xs ps i w p lg : env_ok e -> e_prog e <> pk_zero -> sized w ->
  vacant w (jm_asset a) -> jm_payer a = Some p -> (jm_sysp a = None \/ jm_sysp a = Some pk_zero) -> wallet w p -> p <> jm_asset a -> p <> e_prog e ->
  plain_accounts e (jmint_create_metas e c a) w -> jm_group a <> Some (e_prog e) -> jm_gauth a <> Some (e_prog e) ->
  (forall g, jm_group a = Some g -> acct_owner (w g) = e_prog e -> initialized (data (w g)) -> well_formed (data (w g)) lg /\ grouping_sane lg) ->
  Forall typed xs -> parts xs ps -> 168 + space ps <= 10485760 -> utf8_text (jm_name a) ->
  js_create e c a (Some xs) = Some i ->
  (exists w', run_ixs e [i] w = Ok w') <->
  168 + space ps <= 10240 /\ NoDup (map jext_type xs) /\ Forall sensible xs /\
  suits e (match jm_standard a with Some s => s | None => NonFungible end) (jm_asset a) xs /\
  e_rent e (168 + space ps) <= lamports (w p) /\
  forall g, jm_group a = Some g -> may_join e (jmint_create_metas e c a) w (jm_asset a) g
    (match jm_gauth a with Some k => k | None => js_authority c a end) lg no_key (pk_bytes (js_authority c a)).
Proof.
  intros He Hz Hs (V1 & V2 & V3) Ep Hy (P1 & P2 & PT) N1 N2 Pl G1 G2 GI T P Sz U J. rewrite (create_run e c a xs ps i w P U J).
  set (ci := jmint_create_metas e c a) in *. set (m := jcreate_meta a (Some (map as_input ps))) in *. set (asset := jm_asset a) in *.
  assert (Eci : ci = [mkInfo asset true true; jmeta (e_prog e) false (Some match jm_auth a with Some k => k | None => jsigner (jc_identity c) end);
     mkInfo (js_owner c a) false false; jmeta (e_prog e) true (option_map jpub (jm_group a)); jmeta (e_prog e) false (option_map jsigner (jm_gauth a)); mkInfo p true true; mkInfo pk_zero false false]).
  { unfold ci, jmint_create_metas, js_create_metas. rewrite Ep. cbn [option_map]. fold asset. do 6 f_equal. destruct Hy as [Hy|Hy]; rewrite Hy; reflexivity. }
  assert (A0 : arg ci 0 asset) by (rewrite Eci; eexists; split; reflexivity).
  assert (A1 : arg ci 1 (js_authority c a)) by (rewrite Eci; unfold js_authority; eexists; split; [reflexivity|]; destruct (jm_auth a) as [[k s]|]; reflexivity).
  assert (A2 : arg ci 2 (js_owner c a)) by (rewrite Eci; eexists; split; reflexivity).
  assert (A3 : optional e ci 3 (jm_group a)).
  { rewrite Eci. destruct (jm_group a) as [g|]; [split; [eexists; split; reflexivity|congruence]|eexists; split; reflexivity]. }
  assert (A4 : optional e ci 4 (jm_gauth a)).
  { rewrite Eci. destruct (jm_gauth a) as [g|]; [split; [eexists; split; reflexivity|congruence]|eexists; split; reflexivity]. }
  assert (A5 : optional e ci 5 (Some p)) by (rewrite Eci; split; [eexists; split; reflexivity|assumption]).
  assert (A6 : optional e ci 6 (Some pk_zero)) by (rewrite Eci; split; [eexists; split; reflexivity|congruence]).
  assert (S0 : signed ci asset) by (rewrite Eci; exists (mkInfo asset true true); split; [left; reflexivity|split; reflexivity]).
  assert (W0 : writable ci asset) by (rewrite Eci; exists (mkInfo asset true true); split; [left; reflexivity|split; reflexivity]).
  assert (S5 : signed ci p) by (rewrite Eci; exists (mkInfo p true true); split; [do 5 right; left; reflexivity|split; reflexivity]).
  assert (W5 : writable ci p) by (rewrite Eci; exists (mkInfo p true true); split; [do 5 right; left; reflexivity|split; reflexivity]).
  assert (WG : forall g, jm_group a = Some g -> writable ci g).
  { intros g Eg. rewrite Eci, Eg. exists (mkInfo g false true). split; [do 3 right; left; reflexivity|split; reflexivity]. }
  destruct (parts_kinds _ _ P) as [HK HT]. destruct (inline_inputs a ps) as [I1 I2]. fold m in I1, I2.
  pose proof (inline_perm ps) as PP. pose proof (space_perm _ _ PP) as SP.
  assert (HF : Forall ext_arg (inline m)) by (rewrite I1; apply inputs_args; [now apply inline_kinds|lia]).
  assert (HO : open_account (data (w asset)) (repeat x00 168) [] 0) by (left; auto).
  rewrite (create_goes e ci w m asset (js_authority c a) (js_owner c a) (jm_group a) (jm_gauth a) (Some p) (Some pk_zero) (repeat x00 168) [] 0 lg A0 A1 A2 A3 A4 A5 A6 HO HF (or_introl V1)
     (fun g Eg => conj (WG g Eg) (GI g Eg)) W0 Pl Hs He Hz).
  rewrite I2, space_sect, SP. cbn [app]. change (s_group (repeat x00 168)) with no_key. change (m_standard m) with (match jm_standard a with Some s => s | None => NonFungible end).
  assert (Ty : map x_type (inline m) = map jext_type (inline_order xs)).
  { rewrite I1, map_map. rewrite <- (proj2 (parts_kinds _ _ (inline_parts _ _ P))). apply map_ext. intros [t b]. reflexivity. }
  assert (ND : NoDup (map x_type (inline m)) <-> NoDup (map jext_type xs)).
  { rewrite Ty. pose proof (Permutation_map jext_type (inline_perm xs)) as Q. split; apply Permutation_NoDup; [exact Q|now apply Permutation_sym]. }
  assert (FA : Forall (fun b => acceptable (bk_type b) (bk_data b)) (map of_ext (inline_order ps)) <-> Forall sensible xs).
  { assert (E : Forall (fun b => acceptable (bk_type b) (bk_data b)) (map of_ext (inline_order ps)) <-> Forall (fun x => acceptable (fst x) (snd x)) (inline_order ps)).
    { rewrite Forall_map, !Forall_forall. split; intros Q [t b] Hx; exact (Q (t, b) Hx). }
    rewrite E, (sensible_all _ _ (typed_order _ T) (inline_parts _ _ P)); [|apply (parts_sizes _ _ (inline_parts _ _ P)); lia].
    split; apply Permutation_Forall; [apply inline_perm|apply Permutation_sym, inline_perm]. }
  rewrite ND, FA.
  assert (SU : NoDup (map jext_type xs) -> forall st, standard_ok e st asset (map of_ext (inline_order ps)) <-> suits e st asset xs).
  { intros N st. rewrite (suits_iff e st asset (inline_order xs) (inline_order ps) (typed_order _ T) (inline_parts _ _ P)); [apply suits_perm, inline_perm|].
    rewrite <- Ty. now apply ND. }
  split.
  - intros (_ & O & _ & _ & _ & N & F & S & MJ). destruct (O V1) as (_ & _ & Q1 & Q2 & _ & p' & Q3 & _ & (_ & _ & _ & _ & Q4)). apply some_inj in Q3. subst p'.
    split; [exact Q1|]. split; [exact N|]. split; [exact F|]. split; [now apply (SU N)|]. split; [exact Q4|exact MJ].
  - intros (Q1 & N & F & S & Q4 & MJ). split; [exact S0|]. split.
    { intros _. split; [exact V2|]. split; [exact V3|]. split; [exact Q1|]. split; [lia|]. split; [reflexivity|]. exists p. split; [reflexivity|]. split; [exact N1|].
      split; [exact S5|]. split; [exact W5|]. split; [exact P1|]. split; [exact P2|exact Q4]. }
    split; [intro Q; contradiction|]. split; [rewrite I1; apply Forall_map, Forall_forall; reflexivity|].
    split; [apply Forall_forall; reflexivity|]. split; [exact N|]. split; [exact F|]. split; [now apply (SU N)|exact MJ].
Qed.

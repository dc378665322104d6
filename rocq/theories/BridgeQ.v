(** Lemmas: the bridge's clients. *)
From Verif Require Import Base State Layout Constr Ext World Proc Borsh Proxy Client Bridge Js Rs BridgeC BaseL Spec SpecB SpecC SpecE SpecH SpecI SpecK SpecL SpecP SpecV SpecX SpecY SpecZ WorldL FrameL LayoutL GroupL BorshL ProxyL BridgeL BridgeM ExactL BridgeN BridgeO SquatL JsL.
From Verif Require JsO.
From Coq Require Import Strings.Byte.

(** ** addresses *)
Lemma js_pda_iff e me seeds s k : concat seeds = s -> (js_pda e me seeds = Some k <-> exists bump, canonical (e_cpa e) me s k bump).
Proof.
  intro E. unfold js_pda. rewrite E. destruct (find_address e s me 255) as [[k' n]|] eqn:F; cbn [option_map fst]; split.
  - intro H. apply Some_inj in H. subst k'. exists n. now apply find_iff.
  - intros (n' & C). apply find_iff in C. rewrite F in C. apply Some_inj in C. congruence.
  - discriminate.
  - intros (n' & C). apply find_iff in C. congruence.
Qed.
Lemma js_find_vault_iff e me mint k : js_find_vault e me mint = Some k <-> exists bump, canonical (e_cpa e) me (s_vault ++ pk_bytes mint) k bump.
Proof. apply js_pda_iff. cbn [concat]. now rewrite app_nil_r. Qed.
Lemma js_find_asset_iff e me mint k : js_find_asset e me mint = Some k <-> exists bump, canonical (e_cpa e) me (s_asset ++ pk_bytes mint) k bump.
Proof. apply js_pda_iff. cbn [concat]. now rewrite app_nil_r. Qed.
Lemma rs_find_vault_iff e me mint k bump : rs_find_vault e me mint = Some (k, bump) <-> canonical (e_cpa e) me (s_vault ++ pk_bytes mint) k bump.
Proof. apply find_iff. Qed.

(** ** account lists *)
Lemma at_i infos i a : nth_error infos i = Some a -> at_pos infos i (ai_key a).
Proof. intro H. exists a. auto. Qed.
Lemma opt_at_i me infos i wr o : nth_error infos i = Some (jmeta me wr (option_map jpub o)) -> o <> Some me -> opt_pos me infos i o.
Proof. intros H N. destruct o as [k|]; cbn [option_map jmeta jpub] in H; [split; [exact (at_i _ _ _ H)|congruence]|exact (at_i _ _ _ H)]. Qed.
Lemma pnft_not o s d me : o <> Some me -> d <> me -> jpnft o s d <> Some me.
Proof. unfold jpnft. destruct o as [k|]; [auto|]. destruct s as [[]|]; congruence. Qed.

Lemma opt_det me infos i o o' : opt_pos me infos i o -> opt_pos me infos i o' -> o = o'.
Proof.
  destruct o as [k|], o' as [k'|]; cbn [opt_pos]; intros A B; [destruct A, B; f_equal; eauto using at_det|destruct A as [A N]; elim N; eauto using at_det|
    destruct B as [B N]; elim N; eauto using at_det|reflexivity].
Qed.
Lemma names_det me infos t t' : names me infos t -> names me infos t' -> t = t'.
Proof.
  destruct t, t'. intros (A0 & A1 & A2 & A3 & A4 & A5 & A6 & A7 & A8 & A9 & A10 & A19) (B0 & B1 & B2 & B3 & B4 & B5 & B6 & B7 & B8 & B9 & B10 & B19).
  cbn in *. f_equal; eauto using at_det, opt_det.
Qed.
Lemma births_det me infos t t' : birth_names me infos t -> birth_names me infos t' -> t = t'.
Proof.
  destruct t, t'. intros (A0 & A1 & A2 & A3 & A4 & A5 & A6 & A7 & _) (B0 & B1 & B2 & B3 & B4 & B5 & B6 & B7 & _).
  cbn in *. f_equal; eauto using at_det, opt_det.
Qed.

Lemma signs_nth l i k wr : nth_error l i = Some (mkInfo k true wr) -> signs l k.
Proof. intro H. exists (mkInfo k true wr). split; [exact (nth_error_In _ _ H)|split; reflexivity]. Qed.
Lemma writes_nth l i k sg : nth_error l i = Some (mkInfo k sg true) -> writes l k.
Proof. intro H. exists (mkInfo k sg true). split; [exact (nth_error_In _ _ H)|split; reflexivity]. Qed.
Lemma mentions_nth l i k sg wr : nth_error l i = Some (mkInfo k sg wr) -> mentions l k.
Proof. intro H. exists (mkInfo k sg wr). split; [exact (nth_error_In _ _ H)|reflexivity]. Qed.
Lemma js_bridge_list e me pd id c i metas a v : no_clash me pd i ->
  jelse (jb_asset i) (js_find_asset e me (jb_mint i)) = Some a -> jelse (jb_vault i) (js_find_vault e me (jb_mint i)) = Some v ->
  js_bridge e me pd id c i = Some metas ->
  exists t, names me metas t /\ ta_asset t = a /\ ta_vault t = v /\ ta_owner t = jb_owner i /\ ta_mint t = jb_mint i /\
    ta_metadata t = jor (jb_metadata i) (pd_metadata pd (jb_mint i)) /\ ta_edition t = jor (jb_edition i) (pd_edition pd (jb_mint i)) /\
    ta_token t = jor (jb_token i) (pd_ata pd (jb_mint i) (jb_owner i)) /\ ta_vault_token t = jor (jb_vtoken i) (pd_ata pd (jb_mint i) v) /\
    ta_payer t = jor (jb_payer i) (jc_payer c) /\ ta_group t = jb_group i /\
    signs metas (ta_owner t) /\ signs metas (ta_payer t) /\ writes metas (ta_vault t) /\ writes metas (ta_asset t) /\
    mentions metas (jor (jb_nifty i) (e_prog e)).
Proof.
  intros (N1 & N2 & N3 & N4) A V H. unfold js_bridge in H. rewrite A, V in H. apply Some_inj in H.
  set (tok := jor (jb_token i) (pd_ata pd (jb_mint i) (jb_owner i))) in *. set (vtok := jor (jb_vtoken i) (pd_ata pd (jb_mint i) v)) in *.
  exists (mkToggle a v (jb_owner i) tok (jb_mint i) (jor (jb_metadata i) (pd_metadata pd (jb_mint i))) (jor (jb_edition i) (pd_edition pd (jb_mint i)))
    (jpnft (jb_record i) (jb_standard i) (pd_record pd (jb_mint i) tok)) vtok (jpnft (jb_vrecord i) (jb_standard i) (pd_record pd (jb_mint i) vtok))
    (jor (jb_payer i) (jc_payer c)) (jb_group i)).
  cbn [ta_asset ta_vault ta_owner ta_token ta_mint ta_metadata ta_edition ta_record ta_vault_token ta_vault_record ta_payer ta_group].
  subst metas. split.
  { repeat split; try (eexists; split; reflexivity);
      cbn [ta_record ta_vault_record ta_group]; eapply opt_at_i; try reflexivity; try assumption; apply pnft_not; auto. }
  repeat (split; [reflexivity|]).
  split; [apply (signs_nth _ 2 _ false); reflexivity|]. split; [apply (signs_nth _ 10 _ true); reflexivity|]. split; [apply (writes_nth _ 1 _ false); reflexivity|].
  split; [apply (writes_nth _ 0 _ false); reflexivity|apply (mentions_nth _ 11 _ false false); reflexivity].
Qed.
Lemma rs_js_bridge e me pd id c r : js_bridge e me pd id c (given r) = Some (rs_bridge me r).
Proof.
  unfold js_bridge, given, rs_bridge. cbn [jb_asset jb_vault jb_owner jb_token jb_mint jb_metadata jb_edition jb_record jb_vtoken jb_vrecord jb_payer jb_nifty jb_tm jb_sys jb_sysvar jb_spl jb_ata jb_rulesp jb_rules jb_group jb_standard jelse jor].
  f_equal. repeat (f_equal; []). destruct (rb_record r), (rb_vrecord r), (rb_rulesp r), (rb_rules r), (rb_group r); reflexivity.
Qed.
Definition jauth (c : jctx) (i : jcreate) : jkey := match jn_auth i with Some a => a | None => jsigner (jc_identity c) end.
Lemma js_create_list e me pd c i metas a v : jn_collection i <> Some me ->
  jelse (jn_asset i) (js_find_asset e me (jn_mint i)) = Some a -> jelse (jn_vault i) (js_find_vault e me (jn_mint i)) = Some v ->
  js_create e me pd c i = Some metas ->
  birth_names me metas (mkBirth a v (jn_mint i) (jor (jn_metadata i) (pd_metadata pd (jn_mint i))) (fst (jauth c i)) (jn_collection i)
    (jor (jn_payer i) (jc_payer c)) (jor (jn_sys i) pk_zero)) /\
  signs metas (jor (jn_payer i) (jc_payer c)) /\ writes metas (jor (jn_payer i) (jc_payer c)) /\ writes metas v /\ writes metas a /\
  mentions metas (jor (jn_nifty i) (e_prog e)) /\ (snd (jauth c i) = true -> signs metas (fst (jauth c i))).
Proof.
  intros N A V H. unfold js_create in H. rewrite A, V in H. apply Some_inj in H. fold (jauth c i) in H. subst metas. destruct (jauth c i) as [au sg]. cbn [fst snd].
  split.
  { repeat split; try (eexists; split; reflexivity); [eapply opt_at_i; [reflexivity|assumption]|cbn [length]; lia]. }
  split; [apply (signs_nth _ 6 _ true); reflexivity|]. split; [apply (writes_nth _ 6 _ true); reflexivity|]. split; [apply (writes_nth _ 1 _ false); reflexivity|].
  split; [apply (writes_nth _ 0 _ false); reflexivity|]. split; [apply (mentions_nth _ 8 _ false false); reflexivity|]. intros ->. apply (signs_nth _ 4 _ false); reflexivity.
Qed.
Lemma rs_js_create e me pd c r : js_create e me pd c (given_c r) = Some (rs_create me r).
Proof. unfold js_create, given_c, rs_create. cbn. destruct (rn_auth r), (rn_collection r); reflexivity. Qed.

(** ** instruction data *)
Lemma js_data : js_bridge_data = Some rs_bridge_data /\ forall c, js_create_data c = Some (rs_create_data c).
Proof. split; [reflexivity|]. intros []; reflexivity. Qed.

(** ** vault readers *)

Lemma z1 x : le_dec [x] = b2z x.
Proof. cbn [le_dec]. pose proof (b2z_range x). lia. Qed.
Section Readers.
Context {B : Type}.
Lemma bind_ju1 (k : Z -> reader B) b : rbind (jr_u 1) k b = match b with [] => None | x :: r => k (b2z x) r end.
Proof. destruct b as [|x r]; [reflexivity|]. unfold rbind, jr_u, rbind, jr_fixed. cbn [Nat.leb length firstn skipn rret]. now rewrite z1. Qed.
Lemma bind_jenum n (k : Z -> reader B) b : rbind (jr_enum n) k b = match b with [] => None | x :: r => if b2z x <? n then k (b2z x) r else None end.
Proof.
  destruct b as [|x r]; [reflexivity|]. unfold rbind at 1. unfold jr_enum, rbind, jr_u, rbind, jr_fixed. cbn [Nat.leb length firstn skipn rret]. rewrite z1.
  now destruct (b2z x <? n).
Qed.
Lemma bind_jfixed n (k : bytes -> reader B) b : rbind (jr_fixed n) k b = if Nat.leb n (length b) then k (firstn n b) (skipn n b) else None.
Proof. unfold rbind, jr_fixed. now destruct (Nat.leb n (length b)). Qed.
Lemma bind_u8 (k : byte -> reader B) b : rbind read_u8 k b = match b with [] => None | x :: r => k x r end.
Proof. now destruct b. Qed.
Lemma bind_variant n (k : byte -> reader B) b : rbind (rs_variant n) k b = match b with [] => None | x :: r => if b2z x <? n then k x r else None end.
Proof. destruct b as [|x r]; [reflexivity|]. unfold rbind at 1. unfold rs_variant, rbind, read_u8. now destruct (b2z x <? n). Qed.
Lemma bind_array n (k : bytes -> reader B) b : rbind (rs_array n) k b = if Nat.leb n (length b) then k (firstn n b) (skipn n b) else None.
Proof. unfold rbind, rs_array. now destruct (Nat.leb n (length b)). Qed.
End Readers.
(** both readers, as a program on the list *)
Definition vault_prog (d : bytes) : option (vault_view * bytes) :=
  match d with
  | d0 :: d1 :: d2 :: q => if (b2z d0 <? 2) && (b2z d1 <? 2) && Nat.leb 32 (length q) then
      match skipn 32 q with [] => None | x :: r => Some (mkView (b2z d0) (b2z d1) (b2z d2) (firstn 32 q) (b2z x), r) end else None
  | _ => None
  end.
Lemma js_vault_prog d : js_vault d = vault_prog d.
Proof.
  unfold js_vault, vault_prog. rewrite bind_jenum. destruct d as [|d0 d]; [reflexivity|]. destruct (b2z d0 <? 2); [|destruct d as [|d1 [|d2 q]]; reflexivity].
  rewrite bind_jenum. destruct d as [|d1 d]; [reflexivity|]. destruct (b2z d1 <? 2); [|destruct d as [|d2 q]; reflexivity].
  rewrite bind_ju1. destruct d as [|d2 q]; [reflexivity|]. rewrite bind_jfixed. cbn [andb]. destruct (Nat.leb 32 (length q)); [|reflexivity]. rewrite bind_ju1. reflexivity.
Qed.
Lemma rs_vault_prog d : rs_vault d = vault_prog d.
Proof.
  unfold rs_vault, vault_prog. rewrite bind_variant. destruct d as [|d0 d]; [reflexivity|]. destruct (b2z d0 <? 2); [|destruct d as [|d1 [|d2 q]]; reflexivity].
  rewrite bind_variant. destruct d as [|d1 d]; [reflexivity|]. destruct (b2z d1 <? 2); [|destruct d as [|d2 q]; reflexivity].
  rewrite bind_u8. destruct d as [|d2 q]; [reflexivity|]. rewrite bind_array. cbn [andb]. destruct (Nat.leb 32 (length q)); [|reflexivity]. rewrite bind_u8. reflexivity.
Qed.
Lemma vault_prog_reads d v r : vault_prog d = Some (v, r) <->
  (36 <= length d)%nat /\ b2z (nth 0 d x00) < 2 /\ b2z (nth 1 d x00) < 2 /\ v = view d /\ r = skipn 36 d.
Proof.
  destruct d as [|d0 [|d1 [|d2 q]]].
  1,2,3: split; [discriminate|intros (L & _); cbn [length] in L; lia].
  unfold vault_prog. destruct (Nat.leb 32 (length q)) eqn:L.
  2: { apply Nat.leb_gt in L. rewrite andb_false_r. split; [discriminate|]. intros (L' & _). cbn [length] in L'. lia. }
  apply Nat.leb_le in L. rewrite andb_true_r. change (nth 0 (d0 :: d1 :: d2 :: q) x00) with d0. change (nth 1 (d0 :: d1 :: d2 :: q) x00) with d1.
  destruct (b2z d0 <? 2) eqn:E0; [|split; [discriminate|lia]]. destruct (b2z d1 <? 2) eqn:E1; [|split; [discriminate|lia]]. cbn [andb].
  change (skipn 36 (d0 :: d1 :: d2 :: q)) with (skipn 33 q). unfold view. change (nth 0 (d0 :: d1 :: d2 :: q) x00) with d0. change (nth 1 (d0 :: d1 :: d2 :: q) x00) with d1.
  change (nth 2 (d0 :: d1 :: d2 :: q) x00) with d2. change (nth 35 (d0 :: d1 :: d2 :: q) x00) with (nth 32 q x00). change (sub (d0 :: d1 :: d2 :: q) 3 32) with (firstn 32 q).
  assert (E : q = firstn 32 q ++ skipn 32 q) by (symmetry; apply firstn_skipn). assert (F : length (firstn 32 q) = 32%nat) by (rewrite firstn_length; lia).
  destruct (skipn 32 q) as [|x t] eqn:K.
  - split; [discriminate|]. intros (L' & _). cbn [length] in L'. assert (LL : length q = 32%nat) by (rewrite E, app_nil_r; exact F). lia.
  - assert (N : nth 32 q x00 = x) by (rewrite E, app_nth2 by lia; rewrite F; reflexivity).
    assert (S33 : skipn 33 q = t). { rewrite E, skipn_app, F. rewrite (skipn_all2 (firstn 32 q)) by lia. reflexivity. }
    rewrite N, S33. split.
    + intro H. injection H as <- <-. repeat split; try lia. cbn [length]. assert (LL : length q = (32 + S (length t))%nat) by (rewrite E, app_length, F; reflexivity). lia.
    + intros (_ & _ & _ & -> & ->). reflexivity.
Qed.
Lemma view_stored (s : mode) bump (mint : pubkey) abump rest :
  view ((x01 :: mode_byte s :: bump :: pk_bytes mint ++ [abump]) ++ rest) = mkView 1 (match s with Idle => 0 | Active => 1 end) (b2z bump) (pk_bytes mint) (b2z abump).
Proof.
  pose proof (pk_length mint) as L. unfold view. cbn [app nth]. change (sub _ 3 32) with (firstn 32 ((pk_bytes mint ++ [abump]) ++ rest)).
  rewrite <- app_assoc. rewrite app_nth2 by lia. rewrite L. rewrite firstn_app, L, Nat.sub_diag, firstn_O, app_nil_r. rewrite (firstn_all2 (pk_bytes mint)) by lia.
  cbn [app nth Nat.sub]. destruct s; reflexivity.
Qed.
Lemma reads_stored me w k s bump mint abump : vault_at me w k s bump mint abump ->
  js_vault (data (w k)) = Some (mkView 1 (match s with Idle => 0 | Active => 1 end) (b2z bump) (pk_bytes mint) (b2z abump), []) /\
  rs_vault (data (w k)) = Some (mkView 1 (match s with Idle => 0 | Active => 1 end) (b2z bump) (pk_bytes mint) (b2z abump), []).
Proof.
  intros [_ D]. rewrite js_vault_prog, rs_vault_prog, D. pose proof (pk_length mint) as L.
  assert (H : vault_prog (x01 :: mode_byte s :: bump :: pk_bytes mint ++ [abump]) = Some (mkView 1 (match s with Idle => 0 | Active => 1 end) (b2z bump) (pk_bytes mint) (b2z abump), [])).
  { apply vault_prog_reads. rewrite <- (view_stored s bump mint abump []), app_nil_r. repeat split.
    - cbn [length]. rewrite app_length, L. cbn [length]. lia.
    - destruct s; reflexivity.
    - symmetry. apply skipn_all2. cbn [length]. rewrite app_length, L. cbn [length]. lia. }
  now split.
Qed.

(** ** what is sent is accepted *)
Lemma jelse_asset e me i o a n : canonical (e_cpa e) me (s_asset ++ pk_bytes i) a n -> o = None \/ o = Some a -> jelse o (js_find_asset e me i) = Some a.
Proof. intros C [->| ->]; [|reflexivity]. apply js_find_asset_iff. eauto. Qed.
Lemma jelse_vault e me i o v n : canonical (e_cpa e) me (s_vault ++ pk_bytes i) v n -> o = None \/ o = Some v -> jelse o (js_find_vault e me i) = Some v.
Proof. intros C [->| ->]; [|reflexivity]. apply js_find_vault_iff. eauto. Qed.
Lemma js_bridge_total e me pd id c i a v : jelse (jb_asset i) (js_find_asset e me (jb_mint i)) = Some a -> jelse (jb_vault i) (js_find_vault e me (jb_mint i)) = Some v ->
  exists metas, js_bridge e me pd id c i = Some metas.
Proof. intros A V. unfold js_bridge. rewrite A, V. eauto. Qed.
Lemma js_bridge_made e me pd id c i a v n m : no_clash me pd i -> canonical (e_cpa e) me (s_vault ++ pk_bytes (jb_mint i)) v n -> canonical (e_cpa e) me (s_asset ++ pk_bytes (jb_mint i)) a m ->
  jb_asset i = None \/ jb_asset i = Some a -> jb_vault i = None \/ jb_vault i = Some v ->
  exists metas t, js_bridge e me pd id c i = Some metas /\ names me metas t /\ ta_asset t = a /\ ta_vault t = v /\ ta_owner t = jb_owner i /\ ta_mint t = jb_mint i /\
    ta_metadata t = jor (jb_metadata i) (pd_metadata pd (jb_mint i)) /\ ta_edition t = jor (jb_edition i) (pd_edition pd (jb_mint i)) /\
    ta_token t = jor (jb_token i) (pd_ata pd (jb_mint i) (jb_owner i)) /\ ta_vault_token t = jor (jb_vtoken i) (pd_ata pd (jb_mint i) v) /\
    ta_payer t = jor (jb_payer i) (jc_payer c) /\ ta_group t = jb_group i.
Proof.
  intros NC CV CA GA GV. destruct (js_bridge_total e me pd id c i a v (jelse_asset _ _ _ _ _ _ CA GA) (jelse_vault _ _ _ _ _ _ CV GV)) as [metas H].
  destruct (js_bridge_list _ _ _ _ _ _ _ _ _ NC (jelse_asset _ _ _ _ _ _ CA GA) (jelse_vault _ _ _ _ _ _ CV GV) H) as (t & T).
  exists metas, t. split; [exact H|]. tauto.
Qed.
Lemma client_bridge b e me pd id c i metas w h t s bump abump l lg d :
  no_clash me pd i -> canonical (e_cpa e) me (s_vault ++ pk_bytes (jb_mint i)) (ta_vault t) bump -> canonical (e_cpa e) me (s_asset ++ pk_bytes (jb_mint i)) (ta_asset t) abump ->
  jb_asset i = None \/ jb_asset i = Some (ta_asset t) -> jb_vault i = None \/ jb_vault i = Some (ta_vault t) -> jb_nifty i = None \/ jb_nifty i = Some (e_prog e) ->
  js_bridge e me pd id c i = Some metas -> names me metas t -> js_bridge_data = Some d ->
  tm_ok b (e_prog e) me -> me <> e_prog e -> sized w -> lam_ok w ->
  vault_at me w (ta_vault t) s bump (jb_mint i) abump ->
  initialized (data (w (ta_asset t))) -> well_formed (data (w (ta_asset t))) l -> manager_sane l -> royalties_sane l ->
  jb_group i <> Some (e_prog e) ->
  (forall k, In k (jb_owner i :: e_prog e :: match jb_group i with Some g => [g] | None => [] end) -> plain_at e w k) ->
  acct_owner (w (e_prog e)) <> e_prog e ->
  (forall g, jb_group i = Some g -> acct_owner (w g) = e_prog e -> s_disc (data (w g)) = x01 -> well_formed (data (w g)) lg /\ royalties_sane lg) ->
  (exists r, bridge_entry b e me metas w h d = Ok r) <->
  In (acct_owner (w (jb_mint i))) (be_spl b) /\ acct_owner (w (ta_asset t)) = e_prog e /\
  nft_of b (data (w (ta_metadata t))) (jb_mint i) /\ ta_metadata t <> ta_vault t /\
  exists w2 h2, be_transfer b metas (token_signer t s) (token_call t s) (turned w (ta_vault t) s) h = Ok (w2, h2) /\ bounded_growth metas w w2 /\
    may_move e w2 (ta_asset t) (giver t s) (taker t s) (jb_group i) l lg.
Proof.
  intros NC CV CA GA GV GN H NM HD TM Hm Hs Hl VA IN WF MS RS NG PL NP LG.
  destruct (js_bridge_list _ _ _ _ _ _ _ _ _ NC (jelse_asset _ _ _ _ _ _ CA GA) (jelse_vault _ _ _ _ _ _ CV GV) H) as (t' & NM' & _ & _ & Eo & Em & _ & _ & _ & _ & _ & Eg & So & Sp & Wv & Wa & Mn).
  rewrite <- (names_det _ _ _ _ NM NM') in *. clear t' NM'. rewrite <- Em, <- Eo, <- Eg in *.
  assert (MP : mentions metas (e_prog e)) by (destruct GN as [GN|GN]; rewrite GN in Mn; exact Mn).
  assert (d = [x00]) as -> by (apply Some_inj in HD; now subst d).
  change (bridge_entry b e me metas w h [x00]) with (process_bridge b e me metas w h).
  rewrite (toggle_goes b e me metas w h t s bump abump l lg NM TM Hm Hs Hl VA (proj1 CV) (proj1 CA) IN WF MS RS NG PL NP LG).
  split; [intros (_ & A & B & C & D & _ & _ & _ & F); auto|intros (A & B & C & D & F); auto 12].
Qed.
Lemma client_group b e me pd id c i metas w h t s bump abump l d :
  no_clash me pd i -> canonical (e_cpa e) me (s_vault ++ pk_bytes (jb_mint i)) (ta_vault t) bump -> canonical (e_cpa e) me (s_asset ++ pk_bytes (jb_mint i)) (ta_asset t) abump ->
  jb_asset i = None \/ jb_asset i = Some (ta_asset t) -> jb_vault i = None \/ jb_vault i = Some (ta_vault t) -> jb_nifty i = None \/ jb_nifty i = Some (e_prog e) ->
  js_bridge e me pd id c i = Some metas -> names me metas t -> js_bridge_data = Some d ->
  tm_ok b (e_prog e) me -> me <> e_prog e -> sized w -> lam_ok w ->
  vault_at me w (ta_vault t) s bump (jb_mint i) abump ->
  initialized (data (w (ta_asset t))) -> well_formed (data (w (ta_asset t))) l -> manager_sane l -> royalties_sane l ->
  (forall k, In k (jb_owner i :: e_prog e :: match jb_group i with Some g => [g] | None => [] end) -> plain_at e w k) ->
  acct_owner (w (e_prog e)) <> e_prog e ->
  jb_group i = None -> acct_owner (w (ta_asset t)) = e_prog e -> s_group (data (w (ta_asset t))) <> no_key -> lookup XRoyalties (ext_list l) = None ->
  s_owner (data (w (ta_asset t))) <> pk_bytes (taker t s) ->
  forall r, bridge_entry b e me metas w h d <> Ok r.
Proof.
  intros NC CV CA GA GV GN H NM HD TM Hm Hs Hl VA IN WF MS RS PL NP G0 OA GR RY OW r R.
  assert (X : exists r, bridge_entry b e me metas w h d = Ok r) by eauto.
  apply (client_bridge b e me pd id c i metas w h t s bump abump l [] d) in X; try assumption; [|congruence|intros g Q; congruence].
  destruct X as (_ & _ & _ & _ & w2 & h2 & T & _ & M). rewrite G0 in M. destruct M as (_ & _ & _ & _ & _ & M).
  destruct (js_bridge_list _ _ _ _ _ _ _ _ _ NC (jelse_asset _ _ _ _ _ _ CA GA) (jelse_vault _ _ _ _ _ _ CV GV) H) as (t' & NM' & _ & _ & _ & Em & _).
  rewrite <- (names_det _ _ _ _ NM NM') in Em. rewrite <- Em in VA.
  destruct (after_tm b e me metas w h t s bump abump TM Hm Hs Hl VA w2 h2 T) as (_ & _ & D). rewrite (D _ OA) in M.
  destruct (M OW GR RY) as (g & Q & _). discriminate Q.
Qed.
(** Create *)
Lemma client_create b e me pd c i metas w h cl a v n m d :
  jn_collection i <> Some me -> canonical (e_cpa e) me (s_vault ++ pk_bytes (jn_mint i)) v n -> canonical (e_cpa e) me (s_asset ++ pk_bytes (jn_mint i)) a m ->
  jn_asset i = None \/ jn_asset i = Some a -> jn_vault i = None \/ jn_vault i = Some v -> jn_nifty i = None \/ jn_nifty i = Some (e_prog e) -> jn_sys i = None \/ jn_sys i = Some pk_zero ->
  js_create e me pd c i = Some metas -> js_create_data cl = Some d ->
  forall t, birth_names me metas t ->
  env_ok e -> e_prog e <> pk_zero -> rent_mono e -> me <> e_prog e -> me <> pk_zero -> sized w -> lam_ok w -> tm_ok b (e_prog e) me ->
  data (w a) = [] -> wallet w (ba_payer t) -> ba_payer t <> e_prog e -> ba_payer t <> a -> ba_payer t <> v ->
  plain_at e w (ba_auth t) -> plain_at e w (e_prog e) -> plain_at e w pk_zero ->
  (exists r, bridge_entry b e me metas w h d = Ok r) <->
  In (acct_owner (w (jn_mint i))) (be_spl b) /\ acct_owner (w (ba_metadata t)) = be_tm b /\
  exists md, be_meta b (data (w (ba_metadata t))) = Some md /\
    (mt_standard md = Some TmNonFungible \/ mt_standard md = Some TmProgrammable) /\
    mt_mint md = pk_bytes (jn_mint i) /\ mt_authority md = pk_bytes (ba_auth t) /\
    consent (e_prog e) me (e_cpa e) metas w t md /\
    v <> a /\ vacant w v /\ vacant w a /\ sound_terms cl md /\ birth_price e cl md <= lamports (w (ba_payer t)).
Proof.
  intros NC CV CA GA GV GN GS H HD t NM He Hz Mo Hm Hm0 Hs Hl TM D0 PW N1 N2 N3 P1 P2 P3.
  destruct (js_create_list _ _ _ _ _ _ _ _ NC (jelse_asset _ _ _ _ _ _ CA GA) (jelse_vault _ _ _ _ _ _ CV GV) H) as (NM' & S1 & S2 & S3 & S4 & S5 & _).
  pose proof (births_det _ _ _ _ NM NM') as ->. cbn [ba_asset ba_vault ba_mint ba_metadata ba_auth ba_collection ba_payer ba_sys] in *.
  assert (d = [x01; bool_byte cl]) as ->. { apply Some_inj. rewrite <- HD. destruct cl; reflexivity. }
  assert (MP : mentions metas (e_prog e)) by (destruct GN as [GN|GN]; rewrite GN in S5; exact S5).
  assert (SY : jor (jn_sys i) pk_zero = pk_zero) by (destruct GS as [GS|GS]; rewrite GS; reflexivity).
  rewrite (entry_goes b e me metas w h _ cl He Hz Mo Hm Hm0 Hs Hl TM NM) by assumption.
  unfold can_be_born, birth_privileges. cbn [ba_asset ba_vault ba_mint ba_metadata ba_auth ba_collection ba_payer ba_sys].
  apply and_iff_compat_l. apply and_iff_compat_l.
  split; intros (md & M1 & M2 & M3 & M4 & M5 & R); exists md; repeat (split; [assumption|]).
  - destruct R as (_ & _ & _ & R). exact R.
  - split; [repeat split; assumption|]. split; [eauto|]. split; [eauto|exact R].
Qed.
Lemma vault_readers d v r :
  (js_vault d = Some (v, r) <-> (36 <= length d)%nat /\ b2z (nth 0 d x00) < 2 /\ b2z (nth 1 d x00) < 2 /\ v = view d /\ r = skipn 36 d) /\
  (rs_vault d = Some (v, r) <-> (36 <= length d)%nat /\ b2z (nth 0 d x00) < 2 /\ b2z (nth 1 d x00) < 2 /\ v = view d /\ r = skipn 36 d).
Proof. rewrite js_vault_prog, rs_vault_prog. split; apply vault_prog_reads. Qed.
Lemma reads_vaults p me cpa v a mint bump abump : p <> pk_zero -> me <> p -> me <> pk_zero -> addresses cpa me mint v bump a abump ->
  forall c c', traffic (careful a) p me cpa v a mint c c' -> settled p me c v bump mint a abump ->
  exists s, js_vault (data (ch_world c' v)) = Some (mkView 1 (match s with Idle => 0 | Active => 1 end) (b2z bump) (pk_bytes mint) (b2z abump), []) /\
    rs_vault (data (ch_world c' v)) = Some (mkView 1 (match s with Idle => 0 | Active => 1 end) (b2z bump) (pk_bytes mint) (b2z abump), []) /\
    match s with Idle => in_custody p (ch_world c') v a | Active => ch_holder c' mint = v end.
Proof.
  intros Hp Hm Hm0 AD c c' T S. apply (settled_traffic p me v a mint bump abump cpa) in T; try assumption.
  destruct T as ((s & VA & B) & _). exists s. destruct (reads_stored _ _ _ _ _ _ _ VA) as [R1 R2]. auto.
Qed.

(** ** searching *)
Lemma vault_filter_picks f p d : (36 <= length d)%nat -> pick_typed f -> js_vault_filter f = Some p -> (SpecJ.matches d p <-> picks f (view d)).
Proof.
  intros L T H. unfold SpecJ.matches.
  assert (U : forall o z b, (o < length d)%nat -> ju 1 z = Some b -> (sub d o (length b) = b <-> b2z (nth o d x00) = z)).
  { intros o z b Ho E. apply JsL.wr_ju in E as [E ->]. change (256 ^ Z.of_nat 1) with 256 in E. cbn [le_enc length]. rewrite JsO.sub_one by lia. rewrite JsO.one_eq. now apply JsO.byte_is. }
  destruct f as [z|z|z|k|z]; cbn [js_vault_filter picks pick_typed view vw_disc vw_state vw_bump vw_mint vw_abump] in *.
  - destruct (z <? 2); [|discriminate]. destruct (ju 1 z) as [b|] eqn:E; [|discriminate]. injection H as <-. cbn [fst snd]. apply U; [lia|exact E].
  - destruct (z <? 2); [|discriminate]. destruct (ju 1 z) as [b|] eqn:E; [|discriminate]. injection H as <-. cbn [fst snd]. apply U; [lia|exact E].
  - destruct (ju 1 z) as [b|] eqn:E; [|discriminate]. injection H as <-. cbn [fst snd]. apply U; [lia|exact E].
  - injection H as <-. cbn [fst snd]. now rewrite T.
  - destruct (ju 1 z) as [b|] eqn:E; [|discriminate]. injection H as <-. cbn [fst snd]. apply U; [lia|exact E].
Qed.
Lemma vault_search f l d v r : js_vault_search f = Some l -> pick_typed f -> js_vault d = Some (v, r) -> (found d l <-> vw_disc v = 1 /\ picks f v).
Proof.
  intros H T R. apply vault_readers in R as (L & _ & _ & -> & _). unfold js_vault_search in H.
  destruct (js_vault_filter (JVDiscriminator 1)) as [p|] eqn:E1; [|discriminate]. destruct (js_vault_filter f) as [q|] eqn:E2; [|discriminate].
  assert (Q : [p; q] = l) by congruence. subst l. pose proof (vault_filter_picks (JVDiscriminator 1) _ d L I E1) as Q1. pose proof (vault_filter_picks _ _ d L T E2) as Q2.
  unfold found. split.
  - intro F. inversion F as [|? ? A F']; subst. inversion F' as [|? ? B _]; subst. split; [now apply Q1|now apply Q2].
  - intros [A B]. constructor; [now apply Q1|]. constructor; [now apply Q2|constructor].
Qed.
Lemma vault_search_goes f : (exists l, js_vault_search f = Some l) <->
  match f with JVDiscriminator z | JVState z => 0 <= z < 2 | JVBump z | JVAssetBump z => 0 <= z < 256 | JVMint _ => True end.
Proof.
  assert (U : forall z, (exists b, ju 1 z = Some b) <-> 0 <= z < 256).
  { intro z. split; [intros [b E]; now apply JsL.wr_ju in E as [E _]|]. intro R. exists (le_enc 1 z). apply JsL.wr_ju. split; [exact R|reflexivity]. }
  unfold js_vault_search. assert (E1 : js_vault_filter (JVDiscriminator 1) = Some (0%nat, [x01])) by reflexivity. rewrite E1.
  assert (G : (exists l, match js_vault_filter f with Some b => Some [(0%nat, [x01]); b] | None => None end = Some l) <-> exists p, js_vault_filter f = Some p).
  { destruct (js_vault_filter f) as [p|]; split; intros [l H]; try discriminate H; eauto. }
  rewrite G. clear G E1. destruct f as [z|z|z|k|z]; cbn [js_vault_filter].
  - destruct (Z.ltb_spec z 2); [|split; [intros [p H']; discriminate H'|lia]]. pose proof (U z) as Q. destruct (ju 1 z) as [b|]; [split; [|eauto]; intros _; assert (0 <= z < 256) by (apply Q; eauto); lia|].
    split; [intros [p H']; discriminate H'|]. intro R. assert (R' : 0 <= z < 256) by lia. apply Q in R' as [b H']. discriminate H'.
  - destruct (Z.ltb_spec z 2); [|split; [intros [p H']; discriminate H'|lia]]. pose proof (U z) as Q. destruct (ju 1 z) as [b|]; [split; [|eauto]; intros _; assert (0 <= z < 256) by (apply Q; eauto); lia|].
    split; [intros [p H']; discriminate H'|]. intro R. assert (R' : 0 <= z < 256) by lia. apply Q in R' as [b H']. discriminate H'.
  - rewrite <- U. destruct (ju 1 z) as [b|]; split; intros [p H']; try discriminate H'; eauto.
  - split; eauto.
  - rewrite <- U. destruct (ju 1 z) as [b|]; split; intros [p H']; try discriminate H'; eauto.
Qed.
(** ... a vault is found by the token it was made for, whatever happened since *)
Lemma finds_vaults p me cpa v a mint bump abump : p <> pk_zero -> me <> p -> me <> pk_zero -> addresses cpa me mint v bump a abump ->
  forall c c', traffic (careful a) p me cpa v a mint c c' -> settled p me c v bump mint a abump ->
  forall k l, length k = 32%nat -> js_vault_search (JVMint k) = Some l -> (found (data (ch_world c' v)) l <-> k = pk_bytes mint).
Proof.
  intros Hp Hm Hm0 AD c c' T S k l K E. destruct (reads_vaults _ _ _ _ _ _ _ _ Hp Hm Hm0 AD _ _ T S) as (s & R & _).
  rewrite (vault_search _ _ _ _ _ E K R). cbn [picks vw_disc vw_mint]. split; [now intros [_ ->]|now intros ->].
Qed.
(** Vault::create_pda gives back the address of a vault from the fields in it *)
Lemma vault_pda_iff e me mint bump k : rs_vault_pda e me mint bump = Some k <-> e_cpa e (s_vault ++ pk_bytes mint) bump (pk_bytes me) = Some k.
Proof. reflexivity. Qed.
Lemma vault_pda_back p e me v a mint bump abump : p <> pk_zero -> me <> p -> me <> pk_zero -> addresses (e_cpa e) me mint v bump a abump ->
  forall c c', traffic (careful a) p me (e_cpa e) v a mint c c' -> settled p me c v bump mint a abump ->
  exists vw, rs_vault (data (ch_world c' v)) = Some (vw, []) /\
    forall m n, pk_bytes m = vw_mint vw -> b2z n = vw_bump vw -> rs_vault_pda e me m n = Some v.
Proof.
  intros Hp Hm Hm0 AD c c' T S. destruct (reads_vaults _ _ _ _ _ _ _ _ Hp Hm Hm0 AD _ _ T S) as (s & _ & R & _). eexists. split; [exact R|].
  cbn [vw_mint vw_bump]. intros m n M N. apply pk_ext in M. assert (n = bump) by (rewrite <- (z2b_b2z n), N; apply z2b_b2z). subst m n. apply vault_pda_iff. apply AD.
Qed.
(** BridgeBuilder: the accounts given, the programs by default *)
Lemma rs_build_same e me pd id c r nifty tm sys sysvar spl ata :
  js_bridge e me pd id c (mkJBridge (Some (rb_asset r)) (Some (rb_vault r)) (rb_owner r) (Some (rb_token r)) (rb_mint r) (Some (rb_metadata r)) (Some (rb_edition r)) (rb_record r)
    (Some (rb_vtoken r)) (rb_vrecord r) (Some (rb_payer r)) nifty tm sys sysvar spl ata (rb_rulesp r) (rb_rules r) (rb_group r) None) =
  Some (rs_bridge me (rs_bridge_build e id (rb_asset r) (rb_vault r) (rb_owner r) (rb_token r) (rb_mint r) (rb_metadata r) (rb_edition r) (rb_record r)
    (rb_vtoken r) (rb_vrecord r) (rb_payer r) nifty tm sys sysvar spl ata (rb_rulesp r) (rb_rules r) (rb_group r))).
Proof.
  unfold js_bridge, rs_bridge, rs_bridge_build. cbn [jb_asset jb_vault jb_owner jb_token jb_mint jb_metadata jb_edition jb_record jb_vtoken jb_vrecord jb_payer jb_nifty jb_tm jb_sys jb_sysvar jb_spl jb_ata jb_rulesp jb_rules jb_group jb_standard jelse jor
    rb_asset rb_vault rb_owner rb_token rb_mint rb_metadata rb_edition rb_record rb_vtoken rb_vrecord rb_payer rb_nifty rb_tm rb_sys rb_sysvar rb_spl rb_ata rb_rulesp rb_rules rb_group].
  f_equal. repeat (f_equal; []). destruct (rb_record r), (rb_vrecord r), (rb_rulesp r), (rb_rules r), (rb_group r); reflexivity.
Qed.

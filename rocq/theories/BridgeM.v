(** What one instruction of the bridge does: Bridge on a vault, Create (C46). *)
From Verif Require Import Base State Layout Constr Ext World Proc Borsh Proxy Bridge BaseL Spec SpecB SpecH SpecI SpecP SpecV WorldL ProcSteps FrameL LayoutL LayoutM LayoutE HeadL AuthL AuthM AllocL AllocM GroupL ValidL AllocC CreateL BuildL UpdateL StepL StepH HistL TheftL CodecL BorshL ProxyL ProxyM BridgeL.
From Coq Require Import Strings.Byte.

(** ** Bridge *)
Lemma put_one d z : (2 <= length d)%nat -> put d 1 [z] = firstn 1 d ++ [z] ++ skipn 2 d.
Proof. intro H. reflexivity. Qed.
Lemma toggle_effect b e me infos w h w' h' : env_ok e -> e_prog e <> pk_zero -> me <> e_prog e -> sized w -> lam_ok w -> tm_ok b (e_prog e) me ->
  bridge_entry b e me infos w h [x00] = Ok (w', h') ->
  exists asset vault owner mint s, let from := match s with Idle => owner | Active => vault end in
    let to := match s with Idle => vault | Active => owner end in
    at_pos infos 0 asset /\ at_pos infos 1 vault /\ at_pos infos 2 owner /\ at_pos infos 4 mint /\ signs infos owner /\ 
    e_cpa e (s_vault ++ pk_bytes mint) (nth 2 (data (w vault)) x00) (pk_bytes me) = Some vault /\
    e_cpa e (s_asset ++ pk_bytes mint) (nth 35 (data (w vault)) x00) (pk_bytes me) = Some asset /\
    acct_owner (w vault) = me /\ (36 <= length (data (w vault)))%nat /\ nth 0 (data (w vault)) x00 = x01 /\
    nth 1 (data (w vault)) x00 = mode_byte s /\ sub (data (w vault)) 3 32 = pk_bytes mint /\
    acct_owner (w' vault) = me /\ data (w' vault) = firstn 1 (data (w vault)) ++ [mode_byte (flip s)] ++ skipn 2 (data (w vault)) /\
    token_moves h h' mint from to /\
    acct_owner (w asset) = e_prog e /\ initialized (data (w asset)) /\
    (forall l, tidy (data (w asset)) l -> authorized (data (w asset)) l to RTransfer) /\
    acct_owner (w' asset) = e_prog e /\ initialized (data (w' asset)) /\ s_owner (data (w' asset)) = pk_bytes from /\
    (forall k, k <> vault -> acct_owner (w k) = me -> acct_owner (w' k) = me /\ data (w' k) = data (w k)) /\
    (forall k, k <> asset -> acct_owner (w k) = e_prog e -> acct_owner (w' k) = e_prog e /\ data (w' k) = data (w k)).
Proof.
  intros He Hp Hm Hs Hl Ht H. unfold bridge_entry in H. change (bridge_decode [x00]) with (Some BBridge) in H. cbv iota in H.
  apply bridge_inv in H as (asset & vault & owner & mint & s & A0 & A1 & A2 & A4 & So & Oa & Ov & Vd & Vl & Cv & Vm & Ca & Vs & TG).
  destruct (toggle_parts (e_prog e) me _ _ _ _ _ _ _ _ _ _ _ _ Ht eq_refl He Hs Hl TG) as (w1 & w2 & g & W1 & W1o & TK & U1 & U2 & S2 & L2 & HT).
  clear TG. cbv zeta in *. destruct U1 as [U1a U1b]. destruct U2 as [U2a U2b].
  destruct (move_effect (e_prog e) Hp _ _ _ _ _ _ _ S2 L2 eq_refl He HT) as (M1 & M2 & M3 & M4 & M5 & M6 & _ & _ & M9 & _).
  assert (Nav : asset <> vault) by congruence.
  assert (Da : data (w2 asset) = data (w asset)) by (rewrite U1b; rewrite W1o by assumption; congruence).
  exists asset, vault, owner, mint, s. rewrite <- Da.
  split; [assumption|]. split; [assumption|]. split; [assumption|]. split; [assumption|]. split; [assumption|].
  split; [assumption|]. split; [assumption|]. split; [assumption|]. split; [assumption|]. split; [assumption|]. split; [assumption|].
  split; [assumption|]. rewrite (M9 vault) by congruence.
  assert (Q : acct_owner (w1 vault) = me) by (rewrite W1; exact Ov).
  split; [now apply U2a|]. split; [rewrite U2b, W1 by assumption; cbn [data]; apply put_one; lia|].
  split; [exact TK|]. split; [assumption|]. split; [assumption|]. split; [assumption|]. split; [assumption|]. split; [assumption|]. split; [assumption|].
  split.
  - intros k Nk Hk. assert (Q' : acct_owner (w1 k) = me) by (rewrite W1o by assumption; exact Hk).
    rewrite M9 by congruence. split; [now apply U2a|]. rewrite U2b by assumption. now rewrite W1o.
  - intros k Nk Hk. rewrite M9 by assumption. assert (Q' : acct_owner (w1 k) = e_prog e) by (rewrite W1o by congruence; exact Hk).
    split; [now apply U1a|]. rewrite U1b by assumption. rewrite W1o by congruence. reflexivity.
Qed.

(** ** Create *)
Lemma bridged_exts_spec c m : (forall l, mt_creators m = Some l -> zlen l <= 255 /\ Forall (fun c => length (cr_addr c) = 32%nat) l) ->
  bridged_exts c m = map (fun x => ext_of (fst x) (snd x)) (bridged_payloads c m).
Proof.
  intro HC. unfold bridged_exts, bridged_payloads. rewrite !map_app. apply (f_equal2 (@app _)); [reflexivity|]. apply (f_equal2 (@app _)).
  - destruct (mt_creators m) as [l|]; [|reflexivity]. destruct (HC l eq_refl) as [H1 H2]. cbn [map fst snd].
    rewrite build_creators_enc; [reflexivity| |lia]. exact H2.
  - destruct (c || mt_details m); [|reflexivity]. cbn [map fst snd]. apply (f_equal2 cons); [vm_compute; reflexivity|].
    destruct (mt_standard m) as [[| |]|]; reflexivity.
Qed.
Definition small_ext (x : ext_input) : Prop := ext_arg x /\ ext_ok x /\ x_length x = zlen (given x) /\ zlen (given x) <= u32_max.
Lemma allocate_list e me infos w0 asset payer sysp seeds bump hd xs : env_ok e -> e_prog e <> pk_zero -> Forall small_ext xs -> forall w w' l,
  sized w -> lam_ok w -> open_account (data (w asset)) hd l 0 ->
  allocate_each e me infos w0 w asset payer sysp seeds bump xs = Ok w' ->
  open_account (data (w' asset)) hd (l ++ inline_blks xs) 0 /\ sized w' /\ lam_ok w' /\
  (xs <> [] -> acct_owner (w' asset) = e_prog e /\ data (w' asset) <> []) /\
  (forall k, k <> asset -> data (w' k) = data (w k) /\ acct_owner (w' k) = acct_owner (w k)).
Proof.
  intros He Hp F. induction F as [|x xs (X1 & X2 & X3 & X4) F IH]; intros w w' l Hs Hl HO H; cbn [allocate_each] in H.
  - apply Ok_inj in H. subst w'. unfold inline_blks. cbn [map]. rewrite app_nil_r. repeat split; auto; contradiction.
  - apply bind_ok in H as (w1 & H1 & H). apply invoke_iff in H1 as (pda & i & P1 & P2 & P3 & P4 & P5 & P6 & P7).
    apply instr_unambiguous in P5; [subst i|first [assumption|exact X2]|first [assumption|exact X2]].
    pose proof (allocate_effect (in_cpi e) (alloc_metas asset payer sysp) w x w1 asset hd l 0 ltac:(eexists; split; reflexivity) HO (Hs asset) ltac:(apply X1)
      ltac:(rewrite X3; pose proof (zlen_nonneg (given x)); lia) ltac:(unfold u32_max, two32 in *; lia) P6) as (_ & _ & _ & E1 & _ & E2 & E3).
    destruct (E1 X3) as [E1d E1o].
    assert (Z.max 0 (0 - blk_size (blk_of (x_type x) (given x))) = 0) as Q.
    { pose proof (blk_size_pos (blk_of (x_type x) (given x))). lia. }
    rewrite Q in E1o.
    destruct (IH w1 w' (l ++ [blk_of (x_type x) (given x)])) as (I1 & I2 & I3 & I4 & I5); try assumption.
    + eapply (sized_preserved (in_cpi e)); eauto.
    + eapply (lam_ok_preserved (in_cpi e)); eauto.
    + split; [unfold inline_blks in *; cbn [map]; now rewrite <- app_assoc in I1|]. split; [assumption|]. split; [assumption|].
      split.
      * intros _. destruct xs as [|y ys]; [|apply I4; discriminate]. cbn [allocate_each] in H. apply Ok_inj in H. subst w'. split; [exact E3|].
        rewrite E1d. intro Z. apply (f_equal (@length byte)) in Z. rewrite !app_length in Z.
        destruct HO as [(_ & -> & _)|(_ & _ & Q2 & _)]; cbn [length] in Z; [rewrite repeat_length in Z; lia|]. unfold zlen in Q2. lia.
      * intros k Nk. destruct (I5 k Nk), (E2 k Nk). split; congruence.
Qed.

Lemma text8_len s : zlen s <= 200 -> zlen (text8 s) <= 201.
Proof. intro H. unfold text8. rewrite zlen_cons. lia. Qed.
Lemma bridged_small b p me d m c : tm_ok b p me -> be_meta b d = Some m ->
  Forall (fun x => fst x <> XNone /\ fst x <> XManager /\ fst x <> XProxy /\ zlen (snd x) <= 100000) (bridged_payloads c m).
Proof.
  intros [_ TM] H. destruct (TM _ _ H) as (_ & _ & T1 & T2 & T3 & T4). unfold bridged_payloads. apply Forall_app. split; [|apply Forall_app; split].
  - constructor; [|constructor]. cbn [fst snd]. split; [discriminate|]. split; [discriminate|]. split; [discriminate|].
    rewrite !zlen_app. change (zlen [x00]) with 1. pose proof (text8_len _ T1). pose proof (text8_len _ T2). lia.
  - destruct (mt_creators m) as [l|]; constructor; [|constructor]. destruct (T3 l eq_refl) as [T5 T6]. cbn [fst snd].
    split; [discriminate|]. split; [discriminate|]. split; [discriminate|].
    assert (zlen (concat (map (fun c => cr_addr c ++ [cr_verified c; cr_share c]) l)) = 34 * zlen l) as ->; [|lia].
    clear - T6. induction T6 as [|x l Hx F IH]; [reflexivity|]. cbn [map concat]. rewrite zlen_app, IH, zlen_cons. unfold zlen in *. rewrite app_length, Hx. cbn [length]. lia.
  - destruct (c || mt_details m); [|constructor]. constructor; [cbn [fst snd]; repeat split; try discriminate; rewrite zlen_repeat; lia|].
    destruct (mt_standard m) as [[| |]|]; constructor; [|constructor]. cbn [fst snd]. split; [discriminate|]. split; [discriminate|]. split; [discriminate|].
    unfold zlen. rewrite app_length, le_enc_length. cbn [length]. lia.
Qed.

Lemma allocate_foreign e infos w x w' asset : arg infos 0 asset -> data (w asset) <> [] -> acct_owner (w asset) <> e_prog e ->
  process e infos w (IAllocate x) <> Ok w'.
Proof.
  intros A0 Hd Ho H. apply process_dispatch in H. cbn [dispatch] in H. unfold process_allocate in H.
  apply bind_ok in H as (asset' & B0 & H). apply acct_arg in B0. rewrite <- (arg_det _ _ _ _ A0 B0) in *. clear asset' B0.
  apply bind_ok in H as (payer & _ & H). apply bind_ok in H as (sysp & _ & H). unfold do_allocate in H. apply require_ok in H as [_ H]. cbv zeta in H.
  apply bind_ok in H as (st & H & _). destruct (zlen (data (w asset)) =? 0) eqn:Z; [apply Z.eqb_eq, zlen_0 in Z; contradiction|].
  apply require_ok in H as [H _]. unfold owned_by_prog in H. apply pk_eqb_eq in H. contradiction.
Qed.
Lemma fixed_kind auth l l' t : Forall2 (created auth) l l' -> ~ In t (map bk_type l) -> lookup t (ext_list l') = None.
Proof.
  induction 1 as [|b b' l l' (E & _) F IH]; [reflexivity|]. cbn [map In]. intro H. unfold ext_list in *. cbn [map lookup].
  assert (bk_type b' = bk_type b) as -> by (rewrite E; reflexivity).
  destruct (ext_type_eqb (bk_type b) t) eqn:Q; [apply ext_type_eqb_eq in Q; tauto|]. apply IH. tauto.
Qed.
Lemma create_made b e me infos w h w' h' c asset : env_ok e -> e_prog e <> pk_zero -> me <> e_prog e -> me <> pk_zero -> sized w -> lam_ok w -> tm_ok b (e_prog e) me ->
  at_pos infos 0 asset -> data (w asset) = [] ->
  bridge_entry b e me infos w h [x01; bool_byte c] = Ok (w', h') ->
  exists vault mint md auth m bump abump l',
    at_pos infos 1 vault /\ at_pos infos 2 mint /\ at_pos infos 3 md /\ at_pos infos 4 auth /\
    acct_owner (w md) = be_tm b /\ be_meta b (data (w md)) = Some m /\ mt_mint m = pk_bytes mint /\ mt_authority m = pk_bytes auth /\
    create_allowed (e_prog e) me (e_cpa e) infos w m /\
    data (w vault) = [] /\ h' = h /\
    vault_at me w' vault Idle bump mint abump /\ in_custody (e_prog e) w' vault asset /\
    tidy (data (w' asset)) l' /\ unmanaged l' /\
    s_standard (data (w' asset)) = x00 /\ s_state (data (w' asset)) = x00 /\ mutable (data (w' asset)) /\ s_group (data (w' asset)) = no_key /\
    s_authority (data (w' asset)) = mt_authority m /\ s_name (data (w' asset)) = name_field (mt_name m) /\
    Forall2 (validated (mt_authority m)) (map (fun x => blk_of (fst x) (snd x)) (bridged_payloads c m)) l' /\
    sized w' /\ lam_ok w' /\
    e_cpa e (s_vault ++ pk_bytes mint) bump (pk_bytes me) = Some vault /\
    (forall n, b2z bump < n <= 255 -> e_cpa e (s_vault ++ pk_bytes mint) (z2b n) (pk_bytes me) = None) /\ 0 < b2z bump /\
    e_cpa e (s_asset ++ pk_bytes mint) abump (pk_bytes me) = Some asset /\
    (forall k, k <> vault -> k <> asset -> acct_owner (w k) = me \/ acct_owner (w k) = e_prog e ->
       acct_owner (w' k) = acct_owner (w k) /\ data (w' k) = data (w k)).
Proof.
  intros He Hp Hm Hm0 Hs Hl TM A0 Hd H. unfold bridge_entry in H.
  assert (bridge_decode [x01; bool_byte c] = Some (BCreate c)) as Q by (destruct c; reflexivity). rewrite Q in H. clear Q. cbv iota in H.
  apply bind_ok in H as (w0' & H & E). apply Ok_inj in E. assert (w0' = w' /\ h' = h) as [-> ->] by (split; congruence). clear E.
  apply create_inv in H as (asset' & vault & mint & md & auth & payer & sysp & m & bump & abump & w1 & w2 & w3 & B0 & B1 & B2 & B3 & B4 & _ & _ & Bm & Om & _ & Em & Ea & Al & Fv & Ev & Fa & H1 & H2 & H3 & H4).
  assert (asset' = asset) as -> by exact (at_det _ _ _ _ B0 A0).
  pose proof (bridged_small _ _ _ _ _ c TM Bm) as SM.
  destruct (proj2 TM _ _ Bm) as (T1 & T2 & _ & _ & T3 & _).
  rewrite bridged_exts_spec in H3 by exact T3.
  pose proof (sys_create_psteps (as_prog e me) _ _ _ _ _ _ _ (He 36) Hm0 H1) as PS.
  apply sys_create_world in H1 as (C1 & C2 & C3 & _). cbn [as_prog e_prog] in C3.
  assert (S1 : sized w1) by (eapply psteps_sized; eauto). assert (L1 : lam_ok w1) by (eapply psteps_lam_ok; eauto).
  assert (S2 : sized w2) by (eapply set_data_sized; eauto). assert (L2 : lam_ok w2) by (eapply set_data_lam_ok; eauto).
  assert (F2 : forall k, k <> vault -> acct_owner (w2 k) = acct_owner (w k) /\ data (w2 k) = data (w k)).
  { intros k Nk. rewrite (set_data_other _ _ _ _ _ _ _ H2 Nk). destruct (C2 k Nk). auto. }
  assert (F3 : acct_owner (w2 vault) = me /\ data (w2 vault) = [x01; x00; bump] ++ pk_bytes mint ++ [abump]).
  { destruct (set_data_ok _ _ _ _ _ _ H2) as [[Q ->]|(_ & _ & _ & _ & ->)]; [split; [exact C3|now rewrite Q]|]. rewrite upd_same. split; [exact C3|reflexivity]. }
  destruct F3 as [F3 F4].
  assert (Nva : asset <> vault).
  { intros ->. unfold bridged_payloads in H3. cbn [app map allocate_each fst snd] in H3. apply bind_ok in H3 as (wx & H3 & _).
    apply invoke_iff in H3 as (pda & i & _ & _ & _ & I4 & I5 & I6 & _).
    destruct i; cbn [write_instr] in I5; try discriminate I5. revert I6. apply allocate_foreign with (asset := vault).
    - eexists; split; reflexivity.
    - rewrite F4. discriminate.
    - cbn [in_cpi e_prog]. congruence. }
  destruct (F2 asset Nva) as [F5 F6].
  assert (SX : Forall small_ext (map (fun x => ext_of (fst x) (snd x)) (bridged_payloads c m))).
  { clear - SM. induction SM as [|x l (Q1 & _ & _ & Q2) F IH]; constructor; auto. split; [now apply ext_arg_of|]. split; [now apply ext_ok_of|].
    split; [reflexivity|]. apply (Z.le_trans _ 100000); [exact Q2|discriminate]. }
  destruct (allocate_list e me infos w asset payer sysp _ _ (repeat x00 168) _ He Hp SX w2 w3 [] S2 L2 (or_introl (conj (eq_trans F6 Hd) (conj eq_refl (conj eq_refl eq_refl)))) H3) as (K1 & K2 & K3 & K4 & K5).
  destruct K4 as [K4 K6]; [unfold bridged_payloads; discriminate|].
  apply invoke_iff in H4 as (pda & i & I1 & I2 & I3 & I4 & I5 & I6 & I7).
  assert (IM : instr_ok (ICreate (mkMetaInput (mt_name m) NonFungible true None))) by (split; [exact T1|exact I]).
  apply instr_unambiguous in I5; [subst i|assumption|assumption].
  pose proof (create_effect (in_cpi e) (birth_metas e asset auth vault payer sysp) w3 (mkMetaInput (mt_name m) NonFungible true None) w' asset _ _ _ (in_cpi_ok _ He) Hp ltac:(eexists; split; reflexivity) K1 K2 (Forall_nil _) I6)
    as (au & ow & l' & hd' & N1 & N2 & _ & HL & HC & _ & Ow & D1 & D2 & D3 & D4 & D5 & D6 & D7 & D8 & D9 & _ & _ & _ & DG & DO).
  assert (au = auth) as -> by (destruct N1 as (x & N1 & <-); cbn in N1; apply Some_inj in N1; now subst x).
  assert (ow = vault) as -> by (destruct N2 as (x & N2 & <-); cbn in N2; apply Some_inj in N2; now subst x).
  cbn [m_standard m_mutable m_name inline m_exts inline_blks map] in *. rewrite app_nil_r in HC. cbn [app] in HC.
  assert (EG : s_group hd' = s_group (repeat x00 168) /\ forall k, k <> asset -> data (w' k) = data (w3 k)).
  { destruct DG as [(_ & Q1 & Q2)|(g & a & _ & _ & G1 & G2 & _)]; [auto|]. exfalso. apply G2. destruct G1 as (x & G1 & <-). cbn in G1. apply Some_inj in G1. now subst x. }
  destruct EG as [EG ED]. clear DG.
  pose proof (hd_fields _ _ _ _ HL) as (E1 & E2 & E3 & E4 & E5 & E6 & E7 & E8 & E9 & E10).
  assert (TD : tidy (data (w' asset)) l') by (eexists; eexists; exact HL).
  assert (UM : unmanaged l').
  { intros x Hx. rewrite (fixed_kind _ _ _ XManager HC) in Hx; [discriminate|]. unfold inline_blks. rewrite !map_map. cbn [bk_type blk_of x_type ext_of].
    intro Q. apply in_map_iff in Q as (y & Q & Hy). rewrite Forall_forall in SM. destruct (SM y Hy) as (_ & Q2 & _). contradiction. }
  destruct (find_max _ _ _ 255%nat _ _ (le_n _) Fv) as [X1 X2]. change (Z.of_nat 255) with 255 in *.
  exists vault, mint, md, auth, m, bump, abump, l'.
  split; [assumption|]. split; [assumption|]. split; [assumption|]. split; [assumption|]. split; [assumption|]. split; [assumption|]. split; [assumption|]. split; [assumption|].
  split; [assumption|]. split; [assumption|]. split; [reflexivity|].
  split. { split; [rewrite DO, (proj2 (K5 vault ltac:(congruence))) by congruence; exact F3|]. rewrite ED, (proj1 (K5 vault ltac:(congruence))) by congruence. exact F4. }
  split. { split; [exact Ow|]. split; [split; [destruct HL as (-> & Q & _); unfold zlen in Q; rewrite app_length; lia|congruence]|]. split; [congruence|]. rewrite E8, D8. reflexivity. }
  split; [exact TD|]. split; [exact UM|]. split; [rewrite E3, D2; reflexivity|]. split; [rewrite E2, D7; reflexivity|]. split; [unfold mutable; rewrite E4, D3; discriminate|].
  split; [rewrite E6, EG; reflexivity|]. split; [congruence|]. split; [congruence|].
  split. { rewrite Ea. apply created_validated in HC. unfold inline_blks in HC. rewrite map_map in HC. exact HC. }
  split; [eapply (sized_preserved (in_cpi e)); eauto|]. split; [eapply (lam_ok_preserved (in_cpi e)); eauto|].
  split; [exact (find_address_ok _ _ _ _ _ _ Fv)|]. split; [exact X2|]. split; [lia|]. split; [exact (find_address_ok _ _ _ _ _ _ Fa)|].
  intros k Q1 Q2 _. rewrite DO, ED by assumption. destruct (K5 k Q2) as [-> ->]. now apply F2.
Qed.
Lemma create_settled b e me infos w h w' h' c asset : env_ok e -> e_prog e <> pk_zero -> me <> e_prog e -> me <> pk_zero -> sized w -> lam_ok w -> tm_ok b (e_prog e) me ->
  at_pos infos 0 asset -> data (w asset) = [] ->
  (forall m m' n n', e_cpa e (s_asset ++ pk_bytes m) n (pk_bytes me) = Some asset -> e_cpa e (s_asset ++ pk_bytes m') n' (pk_bytes me) = Some asset -> m' = m) ->
  bridge_entry b e me infos w h [x01; bool_byte c] = Ok (w', h') ->
  exists vault mint bump abump, at_pos infos 1 vault /\ at_pos infos 2 mint /\
    addresses (e_cpa e) me mint vault bump asset abump /\ settled (e_prog e) me (mkChain w' h') vault bump mint asset abump.
Proof.
  intros He Hp Hm Hm0 Hs Hl TM A0 Hd NC H.
  destruct (create_made _ _ _ _ _ _ _ _ _ _ He Hp Hm Hm0 Hs Hl TM A0 Hd H) as (vault & mint & md & auth & m & bump & abump & l' & B1 & B2 & _ & _ & _ & _ & _ & _ & _ & _ & _ &
    V & C & T & U & ST & SS & _ & _ & _ & _ & _ & S & L & D1 & D2 & D3 & D4 & _).
  exists vault, mint, bump, abump. split; [assumption|]. split; [assumption|].
  split; [split; [assumption|split; [assumption|split; [assumption|split; [assumption|intros m' n; now apply (NC _ _ abump n)]]]]|].
  split; [exists Idle; split; assumption|]. split; [|split; assumption]. right. destruct C as (C1 & C2 & C3 & C4). split; [assumption|]. split; [assumption|].
  split; [now exists l'|]. split; [exact ST|]. intros _. split; [exact C4|]. cbn [ch_world]. rewrite SS. discriminate.
Qed.

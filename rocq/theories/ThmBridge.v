(** C46: the bridge between tokens and assets. *)
From Verif Require Import Base State Layout Constr Ext World Proc Borsh Proxy Bridge Spec SpecB SpecH SpecI SpecP SpecV BaseL WorldL BridgeL BridgeM Sample SampleP SampleB ThmAuth ThmBuild ThmHist ThmRemove.
From Coq Require Import Strings.Byte.

(** One Bridge call: the vault is the mint's, the owner signed, the vault's state
    flips, the token goes one way and the asset the other, and nothing else of the
    two programs changes. *)
Theorem C46_toggle : forall b e me infos w h w' h', env_ok e -> e_prog e <> pk_zero -> me <> e_prog e -> sized w -> lam_ok w -> tm_ok b (e_prog e) me ->
  bridge_entry b e me infos w h [x00] = Ok (w', h') ->
  exists asset vault owner mint s, let from := match s with Idle => owner | Active => vault end in
    let to := match s with Idle => vault | Active => owner end in
    at_pos infos 0 asset /\ at_pos infos 1 vault /\ at_pos infos 2 owner /\ at_pos infos 4 mint /\ signs infos owner /\
    e_cpa e (s_vault ++ pk_bytes mint) (nth 2 (data (w vault)) x00) (pk_bytes me) = Some vault /\
    e_cpa e (s_asset ++ pk_bytes mint) (nth 35 (data (w vault)) x00) (pk_bytes me) = Some asset /\
    acct_owner (w vault) = me /\ (36 <= length (data (w vault)))%nat /\ nth 0 (data (w vault)) x00 = x01 /\
    nth 1 (data (w vault)) x00 = mode_byte s /\ sub (data (w vault)) 3 32 = pk_bytes mint /\
    acct_owner (w' vault) = me /\ data (w' vault) = firstn 1 (data (w vault)) ++ [mode_byte (flip s)] ++ skipn 2 (data (w vault)) /\
    token_moves h h' mint from to /\
    acct_owner (w asset) = e_prog e /\ initialized (data (w asset)) /\
    (forall l, tidy (data (w asset)) l -> authorized (data (w asset)) l to RTransfer) /\
    acct_owner (w' asset) = e_prog e /\ initialized (data (w' asset)) /\ s_owner (data (w' asset)) = pk_bytes from /\
    (forall k, k <> vault -> acct_owner (w k) = me -> acct_owner (w' k) = me /\ data (w' k) = data (w k)) /\
    (forall k, k <> asset -> acct_owner (w k) = e_prog e -> acct_owner (w' k) = e_prog e /\ data (w' k) = data (w k)).
Proof. exact toggle_effect. Qed.
Print Assumptions C46_toggle.
Definition out_of (c : chain) (r : res (world * holders)) : chain := match r with Ok x => mkChain (fst x) (snd x) | _ => c end.
Lemma out_ok c r : okb r = true -> r = Ok (ch_world (out_of c r), ch_holder (out_of c r)).
Proof. destruct r as [[a b]| | | |]; cbn; congruence. Qed.
(** token in, asset out, and back; nobody but the holder can redeem *)
Example C46_toggle_case :
  (exists w' h', bridge_entry bB envB kMe (ib_bridge kHolder) (w_mode Idle) (h_mode Idle) [x00] = Ok (w', h') /\
    data (w' kVault) = vault_data Active /\ data (w' kAsset) = b_data kHolder /\ h' kMint = kVault) /\
  (exists w' h', bridge_entry bB envB kMe (ib_bridge kHolder) (w_mode Active) (h_mode Active) [x00] = Ok (w', h') /\
    data (w' kVault) = vault_data Idle /\ data (w' kAsset) = b_data kVault /\ h' kMint = kHolder) /\
  bridge_entry bB envB kMe (ib_bridge kTo) (w_mode Idle) (h_mode Idle) [x00] = Err ECpi /\
  bridge_entry bB envB kMe (ib_bridge kTo) (w_mode Active) (h_mode Active) [x00] = Err EInvalidTransferAuthority.
Proof.
  split; [|split; [|vm_compute; auto]].
  - exists (ch_world (out_of (c_mode Idle) (bridge_entry bB envB kMe (ib_bridge kHolder) (w_mode Idle) (h_mode Idle) [x00]))).
    eexists. split; [apply (out_ok (c_mode Idle)); vm_compute; reflexivity|]. vm_compute. auto.
  - exists (ch_world (out_of (c_mode Idle) (bridge_entry bB envB kMe (ib_bridge kHolder) (w_mode Active) (h_mode Active) [x00]))).
    eexists. split; [apply (out_ok (c_mode Idle)); vm_compute; reflexivity|]. vm_compute. auto.
Qed.

(** Create, for an asset account that does not exist yet: a new idle vault holding
    an asset with the token's name, authority and the payloads derived from the
    token's metadata; only with the consent of the update authority or the
    collection. *)
Theorem C46_created : forall b e me infos w h w' h' c asset, env_ok e -> e_prog e <> pk_zero -> me <> e_prog e -> me <> pk_zero -> sized w -> lam_ok w -> tm_ok b (e_prog e) me ->
  at_pos infos 0 asset -> data (w asset) = [] ->
  bridge_entry b e me infos w h [x01; bool_byte c] = Ok (w', h') ->
  exists vault mint md auth m bump abump l',
    at_pos infos 1 vault /\ at_pos infos 2 mint /\ at_pos infos 3 md /\ at_pos infos 4 auth /\
    acct_owner (w md) = be_tm b /\ be_meta b (data (w md)) = Some m /\ mt_mint m = pk_bytes mint /\ mt_authority m = pk_bytes auth /\
    create_allowed (e_prog e) me (e_cpa e) infos w m /\
    data (w vault) = [] /\ h' = h /\
    vault_at me w' vault Idle bump mint abump /\ in_custody (e_prog e) w' vault asset /\
    tidy (data (w' asset)) l' /\ unmanaged l' /\
    s_standard (data (w' asset)) = x00 /\ s_state (data (w' asset)) = x00 /\ mutable (data (w' asset)) /\ s_group (data (w' asset)) = no_key /\
    s_authority (data (w' asset)) = mt_authority m /\ s_name (data (w' asset)) = name_field (mt_name m) /\
    Forall2 (validated (mt_authority m)) (map (fun x => blk_of (fst x) (snd x)) (bridged_payloads c m)) l' /\
    sized w' /\ lam_ok w' /\
    e_cpa e (s_vault ++ pk_bytes mint) bump (pk_bytes me) = Some vault /\
    (forall n, b2z bump < n <= 255 -> e_cpa e (s_vault ++ pk_bytes mint) (z2b n) (pk_bytes me) = None) /\ 0 < b2z bump /\
    e_cpa e (s_asset ++ pk_bytes mint) abump (pk_bytes me) = Some asset /\
    (forall k, k <> vault -> k <> asset -> acct_owner (w k) = me \/ acct_owner (w k) = e_prog e ->
       acct_owner (w' k) = acct_owner (w k) /\ data (w' k) = data (w k)).
Proof. exact create_made. Qed.
Print Assumptions C46_created.
Example C46_created_case : tm_ok bB kProg kMe /\ data (wB kAsset) = [] /\
  exists w' h', bridge_entry bB envB kMe ib_create wB hB [x01; x00] = Ok (w', h') /\ data (w' kVault) = vault_data Idle /\ data (w' kAsset) = b_data kVault.
Proof.
  split; [exact bB_ok|]. split; [reflexivity|].
  exists (ch_world (out_of (c_mode Idle) (bridge_entry bB envB kMe ib_create wB hB [x01; x00]))).
  eexists. split; [apply (out_ok (c_mode Idle)); vm_compute; reflexivity|]. vm_compute. auto.
Qed.
(** Such a vault is settled, which is where histories start. *)
Theorem C46_created_settled : forall b e me infos w h w' h' c asset, env_ok e -> e_prog e <> pk_zero -> me <> e_prog e -> me <> pk_zero -> sized w -> lam_ok w -> tm_ok b (e_prog e) me ->
  at_pos infos 0 asset -> data (w asset) = [] ->
  (forall m m' n n', e_cpa e (s_asset ++ pk_bytes m) n (pk_bytes me) = Some asset -> e_cpa e (s_asset ++ pk_bytes m') n' (pk_bytes me) = Some asset -> m' = m) ->
  bridge_entry b e me infos w h [x01; bool_byte c] = Ok (w', h') ->
  exists vault mint bump abump, at_pos infos 1 vault /\ at_pos infos 2 mint /\
    addresses (e_cpa e) me mint vault bump asset abump /\ settled (e_prog e) me (mkChain w' h') vault bump mint asset abump.
Proof. exact create_settled. Qed.
Print Assumptions C46_created_settled.

(** In every history an idle vault holds the asset and an active vault holds the
    token, so the two are never both out of the vault.  Partial: nothing may be
    removed from the middle of the bridged asset ([careful]); the full statement has
    [fun _ _ _ _ => True] there and is refuted below. *)
Theorem C46_backed_partial : forall p me v a mint bump abump cpa, p <> pk_zero -> me <> p -> me <> pk_zero -> addresses cpa me mint v bump a abump ->
  forall c c', traffic (careful a) p me cpa v a mint c c' -> settled p me c v bump mint a abump ->
  settled p me c' v bump mint a abump.
Proof. exact settled_traffic. Qed.
Print Assumptions C46_backed_partial.
Lemma no_signer infos k : forallb (fun a => negb (ai_signer a && pk_eqb (ai_key a) k)) infos = true -> ~ signs infos k /\ ~ signed infos k.
Proof.
  intro H. rewrite forallb_forall in H. assert (K : forall a, In a infos -> ai_key a = k -> ai_signer a = true -> False).
  { intros a Ha <- Hs. specialize (H a Ha). rewrite Hs, pk_eqb_refl in H. discriminate. }
  split; [intros (a & Ha & Hk & Hs); eauto|intros (a & Ha & Hk & Hs); apply in_firstn in Ha; eauto].
Qed.
Example C46_backed_case : kProg <> pk_zero /\ kMe <> kProg /\ kMe <> pk_zero /\ addresses (e_cpa envB) kMe kMint kVault xff kAsset xff /\
  settled kProg kMe (c_mode Idle) kVault xff kMint kAsset xff /\
  exists c', traffic (careful kAsset) kProg kMe (e_cpa envB) kVault kAsset kMint (c_mode Idle) c' /\ ch_holder c' kMint = kVault.
Proof.
  split; [discriminate|]. split; [discriminate|]. split; [discriminate|]. split; [exact addrB|]. split; [exact (settled_mode Idle)|].
  set (r := bridge_entry bB envB kMe (ib_bridge kHolder) (w_mode Idle) (h_mode Idle) [x00]).
  exists (mkChain (ch_world (out_of (c_mode Idle) r)) (ch_holder (out_of (c_mode Idle) r))). split; [|vm_compute; reflexivity].
  eapply (tr_bridge _ _ _ _ _ _ _ _ (c_mode Idle) bB envB (ib_bridge kHolder) [x00]); [apply tr_refl|reflexivity|exact envB_ok|reflexivity|exact bB_ok| | |apply (out_ok (c_mode Idle)); vm_compute; reflexivity];
    apply no_signer; vm_compute; reflexivity.
Qed.

(** The full statement is false: the update authority adds two extensions to the
    asset in an idle vault, one containing a made-up manager, removes the token's
    metadata, and the made-up manager takes the asset (as in C27).  The vault is
    still idle and the token is with its holder: both are out. *)
Definition b_take : list (env * list ainfo * instr) :=
  [(envB, i_update kAsset, IUpdate (mkUpdInput None None (Some (mkExtInput XAttributes 4 (Some [x01; x61; x01; x62])))));
   (envB, i_update kAsset, IUpdate (mkUpdInput None None (Some (mkExtInput XBucket (zlen fake_manager) (Some fake_manager)))));
   (envB, i_remove kAsset, IRemove XMetadata);
   (envB, [mkInfo kAsset false true; mkInfo kMan true false; mkInfo kTo false false; mkInfo kProg false false], ITransfer)].
Lemma steps_traffic p me cpa v a mint c : forall l c1 w', traffic (fun _ _ _ _ => True) p me cpa v a mint c c1 ->
  Forall (fun s => e_prog (fst (fst s)) = p /\ env_ok (fst (fst s)) /\ ~ signed (snd (fst s)) v /\ ~ signed (snd (fst s)) a) l ->
  steps l (ch_world c1) = Ok w' -> traffic (fun _ _ _ _ => True) p me cpa v a mint c (mkChain w' (ch_holder c1)).
Proof.
  induction l as [|[[e infos] i] l IH]; intros c1 w' T F H; cbn [steps] in H.
  - assert (w' = ch_world c1) as -> by congruence. now destruct c1.
  - inversion F as [|x y (F1 & F2 & F3 & F4) F']; subst. apply bind_ok in H as (w1 & H1 & H2).
    apply (IH (mkChain w1 (ch_holder c1)) w'); [|assumption|exact H2].
    eapply tr_asset; eauto.
Qed.
Theorem C46_backed_refuted : exists c c', addresses (e_cpa envB) kMe kMint kVault xff kAsset xff /\
  settled kProg kMe c kVault xff kMint kAsset xff /\
  traffic (fun _ _ _ _ => True) kProg kMe (e_cpa envB) kVault kAsset kMint c c' /\
  vault_at kMe (ch_world c') kVault Idle xff kMint xff /\ ch_holder c' kMint = kHolder /\
  acct_owner (ch_world c' kAsset) = kProg /\ s_owner (data (ch_world c' kAsset)) = pk_bytes kTo /\
  ~ backed kProg kMe c' kVault xff kMint kAsset xff.
Proof.
  set (w' := run (w_mode Idle) (steps b_take (w_mode Idle))). exists (c_mode Idle), (mkChain w' (h_mode Idle)).
  split; [exact addrB|]. split; [exact (settled_mode Idle)|]. split.
  { apply (steps_traffic _ _ _ _ _ _ _ b_take (c_mode Idle) w'); [apply tr_refl| |apply run_ok; vm_compute; reflexivity].
    unfold b_take. repeat (apply Forall_cons; [split; [reflexivity|]; split; [exact envB_ok|]; split; apply no_signer; vm_compute; reflexivity|]). apply Forall_nil. }
  split; [split; vm_compute; reflexivity|]. split; [vm_compute; reflexivity|]. split; [vm_compute; reflexivity|].
  assert (O : s_owner (data (w' kAsset)) = pk_bytes kTo) by (vm_compute; reflexivity). split; [exact O|].
  intros (s & [_ D] & B). destruct s.
  - destruct B as (_ & _ & B & _). cbn [ch_world] in B. rewrite O in B. vm_compute in B. discriminate B.
  - apply (f_equal (fun d => nth 1 d x01)) in D. vm_compute in D. discriminate D.
Qed.
Print Assumptions C46_backed_refuted.

(** An active vault whose asset is gone (burned) or has been sent to the vault
    keeps the token for ever, whatever anybody does. *)
Theorem C46_stuck : forall p me v a mint bump abump cpa, p <> pk_zero -> me <> p -> me <> pk_zero -> addresses cpa me mint v bump a abump ->
  forall c c', traffic (careful a) p me cpa v a mint c c' -> stuck p me c v bump mint a abump -> stuck p me c' v bump mint a abump.
Proof. exact stuck_traffic. Qed.
Print Assumptions C46_stuck.
(** It happens: the holder sends the asset back without the bridge, or burns it. *)
Definition b_send : list ainfo := [mkInfo kAsset false true; mkInfo kHolder true false; mkInfo kVault false false; mkInfo kProg false false].
Definition b_burn : list ainfo := [mkInfo kAsset false true; mkInfo kHolder true true; mkInfo kTo false true; mkInfo kProg false false].
Example C46_stuck_case : settled kProg kMe (c_mode Active) kVault xff kMint kAsset xff /\
  (exists w', process envB b_send (w_mode Active) ITransfer = Ok w' /\
     traffic (careful kAsset) kProg kMe (e_cpa envB) kVault kAsset kMint (c_mode Active) (mkChain w' (h_mode Active)) /\
     stuck kProg kMe (mkChain w' (h_mode Active)) kVault xff kMint kAsset xff /\
     bridge_entry bB envB kMe (ib_bridge kHolder) w' (h_mode Active) [x00] = Err EInvalidTransferAuthority) /\
  (exists w', process envB b_burn (w_mode Active) IBurn = Ok w' /\
     traffic (careful kAsset) kProg kMe (e_cpa envB) kVault kAsset kMint (c_mode Active) (mkChain w' (h_mode Active)) /\
     stuck kProg kMe (mkChain w' (h_mode Active)) kVault xff kMint kAsset xff /\
     bridge_entry bB envB kMe (ib_bridge kHolder) w' (h_mode Active) [x00] = Err EIllegalOwner).
Proof.
  assert (N : forall infos i, careful kAsset envB infos (w_mode Active) i -> ~ signed infos kVault -> ~ signed infos kAsset ->
     forall w', process envB infos (w_mode Active) i = Ok w' ->
     traffic (careful kAsset) kProg kMe (e_cpa envB) kVault kAsset kMint (c_mode Active) (mkChain w' (h_mode Active)) /\
     settled kProg kMe (mkChain w' (h_mode Active)) kVault xff kMint kAsset xff).
  { intros infos i C N1 N2 w' H.
    assert (T : traffic (careful kAsset) kProg kMe (e_cpa envB) kVault kAsset kMint (c_mode Active) (mkChain w' (h_mode Active))).
    { eapply (tr_asset _ _ _ _ _ _ _ _ (c_mode Active) envB); eauto; [apply tr_refl|exact envB_ok]. }
    split; [exact T|]. eapply C46_backed_partial; [| | |exact addrB|exact T|exact (settled_mode Active)]; discriminate. }
  split; [exact (settled_mode Active)|].
  assert (ST : forall w', settled kProg kMe (mkChain w' (h_mode Active)) kVault xff kMint kAsset xff -> data (w' kVault) = vault_data Active -> acct_owner (w' kVault) = kMe ->
     acct_owner (w' kAsset) <> kProg \/ s_owner (data (w' kAsset)) = pk_bytes kVault -> stuck kProg kMe (mkChain w' (h_mode Active)) kVault xff kMint kAsset xff).
  { intros w' (_ & PG & S & L) D1 D2 Q. split; [split; assumption|]. split; [vm_compute; reflexivity|]. split; [exact PG|]. split; [exact S|]. split; [exact L|].
    destruct Q as [Q|Q]; [left; exact Q|]. destruct PG as [PG|(G1 & G2 & _ & G3)]; [left; exact PG|]. right. split; [exact G1|]. split; [exact G2|]. split; [exact Q|]. now apply G3. }
  split.
  - set (w' := run (w_mode Active) (process envB b_send (w_mode Active) ITransfer)).
    assert (H : process envB b_send (w_mode Active) ITransfer = Ok w') by (apply run_ok; vm_compute; reflexivity). exists w'. split; [exact H|].
    destruct (N b_send ITransfer) with (w' := w') as [T S]; [apply transfer_careful|apply no_signer; vm_compute; reflexivity|apply no_signer; vm_compute; reflexivity|exact H|].
    split; [exact T|]. split; [|vm_compute; reflexivity]. apply ST; [exact S|vm_compute; reflexivity|vm_compute; reflexivity|right; vm_compute; reflexivity].
  - set (w' := run (w_mode Active) (process envB b_burn (w_mode Active) IBurn)).
    assert (H : process envB b_burn (w_mode Active) IBurn = Ok w') by (apply run_ok; vm_compute; reflexivity). exists w'. split; [exact H|].
    destruct (N b_burn IBurn) with (w' := w') as [T S]; [split; [exact I|intros t l Q; discriminate Q]|apply no_signer; vm_compute; reflexivity|apply no_signer; vm_compute; reflexivity|exact H|].
    split; [exact T|]. split; [|vm_compute; reflexivity]. apply ST; [exact S|vm_compute; reflexivity|vm_compute; reflexivity|left; vm_compute; discriminate].
Qed.

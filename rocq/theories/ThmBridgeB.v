(** C67: exactly when the bridge lets the token and the asset change places. *)
From Verif Require Import Base State Layout Constr Ext World Proc Borsh Proxy Bridge Spec SpecB SpecC SpecE SpecH SpecI SpecP SpecV SpecL SpecX BaseL WorldL ProxyL BridgeL BridgeN Sample SampleP SampleB SampleE ThmAuth ThmBridge.
From Coq Require Import Strings.Byte.

(** Bridge with a proper vault goes through exactly if the owner signs, the mint is an
    SPL token with metadata of a non-fungible token, the accounts are writable, Token
    Metadata moves the token one way, and the asset program lets the asset go the other
    way.  There is no other way for it to fail. *)
Theorem C67_toggle : forall b e me infos w h t s bump abump l lg,
  names me infos t -> tm_ok b (e_prog e) me -> me <> e_prog e -> sized w -> lam_ok w ->
  vault_at me w (ta_vault t) s bump (ta_mint t) abump ->
  e_cpa e (s_vault ++ pk_bytes (ta_mint t)) bump (pk_bytes me) = Some (ta_vault t) ->
  e_cpa e (s_asset ++ pk_bytes (ta_mint t)) abump (pk_bytes me) = Some (ta_asset t) ->
  initialized (data (w (ta_asset t))) -> well_formed (data (w (ta_asset t))) l -> manager_sane l -> royalties_sane l ->
  ta_group t <> Some (e_prog e) ->
  (forall k, In k (ta_owner t :: e_prog e :: match ta_group t with Some g => [g] | None => [] end) -> plain_at e w k) ->
  acct_owner (w (e_prog e)) <> e_prog e ->
  (forall g, ta_group t = Some g -> acct_owner (w g) = e_prog e -> s_disc (data (w g)) = x01 -> well_formed (data (w g)) lg /\ royalties_sane lg) ->
  (exists r, process_bridge b e me infos w h = Ok r) <->
  signs infos (ta_owner t) /\ In (acct_owner (w (ta_mint t))) (be_spl b) /\ acct_owner (w (ta_asset t)) = e_prog e /\
  nft_of b (data (w (ta_metadata t))) (ta_mint t) /\ ta_metadata t <> ta_vault t /\
  mentions infos (e_prog e) /\ writes infos (ta_vault t) /\ writes infos (ta_asset t) /\
  exists w2 h2, be_transfer b infos (token_signer t s) (token_call t s) (turned w (ta_vault t) s) h = Ok (w2, h2) /\ bounded_growth infos w w2 /\
    may_move e w2 (ta_asset t) (giver t s) (taker t s) (ta_group t) l lg.
Proof. exact toggle_goes. Qed.
Print Assumptions C67_toggle.

(** A settled vault whose asset has no royalties and is in no group.  Handing the asset
    out: neither the asset's authority nor anybody else but Token Metadata can refuse. *)
Theorem C67_hand_out : forall b e me infos w h t s bump abump l,
  names me infos t -> ta_group t = None -> tm_ok b (e_prog e) me -> me <> e_prog e ->
  settled (e_prog e) me (mkChain w h) (ta_vault t) bump (ta_mint t) (ta_asset t) abump ->
  vault_at me w (ta_vault t) s bump (ta_mint t) abump ->
  e_cpa e (s_vault ++ pk_bytes (ta_mint t)) bump (pk_bytes me) = Some (ta_vault t) ->
  e_cpa e (s_asset ++ pk_bytes (ta_mint t)) abump (pk_bytes me) = Some (ta_asset t) ->
  acct_owner (w (ta_asset t)) = e_prog e -> well_formed (data (w (ta_asset t))) l -> manager_sane l ->
  lookup XRoyalties (ext_list l) = None -> s_group (data (w (ta_asset t))) = no_key ->
  acct_owner (w (ta_owner t)) <> e_prog e -> acct_owner (w (e_prog e)) <> e_prog e ->
  s = Idle ->
  (exists r, process_bridge b e me infos w h = Ok r) <->
  signs infos (ta_owner t) /\ In (acct_owner (w (ta_mint t))) (be_spl b) /\ nft_of b (data (w (ta_metadata t))) (ta_mint t) /\ ta_metadata t <> ta_vault t /\
  mentions infos (e_prog e) /\ writes infos (ta_vault t) /\ writes infos (ta_asset t) /\
  exists w2 h2, be_transfer b infos None (token_call t Idle) (turned w (ta_vault t) Idle) h = Ok (w2, h2) /\ bounded_growth infos w w2.
Proof. exact free_out. Qed.
Print Assumptions C67_hand_out.
(** Redeeming: the holder of an unlocked asset gets the token, unless Token Metadata refuses. *)
Theorem C67_redeem : forall b e me infos w h t s bump abump l,
  names me infos t -> ta_group t = None -> tm_ok b (e_prog e) me -> me <> e_prog e ->
  settled (e_prog e) me (mkChain w h) (ta_vault t) bump (ta_mint t) (ta_asset t) abump ->
  vault_at me w (ta_vault t) s bump (ta_mint t) abump ->
  e_cpa e (s_vault ++ pk_bytes (ta_mint t)) bump (pk_bytes me) = Some (ta_vault t) ->
  e_cpa e (s_asset ++ pk_bytes (ta_mint t)) abump (pk_bytes me) = Some (ta_asset t) ->
  acct_owner (w (ta_asset t)) = e_prog e -> well_formed (data (w (ta_asset t))) l -> manager_sane l ->
  lookup XRoyalties (ext_list l) = None -> s_group (data (w (ta_asset t))) = no_key ->
  acct_owner (w (ta_owner t)) <> e_prog e -> acct_owner (w (e_prog e)) <> e_prog e ->
  s = Active -> s_owner (data (w (ta_asset t))) = pk_bytes (ta_owner t) ->
  (exists r, process_bridge b e me infos w h = Ok r) <->
  signs infos (ta_owner t) /\ In (acct_owner (w (ta_mint t))) (be_spl b) /\ nft_of b (data (w (ta_metadata t))) (ta_mint t) /\ ta_metadata t <> ta_vault t /\
  mentions infos (e_prog e) /\ writes infos (ta_vault t) /\ writes infos (ta_asset t) /\ ~ locked (data (w (ta_asset t))) /\
  exists w2 h2, be_transfer b infos (Some (ta_vault t)) (token_call t Active) (turned w (ta_vault t) Active) h = Ok (w2, h2) /\ bounded_growth infos w w2.
Proof. exact free_back. Qed.
Print Assumptions C67_redeem.

(** both ways in the sample world; a locked asset stays, and the token with it *)
Definition tB : toggle_accounts :=
  mkToggle kAsset kVault kHolder (key x41) kMint kMd (key x42) None (key x43) None kPayer None.
Lemma tB_names : names kMe (ib_bridge kHolder) tB.
Proof. repeat (split; [eexists; split; reflexivity|]). eexists; split; reflexivity. Qed.
Definition w_locked : world :=
  table ((kVault, mkAcct 164 kMe (vault_data Active)) :: (kAsset, mkAcct 320 kProg (put (b_data kHolder) 1 [x01])) :: rest).
Example C67_case : names kMe (ib_bridge kHolder) tB /\ tm_ok bB (e_prog envB) kMe /\ kMe <> e_prog envB /\
  (forall s, settled kProg kMe (c_mode s) kVault xff kMint kAsset xff /\ vault_at kMe (w_mode s) kVault s xff kMint xff /\
     well_formed (data (w_mode s kAsset)) b_exts /\ acct_owner (w_mode s kAsset) = kProg /\ s_group (data (w_mode s kAsset)) = no_key /\
     acct_owner (w_mode s kHolder) <> kProg /\ acct_owner (w_mode s kProg) <> kProg /\
     exists r, process_bridge bB envB kMe (ib_bridge kHolder) (w_mode s) (h_mode s) = Ok r) /\
  manager_sane b_exts /\ lookup XRoyalties (ext_list b_exts) = None /\
  s_owner (data (w_mode Active kAsset)) = pk_bytes kHolder /\
  process_bridge bB envB kMe (ib_bridge kHolder) w_locked (h_mode Active) = Err ELockedAsset.
Proof.
  split; [exact tB_names|]. split; [exact bB_ok|]. split; [discriminate|]. split.
  { intro s. split; [exact (settled_mode s)|]. split; [split; destruct s; vm_compute; reflexivity|]. split.
    { exists (firstn 168 (b_data (match s with Idle => kVault | Active => kHolder end))), [].
      assert (D : data (w_mode s kAsset) = firstn 168 (b_data (match s with Idle => kVault | Active => kHolder end)) ++ enc_sect 168 b_exts ++ []) by (destruct s; vm_compute; reflexivity).
      rewrite D. apply mk_layout. destruct s; vm_compute; reflexivity. }
    split; [destruct s; vm_compute; reflexivity|]. split; [destruct s; vm_compute; reflexivity|].
    split; [destruct s; vm_compute; discriminate|]. split; [destruct s; vm_compute; discriminate|].
    set (r := process_bridge bB envB kMe (ib_bridge kHolder) (w_mode s) (h_mode s)). eexists. apply (out_ok (c_mode s) r). unfold r. destruct s; vm_compute; reflexivity. }
  split; [intros x X; discriminate X|]. split; [reflexivity|]. split; vm_compute; reflexivity.
Qed.

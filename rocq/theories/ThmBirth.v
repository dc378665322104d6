(** C70: exactly when the bridge's Create makes a vault, and how anybody can prevent it for ever. *)
From Verif Require Import Base State Layout Constr Ext World Proc Borsh Proxy Bridge Spec SpecB SpecC SpecE SpecH SpecI SpecK SpecL SpecP SpecV SpecX SpecY BaseL WorldL ProxyL BridgeL SquatL Sample SampleP SampleB SampleE ThmBridge.
From Coq Require Import Strings.Byte.

(** Create goes through exactly under the conditions of [can_be_born]: mint and metadata of
    a non-fungible token, consent, both derived addresses vacant, shares that add up and
    enough lamports for both rents. *)
Theorem C70_exactly : forall b e me infos w h t c, env_ok e -> e_prog e <> pk_zero -> rent_mono e -> me <> e_prog e -> me <> pk_zero -> sized w -> lam_ok w -> tm_ok b (e_prog e) me ->
  birth_names me infos t -> data (w (ba_asset t)) = [] -> wallet w (ba_payer t) -> ba_payer t <> e_prog e -> ba_payer t <> ba_asset t -> ba_payer t <> ba_vault t ->
  plain_at e w (ba_auth t) -> plain_at e w (e_prog e) -> plain_at e w pk_zero ->
  (exists r, bridge_entry b e me infos w h [x01; bool_byte c] = Ok r) <-> can_be_born b e me infos w t c.
Proof. exact entry_goes. Qed.
Print Assumptions C70_exactly.
(** Lamports sent to the vault's or the asset's address before Create stay there whatever
    happens later, and no Create for that mint can succeed any more. *)
Theorem C70_blocked_for_ever : forall p me cpa k mint seeds bump c c', p <> pk_zero -> me <> p -> me <> pk_zero -> sized (ch_world c) -> lam_ok (ch_world c) ->
  seeds = s_vault ++ pk_bytes mint \/ seeds = s_asset ++ pk_bytes mint -> canonical cpa me seeds k bump ->
  squatted (ch_world c) k -> later p me cpa k c c' ->
  squatted (ch_world c') k /\
  forall b e infos cl r, e_prog e = p -> env_ok e -> e_cpa e = cpa -> tm_ok b p me -> ~ signs infos k -> at_pos infos 2 mint ->
    bridge_entry b e me infos (ch_world c') (ch_holder c') [x01; bool_byte cl] <> Ok r.
Proof. exact entry_blocked. Qed.
Print Assumptions C70_blocked_for_ever.

(** the sample Create meets the conditions; the same world with lamports at the vault's address *)
Definition tC : birth_accounts := mkBirth kAsset kVault kMint kMd kAuth None kPayer kSys.
Definition w_squat (k : pubkey) : world := table ((k, mkAcct 1 pk_zero []) :: rest).
Lemma canonB k s : k = kVault /\ s = s_vault ++ pk_bytes kMint \/ k = kAsset /\ s = s_asset ++ pk_bytes kMint -> canonical (e_cpa envB) kMe s k xff.
Proof. intros [[-> ->]|[-> ->]]; (split; [vm_compute; reflexivity|]; split; [vm_compute; reflexivity|]; intros n Hn; change (b2z xff) with 255 in Hn; lia). Qed.
Example C70_exactly_case : env_ok envB /\ rent_mono envB /\ sized wB /\ lam_ok wB /\ tm_ok bB (e_prog envB) kMe /\ birth_names kMe ib_create tC /\ wallet wB kPayer /\
  plain_at envB wB kAuth /\ plain_at envB wB kProg /\ plain_at envB wB pk_zero /\ can_be_born bB envB kMe ib_create wB tC false.
Proof.
  assert (A : env_ok envB) by exact envB_ok. assert (B : rent_mono envB) by (intros a b H; cbn [e_rent envB]; lia).
  assert (C : sized wB) by (apply table_sized; vm_compute; reflexivity). assert (D : lam_ok wB) by (apply table_lam_ok; vm_compute; reflexivity).
  assert (E : birth_names kMe ib_create tC) by (repeat (split; [eexists; split; reflexivity|]); cbn; lia).
  assert (F : wallet wB kPayer) by (repeat split; vm_compute; try reflexivity; lia).
  assert (G : plain_at envB wB kAuth /\ plain_at envB wB kProg /\ plain_at envB wB pk_zero) by (repeat split; vm_compute; discriminate).
  destruct G as (G1 & G2 & G3).
  repeat (split; [assumption || exact bB_ok|]).
  apply (C70_exactly bB envB kMe ib_create wB hB tC false); try assumption; try discriminate; [exact bB_ok|reflexivity|].
  set (r := bridge_entry bB envB kMe ib_create wB hB [x01; bool_byte false]). eexists. apply (out_ok (c_mode Idle) r). unfold r. vm_compute. reflexivity.
Qed.
Example C70_blocked_case : forall k s, k = kVault /\ s = s_vault ++ pk_bytes kMint \/ k = kAsset /\ s = s_asset ++ pk_bytes kMint ->
  canonical (e_cpa envB) kMe s k xff /\ sized (w_squat k) /\ lam_ok (w_squat k) /\ squatted (w_squat k) k /\ tm_spares bB k /\ ~ signs ib_create k.
Proof.
  intros k s H. split; [now apply canonB|]. split; [apply table_sized; destruct H as [[-> ->]|[-> ->]]; vm_compute; reflexivity|].
  split; [apply table_lam_ok; destruct H as [[-> ->]|[-> ->]]; vm_compute; reflexivity|].
  split; [destruct H as [[-> ->]|[-> ->]]; vm_compute; auto|]. split.
  { intros infos pda c w h w' h' T _ _ Q. cbn [bB be_transfer] in T. destruct (_ && _); [|discriminate]. assert (w = w') as <- by congruence. exact Q. }
  intros (a & Ha & E1 & E2). cbn [ib_create In] in Ha. destruct H as [[-> _]|[-> _]];
    repeat (destruct Ha as [<-|Ha]; [cbn [ai_key ai_signer] in *; discriminate|]); contradiction.
Qed.
(** Claimed: while the update authority and a payer with enough lamports sign, the mint's
    Create can be done.  It cannot: one lamport at either address makes it fail. *)
Theorem C70_open_to_the_authority_refuted : exists b e me infos w w1 w2 h t,
  can_be_born b e me infos w t false /\ signs infos (ba_auth t) /\ signs infos (ba_payer t) /\
  (squatted w1 (ba_vault t) /\ forall x, x <> ba_vault t -> w1 x = w x) /\
  (squatted w2 (ba_asset t) /\ forall x, x <> ba_asset t -> w2 x = w x) /\
  bridge_entry b e me infos w1 h [x01; x00] = Err ECpi /\
  bridge_entry b e me infos w2 h [x01; x00] = Err ECpi.
Proof.
  exists bB, envB, kMe, ib_create, wB, (w_squat kVault), (w_squat kAsset), hB, tC.
  assert (O : forall k x, x <> k -> w_squat k x = wB x).
  { intros k x N. unfold w_squat, wB, table. cbn [find fst snd]. destruct (pk_eqb x k) eqn:E; [apply pk_eqb_eq in E; congruence|reflexivity]. }
  split; [apply C70_exactly_case|]. split; [apply signs_iff; vm_compute; reflexivity|]. split; [apply signs_iff; vm_compute; reflexivity|].
  split; [split; [vm_compute; auto|apply O]|]. split; [split; [vm_compute; auto|apply O]|]. split; vm_compute; reflexivity.
Qed.
Print Assumptions C70_open_to_the_authority_refuted.

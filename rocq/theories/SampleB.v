(** Sample data for the bridge's theorems. *)
From Verif Require Import Base State Layout Constr Ext World Proc Borsh Proxy Bridge BaseL Spec SpecB SpecH SpecI SpecP SpecV WorldL ProcSteps LayoutL GroupL UpdateL BorshL ProxyL ProxyM BridgeL Sample SampleP.
From Coq Require Import Strings.Byte.

Definition kVault : pubkey := key x31.
Definition kMint : pubkey := key x32.
Definition kSpl : pubkey := key x33.
Definition kTm : pubkey := key x34.
Definition kMd : pubkey := key x35.
(** vault and asset of the mint, both with bump 255 *)
Definition envB : env :=
  mkEnv kProg (fun n => Z.max 0 (128 + n))
    (fun s b p => if bytes_eqb p (pk_bytes kMe) && beqb b xff then
        if bytes_eqb s (s_vault ++ pk_bytes kMint) then Some kVault
        else if bytes_eqb s (s_asset ++ pk_bytes kMint) then Some kAsset else None
      else None) false 0 100.
Lemma envB_ok : env_ok envB.
Proof. intros n. cbn [e_rent envB]. lia. Qed.
Definition meta0 : tm_meta :=
  mkMeta (Some TmProgrammable) (pk_bytes kMint) (pk_bytes kAuth) None false None 500 [x41; x42] [x43; x44] [x45; x46].
(** a token metadata program that only looks at holder and signature *)
Definition bB : benv :=
  mkBenv [kSpl] kTm (fun d => if bytes_eqb d [x4d] then Some meta0 else None)
    (fun infos pda c w h =>
       if pk_eqb (h (tc_mint c)) (tc_source c) &&
          (is_signer infos (tc_authority c) || match pda with Some k => pk_eqb k (tc_authority c) | None => false end)
       then Ok (w, fun m => if pk_eqb m (tc_mint c) then tc_dest c else h m) else Err ECpi).
Lemma bB_ok : tm_ok bB kProg kMe.
Proof.
  split.
  - intros infos pda c w h w' h' H Hs Hl. cbn [bB be_transfer] in H.
    destruct (pk_eqb (h (tc_mint c)) (tc_source c)) eqn:E1; [|discriminate]. cbn [andb] in H.
    destruct (is_signer infos (tc_authority c) || _) eqn:E2; [|discriminate]. apply Ok_inj in H.
    assert (w = w') as <- by congruence. assert (h' = fun m => if pk_eqb m (tc_mint c) then tc_dest c else h m) as -> by congruence.
    apply pk_eqb_eq in E1. split.
    { split; [exact E1|]. split; [now rewrite pk_eqb_refl|]. intros m' N. destruct (pk_eqb m' (tc_mint c)) eqn:Q; [apply pk_eqb_eq in Q; contradiction|reflexivity]. }
    split.
    { apply orb_true_iff in E2 as [E2|E2]; [left; now apply signs_iff|]. destruct pda as [k|]; [|discriminate]. apply pk_eqb_eq in E2. right. now subst k. }
    split; [split; tauto|]. split; [split; tauto|]. auto.
  - intros d m H. cbn [bB be_meta] in H. destruct (bytes_eqb d [x4d]); [|discriminate]. apply Some_inj in H. subst m.
    cbn [meta0 mt_name mt_symbol mt_uri mt_creators mt_fee]. split.
    { split; [vm_compute; reflexivity|]. apply utf8_iff. vm_compute. reflexivity. }
    split; [vm_compute; discriminate|]. split; [vm_compute; discriminate|]. split; [vm_compute; discriminate|]. split; [discriminate|]. lia.
Qed.
Lemma addrB : addresses (e_cpa envB) kMe kMint kVault xff kAsset xff.
Proof.
  split; [vm_compute; reflexivity|]. split; [intros n Hn; change (b2z xff) with 255 in Hn; lia|]. split; [vm_compute; reflexivity|].
  split; [vm_compute; reflexivity|].
  intros m' n H. cbn [e_cpa envB] in H.
  destruct (bytes_eqb (pk_bytes kMe) (pk_bytes kMe) && beqb n xff); [|discriminate].
  destruct (bytes_eqb (s_asset ++ pk_bytes m') (s_vault ++ pk_bytes kMint)) eqn:E1.
  - apply bytes_eqb_eq in E1. apply (f_equal (fun l => nth 0 l x00)) in E1. discriminate E1.
  - destruct (bytes_eqb (s_asset ++ pk_bytes m') (s_asset ++ pk_bytes kMint)) eqn:E2; [|discriminate].
    apply bytes_eqb_eq in E2. apply app_inv_head in E2. now apply pk_ext.
Qed.

(** before Create: holder's token, mint and metadata exist *)
Definition rest : list (pubkey * account) :=
  [(kMint, mkAcct 10 kSpl [x01]); (kMd, mkAcct 10 kTm [x4d]); (kPayer, mkAcct 100000 pk_zero []); (kTo, wal 5)].
Definition wB : world := table rest.
Definition hB : holders := fun m => if pk_eqb m kMint then kHolder else kOther.
Definition ib_create : list ainfo :=
  [mkInfo kAsset false true; mkInfo kVault false true; mkInfo kMint false false; mkInfo kMd false false; mkInfo kAuth true false;
   mkInfo kMe false false; mkInfo kPayer true true; mkInfo kSys false false; mkInfo kProg false false].
(** Bridge, sent by [k] *)
Definition ib_bridge (k : pubkey) : list ainfo :=
  [mkInfo kAsset false true; mkInfo kVault false true; mkInfo k true true; mkInfo (key x41) false true;
   mkInfo kMint false false; mkInfo kMd false true; mkInfo (key x42) false false; mkInfo kMe false false;
   mkInfo (key x43) false true; mkInfo kMe false false; mkInfo kPayer true true; mkInfo kProg false false;
   mkInfo kTm false false; mkInfo kSys false false; mkInfo (key x44) false false; mkInfo kSpl false false;
   mkInfo (key x45) false false; mkInfo kMe false false; mkInfo kMe false false; mkInfo kMe false false].
(** the vault and the asset in each mode *)
Definition vault_data (s : mode) : bytes := x01 :: mode_byte s :: xff :: pk_bytes kMint ++ [xff].
Definition b_exts : list blk := [blk_of XMetadata [x02; x43; x44; x00; x02; x45; x46; x00]].
Definition b_data (owner : pubkey) : bytes :=
  mk ([x01; x00; x00; x01] ++ pk_bytes owner ++ zeros 32 ++ pk_bytes kAuth ++ zeros 33 ++ [x41; x42] ++ zeros 33) b_exts.
Definition w_mode (s : mode) : world :=
  table ((kVault, mkAcct 164 kMe (vault_data s)) :: (kAsset, mkAcct 320 kProg (b_data (match s with Idle => kVault | Active => kHolder end))) :: rest).
Definition h_mode (s : mode) : holders :=
  fun m => if pk_eqb m kMint then match s with Idle => kHolder | Active => kVault end else kOther.
Definition c_mode (s : mode) : chain := mkChain (w_mode s) (h_mode s).
Lemma settled_mode s : settled kProg kMe (c_mode s) kVault xff kMint kAsset xff.
Proof.
  split.
  { exists s. split; [split; destruct s; vm_compute; reflexivity|]. destruct s; [|vm_compute; reflexivity].
    split; [vm_compute; reflexivity|]. split; [split; [vm_compute; lia|vm_compute; reflexivity]|]. split; vm_compute; reflexivity. }
  split.
  { right. split; [destruct s; vm_compute; reflexivity|]. split; [destruct s; (split; [vm_compute; lia|vm_compute; reflexivity])|].
    split.
    - exists b_exts. split; [|intros b H; discriminate H].
      exists (firstn 168 (b_data (match s with Idle => kVault | Active => kHolder end))), 0%nat.
      assert (D : data (ch_world (c_mode s) kAsset) =
        firstn 168 (b_data (match s with Idle => kVault | Active => kHolder end)) ++ enc_sect 168 b_exts ++ []) by (destruct s; vm_compute; reflexivity).
      rewrite D. apply mk_layout. destruct s; vm_compute; reflexivity.
    - split; [destruct s; vm_compute; reflexivity|]. intros _. split; destruct s; vm_compute; first [reflexivity|discriminate]. }
  split; [apply table_sized; destruct s; vm_compute; reflexivity|apply table_lam_ok; destruct s; vm_compute; reflexivity].
Qed.

(** C69: the bridge's clients. *)
From Verif Require Import Base State Layout Constr Ext World Proc Borsh Proxy Client Bridge Js Rs BridgeC Spec SpecB SpecC SpecE SpecH SpecI SpecK SpecL SpecP SpecV SpecX SpecY SpecZ BaseL WorldL ProxyL BridgeL BridgeQ Sample SampleP SampleB SampleE ThmAuth ThmBridge ThmBridgeB ThmBirth.
From Coq Require Import Strings.Byte.

(** The clients compute the addresses that Create accepts. *)
Theorem C69_addresses : forall e me mint k,
  (js_find_vault e me mint = Some k <-> exists bump, canonical (e_cpa e) me (s_vault ++ pk_bytes mint) k bump) /\
  (js_find_asset e me mint = Some k <-> exists bump, canonical (e_cpa e) me (s_asset ++ pk_bytes mint) k bump) /\
  (forall bump, rs_find_vault e me mint = Some (k, bump) <-> canonical (e_cpa e) me (s_vault ++ pk_bytes mint) k bump).
Proof. intros e me mint k. exact (conj (js_find_vault_iff e me mint k) (conj (js_find_asset_iff e me mint k) (rs_find_vault_iff e me mint k))). Qed.
Print Assumptions C69_addresses.
Example C69_addresses_case : js_find_vault envB kMe kMint = Some kVault /\ js_find_asset envB kMe kMint = Some kAsset /\ rs_find_vault envB kMe kMint = Some (kVault, xff) /\
  js_find_vault envB kMe kMd = None.
Proof. vm_compute. auto. Qed.

(** JavaScript's bridge() fills in the accounts: the derived asset and vault, and what was
    given or else the defaults of the other packages. *)
Theorem C69_js_bridge_accounts : forall e me pd id c i a v n m,
  no_clash me pd i -> canonical (e_cpa e) me (s_vault ++ pk_bytes (jb_mint i)) v n -> canonical (e_cpa e) me (s_asset ++ pk_bytes (jb_mint i)) a m ->
  jb_asset i = None \/ jb_asset i = Some a -> jb_vault i = None \/ jb_vault i = Some v ->
  exists metas t, js_bridge e me pd id c i = Some metas /\ names me metas t /\ ta_asset t = a /\ ta_vault t = v /\ ta_owner t = jb_owner i /\ ta_mint t = jb_mint i /\
    ta_metadata t = jor (jb_metadata i) (pd_metadata pd (jb_mint i)) /\ ta_edition t = jor (jb_edition i) (pd_edition pd (jb_mint i)) /\
    ta_token t = jor (jb_token i) (pd_ata pd (jb_mint i) (jb_owner i)) /\ ta_vault_token t = jor (jb_vtoken i) (pd_ata pd (jb_mint i) v) /\
    ta_payer t = jor (jb_payer i) (jc_payer c) /\ ta_group t = jb_group i.
Proof. exact js_bridge_made. Qed.
Print Assumptions C69_js_bridge_accounts.
(** What it sends is accepted exactly if mint and metadata are those of a non-fungible
    token, Token Metadata moves the token, and the asset program lets the asset go:
    signatures, writable flags and programs are never missing. *)
Theorem C69_js_bridge : forall b e me pd id c i metas w h t s bump abump l lg d,
  no_clash me pd i -> canonical (e_cpa e) me (s_vault ++ pk_bytes (jb_mint i)) (ta_vault t) bump -> canonical (e_cpa e) me (s_asset ++ pk_bytes (jb_mint i)) (ta_asset t) abump ->
  jb_asset i = None \/ jb_asset i = Some (ta_asset t) -> jb_vault i = None \/ jb_vault i = Some (ta_vault t) -> jb_nifty i = None \/ jb_nifty i = Some (e_prog e) ->
  js_bridge e me pd id c i = Some metas -> names me metas t -> js_bridge_data = Some d ->
  tm_ok b (e_prog e) me -> me <> e_prog e -> sized w -> lam_ok w ->
  vault_at me w (ta_vault t) s bump (jb_mint i) abump ->
  initialized (data (w (ta_asset t))) -> well_formed (data (w (ta_asset t))) l -> manager_sane l -> royalties_sane l ->
  jb_group i <> Some (e_prog e) ->
  (forall k, In k (jb_owner i :: e_prog e :: match jb_group i with Some g => [g] | None => [] end) -> plain_at e w k) ->
  acct_owner (w (e_prog e)) <> e_prog e ->
  (forall g, jb_group i = Some g -> acct_owner (w g) = e_prog e -> s_disc (data (w g)) = x01 -> well_formed (data (w g)) lg /\ royalties_sane lg) ->
  (exists r, bridge_entry b e me metas w h d = Ok r) <->
  In (acct_owner (w (jb_mint i))) (be_spl b) /\ acct_owner (w (ta_asset t)) = e_prog e /\
  nft_of b (data (w (ta_metadata t))) (jb_mint i) /\ ta_metadata t <> ta_vault t /\
  exists w2 h2, be_transfer b metas (token_signer t s) (token_call t s) (turned w (ta_vault t) s) h = Ok (w2, h2) /\ bounded_growth metas w w2 /\
    may_move e w2 (ta_asset t) (giver t s) (taker t s) (jb_group i) l lg.
Proof. exact client_bridge. Qed.
Print Assumptions C69_js_bridge.
(** JavaScript's create(): of the conditions of C70 those about addresses, signatures,
    flags and programs are always met. *)
Theorem C69_js_create : forall b e me pd c i metas w h cl a v n m d,
  jn_collection i <> Some me -> canonical (e_cpa e) me (s_vault ++ pk_bytes (jn_mint i)) v n -> canonical (e_cpa e) me (s_asset ++ pk_bytes (jn_mint i)) a m ->
  jn_asset i = None \/ jn_asset i = Some a -> jn_vault i = None \/ jn_vault i = Some v -> jn_nifty i = None \/ jn_nifty i = Some (e_prog e) -> jn_sys i = None \/ jn_sys i = Some pk_zero ->
  js_create e me pd c i = Some metas -> js_create_data cl = Some d ->
  forall t, birth_names me metas t ->
  env_ok e -> e_prog e <> pk_zero -> rent_mono e -> me <> e_prog e -> me <> pk_zero -> sized w -> lam_ok w -> tm_ok b (e_prog e) me ->
  data (w a) = [] -> wallet w (ba_payer t) -> ba_payer t <> e_prog e -> ba_payer t <> a -> ba_payer t <> v ->
  plain_at e w (ba_auth t) -> plain_at e w (e_prog e) -> plain_at e w pk_zero ->
  (exists r, bridge_entry b e me metas w h d = Ok r) <->
  In (acct_owner (w (jn_mint i))) (be_spl b) /\ acct_owner (w (ba_metadata t)) = be_tm b /\
  exists md, be_meta b (data (w (ba_metadata t))) = Some md /\
    (mt_standard md = Some TmNonFungible \/ mt_standard md = Some TmProgrammable) /\
    mt_mint md = pk_bytes (jn_mint i) /\ mt_authority md = pk_bytes (ba_auth t) /\
    consent (e_prog e) me (e_cpa e) metas w t md /\
    v <> a /\ vacant w v /\ vacant w a /\ sound_terms cl md /\ birth_price e cl md <= lamports (w (ba_payer t)).
Proof. exact client_create. Qed.
Print Assumptions C69_js_create.
(** The Rust client sends the same: its account lists are those of JavaScript with every
    account named, so the theorems above hold of it too. *)
Theorem C69_rust_same : forall e me pd id c r q cl,
  js_bridge e me pd id c (given r) = Some (rs_bridge me r) /\ js_create e me pd c (given_c q) = Some (rs_create me q) /\
  js_bridge_data = Some rs_bridge_data /\ js_create_data cl = Some (rs_create_data cl).
Proof. intros e me pd id c r q cl. exact (conj (rs_js_bridge e me pd id c r) (conj (rs_js_create e me pd c q) (conj (proj1 js_data) (proj2 js_data cl)))). Qed.
Print Assumptions C69_rust_same.

(** the sample token is bridged both ways with nothing but owner and mint given *)
Definition pdB : pdas := mkPdas (fun _ => kMd) (fun _ => key x42) (fun _ o => if pk_eqb o kVault then key x43 else key x41) (fun _ _ => key x46).
Definition idB : ids := mkIds kTm (key x44) kSpl (key x45) (key x47).
Definition ctxB : jctx := mkJctx kAuth kPayer.
Definition askB (g : option pubkey) : jbridge :=
  mkJBridge None None kHolder None kMint None None None None None None None None None None None None None None g None.
Definition newB : jcreate := mkJCreate None None kMint None None None None None None.
Example C69_bridge_case : no_clash kMe pdB (askB None) /\ exists metas, js_bridge envB kMe pdB idB ctxB (askB None) = Some metas /\ names kMe metas tB /\
  forall s, exists r, process_bridge bB envB kMe metas (w_mode s) (h_mode s) = Ok r.
Proof.
  split; [repeat split; discriminate|]. eexists. split; [vm_compute; reflexivity|]. split.
  { repeat (split; [eexists; split; reflexivity|]). eexists; split; reflexivity. }
  intro s. match goal with |- exists r, ?m = Ok r => set (r0 := m) end. eexists. apply (out_ok (c_mode s) r0). unfold r0. destruct s; vm_compute; reflexivity.
Qed.
Example C69_create_case : exists metas, js_create envB kMe pdB ctxB newB = Some metas /\ birth_names kMe metas tC /\
  exists r, bridge_entry bB envB kMe metas wB hB [x01; x00] = Ok r.
Proof.
  eexists. split; [vm_compute; reflexivity|]. split; [repeat (split; [eexists; split; reflexivity|]); cbn [length]; lia|].
  match goal with |- exists r, ?m = Ok r => set (r0 := m) end. eexists. apply (out_ok (c_mode Idle) r0). unfold r0. vm_compute; reflexivity.
Qed.

(** Both readers of vaults take exactly data of 36 bytes or more whose discriminator and
    state are values of their enumerations, and return the stored fields. *)
Theorem C69_readers : forall d v r,
  (js_vault d = Some (v, r) <-> (36 <= length d)%nat /\ b2z (nth 0 d x00) < 2 /\ b2z (nth 1 d x00) < 2 /\ v = view d /\ r = skipn 36 d) /\
  (rs_vault d = Some (v, r) <-> (36 <= length d)%nat /\ b2z (nth 0 d x00) < 2 /\ b2z (nth 1 d x00) < 2 /\ v = view d /\ r = skipn 36 d).
Proof. exact vault_readers. Qed.
Print Assumptions C69_readers.
(** After any history a vault can be read, and shows its mint and what it holds. *)
Theorem C69_reads_vaults : forall p me cpa v a mint bump abump, p <> pk_zero -> me <> p -> me <> pk_zero -> addresses cpa me mint v bump a abump ->
  forall c c', traffic (careful a) p me cpa v a mint c c' -> settled p me c v bump mint a abump ->
  exists s, js_vault (data (ch_world c' v)) = Some (mkView 1 (match s with Idle => 0 | Active => 1 end) (b2z bump) (pk_bytes mint) (b2z abump), []) /\
    rs_vault (data (ch_world c' v)) = Some (mkView 1 (match s with Idle => 0 | Active => 1 end) (b2z bump) (pk_bytes mint) (b2z abump), []) /\
    match s with Idle => in_custody p (ch_world c') v a | Active => ch_holder c' mint = v end.
Proof. exact reads_vaults. Qed.
Print Assumptions C69_reads_vaults.
Example C69_reads_case : settled kProg kMe (c_mode Active) kVault xff kMint kAsset xff /\ traffic (careful kAsset) kProg kMe (e_cpa envB) kVault kAsset kMint (c_mode Active) (c_mode Active) /\
  js_vault (data (w_mode Active kVault)) = Some (mkView 1 1 255 (pk_bytes kMint) 255, []) /\ js_vault (x01 :: x02 :: skipn 2 (vault_data Idle)) = None.
Proof. split; [apply settled_mode|]. split; [constructor|]. vm_compute. auto. Qed.

(** Searching for vaults by a field finds exactly the vaults with that value in the field. *)
Theorem C69_search : forall f l d v r, js_vault_search f = Some l -> pick_typed f -> js_vault d = Some (v, r) -> (found d l <-> vw_disc v = 1 /\ picks f v).
Proof. exact vault_search. Qed.
Print Assumptions C69_search.
(** Which searches can be put into words. *)
Theorem C69_searches : forall f, (exists l, js_vault_search f = Some l) <->
  match f with JVDiscriminator z | JVState z => 0 <= z < 2 | JVBump z | JVAssetBump z => 0 <= z < 256 | JVMint _ => True end.
Proof. exact vault_search_goes. Qed.
Print Assumptions C69_searches.
(** After any history a vault is found by its token, and by no other. *)
Theorem C69_finds : forall p me cpa v a mint bump abump, p <> pk_zero -> me <> p -> me <> pk_zero -> addresses cpa me mint v bump a abump ->
  forall c c', traffic (careful a) p me cpa v a mint c c' -> settled p me c v bump mint a abump ->
  forall k l, length k = 32%nat -> js_vault_search (JVMint k) = Some l -> (found (data (ch_world c' v)) l <-> k = pk_bytes mint).
Proof. exact finds_vaults. Qed.
Print Assumptions C69_finds.
(** The Rust client derives the address of a vault again from what is stored in it. *)
Theorem C69_vault_pda : forall p e me v a mint bump abump, p <> pk_zero -> me <> p -> me <> pk_zero -> addresses (e_cpa e) me mint v bump a abump ->
  forall c c', traffic (careful a) p me (e_cpa e) v a mint c c' -> settled p me c v bump mint a abump ->
  exists vw, rs_vault (data (ch_world c' v)) = Some (vw, []) /\
    forall m n, pk_bytes m = vw_mint vw -> b2z n = vw_bump vw -> rs_vault_pda e me m n = Some v.
Proof. exact vault_pda_back. Qed.
Print Assumptions C69_vault_pda.
Example C69_search_case : (exists l, js_vault_search (JVMint (pk_bytes kMint)) = Some l /\ found (data (w_mode Active kVault)) l) /\
  (exists l, js_vault_search (JVState 1) = Some l /\ found (data (w_mode Active kVault)) l /\ ~ found (data (w_mode Idle kVault)) l) /\
  js_vault_search (JVState 2) = None /\ rs_vault_pda envB kMe kMint xff = Some kVault.
Proof.
  split; [eexists; split; [vm_compute; reflexivity|repeat constructor]|]. split; [|vm_compute; auto].
  eexists. split; [vm_compute; reflexivity|]. split; [repeat constructor|].
  intro F. inversion F as [|? ? _ F']; subst. inversion F' as [|? ? B _]; subst. vm_compute in B. discriminate B.
Qed.
(** Rust's builder fills in the same programs as JavaScript, and nothing else. *)
Theorem C69_builder : forall e me pd id c r nifty tm sys sysvar spl ata,
  js_bridge e me pd id c (mkJBridge (Some (rb_asset r)) (Some (rb_vault r)) (rb_owner r) (Some (rb_token r)) (rb_mint r) (Some (rb_metadata r)) (Some (rb_edition r)) (rb_record r)
    (Some (rb_vtoken r)) (rb_vrecord r) (Some (rb_payer r)) nifty tm sys sysvar spl ata (rb_rulesp r) (rb_rules r) (rb_group r) None) =
  Some (rs_bridge me (rs_bridge_build e id (rb_asset r) (rb_vault r) (rb_owner r) (rb_token r) (rb_mint r) (rb_metadata r) (rb_edition r) (rb_record r)
    (rb_vtoken r) (rb_vrecord r) (rb_payer r) nifty tm sys sysvar spl ata (rb_rulesp r) (rb_rules r) (rb_group r))).
Proof. exact rs_build_same. Qed.
Print Assumptions C69_builder.

(** The client has no default for the group: without it the token of an asset that is in a
    group and has no royalties of its own cannot be exchanged. *)
Theorem C69_group_needed : forall b e me pd id c i metas w h t s bump abump l d,
  no_clash me pd i -> canonical (e_cpa e) me (s_vault ++ pk_bytes (jb_mint i)) (ta_vault t) bump -> canonical (e_cpa e) me (s_asset ++ pk_bytes (jb_mint i)) (ta_asset t) abump ->
  jb_asset i = None \/ jb_asset i = Some (ta_asset t) -> jb_vault i = None \/ jb_vault i = Some (ta_vault t) -> jb_nifty i = None \/ jb_nifty i = Some (e_prog e) ->
  js_bridge e me pd id c i = Some metas -> names me metas t -> js_bridge_data = Some d ->
  tm_ok b (e_prog e) me -> me <> e_prog e -> sized w -> lam_ok w ->
  vault_at me w (ta_vault t) s bump (jb_mint i) abump ->
  initialized (data (w (ta_asset t))) -> well_formed (data (w (ta_asset t))) l -> manager_sane l -> royalties_sane l ->
  (forall k, In k (jb_owner i :: e_prog e :: match jb_group i with Some g => [g] | None => [] end) -> plain_at e w k) ->
  acct_owner (w (e_prog e)) <> e_prog e ->
  jb_group i = None -> acct_owner (w (ta_asset t)) = e_prog e -> s_group (data (w (ta_asset t))) <> no_key -> lookup XRoyalties (ext_list l) = None ->
  s_owner (data (w (ta_asset t))) <> pk_bytes (taker t s) ->
  forall r, bridge_entry b e me metas w h d <> Ok r.
Proof. exact client_group. Qed.
Print Assumptions C69_group_needed.
(** Claimed: where some account list of the owner exchanges the token, bridge() with the
    defaults does.  Not so for an asset in a group. *)
Definition w_grouped : world :=
  table ((kVault, mkAcct 164 kMe (vault_data Idle)) :: (kAsset, mkAcct 320 kProg (put (b_data kVault) 36 (pk_bytes kOther))) ::
         (kOther, mkAcct 320 kProg (b_data kAuth)) :: rest).
Theorem C69_defaults_suffice_refuted : exists b e me pd id c i g metas metas' w h r,
  tm_ok b (e_prog e) me /\ jb_group i = None /\ js_bridge e me pd id c i = Some metas /\
  js_bridge e me pd id c (mkJBridge None None (jb_owner i) None (jb_mint i) None None None None None None None None None None None None None None (Some g) None) = Some metas' /\
  bridge_entry b e me metas' w h [x00] = Ok r /\ bridge_entry b e me metas w h [x00] = Err ENotEnoughAccountKeys.
Proof.
  exists bB, envB, kMe, pdB, idB, ctxB, (askB None), kOther. eexists. eexists. exists w_grouped, (h_mode Idle). eexists.
  split; [exact bB_ok|]. split; [reflexivity|]. split; [vm_compute; reflexivity|]. split; [vm_compute; reflexivity|].
  split; [|vm_compute; reflexivity]. match goal with |- ?m = Ok ?r => set (r0 := m) end. apply (out_ok (c_mode Idle) r0). unfold r0. vm_compute. reflexivity.
Qed.
Print Assumptions C69_defaults_suffice_refuted.

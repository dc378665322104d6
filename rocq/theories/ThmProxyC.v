(** C74: proxied assets through the JavaScript clients. *)
From Verif Require Import Base State Layout Constr Ext World Proc Borsh Proxy Client Bridge Js Rs BridgeC ProxyC Spec SpecB SpecC SpecE SpecH SpecI SpecP SpecL SpecM SpecQ SpecY SpecJ BaseL BorshL ExactL ProxyL ProxyR Sample SampleP ThmProxyB.
From Coq Require Import Strings.Byte.

Definition jcP : jctx := mkJctx kAuth kPayer.
Definition new0 : jproxied := mkJProxied None kStub kHolder None (Some kPayer) None None.
Definition new1 : jproxied := mkJProxied None kStub kHolder None None None None.
Definition li_new : list ainfo := match js_proxied_create envP kMe jcP new0 with Some l => l | None => [] end.
Definition li_new1 : list ainfo := match js_proxied_create envP kMe jcP new1 with Some l => l | None => [] end.

(** ** The address and the data *)
Theorem C74_address : forall e me stub k, js_find_proxied e me stub = Some k <-> exists bump, canonical (e_cpa e) me (pk_bytes stub) k bump.
Proof. exact js_find_proxied_iff. Qed.
Print Assumptions C74_address.
Theorem C74_data : forall name d, js_proxied_data name = Some d <-> fits name /\ d = write_proxy name.
Proof. exact js_proxied_data_wr. Qed.
Print Assumptions C74_data.
Example C74_address_case : js_find_proxied envP kMe kStub = Some kAsset /\ js_proxied_data [x41] = Some [x00; x01; x00; x00; x00; x41] /\
  js_proxied_create envP kMe jcP new0 = Some li_new /\ js_proxied_create envP kMe jcP new1 = Some li_new1.
Proof. vm_compute. auto. Qed.

(** ** create() *)
Theorem C74_create : forall pe e me c i name metas d w asset bump, env_ok e -> e_prog e <> pk_zero -> sized w -> small_template pe -> text_ok name -> data (w asset) = [] ->
  canonical (e_cpa e) me (pk_bytes (jp_stub i)) asset bump -> jp_asset i = None \/ jp_asset i = Some asset ->
  jp_sys i = None \/ jp_sys i = Some pk_zero -> jp_nifty i = None \/ jp_nifty i = Some (e_prog e) -> jp_payer i <> Some me -> me <> pk_zero ->
  js_proxied_create e me c i = Some metas -> js_proxied_data name = Some d ->
  plain_at e w (jp_owner i) -> (forall p, jp_payer i = Some p -> plain_at e w p) -> plain_at e w pk_zero -> plain_at e w (e_prog e) ->
  (exists w', proxy_entry pe e me metas w d = Ok w') <-> birth_affordable e pe w asset (jp_payer i).
Proof. exact js_birth. Qed.
Print Assumptions C74_create.
Theorem C74_born : forall pe e me c i name metas d w asset bump, env_ok e -> e_prog e <> pk_zero -> sized w -> small_template pe -> text_ok name -> data (w asset) = [] ->
  canonical (e_cpa e) me (pk_bytes (jp_stub i)) asset bump -> jp_asset i = None \/ jp_asset i = Some asset ->
  jp_sys i = None \/ jp_sys i = Some pk_zero -> jp_nifty i = None \/ jp_nifty i = Some (e_prog e) -> jp_payer i <> Some me -> me <> pk_zero ->
  js_proxied_create e me c i = Some metas -> js_proxied_data name = Some d ->
  lam_ok w -> forall w', proxy_entry pe e me metas w d = Ok w' ->
  exists pb, in_care pe e me w' asset pb 0 /\ sub pb 65 32 = pk_bytes (jor (jp_auth i) (jc_identity c)) /\
    s_owner (data (w' asset)) = pk_bytes (jp_owner i) /\ s_name (data (w' asset)) = name_field name /\ ~ locked (data (w' asset)) /\ s_group (data (w' asset)) = no_key /\
    (forall k, k <> asset -> data (w' k) = data (w k) /\ acct_owner (w' k) = acct_owner (w k)) /\ sized w' /\ lam_ok w'.
Proof. exact js_born. Qed.
Print Assumptions C74_born.
Example C74_create_case : (exists bump, canonical (e_cpa envP) kMe (pk_bytes (jp_stub new0)) kAsset bump) /\ jp_payer new0 <> Some kMe /\ kMe <> pk_zero /\
  birth_affordable envP pe0 wP kAsset (jp_payer new0) /\ plain_at envP wP kHolder /\ plain_at envP wP kPayer /\ plain_at envP wP pk_zero /\ plain_at envP wP kProg /\
  exists w', proxy_entry pe0 envP kMe li_new wP [x00; x01; x00; x00; x00; x41] = Ok w' /\ s_owner (data (w' kAsset)) = pk_bytes kHolder.
Proof.
  split; [apply C74_address; vm_compute; reflexivity|]. split; [discriminate|]. split; [discriminate|].
  split.
  { split; [reflexivity|]. split; [reflexivity|]. split; [vm_compute; discriminate|]. split; [vm_compute; reflexivity|].
    exists kPayer. split; [reflexivity|]. split; [discriminate|]. split; [discriminate|]. split; [reflexivity|]. split; [reflexivity|]. vm_compute. discriminate. }
  do 4 (split; [vm_compute; discriminate|]). eexists. split; [apply (run_ok wP); vm_compute; reflexivity|]. vm_compute. reflexivity.
Qed.
(** without a payer, which create() does not take from its context, there is no asset *)
Theorem C74_no_payer : forall pe e me c i name metas d w asset bump, env_ok e -> e_prog e <> pk_zero -> sized w -> small_template pe -> text_ok name -> data (w asset) = [] ->
  canonical (e_cpa e) me (pk_bytes (jp_stub i)) asset bump -> jp_asset i = None \/ jp_asset i = Some asset ->
  jp_sys i = None \/ jp_sys i = Some pk_zero -> jp_nifty i = None \/ jp_nifty i = Some (e_prog e) -> jp_payer i = None -> me <> pk_zero ->
  js_proxied_create e me c i = Some metas -> js_proxied_data name = Some d ->
  plain_at e w (jp_owner i) -> plain_at e w pk_zero -> plain_at e w (e_prog e) -> forall w', proxy_entry pe e me metas w d <> Ok w'.
Proof. exact js_no_payer. Qed.
Print Assumptions C74_no_payer.
Theorem C74_default_payer_refuted : exists pe e me c i name metas d w, jp_payer i = None /\ birth_affordable e pe w kAsset (Some (jc_payer c)) /\
  js_proxied_create e me c i = Some metas /\ js_proxied_data name = Some d /\ proxy_entry pe e me metas w d = Err ENotEnoughAccountKeys.
Proof.
  exists pe0, envP, kMe, jcP, new1, [x41], li_new1, [x00; x01; x00; x00; x00; x41], wP. split; [reflexivity|]. split; [exact (proj1 (proj2 (proj2 (proj2 C74_create_case))))|].
  vm_compute. auto.
Qed.
Print Assumptions C74_default_payer_refuted.

(** ** transfer() and update() with the proxy program *)
Theorem C74_transfer : forall pe e me c w asset signer recipient group pb n b, let from := jor signer (jc_identity c) in
  env_ok e -> e_prog e <> pk_zero -> e_heap_al e mod 8 = 0 -> (4 < e_fuel e)%nat ->
  sized w -> lam_ok w -> small_template pe -> in_care pe e me w asset pb n -> countable (n + 1) -> 0 <= n ->
  plain_at e w from -> plain_at e w recipient -> acct_owner (w (e_prog e)) <> e_prog e -> js_instr ITransfer = Some b ->
  (exists w', proxy_entry pe e me (js_proxied_transfer e me c asset signer recipient group) w b = Ok w') <->
  (forall k, In k [asset; from; recipient] -> acct_owner (w k) = e_prog e -> ~ locked (data (w k))) /\
  may_pass_on (data (w asset)) from /\ (s_owner (data (w asset)) = pk_bytes recipient \/ s_group (data (w asset)) = no_key).
Proof. exact js_pass_goes. Qed.
Print Assumptions C74_transfer.
Theorem C74_update : forall pe pe' e me c w asset auth buffer group payer sysp pb n u b, let who := jor auth (jc_identity c) in
  env_ok e -> e_prog e <> pk_zero -> e_heap_al e mod 8 = 0 -> (4 < e_fuel e)%nat ->
  sized w -> lam_ok w -> in_care pe e me w asset pb n -> named (IUpdate u) -> js_instr (IUpdate u) = Some b -> acct_owner (w (e_prog e)) <> e_prog e ->
  (exists w', proxy_entry pe' e me (js_proxied_update e me c asset auth buffer group payer sysp) w b = Ok w') <-> sub pb 65 32 = pk_bytes who /\ who <> pk_zero.
Proof. exact js_rename. Qed.
Print Assumptions C74_update.
Example C74_transfer_case : let jcH := mkJctx kHolder kPayer in js_instr ITransfer = Some [x07] /\ js_instr (IUpdate (mkUpdInput None (Some false) None)) = Some [x0a; x00; x01; x00; x00] /\
  (exists w', proxy_entry pe0 envP kMe (js_proxied_transfer envP kMe jcH kAsset None kTo None) w_prox [x07] = Ok w' /\ s_owner (data (w' kAsset)) = pk_bytes kTo) /\
  proxy_entry pe0 envP kMe (js_proxied_transfer envP kMe jcP kAsset None kTo None) w_prox [x07] = Err EInvalidTransferAuthority /\
  exists w', proxy_entry pe0 envP kMe (js_proxied_update envP kMe jcP kAsset None None None None None) w_prox [x0a; x00; x01; x00; x00] = Ok w' /\ s_mutable (data (w' kAsset)) = x00.
Proof.
  cbv zeta. split; [vm_compute; reflexivity|]. split; [vm_compute; reflexivity|].
  split; [eexists; split; [apply (run_ok w_prox); vm_compute; reflexivity|]; vm_compute; reflexivity|]. split; [vm_compute; reflexivity|].
  eexists. split; [apply (run_ok w_prox); vm_compute; reflexivity|]. vm_compute. reflexivity.
Qed.
(** every other instruction arrives at the asset program with the asset's signature added *)
Theorem C74_forward : forall pe e me w a r i b l pb w', named i -> js_instr i = Some b -> i <> ITransfer -> (forall u, i <> IUpdate u) -> (forall s, i <> IResize s) ->
  well_formed (data (w (ai_key a))) l -> lookup XProxy (ext_list l) = Some pb -> proxies e me pb (ai_key a) -> let infos := js_proxied e (a :: r) in
  proxy_entry pe e me infos w b = Ok w' <-> process (in_cpi e) (first_signs infos) w i = Ok w' /\ bounded_growth infos w w'.
Proof. exact js_forwards. Qed.
Print Assumptions C74_forward.
Example C74_forward_case : js_instr (IApprove (DSome [RTransfer])) = Some [x03; x01; x01; x00; x00; x00; x01] /\
  exists w', proxy_entry pe0 envP kMe (js_proxied envP [mkInfo kAsset false true; mkInfo kHolder true false; mkInfo kTo false false]) w_prox [x03; x01; x01; x00; x00; x00; x01] = Ok w' /\
    s_delegate (data (w' kAsset)) = pk_bytes kTo.
Proof. split; [vm_compute; reflexivity|]. eexists. split; [apply (run_ok w_prox); vm_compute; reflexivity|]. vm_compute. reflexivity. Qed.

(** ** From create() through any number of holders *)
Theorem C74_life : forall pe e me c i name metas d w asset bump, env_ok e -> e_prog e <> pk_zero -> e_heap_al e mod 8 = 0 -> (4 < e_fuel e)%nat -> sized w -> lam_ok w ->
  small_template pe -> text_ok name -> data (w asset) = [] ->
  canonical (e_cpa e) me (pk_bytes (jp_stub i)) asset bump -> jp_asset i = None \/ jp_asset i = Some asset ->
  jp_sys i = None \/ jp_sys i = Some pk_zero -> jp_nifty i = None \/ jp_nifty i = Some (e_prog e) -> jp_payer i <> Some me -> me <> pk_zero ->
  js_proxied_create e me c i = Some metas -> js_proxied_data name = Some d ->
  birth_affordable e pe w asset (jp_payer i) -> (forall k, In k [jp_owner i; pk_zero; e_prog e] -> acct_owner (w k) <> e_prog e) -> e_prog e <> asset -> jp_owner i <> asset ->
  forall r, zlen r <= 9999999999999 -> Forall (fun x => same_image pe (fst x) /\ acct_owner (w (snd x)) <> e_prog e /\ snd x <> asset) r ->
  exists w1 w2, proxy_entry pe e me metas w d = Ok w1 /\ js_passed e me c asset (jp_owner i) r w1 w2 /\
    s_owner (data (w2 asset)) = pk_bytes (last_holder (jp_owner i) r) /\ s_name (data (w2 asset)) = name_field name /\ exists pb, in_care pe e me w2 asset pb (zlen r).
Proof. exact js_life. Qed.
Print Assumptions C74_life.
Example C74_life_case : exists w1 w2, proxy_entry pe0 envP kMe li_new wP (write_proxy [x41]) = Ok w1 /\
  js_passed envP kMe jcP kAsset kHolder [(pe0, kTo); (pe0, kOther); (pe0, kTo)] w1 w2 /\ s_owner (data (w2 kAsset)) = pk_bytes kTo.
Proof.
  destruct C74_create_case as ((bump & C) & N1 & N2 & B & _).
  destruct (C74_life pe0 envP kMe jcP new0 [x41] li_new (write_proxy [x41]) wP kAsset bump envP_ok) with (r := [(pe0, kTo); (pe0, kOther); (pe0, kTo)]) as (w1 & w2 & H1 & H2 & H3 & _).
  - discriminate.
  - reflexivity.
  - cbn. lia.
  - apply table_sized. vm_compute. reflexivity.
  - apply table_lam_ok. vm_compute. reflexivity.
  - vm_compute. discriminate.
  - split; [reflexivity|apply utf8_iff; vm_compute; reflexivity].
  - reflexivity.
  - exact C.
  - now left.
  - now left.
  - now left.
  - exact N1.
  - exact N2.
  - vm_compute. reflexivity.
  - vm_compute. reflexivity.
  - exact B.
  - intros k [<-|[<-|[<-|[]]]]; vm_compute; discriminate.
  - discriminate.
  - discriminate.
  - vm_compute. discriminate.
  - repeat constructor; vm_compute; discriminate.
  - exists w1, w2. split; [exact H1|]. split; [exact H2|exact H3].
Qed.

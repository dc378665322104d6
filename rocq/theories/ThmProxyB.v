(** C71: assets in the care of the proxy program. *)
From Verif Require Import Base State Layout Constr Ext World Proc Borsh Proxy Spec SpecB SpecC SpecE SpecH SpecI SpecP SpecL SpecM SpecY BaseL BorshL ExactL ProxyL ProxyN ProxyO ProxyQ Sample SampleP.
From Coq Require Import Strings.Byte.

Example C71_in_care_case : in_care pe0 envP kMe w_prox kAsset (build_proxy kMe (pk_bytes kStub) xff (Some kAuth)) 0.
Proof.
  split; [reflexivity|]. split; [reflexivity|]. split; [reflexivity|]. split; [reflexivity|]. split; [vm_compute; discriminate|].
  split; [split; [reflexivity|vm_compute; reflexivity]|].
  exists prox_blks, (repeat x20 11 ++ [x30]), 1700000000, ([x3c] ++ NO_COLOUR ++ [x3e]).
  split; [exact (proj2 (mk_wf hd_prox prox_blks ltac:(vm_compute; reflexivity)))|]. split; [vm_compute; reflexivity|].
  split; [exists 11%nat, [x30]; left; split; [lia|]; split; [reflexivity|]; apply (num_digit 0); lia|].
  split; [vm_compute; split; discriminate|vm_compute; reflexivity].
Qed.

(** ** Transfer: exactly when it succeeds, and that the asset stays in care *)
Theorem C71_transfer : forall pe e me infos w asset signer recipient g pb n, env_ok e -> e_prog e <> pk_zero -> e_heap_al e mod 8 = 0 -> (4 < e_fuel e)%nat ->
  sized w -> lam_ok w -> small_template pe -> in_care pe e me w asset pb n -> countable (n + 1) -> 0 <= n ->
  arg infos 0 asset -> arg infos 1 signer -> arg infos 2 recipient -> arg infos 3 g ->
  plain_at e w signer -> plain_at e w recipient -> acct_owner (w (e_prog e)) <> e_prog e ->
  (exists w', proxy_entry pe e me infos w (write_instr ITransfer) = Ok w') <->
  mentions (skipn 4 infos) (e_prog e) /\ writes infos asset /\ (signs infos signer \/ signer = asset) /\
  (forall k, In k [asset; signer; recipient] -> acct_owner (w k) = e_prog e -> ~ locked (data (w k))) /\
  may_pass_on (data (w asset)) signer /\
  (s_owner (data (w asset)) = pk_bytes recipient \/ s_group (data (w asset)) = no_key).
Proof. exact pass_goes. Qed.
Print Assumptions C71_transfer.
Theorem C71_stays : forall pe e me infos w asset signer recipient g pb n, env_ok e -> e_prog e <> pk_zero -> e_heap_al e mod 8 = 0 -> (4 < e_fuel e)%nat ->
  sized w -> lam_ok w -> small_template pe -> in_care pe e me w asset pb n -> countable (n + 1) -> 0 <= n ->
  arg infos 0 asset -> arg infos 1 signer -> arg infos 2 recipient -> arg infos 3 g ->
  plain_at e w signer -> plain_at e w recipient -> acct_owner (w (e_prog e)) <> e_prog e ->
  forall w', proxy_entry pe e me infos w (write_instr ITransfer) = Ok w' ->
  in_care pe e me w' asset pb (n + 1) /\ s_owner (data (w' asset)) = pk_bytes recipient /\ same_terms (data (w asset)) (data (w' asset)) /\
  (forall k, zlen (data (w' k)) = zlen (data (w k))) /\ (forall k, acct_owner (w' k) = acct_owner (w k)) /\ (forall k, k <> asset -> data (w' k) = data (w k)) /\
  sized w' /\ lam_ok w'.
Proof. exact pass_effect. Qed.
Print Assumptions C71_stays.
Example C71_transfer_case : sized w_prox /\ lam_ok w_prox /\ small_template pe0 /\ countable 1 /\ e_heap_al envP mod 8 = 0 /\
  arg ip_transfer 0 kAsset /\ arg ip_transfer 1 kHolder /\ arg ip_transfer 2 kTo /\ arg ip_transfer 3 kProg /\
  may_pass_on (data (w_prox kAsset)) kHolder /\ ~ locked (data (w_prox kAsset)) /\ s_group (data (w_prox kAsset)) = no_key /\
  exists w', proxy_entry pe0 envP kMe ip_transfer w_prox (write_instr ITransfer) = Ok w' /\ s_owner (data (w' kAsset)) = pk_bytes kTo.
Proof.
  split; [apply table_sized; vm_compute; reflexivity|]. split; [apply table_lam_ok; vm_compute; reflexivity|]. split; [vm_compute; discriminate|].
  split; [unfold countable; lia|]. split; [reflexivity|]. do 4 (split; [eexists; split; reflexivity|]). split; [left; reflexivity|].
  split; [vm_compute; intros [_ Q]; discriminate Q|]. split; [reflexivity|].
  eexists. split; [apply (run_ok w_prox); vm_compute; reflexivity|]. vm_compute. reflexivity.
Qed.
(** a member of a group moves to nobody else, whoever signs *)
Theorem C71_grouped : forall pe e me infos w asset signer recipient g pb n, env_ok e -> e_prog e <> pk_zero -> e_heap_al e mod 8 = 0 -> (4 < e_fuel e)%nat ->
  sized w -> lam_ok w -> small_template pe -> in_care pe e me w asset pb n -> countable (n + 1) -> 0 <= n ->
  arg infos 0 asset -> arg infos 1 signer -> arg infos 2 recipient -> arg infos 3 g ->
  plain_at e w signer -> plain_at e w recipient -> acct_owner (w (e_prog e)) <> e_prog e ->
  s_group (data (w asset)) <> no_key -> s_owner (data (w asset)) <> pk_bytes recipient ->
  forall w', proxy_entry pe e me infos w (write_instr ITransfer) <> Ok w'.
Proof. exact grouped_stays. Qed.
Print Assumptions C71_grouped.
Example C71_grouped_case : s_group (data (w_member kAsset)) <> no_key /\ s_owner (data (w_member kAsset)) <> pk_bytes kTo /\
  proxy_entry pe0 envP kMe ip_grouped w_member (write_instr ITransfer) = Err ENotEnoughAccountKeys.
Proof. split; [vm_compute; discriminate|]. split; [vm_compute; discriminate|vm_compute; reflexivity]. Qed.

(** ** From holder to holder, as long as the count fits *)
Theorem C71_for_ever : forall e me asset pb pe, env_ok e -> e_prog e <> pk_zero -> e_heap_al e mod 8 = 0 -> (4 < e_fuel e)%nat -> small_template pe ->
  forall r w from n, sized w -> lam_ok w -> in_care pe e me w asset pb n -> 0 <= n -> countable (n + zlen r) ->
  acct_owner (w (e_prog e)) <> e_prog e -> ~ locked (data (w asset)) -> s_group (data (w asset)) = no_key ->
  s_owner (data (w asset)) = pk_bytes from -> acct_owner (w from) <> e_prog e ->
  Forall (fun x => same_image pe (fst x) /\ acct_owner (w (snd x)) <> e_prog e) r ->
  exists w', passed_on e me asset from r w w' /\ in_care pe e me w' asset pb (n + zlen r) /\ s_owner (data (w' asset)) = pk_bytes (last_holder from r) /\
    same_terms (data (w asset)) (data (w' asset)) /\ (forall k, zlen (data (w' k)) = zlen (data (w k))) /\ (forall k, k <> asset -> data (w' k) = data (w k)).
Proof. exact passed_chain. Qed.
Print Assumptions C71_for_ever.
Example C71_for_ever_case : exists w', passed_on envP kMe kAsset kHolder [(pe0, kTo); (pe0, kOther); (pe0, kHolder)] w_prox w' /\
  s_owner (data (w' kAsset)) = pk_bytes kHolder /\
  in_care pe0 envP kMe w' kAsset (build_proxy kMe (pk_bytes kStub) xff (Some kAuth)) 3.
Proof.
  destruct (C71_for_ever envP kMe kAsset (build_proxy kMe (pk_bytes kStub) xff (Some kAuth)) pe0 envP_ok) with
    (r := [(pe0, kTo); (pe0, kOther); (pe0, kHolder)]) (w := w_prox) (from := kHolder) (n := 0) as (w' & P & C & O & _).
  - discriminate.
  - reflexivity.
  - cbn. lia.
  - vm_compute. discriminate.
  - apply table_sized. vm_compute. reflexivity.
  - apply table_lam_ok. vm_compute. reflexivity.
  - exact C71_in_care_case.
  - lia.
  - vm_compute. split; discriminate.
  - vm_compute. discriminate.
  - vm_compute. intros [_ Q]. discriminate Q.
  - reflexivity.
  - reflexivity.
  - vm_compute. discriminate.
  - repeat constructor; try (vm_compute; discriminate).
  - exists w'. split; [exact P|]. split; [exact O|exact C].
Qed.

(** ** Create: exactly when it succeeds, and that the new asset is in care *)
Theorem C71_create : forall pe e me infos w name asset stub owner auth last payer sysp, env_ok e -> e_prog e <> pk_zero -> sized w -> small_template pe -> text_ok name ->
  data (w asset) = [] -> arg infos 0 asset -> arg infos 1 stub -> arg infos 2 owner -> arg infos 3 auth -> maybe_at me infos 4 payer -> maybe_at me infos 5 sysp -> arg infos 6 last ->
  plain_at e w owner -> (forall p, payer = Some p \/ sysp = Some p -> plain_at e w p) -> plain_at e w (e_prog e) ->
  (exists w', proxy_entry pe e me infos w (write_proxy name) = Ok w') <->
  signs infos auth /\ signs infos stub /\ mentions infos (e_prog e) /\ writes infos asset /\ (exists bump, canonical (e_cpa e) me (pk_bytes stub) asset bump) /\
  can_birth e infos w asset payer sysp (birth_size pe).
Proof. exact birth_goes. Qed.
Print Assumptions C71_create.
Theorem C71_born : forall pe e me infos w name asset stub owner auth last payer sysp, env_ok e -> e_prog e <> pk_zero -> sized w -> small_template pe -> text_ok name ->
  data (w asset) = [] -> arg infos 0 asset -> arg infos 1 stub -> arg infos 2 owner -> arg infos 3 auth -> maybe_at me infos 4 payer -> maybe_at me infos 5 sysp -> arg infos 6 last ->
  forall w', lam_ok w -> proxy_entry pe e me infos w (write_proxy name) = Ok w' ->
  exists pb, in_care pe e me w' asset pb 0 /\ sub pb 0 32 = pk_bytes me /\ sub pb 32 32 = pk_bytes stub /\ sub pb 65 32 = pk_bytes auth /\
    s_owner (data (w' asset)) = pk_bytes owner /\ s_name (data (w' asset)) = name_field name /\ ~ locked (data (w' asset)) /\
    s_delegate (data (w' asset)) = no_key /\ s_group (data (w' asset)) = no_key /\ zlen (data (w' asset)) = birth_size pe /\
    (forall k, k <> asset -> data (w' k) = data (w k) /\ acct_owner (w' k) = acct_owner (w k)) /\ sized w' /\ lam_ok w'.
Proof. exact birth_effect. Qed.
Print Assumptions C71_born.
Example C71_create_case : sized wP /\ lam_ok wP /\ data (wP kAsset) = [] /\ text_ok [x41] /\ arg ip_create 1 kStub /\
  maybe_at kMe ip_create 4 (Some kPayer) /\ maybe_at kMe ip_create 5 (Some pk_zero) /\
  can_birth envP ip_create wP kAsset (Some kPayer) (Some pk_zero) (birth_size pe0) /\
  exists w', proxy_entry pe0 envP kMe ip_create wP (write_proxy [x41]) = Ok w' /\ zlen (data (w' kAsset)) = birth_size pe0.
Proof.
  split; [apply table_sized; vm_compute; reflexivity|]. split; [apply table_lam_ok; vm_compute; reflexivity|]. split; [reflexivity|].
  split; [split; [reflexivity|apply utf8_iff; vm_compute; reflexivity]|]. split; [eexists; split; reflexivity|].
  split; [split; [eexists; split; reflexivity|discriminate]|]. split; [split; [eexists; split; reflexivity|discriminate]|].
  split.
  { split; [reflexivity|]. split; [reflexivity|]. split; [vm_compute; discriminate|]. split; [vm_compute; reflexivity|]. split; [reflexivity|].
    exists kPayer. split; [reflexivity|]. split; [discriminate|]. split; [discriminate|].
    split; [eexists; split; [do 4 right; left; reflexivity|split; reflexivity]|]. split; [eexists; split; [do 4 right; left; reflexivity|split; reflexivity]|].
    split; [reflexivity|]. split; [reflexivity|]. vm_compute. discriminate. }
  eexists. split; [apply (run_ok wP); vm_compute; reflexivity|]. vm_compute. reflexivity.
Qed.

(** ** Update: exactly when it succeeds *)
Theorem C71_update : forall pe pe' e me infos w asset auth a2 a3 a4 a5 pb n u, env_ok e -> e_prog e <> pk_zero -> e_heap_al e mod 8 = 0 -> (4 < e_fuel e)%nat ->
  sized w -> lam_ok w -> in_care pe e me w asset pb n -> instr_ok (IUpdate u) ->
  arg infos 0 asset -> arg infos 1 auth -> arg infos 2 a2 -> arg infos 3 a3 -> arg infos 4 a4 -> arg infos 5 a5 -> acct_owner (w (e_prog e)) <> e_prog e ->
  (exists w', proxy_entry pe' e me infos w (write_instr (IUpdate u)) = Ok w') <->
  mentions (skipn 6 infos) (e_prog e) /\ signs infos auth /\ sub pb 65 32 = pk_bytes auth /\ auth <> pk_zero /\ writes infos asset.
Proof. exact rename_goes. Qed.
Print Assumptions C71_update.
Example C71_update_case : arg ip_update 0 kAsset /\ arg ip_update 1 kAuth /\ instr_ok (IUpdate (mkUpdInput None (Some false) None)) /\ kAuth <> pk_zero /\
  exists w', proxy_entry pe0 envP kMe ip_update w_prox (write_instr (IUpdate (mkUpdInput None (Some false) None))) = Ok w' /\ s_mutable (data (w' kAsset)) = x00.
Proof.
  split; [eexists; split; reflexivity|]. split; [eexists; split; reflexivity|]. split; [split; exact I|]. split; [discriminate|].
  eexists. split; [apply (run_ok w_prox); vm_compute; reflexivity|]. vm_compute. reflexivity.
Qed.

(** ** Once immutable, it never changes hands again *)
Theorem C71_stuck : forall p me k w w' l, p <> pk_zero -> proxied_life p me k w w' -> sized w -> lam_ok w -> acct_owner (w k) = p ->
  initialized (data (w k)) -> s_mutable (data (w k)) = x00 -> s_standard (data (w k)) = x03 -> well_formed (data (w k)) l ->
  burned_in p w w' k \/ (acct_owner (w' k) = p /\ s_owner (data (w' k)) = s_owner (data (w k)) /\ s_mutable (data (w' k)) = x00).
Proof. exact immutable_stuck. Qed.
Print Assumptions C71_stuck.
(** "the owner of an unlocked proxied asset can transfer it": false once the proxy
    authority has made it immutable, which an ordinary asset survives. *)
Theorem C71_immutable_refuted : exists pe e me w w1 asset owner, s_owner (data (w asset)) = pk_bytes owner /\ ~ locked (data (w asset)) /\
  (exists w2, proxy_entry pe e me ip_transfer w (write_instr ITransfer) = Ok w2) /\
  proxy_entry pe e me ip_update w (write_instr (IUpdate (mkUpdInput None (Some false) None))) = Ok w1 /\
  s_owner (data (w1 asset)) = pk_bytes owner /\ ~ locked (data (w1 asset)) /\ s_mutable (data (w1 asset)) = x00 /\
  initialized (data (w1 asset)) /\ s_standard (data (w1 asset)) = x03 /\ acct_owner (w1 asset) = e_prog e /\
  (exists c, proxy_entry pe e me ip_transfer w1 (write_instr ITransfer) = Err c).
Proof.
  exists pe0, envP, kMe, w_prox. eexists. exists kAsset, kHolder. split; [reflexivity|]. split; [vm_compute; intros [_ Q]; discriminate Q|].
  split; [eexists; apply (run_ok w_prox); vm_compute; reflexivity|]. split; [apply (run_ok w_prox); vm_compute; reflexivity|].
  split; [vm_compute; reflexivity|]. split; [vm_compute; intros [_ Q]; discriminate Q|]. split; [vm_compute; reflexivity|].
  split; [split; [vm_compute; lia|vm_compute; reflexivity]|]. split; [vm_compute; reflexivity|]. split; [vm_compute; reflexivity|].
  eexists. vm_compute. reflexivity.
Qed.
Print Assumptions C71_immutable_refuted.

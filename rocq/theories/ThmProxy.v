(** C50, C52-C56: the interface's pass-through and the proxy program. *)
From Verif Require Import Base State Layout Constr Ext World Proc Borsh Proxy Spec SpecB SpecH SpecI SpecP BorshL ProxyL ProxyM Sample SampleP.
From Coq Require Import Strings.Byte.

(** ** C50: the pass-through executes exactly the forwarded instruction *)
Theorem C50_forward : forall e me i r w j w' l b, instr_ok j -> forwardable j -> let infos := i :: r in
  well_formed (data (w (ai_key i))) l -> lookup XProxy (ext_list l) = Some b -> proxies e me b (ai_key i) -> mentions infos (e_prog e) ->
  (iface_process e me infos w (write_instr j) = Ok w' <->
   process (in_cpi e) (first_signs infos) w j = Ok w' /\ bounded_growth infos w w').
Proof. exact iface_forward. Qed.
Print Assumptions C50_forward.
Example C50_case : well_formed (data (w_prox kAsset)) prox_blks /\
  (exists b, lookup XProxy (ext_list prox_blks) = Some b /\ proxies envP kMe b kAsset) /\ mentions ip_lock (e_prog envP) /\
  exists w', iface_process envP kMe ip_lock w_prox (write_instr ILock) = Ok w' /\ s_state (data (w' kAsset)) = x01.
Proof.
  split; [apply mk_wf; vm_compute; reflexivity|].
  split; [eexists; split; [reflexivity|split; vm_compute; reflexivity]|].
  split; [exists (mkInfo kProg false false); split; [right; right; left; reflexivity|reflexivity]|].
  eexists. split; [apply (run_ok w_prox); vm_compute; reflexivity|]. vm_compute. reflexivity.
Qed.

Theorem C50_only : forall e me infos w bs w', iface_process e me infos w bs = Ok w' ->
  exists i r off b j pda, infos = i :: r /\ instr_ok j /\ forwardable j /\ bs = write_instr j /\
    has_ext (data (w (ai_key i))) XProxy off b /\ length b = 97%nat /\ e_cpa e (sub b 32 32) (nth 64 b x00) (pk_bytes me) = Some pda /\
    (ai_key i = pda \/ signs infos (ai_key i)) /\ mentions infos (e_prog e) /\
    process (in_cpi e) (first_signs infos) w j = Ok w' /\ bounded_growth infos w w'.
Proof. exact iface_only. Qed.
Print Assumptions C50_only.

(** "every instruction is forwarded" fails for Resize *)
Theorem C50_resize : forall e me infos w s, iface_process e me infos w (write_instr (IResize s)) = Err EInvalidInstructionData.
Proof. exact iface_refuses. Qed.
Print Assumptions C50_resize.
Theorem C50_resize_refuted : exists e me infos w s w',
  process (in_cpi e) (first_signs infos) w (IResize s) = Ok w' /\ bounded_growth infos w w' /\ data (w' kAsset) <> data (w kAsset) /\
  iface_process e me infos w (write_instr (IResize s)) = Err EInvalidInstructionData.
Proof.
  exists envP, kMe, ip_resize, (table [(kAsset, mkAcct 552 kProg born_data); (kPayer, mkAcct 1000 pk_zero [])]), (Extend 16).
  eexists. split; [apply (run_ok w_prox); vm_compute; reflexivity|].
  split; [|split; [vm_compute; discriminate|reflexivity]].
  intros i [<-|[<-|[<-|[<-|[]]]]]; vm_compute; discriminate.
Qed.
Print Assumptions C50_resize_refuted.

(** ** C52: the program's own instruction and the asset interface never overlap *)
Theorem C52_own : forall b n, proxy_decode b = Some n <-> text_ok n /\ b = write_proxy n.
Proof. exact proxy_decode_iff. Qed.
Print Assumptions C52_own.
Theorem C52_apart : forall n i, write_proxy n <> write_instr i.
Proof. exact own_apart. Qed.
Print Assumptions C52_apart.
Theorem C52_own_first : forall b n, proxy_decode b = Some n -> try_from_slice b = None.
Proof. exact own_not_asset. Qed.
Print Assumptions C52_own_first.
Theorem C52_forwards : forall pe e me infos w i, instr_ok i -> i <> ITransfer -> (forall u, i <> IUpdate u) ->
  proxy_entry pe e me infos w (write_instr i) = iface_process e me infos w (write_instr i).
Proof. exact proxy_forwards. Qed.
Print Assumptions C52_forwards.
Example C52_case : proxy_decode [x00; x01; x00; x00; x00; x41] = Some [x41] /\ try_from_slice [x00] = Some IClose /\ proxy_decode [x00] = None.
Proof. vm_compute. auto. Qed.

(** ** C53: all effects are asset instructions within the program's rights *)
Theorem C53_calls : forall pe e me infos w b w', proxy_entry pe e me infos w b = Ok w' -> calls e me infos w w'.
Proof. exact proxy_calls. Qed.
Print Assumptions C53_calls.
Theorem C53_history : forall pe e me infos w b w', env_ok e -> proxy_entry pe e me infos w b = Ok w' -> history (e_prog e) w w'.
Proof. exact proxy_history. Qed.
Print Assumptions C53_history.
Example C53_case : exists w', proxy_entry pe0 envP kMe ip_transfer w_prox (write_instr ITransfer) = Ok w' /\ s_owner (data (w' kAsset)) = pk_bytes kTo.
Proof. eexists. split; [apply (run_ok w_prox); vm_compute; reflexivity|]. vm_compute. reflexivity. Qed.

(** "only the owner, the proxy authority or their delegates change a proxied
    asset": false.  The asset is its own authority and the pass-through signs for
    it, so any signer makes itself the authority. *)
Theorem C53_takeover : forall pe e me w asset k l pb, sized w -> acct_owner (w asset) = e_prog e -> initialized (data (w asset)) ->
  well_formed (data (w asset)) l -> lookup XProxy (ext_list l) = Some pb -> proxies e me pb asset ->
  s_authority (data (w asset)) = pk_bytes asset -> mutable (data (w asset)) ->
  acct_owner (w k) <> e_prog e -> acct_owner (w (e_prog e)) <> e_prog e ->
  exists w', proxy_entry pe e me (takeover_accounts e asset k) w (write_instr IHandover) = Ok w' /\ s_authority (data (w' asset)) = pk_bytes k.
Proof. exact takeover. Qed.
Print Assumptions C53_takeover.
Example C53_takeover_case : sized w_prox /\ acct_owner (w_prox kAsset) = e_prog envP /\ initialized (data (w_prox kAsset)) /\
  well_formed (data (w_prox kAsset)) prox_blks /\ s_authority (data (w_prox kAsset)) = pk_bytes kAsset /\ mutable (data (w_prox kAsset)) /\
  acct_owner (w_prox kOther) <> e_prog envP.
Proof.
  split; [apply table_sized; vm_compute; reflexivity|]. split; [reflexivity|]. split; [split; [vm_compute; lia|reflexivity]|].
  split; [apply mk_wf; vm_compute; reflexivity|]. split; [reflexivity|]. split; vm_compute; discriminate.
Qed.
(** afterwards the owner can no longer transfer *)
Theorem C53_consent_refuted : exists pe e me w w' infos asset thief, ~ signs infos asset /\
  (forall k, signs infos k -> k = thief) /\ s_owner (data (w asset)) <> pk_bytes thief /\
  (exists b, lookup XProxy (ext_list prox_blks) = Some b /\ sub b 65 32 <> pk_bytes thief) /\
  proxy_entry pe e me infos w (write_instr IHandover) = Ok w' /\
  s_authority (data (w' asset)) = pk_bytes thief /\
  (exists w2, proxy_entry pe e me ip_transfer w (write_instr ITransfer) = Ok w2) /\
  proxy_entry pe e me ip_transfer w' (write_instr ITransfer) = Err EInvalidAuthority.
Proof.
  exists pe0, envP, kMe, w_prox. eexists. exists (takeover_accounts envP kAsset kOther), kAsset, kOther.
  split. { intros (i & [<-|[<-|[<-|[<-|[]]]]] & K & S); try discriminate S; discriminate K. }
  split. { intros k (i & [<-|[<-|[<-|[<-|[]]]]] & <- & S); try discriminate S; reflexivity. }
  split; [vm_compute; discriminate|]. split; [eexists; split; [reflexivity|vm_compute; discriminate]|].
  split; [apply (run_ok w_prox); vm_compute; reflexivity|]. split; [vm_compute; reflexivity|].
  split; [eexists; apply (run_ok w_prox); vm_compute; reflexivity|]. vm_compute. reflexivity.
Qed.
Print Assumptions C53_consent_refuted.
(** anyone removes an extension and collects the rent *)
Theorem C53_remove_refuted : exists pe e me w w' infos thief, (forall k, ~ signs infos k) /\
  proxy_entry pe e me infos w (write_instr (IRemove XAttributes)) = Ok w' /\
  lamports (w thief) < lamports (w' thief) /\ zlen (data (w' kAsset)) < zlen (data (w kAsset)).
Proof.
  exists pe0, envP, kMe, w_prox. eexists. exists ip_remove, kOther.
  split. { intros k (i & [<-|[<-|[<-|[<-|[]]]]] & _ & S); discriminate S. }
  split; [apply (run_ok w_prox); vm_compute; reflexivity|]. split; vm_compute; reflexivity.
Qed.
Print Assumptions C53_remove_refuted.

(** ** C54: Update through the proxy program *)
Theorem C54_update : forall pe e me infos w u w' asset l pb, env_ok e -> e_prog e <> pk_zero -> sized w -> instr_ok (IUpdate u) ->
  arg infos 0 asset -> well_formed (data (w asset)) l -> lookup XProxy (ext_list l) = Some pb ->
  proxy_entry pe e me infos w (write_instr (IUpdate u)) = Ok w' ->
  exists auth, arg infos 1 auth /\ signs infos auth /\ sub pb 65 32 = pk_bytes auth /\ signs_or_proxied e me infos pb asset /\
    s_authority (data (w asset)) = pk_bytes asset /\ mutable (data (w asset)) /\
    header_updated u (data (w asset)) (data (w' asset)) /\ well_formed (data (w' asset)) l /\
    (forall k, k <> asset -> data (w' k) = data (w k)).
Proof. exact proxy_entry_update. Qed.
Print Assumptions C54_update.
Example C54_case : instr_ok (IUpdate (mkUpdInput (Some [x42]) None None)) /\
  exists w', proxy_entry pe0 envP kMe ip_update w_prox (write_instr (IUpdate (mkUpdInput (Some [x42]) None None))) = Ok w' /\
    s_name (data (w' kAsset)) = x42 :: repeat x00 34.
Proof.
  split; [split; [split; [reflexivity|apply utf8_iff; vm_compute; reflexivity]|exact I]|].
  eexists. split; [apply (run_ok w_prox); vm_compute; reflexivity|]. vm_compute. reflexivity.
Qed.

(** ** C55: Transfer through the proxy program *)
Theorem C55_transfer : forall pe e me infos w w' asset l pb s, env_ok e -> e_prog e <> pk_zero -> sized w -> lam_ok w ->
  small_template pe -> arg infos 0 asset -> well_formed (data (w asset)) l ->
  lookup XProxy (ext_list l) = Some pb -> lookup XAttributes (ext_list l) = Some (counter_entry s) -> zlen s <= 255 ->
  proxy_entry pe e me infos w (write_instr ITransfer) = Ok w' ->
  exists signer recipient n s' l' c, arg infos 1 signer /\ arg infos 2 recipient /\
    signs_or_proxied e me infos pb signer /\ signs_or_proxied e me infos pb asset /\
    s_authority (data (w asset)) = pk_bytes asset /\ mutable (data (w asset)) /\
    (s_owner (data (w asset)) <> pk_bytes recipient -> authorized (data (w asset)) l signer RTransfer) /\
    s_owner (data (w' asset)) = pk_bytes recipient /\ same_terms (data (w asset)) (data (w' asset)) /\
    well_formed (data (w' asset)) l' /\ reads_as s n /\ shows s' (next_count n) /\ 12 <= zlen s' <= 21 /\
    rgb (pe_hash pe [pk_bytes asset; le_enc 8 (pe_now pe mod two64); le_enc 8 (n mod two64)]) c /\
    ext_list l' = put_ext XProperties (stamp_entry (pe_now pe mod two64)) (put_ext XBlob (image_entry (pe_before pe ++ c ++ pe_after pe))
                    (put_ext XAttributes (counter_entry s') (ext_list l))) /\
    (forall k, k <> asset -> data (w' k) = data (w k)).
Proof. exact proxy_entry_transfer. Qed.
Print Assumptions C55_transfer.
Example C55_case : sized w_prox /\ lam_ok w_prox /\ small_template pe0 /\ well_formed (data (w_prox kAsset)) prox_blks /\
  (exists s, lookup XAttributes (ext_list prox_blks) = Some (counter_entry s) /\ zlen s <= 255 /\ shows s 0) /\
  exists w', proxy_entry pe0 envP kMe ip_transfer w_prox (write_instr ITransfer) = Ok w' /\ s_owner (data (w' kAsset)) = pk_bytes kTo.
Proof.
  split; [apply table_sized; vm_compute; reflexivity|]. split; [apply table_lam_ok; vm_compute; reflexivity|].
  split; [vm_compute; discriminate|]. split; [apply mk_wf; vm_compute; reflexivity|].
  split.
  { exists (repeat x20 11 ++ [x30]). split; [reflexivity|]. split; [vm_compute; discriminate|].
    exists 11%nat, [x30]. left. split; [lia|]. split; [reflexivity|]. apply (num_digit 0). lia. }
  eexists. split; [apply (run_ok w_prox); vm_compute; reflexivity|]. vm_compute. reflexivity.
Qed.
(** What the count is taken from: exactly the texts of a 64-bit number, with white space
    around; a text is read in one way, and what the program writes is read back. *)
Theorem C55_number : forall s n,
  (parse_i64 (trim s) = Some n <-> reads_as s n) /\ (forall n', reads_as s n -> reads_as s n' -> n = n') /\
  (shows s n -> - 9223372036854775808 <= n <= 9223372036854775807 -> reads_as s n).
Proof. intros s n. exact (conj (parse_iff s n) (conj (reads_det s n) (shows_reads s n))). Qed.
Print Assumptions C55_number.
Example C55_number_case : parse_i64 (trim [x20; x0d; x2b; x30; x37; x09]) = Some 7 /\ parse_i64 (trim [x2d; x37]) = Some (-7) /\
  parse_i64 (trim [x37; x20; x37]) = None /\ parse_i64 (trim [x20]) = None /\
  rgb [x07; xff; x40] [x20; x20; x37; x2c; x32; x35; x35; x2c; x20; x36; x34].
Proof.
  repeat (split; [vm_compute; reflexivity|]). exists [x20; x20; x37], [x32; x35; x35], [x20; x36; x34].
  split; [split; [exists 2%nat, [x37]; left; split; [vm_compute; discriminate|split; [reflexivity|apply (num_digit 7); lia]]|reflexivity]|].
  split; [split; [exists 0%nat, [x32; x35; x35]; left; split; [vm_compute; discriminate|split; [reflexivity|]]|reflexivity]|].
  { apply (num_more [x32; x35] 25 5); [apply (num_more [x32] 2 5); [apply (num_digit 2); lia|lia]|lia]. }
  split; [split; [exists 1%nat, [x36; x34]; left; split; [vm_compute; discriminate|split; [reflexivity|]]|reflexivity]|reflexivity].
  apply (num_more [x36] 6 4); [apply (num_digit 6); lia|lia].
Qed.
(** The group account is not passed on: a grouped asset without royalties of its
    own, whose owner could transfer it with the asset's signature, is stuck. *)
Theorem C55_grouped_refuted : exists pe e me infos w w' asset, s_owner (data (w asset)) <> s_owner (data (w' asset)) /\
  process (in_cpi e) (first_signs infos) w ITransfer = Ok w' /\
  proxy_entry pe e me infos w (write_instr ITransfer) = Err ENotEnoughAccountKeys.
Proof.
  exists pe0, envP, kMe, ip_grouped, w_member. eexists. exists kAsset.
  split; [|split; [apply (run_ok w_member); vm_compute; reflexivity|vm_compute; reflexivity]]. vm_compute. discriminate.
Qed.
Print Assumptions C55_grouped_refuted.

(** ** C56: Create through the proxy program *)
Theorem C56_create : forall pe e me infos w name w' asset, env_ok e -> e_prog e <> pk_zero -> sized w ->
  small_template pe -> arg infos 0 asset -> data (w asset) = [] -> text_ok name ->
  proxy_entry pe e me infos w (write_proxy name) = Ok w' ->
  exists stub owner auth s pb l', arg infos 1 stub /\ arg infos 2 owner /\ arg infos 3 auth /\ signs infos stub /\ signs infos auth /\
    s_owner (data (w' asset)) = pk_bytes owner /\ s_authority (data (w' asset)) = pk_bytes asset /\
    s_standard (data (w' asset)) = x03 /\ mutable (data (w' asset)) /\ s_name (data (w' asset)) = name_field name /\
    s_delegate (data (w' asset)) = no_key /\ acct_owner (w' asset) = e_prog e /\
    well_formed (data (w' asset)) l' /\ proxies e me pb asset /\ sub pb 32 32 = pk_bytes stub /\ sub pb 65 32 = pk_bytes auth /\ shows s 0 /\ zlen s = 12 /\
    ext_list l' = [(XAttributes, counter_entry s); (XProperties, stamp_entry (pe_now pe mod two64)); (XProxy, pb);
      (XBlob, image_entry (pe_before pe ++ black ++ pe_after pe))].
Proof. exact proxy_entry_create. Qed.
Print Assumptions C56_create.
Example C56_case : sized wP /\ data (wP kAsset) = [] /\ text_ok [x41] /\
  exists w', proxy_entry pe0 envP kMe ip_create wP (write_proxy [x41]) = Ok w' /\ data (w' kAsset) = born_data.
Proof.
  split; [apply table_sized; vm_compute; reflexivity|]. split; [reflexivity|]. split; [split; [reflexivity|apply utf8_iff; vm_compute; reflexivity]|].
  eexists. split; [apply (run_ok wP); vm_compute; reflexivity|]. vm_compute. reflexivity.
Qed.

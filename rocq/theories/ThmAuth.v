(** Property theorems: authority over an asset (C01-C11, C15, C42, C43, C04).
    Each theorem restates its property in the vocabulary of Spec.v; below it, a
    concrete case meeting the hypotheses. *)
From Verif Require Import Base State Layout Constr Ext World Proc Spec WorldL AuthL AuthM RolesL Sample.
From Coq Require Import Strings.Byte.

(** C01: whoever makes the owner of account [k] change signed, and is the owner,
    the manager with the transfer role, or (no manager) the delegate with it. *)
Theorem C01_transfer_authorized : forall e infos w w' k, sized w ->
  process e infos w ITransfer = Ok w' -> s_owner (data (w' k)) <> s_owner (data (w k)) ->
  exists signer, arg infos 0 k /\ arg infos 1 signer /\ signed infos signer /\
    may_act (data (w k)) signer RTransfer /\
    (forall l, well_formed (data (w k)) l -> authorized (data (w k)) l signer RTransfer).
Proof. exact transfer_authorized. Qed.
Print Assumptions C01_transfer_authorized.
Definition i_transfer (signer : pubkey) : list ainfo :=
  [mkInfo kAsset false true; mkInfo signer true false; mkInfo kTo false false; mkInfo kProg false false].
Example C01_case : sized w_man /\ exists w', process env0 (i_transfer kMan) w_man ITransfer = Ok w' /\
  s_owner (data (w' kAsset)) = pk_bytes kTo /\ s_owner (data (w_man kAsset)) = pk_bytes kHolder /\
  process env0 (i_transfer kDeleg) w_man ITransfer = Err EInvalidTransferAuthority.
Proof.
  split; [apply table_sized; vm_compute; reflexivity|].
  eexists. split; [apply (run_ok w_man); vm_compute; reflexivity|]. vm_compute. auto.
Qed.

(** C02: exact effect of a transfer *)
Theorem C02_transfer_effect : forall e infos w w', process e infos w ITransfer = Ok w' ->
  exists asset recipient, arg infos 0 asset /\ arg infos 2 recipient /\
    ((s_owner (data (w asset)) = pk_bytes recipient /\ forall k, w' k = w k) \/
     (s_owner (data (w asset)) <> pk_bytes recipient /\
      only_data w w' asset /\
      length (data (w' asset)) = length (data (w asset)) /\
      s_owner (data (w' asset)) = pk_bytes recipient /\
      sub (data (w' asset)) 100 33 = repeat x00 33 /\
      (forall i, (i < 4 \/ 36 <= i < 100 \/ 133 <= i)%nat ->
         nth i (data (w' asset)) x00 = nth i (data (w asset)) x00))).
Proof. exact transfer_effect. Qed.
Print Assumptions C02_transfer_effect.
Example C02_case : exists w', process env0 (i_transfer kHolder) w_plain ITransfer = Ok w' /\
  data (w' kAsset) = mk (header x01 x00 x00 x01 kTo pk_zero kAuth pk_zero x00) plain_exts.
Proof. eexists. split; [apply (run_ok w_plain); vm_compute; reflexivity|]. vm_compute. auto. Qed.

(** C03: a soulbound asset (standard byte 2) is never transferred *)
Theorem C03_soulbound : forall e infos w w' asset, arg infos 0 asset ->
  s_standard (data (w asset)) = x02 -> process e infos w ITransfer = Ok w' -> False.
Proof. exact soulbound_stays. Qed.
Print Assumptions C03_soulbound.
Example C03_case : let w := table [(kAsset, acc soul_data)] in
  arg (i_transfer kHolder) 0 kAsset /\ s_standard (data (w kAsset)) = x02 /\
  process env0 (i_transfer kHolder) w ITransfer = Err ECannotTransferSoulbound.
Proof. split; [exists (mkInfo kAsset false true); split; reflexivity|]. vm_compute. auto. Qed.

(** C04: one locked asset among the passed accounts, at any position, blocks the
    five instructions *)
Theorem C04_locked_blocks : forall e infos w i a, In a (passed infos) ->
  acct_owner (w (ai_key a)) = e_prog e -> locked (data (w (ai_key a))) ->
  match i with IApprove _ | IBurn | ILock | IRevoke _ | ITransfer => True | _ => False end ->
  forall w', process e infos w i <> Ok w'.
Proof. exact locked_blocks. Qed.
Print Assumptions C04_locked_blocks.
Example C04_case : let w := table [(kAsset, acc plain_data); (kOther, acc locked_data)] in
  let infos := i_transfer kHolder ++ [mkInfo kOther false false] in
  In (mkInfo kOther false false) (passed infos) /\ locked (data (w kOther)) /\
  process env0 infos w ITransfer = Err ELockedAsset /\
  okb (process env0 (i_transfer kHolder) w ITransfer) = true.
Proof. vm_compute. intuition. Qed.

(** C05: exactly who can lock and unlock, and what changes *)
Theorem C05_lock_exact : forall e infos w asset signer l,
  arg infos 0 asset -> arg infos 1 signer -> acct_owner (w asset) = e_prog e ->
  initialized (data (w asset)) -> well_formed (data (w asset)) l ->
  (forall b, lookup XManager (ext_list l) = Some b -> (33 <= length b)%nat) ->
  writable infos asset -> plain_accounts e infos w -> sized w ->
  ((exists w', process e infos w ILock = Ok w') <->
   signed infos signer /\ may_lock (data (w asset)) l signer /\ none_locked e infos w /\
   (s_standard (data (w asset)) = x03 -> signed infos asset)).
Proof. exact lock_exact. Qed.
Print Assumptions C05_lock_exact.
Theorem C05_unlock_exact : forall e infos w asset signer l,
  arg infos 0 asset -> arg infos 1 signer -> acct_owner (w asset) = e_prog e ->
  initialized (data (w asset)) -> well_formed (data (w asset)) l ->
  (forall b, lookup XManager (ext_list l) = Some b -> (33 <= length b)%nat) ->
  writable infos asset -> plain_accounts e infos w -> sized w ->
  ((exists w', process e infos w IUnlock = Ok w') <->
   signed infos signer /\ may_lock (data (w asset)) l signer /\
   (s_standard (data (w asset)) = x03 -> signed infos asset)).
Proof. exact unlock_exact. Qed.
Print Assumptions C05_unlock_exact.
Theorem C05_lock_effect : forall e infos w w', process e infos w ILock = Ok w' ->
  exists asset, arg infos 0 asset /\ only_data w w' asset /\
    same_except (data (w asset)) (data (w' asset)) 1 1 /\ s_state (data (w' asset)) = x01.
Proof. exact lock_effect. Qed.
Print Assumptions C05_lock_effect.
Theorem C05_unlock_effect : forall e infos w w', process e infos w IUnlock = Ok w' ->
  exists asset, arg infos 0 asset /\ only_data w w' asset /\
    same_except (data (w asset)) (data (w' asset)) 1 1 /\ s_state (data (w' asset)) = x00.
Proof. exact unlock_effect. Qed.
Print Assumptions C05_unlock_effect.
Definition i_lock (signer : pubkey) : list ainfo := [mkInfo kAsset false true; mkInfo signer true false].
Example C05_case :
  arg (i_lock kMan) 0 kAsset /\ arg (i_lock kMan) 1 kMan /\ well_formed (data (w_man kAsset)) man_exts /\
  (forall b, lookup XManager (ext_list man_exts) = Some b -> (33 <= length b)%nat) /\
  initialized (data (w_man kAsset)) /\ writable (i_lock kMan) kAsset /\ plain_accounts env0 (i_lock kMan) w_man /\
  okb (process env0 (i_lock kMan) w_man ILock) = true /\
  okb (process env0 (i_lock kDeleg) w_man ILock) = false /\
  okb (process env0 (i_lock kHolder) w_man ILock) = false /\
  okb (process env0 (i_lock kDeleg) w_plain ILock) = true.
Proof.
  split; [exists (mkInfo kAsset false true); split; reflexivity|].
  split; [exists (mkInfo kMan true false); split; reflexivity|].
  split; [exact man_wf|]. split; [intros b H; vm_compute in H; injection H as <-; vm_compute; repeat constructor|].
  split; [split; [vm_compute; lia|reflexivity]|].
  split; [exists (mkInfo kAsset false true); split; [left; reflexivity|auto]|].
  split.
  - intros a [<-|[<-|[]]]; [right; vm_compute; lia|left; reflexivity].
  - vm_compute. auto.
Qed.

(** C06 *)
Theorem C06_approve : forall e infos w a w', process e infos w (IApprove a) = Ok w' ->
  exists asset owner del, arg infos 0 asset /\ arg infos 1 owner /\ arg infos 2 del /\
    signed infos owner /\ initialized (data (w asset)) /\
    s_owner (data (w asset)) = pk_bytes owner /\
    only_data w w' asset /\ same_except (data (w asset)) (data (w' asset)) 100 33 /\
    s_delegate (data (w' asset)) = pk_bytes del /\
    (forall r, has_role (s_roles (data (w' asset))) r <->
       requested a r \/
       (s_delegate (data (w asset)) <> no_key /\ s_delegate (data (w asset)) = pk_bytes del /\
        has_role (s_roles (data (w asset))) r)).
Proof. exact approve_effect. Qed.
Print Assumptions C06_approve.
Definition i_three (a b c : ainfo) : list ainfo := [a; b; c].
Example C06_case : exists w',
  process env0 (i_three (mkInfo kAsset false true) (mkInfo kHolder true false) (mkInfo kOther false false))
    w_plain (IApprove (DSome [RLock; RBurn])) = Ok w' /\
  data (w' kAsset) = mk (header x01 x00 x00 x01 kHolder pk_zero kAuth kOther x06) plain_exts.
Proof. eexists. split; [apply (run_ok w_plain); vm_compute; reflexivity|]. vm_compute. auto. Qed.

(** C07 *)
Theorem C07_revoke : forall e infos w a w', process e infos w (IRevoke a) = Ok w' ->
  exists asset signer, arg infos 0 asset /\ arg infos 1 signer /\ signed infos signer /\
    initialized (data (w asset)) /\
    (s_owner (data (w asset)) = pk_bytes signer \/
     (s_delegate (data (w asset)) <> no_key /\ s_delegate (data (w asset)) = pk_bytes signer)) /\
    only_data w w' asset /\ same_except (data (w asset)) (data (w' asset)) 100 33 /\
    (s_delegate (data (w asset)) = no_key -> s_delegate (data (w' asset)) = no_key) /\
    (s_delegate (data (w asset)) <> no_key ->
      (s_delegate (data (w' asset)) = s_delegate (data (w asset)) \/
       s_delegate (data (w' asset)) = no_key /\ s_roles (data (w' asset)) = x00) /\
      (forall r, has_role (s_roles (data (w' asset))) r <->
         has_role (s_roles (data (w asset))) r /\ ~ requested a r) /\
      (s_roles (data (w' asset)) = x00 -> s_delegate (data (w' asset)) = no_key) /\
      (a = DAll -> s_delegate (data (w' asset)) = no_key)).
Proof. exact revoke_effect. Qed.
Print Assumptions C07_revoke.
Example C07_case : exists w',
  process env0 (i_lock kDeleg) w_plain (IRevoke (DSome [RTransfer])) = Ok w' /\
  data (w' kAsset) = mk (header x01 x00 x00 x01 kHolder pk_zero kAuth kDeleg x06) plain_exts.
Proof. eexists. split; [apply (run_ok w_plain); vm_compute; reflexivity|]. vm_compute. auto. Qed.

(** C08: masks are sets *)
Theorem C08_decode : forall m r, In r (decode_roles m) /\ r <> RNone <-> has_role m r.
Proof. exact decode_spec. Qed.
Print Assumptions C08_decode.
Theorem C08_decode_empty : forall m, In RNone (decode_roles m) <-> m = x00.
Proof. exact decode_none. Qed.
Print Assumptions C08_decode_empty.
Theorem C08_decode_nodup : forall m, NoDup (decode_roles m).
Proof. exact decode_nodup. Qed.
Print Assumptions C08_decode_nodup.
Theorem C08_encode : forall a r, has_role (z2b (roles_of a)) r <-> requested a r.
Proof. exact granted_roles. Qed.
Print Assumptions C08_encode.
Theorem C08_enable : forall m x r, has_role (enable_roles m x) r <-> has_role m r \/ (r = x /\ r <> RNone).
Proof. exact enable_spec. Qed.
Print Assumptions C08_enable.
Theorem C08_disable : forall m x r, has_role (disable_role m x) r <-> has_role m r /\ r <> x.
Proof. exact disable_role_spec. Qed.
Print Assumptions C08_disable.
Example C08_case : decode_roles (z2b (roles_of (DSome [RBurn; RTransfer; RBurn]))) = [RTransfer; RBurn]
  /\ enable_roles x04 RLock = x06 /\ disable_role x07 RLock = x05.
Proof. vm_compute. auto. Qed.

(** C09 *)
Theorem C09_burn_authorized : forall e infos w w', sized w -> process e infos w IBurn = Ok w' ->
  exists asset signer, arg infos 0 asset /\ arg infos 1 signer /\ signed infos signer /\
    may_act (data (w asset)) signer RBurn /\
    (forall l, well_formed (data (w asset)) l -> authorized (data (w asset)) l signer RBurn).
Proof. exact burn_authorized. Qed.
Print Assumptions C09_burn_authorized.
Definition i_burn (signer : pubkey) : list ainfo :=
  [mkInfo kAsset false true; mkInfo signer true true; mkInfo kTo false true; mkInfo kGroup false true].
Example C09_case : sized w_man /\ okb (process env0 (i_burn kMan) w_man IBurn) = true /\
  okb (process env0 (i_burn kDeleg) w_man IBurn) = false.
Proof. split; [apply table_sized; vm_compute; reflexivity|]. vm_compute. auto. Qed.

(** C10 *)
Theorem C10_burn_effect : forall e infos w w', lam_ok w -> process e infos w IBurn = Ok w' ->
  exists asset signer dest,
    arg infos 0 asset /\ arg infos 1 signer /\
    ((arg infos 2 (e_prog e) /\ dest = signer) \/ (arg infos 2 dest /\ dest <> e_prog e)) /\
    dest <> asset /\
    w' asset = mkAcct 0 pk_zero [] /\
    lamports (w' dest) = lamports (w dest) + lamports (w asset) /\
    (forall k, k <> asset -> k <> dest -> lamports (w' k) = lamports (w k)) /\
    (forall k, k <> asset -> acct_owner (w' k) = acct_owner (w k)) /\
    (forall k, k <> asset -> pk_bytes k <> s_group (data (w asset)) \/ s_group (data (w asset)) = no_key ->
       data (w' k) = data (w k)) /\
    (s_group (data (w asset)) <> no_key ->
       exists group off b, arg infos 3 group /\ group <> asset /\ pk_bytes group = s_group (data (w asset)) /\
         has_ext (data (w group)) XGrouping off b /\
         same_except (data (w group)) (data (w' group)) (Z.to_nat off) 8 /\
         1 <= gr_size b /\
         le_dec (sub (data (w' group)) (Z.to_nat off) 8) = gr_size b - 1).
Proof. exact burn_effect. Qed.
Print Assumptions C10_burn_effect.
Example C10_case : lam_ok w_grp /\ exists w', process env0 (i_burn kHolder) w_grp IBurn = Ok w' /\
  data (w' kGroup) = grp_data 1 3 /\ lamports (w' kTo) = 5005 /\ w' kAsset = mkAcct 0 pk_zero [].
Proof.
  split; [apply table_lam_ok; vm_compute; reflexivity|].
  eexists. split; [apply (run_ok w_grp); vm_compute; reflexivity|]. vm_compute. auto.
Qed.

(** C11 *)
Theorem C11_nonempty_group_kept : forall e infos w w' asset off b, arg infos 0 asset ->
  has_ext (data (w asset)) XGrouping off b -> 0 < gr_size b ->
  process e infos w IBurn <> Ok w' /\ process e infos w (IRemove XGrouping) <> Ok w'.
Proof. exact nonempty_group_kept. Qed.
Print Assumptions C11_nonempty_group_kept.
Example C11_case : let infos := [mkInfo kGroup false true; mkInfo kHolder true true; mkInfo kTo false true; mkInfo kTo false true] in
  (exists off b, has_ext (data (w_grp kGroup)) XGrouping off b /\ 0 < gr_size b) /\
  process env0 infos w_grp IBurn = Err EGroupNotEmpty.
Proof.
  split; [|vm_compute; reflexivity].
  exists 208, (grp_payload 2 3). split; [|vm_compute; reflexivity].
  exists 192. repeat split; try (vm_compute; congruence).
  eapply loc_next; try (vm_compute; congruence).
  replace (le32 _ _) with 192 by (vm_compute; reflexivity).
  apply loc_here; vm_compute; congruence.
Qed.

(** C12, the instruction that changes the authority (histories: see ThmHist.v) *)
Theorem C12_handover_effect : forall e infos w w', process e infos w IHandover = Ok w' ->
  exists asset auth new, arg infos 0 asset /\ arg infos 1 auth /\ arg infos 2 new /\
    signed infos auth /\ signed infos new /\ initialized (data (w asset)) /\ mutable (data (w asset)) /\
    s_authority (data (w asset)) = pk_bytes auth /\
    only_data w w' asset /\ same_except (data (w asset)) (data (w' asset)) 68 32 /\
    s_authority (data (w' asset)) = pk_bytes new.
Proof. exact handover_effect. Qed.
Print Assumptions C12_handover_effect.
Example C12_case : exists w',
  process env0 (i_three (mkInfo kAsset false true) (mkInfo kAuth true false) (mkInfo kOther true false))
    w_plain IHandover = Ok w' /\
  data (w' kAsset) = mk (header x01 x00 x00 x01 kHolder pk_zero kOther kDeleg x07) plain_exts.
Proof. eexists. split; [apply (run_ok w_plain); vm_compute; reflexivity|]. vm_compute. auto. Qed.

(** C15 *)
Theorem C15_no_reinit : forall e infos w w' i asset, arg infos 0 asset -> initialized (data (w asset)) ->
  match i with ICreate _ | IAllocate _ | IWrite _ | IClose => True | _ => False end ->
  process e infos w i <> Ok w'.
Proof. exact no_reinit. Qed.
Print Assumptions C15_no_reinit.
Example C15_case :
  process env0 [mkInfo kAsset true true; mkInfo kTo true true] w_plain IClose = Err EAlreadyInitialized /\
  initialized (data (w_plain kAsset)).
Proof. split; [vm_compute; reflexivity|]. split; [vm_compute; lia|reflexivity]. Qed.

(** C42 *)
Theorem C42_close : forall e infos w w', lam_ok w -> process e infos w IClose = Ok w' ->
  exists buffer recipient, arg infos 0 buffer /\ arg infos 1 recipient /\ buffer <> recipient /\
    signed infos buffer /\ acct_owner (w buffer) = e_prog e /\
    (data (w buffer) = [] \/ s_disc (data (w buffer)) = x00) /\
    w' buffer = mkAcct 0 pk_zero [] /\
    w' recipient = mkAcct (lamports (w recipient) + lamports (w buffer)) (acct_owner (w recipient)) (data (w recipient)) /\
    (forall k, k <> buffer -> k <> recipient -> w' k = w k).
Proof. exact close_effect. Qed.
Print Assumptions C42_close.
Example C42_case : let w := table [(kBuf, acc (zeros 168)); (kTo, wal 5)] in lam_ok w /\
  exists w', process env0 [mkInfo kBuf true true; mkInfo kTo false true] w IClose = Ok w' /\
  lamports (w' kTo) = 5005.
Proof.
  split; [apply table_lam_ok; vm_compute; reflexivity|].
  eexists. split; [apply (run_ok w_plain); vm_compute; reflexivity|]. vm_compute. auto.
Qed.

(** C43 *)
Theorem C43_proxied_signer : forall e infos w i asset w', arg infos 0 asset ->
  acct_owner (w asset) = e_prog e -> s_standard (data (w asset)) = x03 ->
  process e infos w i = Ok w' -> signed infos asset.
Proof. exact proxied_signer. Qed.
Print Assumptions C43_proxied_signer.
Example C43_case : let w := table [(kAsset, acc proxied_data)] in
  let infos s := [mkInfo kAsset s true; mkInfo kHolder true false; mkInfo kTo false false; mkInfo kProg false false] in
  process env0 (infos false) w ITransfer = Err EMissingRequiredSignature /\
  okb (process env0 (infos true) w ITransfer) = true.
Proof. vm_compute. auto. Qed.

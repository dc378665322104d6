(** Property theorems: constraints and royalties (C36, C37, C38). *)
From Verif Require Import Base State Layout Constr Ext World Proc BaseL Spec SpecC WorldL LayoutL ConstrL RoyalL ReadsL Sample ThmAuth.
From Coq Require Import Strings.Byte.

(** C36: what the builders produce parses to the tree that was built; exactly the
    bytes produced are consumed ... *)
Theorem C36_round_trip : forall f al rest, al mod 8 = 0 -> zlen (build f) <= u32_max ->
  exists c, constr_from_bytes al (build f ++ rest) = Ok c /\ erase c = wanted f /\ csize c = zlen (build f) /\
    (negation_free f -> as_bytes c = build f).
Proof. exact build_round_trip. Qed.
Print Assumptions C36_round_trip.
(** ... no two trees have a common encoding, or one that starts another ... *)
Theorem C36_unambiguous : forall f f' r r', zlen (build f) <= u32_max -> zlen (build f') <= u32_max ->
  build f ++ r = build f' ++ r' -> f = f' /\ r = r'.
Proof. exact build_unambiguous. Qed.
Print Assumptions C36_unambiguous.
(** ... and the parser accepts only bytes of the documented format, and terminates
    on all. *)
Theorem C36_accepts : forall al b c, constr_from_bytes al b = Ok c -> reads b (erase c) (skipn (Z.to_nat (csize c)) b).
Proof. exact from_bytes_reads. Qed.
Print Assumptions C36_accepts.
Theorem C36_terminates : forall al b, constr_from_bytes al b <> Diverge.
Proof. exact from_bytes_total. Qed.
Print Assumptions C36_terminates.
(** The format itself gives every byte string one meaning at most, and the builders'
    output the intended one. *)
Theorem C36_grammar : forall b r rest r' rest', reads b r rest -> reads b r' rest' -> r = r' /\ rest = rest'.
Proof. exact reads_det. Qed.
Print Assumptions C36_grammar.
Theorem C36_built : forall f rest, zlen (build f) <= u32_max -> reads (build f ++ rest) (wanted f) rest.
Proof. exact build_reads. Qed.
Print Assumptions C36_built.
(** recipient owned by one of two programs, and not (signer is kOther or everything passes) *)
Definition f_case : form :=
  FAnd [FOwnedBy ARecipient [kMan; kGroup]; FNot (FOr [FPubkeyMatch AAuthority [kOther]; FAnd [FEmpty; FNot FEmpty]])].
Example C36_case : zlen (build f_case) = 184 /\ (exists c, constr_from_bytes 16 (build f_case ++ [x07; x08]) = Ok c /\ csize c = 184 /\
  erase c = RAll [ROwner 2 [pk_bytes kMan; pk_bytes kGroup]; RNeg (RAny [RKey 1 [pk_bytes kOther]; RAll [RTrue; RNeg RTrue]])]) /\
  constr_from_bytes 16 (firstn 183 (build f_case)) = Panic.
Proof. vm_compute. split; [reflexivity|]. split; [|reflexivity]. eexists. split; [reflexivity|]. split; reflexivity. Qed.
(** as_bytes of a parsed tree with a negation is not its encoding: the inner header
    is written twice and what comes out is not accepted. *)
Theorem C36_as_bytes_refuted : exists f c, constr_from_bytes 0 (build f) = Ok c /\ as_bytes c <> build f /\
  (forall c', constr_from_bytes 0 (as_bytes c) <> Ok c').
Proof.
  exists (FNot (FOwnedBy AAsset [kMan])). eexists. split; [vm_compute; reflexivity|]. split; [vm_compute; discriminate|].
  intros c' H. vm_compute in H. discriminate H.
Qed.
Print Assumptions C36_as_bytes_refuted.
Example C36_built_case : zlen (build f_case) <= u32_max /\ reads (build f_case) (wanted f_case) [].
Proof. assert (H : zlen (build f_case) <= u32_max) by (vm_compute; discriminate). split; [exact H|]. rewrite <- (app_nil_r (build f_case)). now apply build_reads. Qed.
(** A builder used again after build() writes its header over its first child; a
    rule nothing satisfies can become one everything does. *)
Theorem C36_reuse_refuted : exists l c, constr_from_bytes 0 (reused_and l) = Ok c /\ erase c <> wanted (FAnd l) /\
  reused_and l <> build (FAnd l) /\ forall v, holds (erase c) v /\ ~ holds (wanted (FAnd l)) v.
Proof.
  exists [FNot FEmpty]. eexists. split; [vm_compute; reflexivity|]. split; [vm_compute; discriminate|]. split; [vm_compute; discriminate|].
  intro v. cbn. tauto.
Qed.
Print Assumptions C36_reuse_refuted.

(** C37: evaluation of any parsed constraint never errs when a recipient is given,
    and is the boolean formula its bytes denote. *)
Theorem C37_eval : forall al b c ctx v, constr_from_bytes al b = Ok c -> sees ctx v ->
  exists r rest x, reads b r rest /\ r = erase c /\ eval_constr c ctx = Ok x /\ (x = true <-> holds r v).
Proof. exact parsed_eval. Qed.
Print Assumptions C37_eval.
Theorem C37_built : forall f al rest ctx v, al mod 8 = 0 -> zlen (build f) <= u32_max -> sees ctx v ->
  exists c x, constr_from_bytes al (build f ++ rest) = Ok c /\ eval_constr c ctx = Ok x /\ (x = true <-> holds (wanted f) v).
Proof. exact built_eval. Qed.
Print Assumptions C37_built.
Definition w_roy (o : pubkey) (d : bytes) : world := table [(kAsset, acc man_data); (kTo, mkAcct 5 o d)].
Definition ctx_of (w : world) (s : pubkey) : cctx := mkCctx (target_of w kAsset) (target_of w s) (Some (target_of w kTo)).
Example C37_case : exists c, constr_from_bytes 0 (build f_case) = Ok c /\
  eval_constr c (ctx_of (w_roy kGroup [x01]) kHolder) = Ok true /\
  eval_constr c (ctx_of (w_roy kGroup []) kHolder) = Ok false /\
  eval_constr c (ctx_of (w_roy kGroup [x01]) kOther) = Ok false /\
  eval_constr c (ctx_of (w_roy kAuth [x01]) kHolder) = Ok false /\
  eval_constr c (mkCctx (target_of w_plain kAsset) (target_of w_plain kHolder) None) = Err ENotEnoughAccountKeys.
Proof. eexists. split; [vm_compute; reflexivity|]. vm_compute. auto. Qed.

(** C38: a Transfer that changes the owner satisfies the rule of the asset's
    royalties, or of its group's when it has none itself ... *)
Theorem C38_enforced : forall e infos w w' k, process e infos w ITransfer = Ok w' -> s_owner (data (w' k)) <> s_owner (data (w k)) ->
  exists signer recipient, arg infos 0 k /\ arg infos 1 signer /\ signed infos signer /\ arg infos 2 recipient /\
    (forall off b, has_ext (data (w k)) XRoyalties off b -> permits e w k signer recipient b) /\
    ((forall off b, ~ has_ext (data (w k)) XRoyalties off b) -> s_group (data (w k)) <> repeat x00 32 ->
       exists g, arg infos 3 g /\ pk_bytes g = s_group (data (w k)) /\ acct_owner (w g) = e_prog e /\ s_disc (data (w g)) = x01 /\
         forall off b, has_ext (data (w g)) XRoyalties off b -> permits e w k signer recipient b).
Proof. exact transfer_royalties. Qed.
Print Assumptions C38_enforced.
(** ... and an otherwise allowed Transfer goes through exactly then: own rule, *)
Theorem C38_exact : forall e infos w asset signer recipient g l, arg infos 0 asset -> arg infos 1 signer -> arg infos 2 recipient -> arg infos 3 g ->
  acct_owner (w asset) = e_prog e -> initialized (data (w asset)) -> well_formed (data (w asset)) l ->
  (forall b, lookup XManager (ext_list l) = Some b -> (33 <= length b)%nat) ->
  writable infos asset -> plain_accounts e infos w -> sized w -> signed infos signer ->
  authorized (data (w asset)) l signer RTransfer -> s_standard (data (w asset)) <> x02 -> none_locked e infos w ->
  (s_standard (data (w asset)) = x03 -> signed infos asset) -> s_owner (data (w asset)) <> pk_bytes recipient ->
  forall bp f rest, lookup XRoyalties (ext_list l) = Some (build_royalties bp f ++ rest) -> zlen (build f) <= u32_max ->
  (wallets e w signer recipient \/ holds (wanted f) (view_of w asset signer recipient) -> exists w', process e infos w ITransfer = Ok w') /\
  (~ wallets e w signer recipient -> ~ holds (wanted f) (view_of w asset signer recipient) -> process e infos w ITransfer = Err EAssertionFailure).
Proof. exact own_exact. Qed.
Print Assumptions C38_exact.
(** and the group's rule. *)
Theorem C38_group_exact : forall e infos w asset signer recipient g l, arg infos 0 asset -> arg infos 1 signer -> arg infos 2 recipient -> arg infos 3 g ->
  acct_owner (w asset) = e_prog e -> initialized (data (w asset)) -> well_formed (data (w asset)) l ->
  (forall b, lookup XManager (ext_list l) = Some b -> (33 <= length b)%nat) ->
  writable infos asset -> plain_accounts e infos w -> sized w -> signed infos signer ->
  authorized (data (w asset)) l signer RTransfer -> s_standard (data (w asset)) <> x02 -> none_locked e infos w ->
  (s_standard (data (w asset)) = x03 -> signed infos asset) -> s_owner (data (w asset)) <> pk_bytes recipient ->
  forall l2 bp f rest, lookup XRoyalties (ext_list l) = None -> s_group (data (w asset)) = pk_bytes g -> g <> pk_zero -> g <> e_prog e -> g <> asset ->
  acct_owner (w g) = e_prog e -> initialized (data (w g)) -> well_formed (data (w g)) l2 ->
  lookup XRoyalties (ext_list l2) = Some (build_royalties bp f ++ rest) -> zlen (build f) <= u32_max ->
  (wallets e w signer recipient \/ holds (wanted f) (view_of w asset signer recipient) -> exists w', process e infos w ITransfer = Ok w') /\
  (~ wallets e w signer recipient -> ~ holds (wanted f) (view_of w asset signer recipient) -> process e infos w ITransfer = Err EAssertionFailure).
Proof. exact group_exact. Qed.
Print Assumptions C38_group_exact.
(** For a built rule what is allowed is exactly what it says. *)
Theorem C38_permits : forall e w asset signer recipient bp f rest, zlen (build f) <= u32_max ->
  (permits e w asset signer recipient (le_enc 8 bp ++ build f ++ rest) <->
   wallets e w signer recipient \/ holds (wanted f) (view_of w asset signer recipient)).
Proof. exact built_permits. Qed.
Print Assumptions C38_permits.
Definition roy_exts : list blk := plain_exts ++ [blk_of XRoyalties (build_royalties 500 f_case)].
Definition roy_data (g : pubkey) (l : list blk) : bytes := mk (header x01 x00 x00 x01 kHolder g kAuth pk_zero x00) l.
Definition w_own (o : pubkey) : world := table [(kAsset, acc (roy_data pk_zero roy_exts)); (kHolder, wal 700); (kTo, mkAcct 5 o [x01])].
Definition w_ingroup (o : pubkey) : world :=
  table [(kAsset, acc (roy_data kGroup plain_exts)); (kGroup, acc (roy_data pk_zero roy_exts)); (kHolder, wal 700); (kTo, mkAcct 5 o [x01])].
Definition i_move (g : pubkey) : list ainfo :=
  [mkInfo kAsset false true; mkInfo kHolder true false; mkInfo kTo false false; mkInfo g false false].
Definition env_cpi : env := mkEnv kProg (fun n => Z.max 0 (128 + n)) (fun _ _ _ => None) true 0 100.
Example C38_case :
  process env0 (i_move kProg) (w_own kAuth) ITransfer = Err EAssertionFailure /\
  okb (process env0 (i_move kProg) (w_own kMan) ITransfer) = true /\
  okb (process env0 (i_move kProg) (w_own pk_zero) ITransfer) = true /\
  process env_cpi (i_move kProg) (w_own pk_zero) ITransfer = Err EAssertionFailure /\
  process env0 (i_move kProg) (w_ingroup kMan) ITransfer = Err ENotEnoughAccountKeys /\
  process env0 (i_move kGroup) (w_ingroup kAuth) ITransfer = Err EAssertionFailure /\
  okb (process env0 (i_move kGroup) (w_ingroup kMan) ITransfer) = true.
Proof. vm_compute. repeat split. Qed.
Example C38_hyps : let w := w_ingroup kMan in
  well_formed (data (w kAsset)) plain_exts /\ well_formed (data (w kGroup)) roy_exts /\
  lookup XRoyalties (ext_list roy_exts) = Some (build_royalties 500 f_case ++ []) /\
  authorized (data (w kAsset)) plain_exts kHolder RTransfer /\ s_group (data (w kAsset)) = pk_bytes kGroup /\
  none_locked env0 (i_move kGroup) w /\ plain_accounts env0 (i_move kGroup) w /\
  ~ wallets env0 w kHolder kTo /\ holds (wanted f_case) (view_of w kAsset kHolder kTo).
Proof.
  split; [apply mk_wf; vm_compute; reflexivity|]. split; [apply mk_wf; vm_compute; reflexivity|]. split; [vm_compute; reflexivity|].
  split; [left; vm_compute; reflexivity|]. split; [vm_compute; reflexivity|].
  split. { intros a [<-|[<-|[<-|[<-|[]]]]] Q; try discriminate Q; unfold locked; intro L; vm_compute in L; try discriminate L; destruct L as [L L2]; discriminate. }
  split. { intros a [<-|[<-|[<-|[<-|[]]]]] Q; try discriminate Q; right; vm_compute; lia. }
  split. { intros (_ & _ & Q). vm_compute in Q. discriminate Q. }
  cbn [wanted f_case holds map fold_right]. split; [split; [left; reflexivity|discriminate]|]. split; [|exact I].
  intros [[Q|[]]|[Q|[]]]; [vm_compute in Q; discriminate Q|]. tauto.
Qed.

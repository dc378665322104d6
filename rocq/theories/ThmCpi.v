(** C73: calls of the asset program from other programs through the generated builders. *)
From Verif Require Import Base State Layout Constr Ext World Proc Borsh Client Proxy Bridge Rs Cpi BaseL Spec SpecB SpecI SpecP SpecD SpecO CpiL Sample SampleP ThmGroup ThmHist.
From Coq Require Import Strings.Byte.

(** ** A call sends the list and the data of the plain builder, and succeeds exactly if
    the caller holds the rights it passes on and the instruction succeeds *)
Theorem C73_call : forall e me infos w0 w sd program x w', instr_ok (rs_instr x) ->
  rs_cpi e me infos w0 w sd program x [] = Ok w' <->
  mentions infos (e_prog e) /\ seeds_good e me sd /\ Forall (may_pass e me infos sd) (fst (rs_build (e_prog e) x)) /\
  process (in_cpi e) (fst (rs_build (e_prog e) x)) w (rs_instr x) = Ok w' /\ bounded_growth infos w0 w'.
Proof. exact rs_cpi_plain. Qed.
Print Assumptions C73_call.
Definition ic_move : list ainfo := [mkInfo kAsset false true; mkInfo kHolder true false; mkInfo kTo false false; mkInfo kProg false false; mkInfo kOther false true].
Definition x_move : rs_ix := RsTransfer kAsset kHolder kTo None.
Example C73_call_case : instr_ok (rs_instr x_move) /\ exists w', rs_cpi env0 kMe ic_move w_plain w_plain None kProg x_move [] = Ok w' /\
  s_owner (data (w' kAsset)) = pk_bytes kTo.
Proof. split; [exact I|]. eexists. split; [apply (run_ok w_plain); vm_compute; reflexivity|vm_compute; reflexivity]. Qed.
(** the holder's signature cannot be made up *)
Example C73_call_unsigned_case : rs_cpi env0 kMe [mkInfo kAsset false true; mkInfo kHolder false false; mkInfo kTo false false; mkInfo kProg false false]
  w_plain w_plain None kProg x_move [] = Err ECpi.
Proof. vm_compute. reflexivity. Qed.

(** ** The program account given to the builder has no influence *)
Theorem C73_program : forall e me infos w0 w sd p p' x r, instr_ok (rs_instr x) ->
  rs_cpi e me infos w0 w sd p x r = rs_cpi e me infos w0 w sd p' x r /\ if_cpi e me infos w0 w sd p x r = if_cpi e me infos w0 w sd p' x r.
Proof. exact program_ignored. Qed.
Print Assumptions C73_program.
Example C73_program_case : exists w', rs_cpi env0 kMe ic_move w_plain w_plain None kOther x_move [] = Ok w' /\ s_owner (data (w' kAsset)) = pk_bytes kTo.
Proof. eexists. split; [apply (run_ok w_plain); vm_compute; reflexivity|vm_compute; reflexivity]. Qed.

(** ** Remaining accounts *)
(** what the call sends: after the instruction's own accounts, the remaining ones; *)
Theorem C73_rest : forall e me infos w0 w sd program x r w', instr_ok (rs_instr x) ->
  rs_cpi e me infos w0 w sd program x r = Ok w' <->
  mentions infos (e_prog e) /\ seeds_good e me sd /\ Forall (may_pass e me infos sd) (rs_metas (e_prog e) x ++ map rest_meta r) /\
  process (in_cpi e) (rs_metas (e_prog e) x ++ map rest_meta r) w (rs_instr x) = Ok w' /\ bounded_growth infos w0 w'.
Proof. exact rs_cpi_iff. Qed.
Print Assumptions C73_rest.
(** an account added as writable is sent as a signer, and one added as a signer is sent as writable; *)
Theorem C73_swapped : forall l k is_writable is_signer,
  map rest_meta (add_rest l k is_writable is_signer) = map rest_meta l ++ [mkInfo k is_writable is_signer].
Proof. exact rest_swapped. Qed.
Print Assumptions C73_swapped.
(** so a call with a writable account that does not sign never succeeds, *)
Theorem C73_blocked : forall e me infos w0 w sd program x l k is_signer w', instr_ok (rs_instr x) -> ~ signs infos k -> ~ signs_for e me sd k ->
  rs_cpi e me infos w0 w sd program x (add_rest l k true is_signer) <> Ok w' /\ if_cpi e me infos w0 w sd program x (add_rest l k true is_signer) <> Ok w'.
Proof. exact rest_blocked. Qed.
Print Assumptions C73_blocked.
(** although the caller holds the rights asked for and the instruction would succeed. *)
Theorem C73_rest_refuted : exists e me infos w x k w', instr_ok (rs_instr x) /\ mentions infos (e_prog e) /\
  Forall (may_pass e me infos None) (rs_metas (e_prog e) x ++ [asked k true false]) /\
  process (in_cpi e) (rs_metas (e_prog e) x ++ [asked k true false]) w (rs_instr x) = Ok w' /\ bounded_growth infos w w' /\
  rs_cpi e me infos w w None (e_prog e) x (add_rest [] k true false) = Err ECpi.
Proof.
  exists env0, kMe, ic_move, w_plain, x_move, kOther.
  assert (G : exists w', rs_cpi env0 kMe ic_move w_plain w_plain None kProg x_move [] = Ok w') by (eexists; apply (run_ok w_plain); vm_compute; reflexivity).
  destruct G as (w' & G). apply C73_call in G; [|exact I]. destruct G as (M & _ & F & P & B). exists w'.
  split; [exact I|]. split; [exact M|]. split.
  { apply Forall_app. split; [exact F|]. constructor; [|constructor]. split; [|split].
    - eexists. split; [do 4 right; left; reflexivity|reflexivity].
    - discriminate.
    - intros _. eexists. split; [do 4 right; left; reflexivity|split; reflexivity]. }
  split; [|split; [exact B|vm_compute; reflexivity]]. rewrite <- P. vm_compute. reflexivity.
Qed.
Print Assumptions C73_rest_refuted.

(** ** The builders of the interface crate *)
(** demand the signature of the asset for every instruction, *)
Theorem C73_asset_signs : forall e me infos w0 w sd program x r w', instr_ok (rs_instr x) -> if_cpi e me infos w0 w sd program x r = Ok w' ->
  signs infos (about x) \/ signs_for e me sd (about x).
Proof. exact if_needs_asset. Qed.
Print Assumptions C73_asset_signs.
Example C73_asset_signs_case : if_cpi env0 kMe ic_move w_plain w_plain None kProg x_move [] = Err ECpi /\
  exists w', if_cpi envP kMe ic_move w_prox w_prox (Some (pk_bytes kStub, xff)) kProg x_move [] = Ok w' /\ signs_for envP kMe (Some (pk_bytes kStub, xff)) kAsset.
Proof. split; [vm_compute; reflexivity|]. eexists. split; [apply (run_ok w_prox); vm_compute; reflexivity|vm_compute; reflexivity]. Qed.
(** which makes no other difference to the program, *)
Theorem C73_same_result : forall e x w, about x <> e_prog e -> (forall a au s st, x <> RsResize a au (a, false) s st) ->
  (acct_owner (w (about x)) = e_prog e -> s_standard (data (w (about x))) = x03 -> In (about x) (other_signers x)) ->
  process e (if_metas (e_prog e) x) w (rs_instr x) = process e (rs_metas (e_prog e) x) w (rs_instr x).
Proof. exact if_same. Qed.
Print Assumptions C73_same_result.
Example C73_same_result_case : about x_move <> kProg /\ (forall a au s st, x_move <> RsResize a au (a, false) s st) /\
  s_standard (data (w_plain (about x_move))) <> x03 /\ exists w', process env0 (if_metas kProg x_move) w_plain (rs_instr x_move) = Ok w'.
Proof. split; [discriminate|]. split; [discriminate|]. split; [vm_compute; discriminate|]. eexists. apply (run_ok w_plain). vm_compute. reflexivity. Qed.

(** ** The lists the proxy and the bridge program send are these *)
Theorem C73_used : forall e,
  (forall asset auth u, update_metas e asset auth = if_metas (e_prog e) (RsUpdate asset auth None None None None u)) /\
  (forall asset signer recipient, transfer_metas e asset signer recipient = if_metas (e_prog e) (RsTransfer asset signer recipient None)) /\
  (forall asset owner payer sysp m, create_metas e asset owner payer sysp = if_metas (e_prog e) (RsCreate asset (asset, true) owner None None payer sysp m)) /\
  (forall asset signer recipient group, move_metas e asset signer recipient group = rs_metas (e_prog e) (RsTransfer asset signer recipient group)) /\
  (forall asset payer sysp x, alloc_metas asset payer sysp = rs_metas (e_prog e) (RsAllocate asset (Some payer) (Some sysp) x)) /\
  (forall asset auth owner payer sysp m, birth_metas e asset auth owner payer sysp = rs_metas (e_prog e) (RsCreate asset (auth, false) owner None None (Some payer) (Some sysp) m)).
Proof. intro e. repeat split; intros; repeat match goal with o : option pubkey |- _ => destruct o end; reflexivity. Qed.
Print Assumptions C73_used.

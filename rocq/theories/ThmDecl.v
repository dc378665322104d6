(** Property theorems: the declared account flags (C65) and the Rust account reader (C66). *)
From Verif Require Import Base State Layout Constr Ext World Proc Borsh Proxy Client Js Rs BaseL Spec SpecB SpecH SpecG SpecI SpecD SpecR BorshL HistL DeclL RsL TopL Sample SampleP ThmGroup ThmHist.
From Coq Require Import Strings.Byte.

(** C65: two account lists that name the same accounts and agree on the flags the
    program declares are the same to the program, whatever their other flags; the one
    undeclared flag that matters is the signature of a Proxied asset. *)
Theorem C65_unused : forall e infos infos' w i, agree_declared i infos infos' ->
  (forall k, arg infos 0 k -> acct_owner (w k) = e_prog e -> s_standard (data (w k)) = x03 -> (signed infos k <-> signed infos' k)) ->
  process e infos w i = process e infos' w i.
Proof. exact unused_flags. Qed.
Print Assumptions C65_unused.
(** the Transfer of a plain asset, with and without needless flags *)
Definition i_move (f : bool) : list ainfo := [mkInfo kAsset f true; mkInfo kHolder true f; mkInfo kTo f f; mkInfo kProg f f].
Example C65_unused_case : agree_declared ITransfer (i_move false) (i_move true) /\
  (forall k, arg (i_move false) 0 k -> acct_owner (w_plain k) = kProg -> s_standard (data (w_plain k)) <> x03) /\
  exists w', process env0 (i_move false) w_plain ITransfer = Ok w' /\ s_owner (data (w' kAsset)) = pk_bytes kTo.
Proof.
  assert (B : forall f, map ai_key (passed (i_move f)) = [kAsset; kHolder; kTo; kProg]) by (intros []; reflexivity).
  split; [|split].
  - split; [now rewrite !B|]. intros n d k Hn [a [Ha Hk]]. unfold signed, writable.
    destruct n as [|[|[|[|[|n]]]]]; try discriminate Hn; (injection Hn as <-; injection Ha as <-; cbn in Hk; subst k; cbn [d_sign d_write asset_ signer_ plain_ optional_]; split; intro Q; try discriminate Q; try (exfalso; apply Q; reflexivity)).
    + split; intros _; [exists (mkInfo kAsset true true)|exists (mkInfo kAsset false true)]; (split; [cbn; tauto|split; reflexivity]).
    + split; intros _; [exists (mkInfo kHolder true true)|exists (mkInfo kHolder true false)]; (split; [cbn; tauto|split; reflexivity]).
  - intros k [a [Ha Hk]]. injection Ha as <-. cbn in Hk. subst k. intros _ Q. vm_compute in Q. discriminate Q.
  - eexists. split; [apply (run_ok w_plain); vm_compute; reflexivity|vm_compute; reflexivity].
Qed.

(** C65: so, on other assets, passing nothing but the declared flags is enough. *)
Theorem C65_strip : forall e infos w i, coherent (passed infos) ->
  (forall k, arg infos 0 k -> acct_owner (w k) = e_prog e -> s_standard (data (w k)) <> x03) ->
  process e (strip (declared i) infos) w i = process e infos w i.
Proof. exact strip_enough. Qed.
Print Assumptions C65_strip.
Example C65_strip_case : strip (declared ITransfer) (i_move true) = i_move false.
Proof. reflexivity. Qed.

(** Without the exception it is false: the owner's Transfer of a Proxied asset signed
    by the asset goes through, and not with the declared flags alone. *)
Definition i_both : list ainfo := [mkInfo kAsset true true; mkInfo kHolder true false; mkInfo kTo false false; mkInfo kProg false false].
Theorem C65_proxied_refuted : exists e infos w w' i err, coherent (passed infos) /\ process e infos w i = Ok w' /\ process e (strip (declared i) infos) w i = Err err.
Proof.
  exists envP, i_both, w_prox. eexists. exists ITransfer. eexists.
  split; [|split; [apply (run_ok w_prox); vm_compute; reflexivity|vm_compute; reflexivity]].
  intros a b Ha Hb Q. cbn in Ha, Hb. destruct Ha as [<-|[<-|[<-|[<-|[]]]]]; destruct Hb as [<-|[<-|[<-|[<-|[]]]]]; try discriminate Q; split; reflexivity.
Qed.
Print Assumptions C65_proxied_refuted.

(** C65: the account lists of the JavaScript builders are as declared, *)
Theorem C65_js : forall prog c,
  (forall m asset auth owner group gauth payer sysp, conforms prog (ICreate m) (js_create_metas prog c asset auth owner group gauth payer sysp)) /\
  (forall x asset payer sysp, conforms prog (IAllocate x) (js_allocate_metas prog asset payer sysp)) /\
  (forall x asset payer sysp, conforms prog (IWrite x) (js_write_metas prog c asset payer sysp)) /\
  (forall u asset auth buffer group payer sysp, conforms prog (IUpdate u) (js_update_metas prog c asset auth buffer group payer sysp)) /\
  (forall buffer recipient, conforms prog IClose (js_close_metas prog buffer recipient)) /\
  (forall asset signer recipient group, conforms prog IBurn (js_burn_metas prog asset signer recipient group)) /\
  (forall asset signer recipient group, conforms prog ITransfer (js_transfer_metas prog c asset signer recipient group)) /\
  (forall d asset owner delegate, conforms prog (IApprove d) (js_approve_metas prog c asset owner delegate)) /\
  (forall d asset signer, conforms prog ILock (js_signer_metas prog c asset signer) /\ conforms prog IUnlock (js_signer_metas prog c asset signer) /\ conforms prog (IRevoke d) (js_signer_metas prog c asset signer)) /\
  (forall asset creator, conforms prog IVerify (js_verify_metas prog asset creator) /\ conforms prog IUnverify (js_verify_metas prog asset creator)) /\
  (forall asset group auth, conforms prog IGroup (js_group_metas prog c asset group auth) /\ conforms prog IUngroup (js_group_metas prog c asset group auth)) /\
  (forall asset auth next, conforms prog IHandover (js_handover_metas prog c asset auth next)) /\
  (forall t asset auth group recipient, conforms prog (IRemove t) (js_remove_metas prog c asset auth group recipient)) /\
  (forall s asset auth payer sysp, conforms prog (IResize s) (js_resize_metas prog c asset auth payer sysp)).
Proof. exact js_conforms. Qed.
Print Assumptions C65_js.
(** and so are the Rust builders', whose data the program reads as the instruction built. *)
Theorem C65_rs : forall prog x, conforms prog (rs_instr x) (rs_metas prog x).
Proof. exact rs_conforms. Qed.
Print Assumptions C65_rs.
Theorem C65_sent : forall e x w, instr_ok (rs_instr x) ->
  entry e (fst (rs_build (e_prog e) x)) w (snd (rs_build (e_prog e) x)) = process e (fst (rs_build (e_prog e) x)) w (rs_instr x).
Proof. exact rs_entry. Qed.
Print Assumptions C65_sent.
Example C65_sent_case : instr_ok (rs_instr (RsTransfer kAsset kHolder kTo None)) /\ fst (rs_build kProg (RsTransfer kAsset kHolder kTo None)) = i_move false /\
  snd (rs_build kProg (RsTransfer kAsset kHolder kTo None)) = [x07].
Proof. split; [exact I|]. split; reflexivity. Qed.
(** a list that is not as declared: the holder does not sign *)
Example C65_conforms_case : conforms kProg ITransfer (i_move false) /\ ~ conforms kProg ITransfer [mkInfo kAsset false true; mkInfo kHolder false false; mkInfo kTo false false; mkInfo kProg false false].
Proof.
  split; [exact (rs_conforms kProg (RsTransfer kAsset kHolder kTo None))|].
  intro H. inversion H; subst. match goal with H : Forall2 _ (_ :: _) (mkInfo kHolder _ _ :: _) |- _ => inversion H; subst end.
  match goal with H : fits_decl _ signer_ _ |- _ => destruct H as [[Q _]|[_ Q]]; discriminate Q end.
Qed.

(** C66: the Rust client reads an account exactly if it is long enough and the four
    enumeration bytes are in range, and it shows the fields that are there. *)
Theorem C66_read : forall d a, rs_read d = Some a <-> (168 <= length d)%nat /\ good_head d /\ shows d a.
Proof. exact rs_read_exact. Qed.
Print Assumptions C66_read.
Example C66_read_case : exists a, rs_read plain_data = Some a /\ ra_owner a = pk_bytes kHolder /\ ra_state a = x00.
Proof. eexists. split; [vm_compute; reflexivity|]. split; vm_compute; reflexivity. Qed.
Example C66_read_bad : good_head plain_data /\ rs_read (put plain_data 2 [x04]) = None /\ rs_read (firstn 167 plain_data) = None.
Proof. split; [repeat split; vm_compute; auto|]. split; vm_compute; reflexivity. Qed.

(** C66: whatever happened since the program was deployed, every asset can be read. *)
Theorem C66_always : forall p w w' k, p <> pk_zero -> (forall x, acct_owner (w x) <> p) -> history p w w' -> asset_of p w' k ->
  exists a, rs_read (data (w' k)) = Some a /\ shows (data (w' k)) a.
Proof. exact always_readable. Qed.
Print Assumptions C66_always.
(** also after the story of [C14_none_refuted], an asset made by overlong Writes *)
Example C66_always_case : exists w, steps none_story w_none = Ok w /\ history kProg w_none w /\ (forall x, acct_owner (w_none x) <> kProg) /\ asset_of kProg w kBuf.
Proof.
  exists (run w_none (steps none_story w_none)).
  assert (E : steps none_story w_none = Ok (run w_none (steps none_story w_none))) by (apply run_ok; vm_compute; reflexivity).
  split; [exact E|]. split; [refine (steps_history kProg none_story _ w_none w_none _ (hist_refl _ _) E); repeat constructor; exact env0_ok|].
  split.
  - intro x. unfold w_none, table, find. repeat match goal with |- context [if ?c then _ else _] => destruct c end; cbn; discriminate.
  - split; [vm_compute; reflexivity|]. split; [vm_compute; lia|vm_compute; reflexivity].
Qed.

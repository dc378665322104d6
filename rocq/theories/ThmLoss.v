(** An asset ceases to exist only by Burn — except by two removals (C81). *)
From Verif Require Import Base State Layout Constr Ext World Proc Spec SpecB SpecH SpecG SpecRent LayoutL RemoveT WreckL Sample ThmAuth ThmBuild ThmFrame ThmHist ThmRemove.
From Verif Require AuthL.
From Coq Require Import Strings.Byte.

(** C81: from a well-formed asset, any single successful request of a real extension
    type leaves an asset, or it is the Burn of that asset. *)
Theorem C81_survives : forall e infos w i w' k l, env_ok e -> e_prog e <> pk_zero -> sized w -> lam_ok w -> plain_request i ->
  asset_of (e_prog e) w k -> well_formed (data (w k)) l -> process e infos w i = Ok w' ->
  (burns infos i k /\ w' k = mkAcct 0 pk_zero []) \/ asset_of (e_prog e) w' k.
Proof. exact survives_step. Qed.
Print Assumptions C81_survives.
Example C81_survives_case : exists w', asset_of kProg w_two kAsset /\ well_formed (data (w_two kAsset)) two_exts /\ plain_request (IRemove XBlob) /\
  process env0 (i_remove kAsset) w_two (IRemove XBlob) = Ok w' /\ asset_of kProg w' kAsset.
Proof.
  eexists. split; [split; [reflexivity|split; [vm_compute; lia|reflexivity]]|].
  split; [change (data (w_two kAsset)) with two_data; apply (mk_wf _ two_exts); vm_compute; reflexivity|]. split; [discriminate|].
  split; [apply (run_ok w_two); vm_compute; reflexivity|]. split; [vm_compute; reflexivity|]. split; [vm_compute; lia|vm_compute; reflexivity].
Qed.

(** Whatever happens — requests by anybody, other programs in between — as long as no
    extension is taken out of the middle of it. *)
Theorem C81_history : forall p w w' k l, p <> pk_zero -> history_of (careful k) p w w' -> sized w -> lam_ok w -> asset_of p w k -> tidy (data (w k)) l ->
  burned_in p w w' k \/ asset_of p w' k.
Proof. exact survives_history. Qed.
Print Assumptions C81_history.
Definition i_grow : list ainfo := [mkInfo kAsset false true; mkInfo kAuth true false; mkInfo kHolder true true; mkInfo pk_zero false false].
Definition w_grown : world := run w_two (process env0 i_grow w_two (IResize (Extend 8))).
Lemma two_tight : tight (data (w_two kAsset)) two_exts.
Proof. change (data (w_two kAsset)) with two_data. apply (mk_wf _ two_exts); vm_compute; reflexivity. Qed.
Example C81_history_case : history_of (careful kAsset) kProg w_two w_grown /\ asset_of kProg w_two kAsset /\ tidy (data (w_two kAsset)) two_exts /\
  data (w_grown kAsset) <> data (w_two kAsset).
Proof.
  split; [|split; [|split]].
  - apply (hof_instr _ _ w_two w_two env0 i_grow (IResize (Extend 8)) w_grown); [constructor|reflexivity|exact env0_ok| |].
    + split; [cbn [plain_request]; lia|]. intros t l E. discriminate E.
    + apply (run_ok w_two). vm_compute. reflexivity.
  - split; [reflexivity|split; [vm_compute; lia|reflexivity]].
  - destruct two_tight as (hd & L). exists hd, 0%nat. exact L.
  - vm_compute. discriminate.
Qed.

(** The exception.  Two neighbouring extensions, the first removed first: the second
    removal takes [blk_size a] bytes too many — from what stood behind, and if nothing
    stood there, from what stood in front. *)
Theorem C81_twice : forall e1 e2 infos1 infos2 w w1 w2 w3 k hd l1 a b l2 tl, arg infos1 0 k -> arg infos2 0 k ->
  layout (data (w k)) hd (l1 ++ a :: b :: l2) tl ->
  Forall (fun x => bk_type x <> bk_type a) l1 -> Forall (fun x => bk_type x <> bk_type b) l1 ->
  process e1 infos1 w (IRemove (bk_type a)) = Ok w1 -> data (w2 k) = data (w1 k) ->
  process e2 infos2 w2 (IRemove (bk_type b)) = Ok w3 ->
  let behind := enc_sect (168 + sect_size l1 + blk_size a + blk_size b) l2 ++ tl in
  data (w3 k) = firstn (Z.to_nat (168 + sect_size l1 + zlen behind - blk_size a)) (hd ++ enc_sect 168 l1 ++ skipn (Z.to_nat (blk_size a)) behind) /\
  (lam_ok w2 -> forall r, arg infos2 3 r -> r <> k -> 168 + sect_size l1 + zlen behind <= blk_size a ->
     lamports (w3 k) = 0 /\ lamports (w3 r) = lamports (w2 r) + lamports (w2 k)).
Proof. exact remove_twice. Qed.
Print Assumptions C81_twice.

(** With no other extension it is the header that is cut: no asset is left, and if the
    first extension was at least as large as the header, no lamports either. *)
Theorem C81_both : forall e1 e2 infos1 infos2 w w1 w2 w3 k a b, arg infos1 0 k -> arg infos2 0 k ->
  tight (data (w k)) [a; b] -> process e1 infos1 w (IRemove (bk_type a)) = Ok w1 -> data (w2 k) = data (w1 k) ->
  process e2 infos2 w2 (IRemove (bk_type b)) = Ok w3 ->
  data (w3 k) = firstn (Z.to_nat (168 - blk_size a)) (data (w k)) /\ ~ initialized (data (w3 k)) /\
  (lam_ok w2 -> forall r, arg infos2 3 r -> r <> k -> 168 <= blk_size a -> lamports (w3 k) = 0 /\ lamports (w3 r) = lamports (w2 r) + lamports (w2 k)).
Proof. exact remove_both. Qed.
Print Assumptions C81_both.

(** It happens: an asset of a holder who signs nothing loses its blob and its creators and
    with them the end of its header. *)
Definition w_half : world := run w_two (process env0 (i_remove kAsset) w_two (IRemove XBlob)).
Definition w_cut : world := run w_half (process env0 (i_remove kAsset) w_half (IRemove XCreators)).
Theorem C81_cut_refuted : exists w w1 w2, tight (data (w kAsset)) two_exts /\ asset_of kProg w kAsset /\
  s_owner (data (w kAsset)) = pk_bytes kHolder /\ ~ signed (i_remove kAsset) kHolder /\
  process env0 (i_remove kAsset) w (IRemove XBlob) = Ok w1 /\ process env0 (i_remove kAsset) w1 (IRemove XCreators) = Ok w2 /\
  ~ asset_of kProg w2 kAsset /\ length (data (w2 kAsset)) = 144%nat /\ nth 0 (data (w2 kAsset)) x00 = x01.
Proof.
  exists w_two, w_half, w_cut.
  split; [change (data (w_two kAsset)) with two_data; apply (mk_wf _ two_exts); vm_compute; reflexivity|].
  split; [split; [reflexivity|split; [vm_compute; lia|reflexivity]]|]. split; [reflexivity|].
  split; [intro S; apply AuthL.signed_acct in S; vm_compute in S; discriminate S|].
  split; [apply (run_ok w_two); vm_compute; reflexivity|]. split; [apply (run_ok w_half); vm_compute; reflexivity|].
  split; [intros [_ [L _]]; vm_compute in L; lia|]. split; vm_compute; reflexivity.
Qed.
Print Assumptions C81_cut_refuted.

(** And with a larger blob: nothing is left of the account and its rent is where the
    authority wanted it. *)
Definition big_exts : list blk := [blk_of XBlob (repeat x01 152); blk_of XCreators (pk_bytes kOther ++ [x00; x64])].
Definition big_data : bytes := mk (header x01 x00 x00 x01 kHolder pk_zero kAuth pk_zero x00) big_exts.
Definition w_big : world := table [(kAsset, acc big_data); (kHolder, wal 700); (kTo, wal 5)].
Definition w_big1 : world := run w_big (process env0 (i_remove kAsset) w_big (IRemove XBlob)).
Definition w_big2 : world := run w_big1 (process env0 (i_remove kAsset) w_big1 (IRemove XCreators)).
Theorem C81_rent_refuted : exists w w1 w2, tight (data (w kAsset)) big_exts /\ asset_of kProg w kAsset /\
  s_owner (data (w kAsset)) = pk_bytes kHolder /\ ~ signed (i_remove kAsset) kHolder /\
  process env0 (i_remove kAsset) w (IRemove XBlob) = Ok w1 /\ process env0 (i_remove kAsset) w1 (IRemove XCreators) = Ok w2 /\
  data (w2 kAsset) = [] /\ lamports (w2 kAsset) = 0 /\ lamports (w2 kTo) = lamports (w kTo) + lamports (w kAsset) /\ 0 < lamports (w kAsset).
Proof.
  exists w_big, w_big1, w_big2.
  split; [change (data (w_big kAsset)) with big_data; apply (mk_wf _ big_exts); vm_compute; reflexivity|].
  split; [split; [reflexivity|split; [vm_compute; lia|reflexivity]]|]. split; [reflexivity|].
  split; [intro S; apply AuthL.signed_acct in S; vm_compute in S; discriminate S|].
  split; [apply (run_ok w_big); vm_compute; reflexivity|]. split; [apply (run_ok w_big1); vm_compute; reflexivity|].
  repeat split; vm_compute; reflexivity.
Qed.
Print Assumptions C81_rent_refuted.

(** An account cut like that is lost: no instruction changes or empties it again ... *)
Theorem C81_wreck : forall e infos w i w' k, env_ok e -> e_prog e <> pk_zero -> lam_ok w -> process e infos w i = Ok w' ->
  acct_owner (w k) = e_prog e -> 0 < zlen (data (w k)) < 168 -> nth 0 (data (w k)) x00 = x01 ->
  acct_owner (w' k) = e_prog e /\ data (w' k) = data (w k) /\ lamports (w k) <= lamports (w' k).
Proof. exact held_step. Qed.
Print Assumptions C81_wreck.
(** ... for ever, whatever anybody does. *)
Theorem C81_wreck_forever : forall p k w w', p <> pk_zero -> fair_history p w w' -> lam_ok w ->
  acct_owner (w k) = p -> 0 < zlen (data (w k)) < 168 -> nth 0 (data (w k)) x00 = x01 ->
  acct_owner (w' k) = p /\ data (w' k) = data (w k) /\ lamports (w k) <= lamports (w' k).
Proof. exact held_history. Qed.
Print Assumptions C81_wreck_forever.
Example C81_wreck_case : acct_owner (w_cut kAsset) = kProg /\ 0 < zlen (data (w_cut kAsset)) < 168 /\ nth 0 (data (w_cut kAsset)) x00 = x01 /\
  0 < lamports (w_cut kAsset) /\ process env0 [mkInfo kAsset true true; mkInfo kTo false true] w_cut IClose = Err EAlreadyInitialized.
Proof. repeat split; vm_compute; reflexivity. Qed.

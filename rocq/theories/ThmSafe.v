(** Property theorems: requests stay inside their data and end (C89). *)
From Verif Require Import Base State Layout Constr Ext World Proc BaseL Spec SpecB SpecC SpecE SpecF SpecSafe WorldL LayoutL UpdateT SafeM SafeN SafeO SafeP Sample SampleE ThmExact ThmExactB ThmBuild ThmUpdate.
From Coq Require Import Strings.Byte.

(** Requests that neither fill nor move an extension: whatever accounts are passed, as
    long as the extension headers in them lead forward and royalties can be read, the
    request succeeds, is refused or aborts; it makes no access outside the data it
    holds and does not loop. *)
Theorem C89_steady : forall e infos w, all_settled infos w -> forall i, steady i -> contained (process e infos w i).
Proof. exact steady_contained. Qed.
Print Assumptions C89_steady.
(** every account with well-formed extensions is settled, and so is an empty one *)
Theorem C89_settled : forall d hd l tl, layout d hd l tl ->
  (forall b, lookup XRoyalties (ext_list l) = Some b -> parses XRoyalties b) -> settled d.
Proof. exact wf_settled. Qed.
Print Assumptions C89_settled.
Definition i_mv : list ainfo := [mkInfo kAsset false true; mkInfo kHolder true false; mkInfo kTo false false; mkInfo kGroup false false].
Lemma up_layout : layout (mk up_head (up_exts cur_creators)) up_head (up_exts cur_creators) [].
Proof. unfold mk. rewrite <- (app_nil_r (enc_sect 168 _)). apply mk_layout. vm_compute. reflexivity. Qed.
Example C89_steady_case : all_settled i_mv w_up /\ steady ITransfer /\
  (exists w', process env0 i_mv w_up ITransfer = Ok w') /\ ~ settled (mk up_head [] ++ le_enc 4 2 ++ zeros 4 ++ le_enc 4 168 ++ zeros 4).
Proof.
  split.
  { intros a [<-|[<-|[<-|[<-|[]]]]]; try exact nil_settled.
    apply (C89_settled _ _ _ _ up_layout). intros b E. vm_compute in E. discriminate E. }
  split; [exact I|]. split; [eexists; apply (run_ok w_up); vm_compute; reflexivity|].
  intros [A _]. set (d := _ ++ _) in A. 
  inversion A as [c E|c E|c E _]; [vm_compute in E; discriminate E|vm_compute in E; discriminate E|revert E; vm_compute; congruence].
Qed.

(** Remove of an extension of a well-formed account *)
Theorem C89_remove : forall e infos w asset t l, arg infos 0 asset -> well_formed (data (w asset)) l -> t <> XNone ->
  contained (process e infos w (IRemove t)).
Proof. exact remove_c. Qed.
Print Assumptions C89_remove.
Example C89_remove_case : arg (i_rm kAuth) 0 kGroup /\ well_formed (data (w_rm 0 kGroup)) (grp_exts 0 3) /\
  okb (process env0 (i_rm kAuth) (w_rm 0) (IRemove XGrouping)) = true.
Proof. split; [ok_arg|]. split; [apply mk_wf; vm_compute; reflexivity|vm_compute; reflexivity]. Qed.

(** Write, as long as no more bytes arrive than were announced and completed
    royalties can be read *)
Theorem C89_write : forall e infos w a asset hd l t len bs, arg infos 0 asset -> partial_account (data (w asset)) hd l t len bs ->
  let p := if w_overwrite a then w_bytes a else bs ++ w_bytes a in
  zlen p <= len -> (zlen p = len -> royal_ok t p) -> contained (process e infos w (IWrite a)).
Proof. exact write_c. Qed.
Print Assumptions C89_write.
Example C89_write_case : arg (i_al true) 0 kAsset /\ partial_account (data (w_al part_data 9000 kAsset)) (repeat x00 168) plain_exts XLinks 5 [x01; x41] /\
  zlen ([x01; x41] ++ [x02; x42; x43]) <= 5 /\ royal_ok XLinks ([x01; x41] ++ [x02; x42; x43]) /\
  okb (process env0 (i_al true) (w_al part_data 9000) (IWrite (mkDataInput false [x02; x42; x43]))) = true.
Proof.
  split; [ok_arg|]. split. { split; [reflexivity|]. split; [reflexivity|]. split; [constructor; [apply blkb_ok; vm_compute; reflexivity|constructor]|]. split; [discriminate|]. vm_compute. intuition discriminate. }
  split; [vm_compute; discriminate|]. split; [intro E; discriminate E|vm_compute; reflexivity].
Qed.
(** More bytes than announced: from an account that does not exist, four requests its
    key signs lead to a write outside the account.  The surplus bytes form an
    extension that claims a boundary; an overwriting Write of nothing cuts the account
    to that boundary, behind which the next Write copies its bytes. *)
Definition forged : bytes := repeat x01 24 ++ le_enc 4 (ext_code XBlob) ++ le_enc 4 16 ++ le_enc 4 224 ++ repeat x00 4 ++ repeat x00 16.
Theorem C89_write_refuted : exists w', data (w_build kBuf) = [] /\
  steps [(env0, i_build kBuf, IAllocate (mkExtInput XBucket 24 None));
         (env0, i_build kBuf, IWrite (mkDataInput false forged));
         (env0, i_build kBuf, IWrite (mkDataInput true []))] w_build = Ok w' /\
  zlen (data (w' kBuf)) = 224 /\
  process env0 (i_build kBuf) w' (IWrite (mkDataInput false (repeat x41 16))) = UB.
Proof.
  eexists. split; [reflexivity|]. split; [apply (run_ok w_build); vm_compute; reflexivity|]. split; vm_compute; reflexivity.
Qed.
Print Assumptions C89_write_refuted.

(** Update of an asset whose extensions fill it, with a payload given or from a buffer
    that does not hold royalties *)
Theorem C89_update : forall e infos w a asset hd l, arg infos 0 asset -> layout (data (w asset)) hd l [] -> (length l < e_fuel e)%nat -> sized w ->
  (forall b, lookup XRoyalties (ext_list l) = Some b -> parses XRoyalties b) ->
  (forall x, u_ext a = Some x -> x_type x <> XNone /\ x_length x <= 2000000000 /\ royal_ok (x_type x) (given x)) ->
  (forall bk, arg infos 2 bk -> le32 (data (w bk)) 168 <> ext_code XRoyalties) ->
  contained (process e infos w (IUpdate a)).
Proof. exact update_c. Qed.
Print Assumptions C89_update.
Example C89_update_case : arg (i_up kProg) 0 kAsset /\ layout (data (w_up kAsset)) up_head (up_exts cur_creators) [] /\ (length (up_exts cur_creators) < e_fuel env0)%nat /\ sized w_up /\
  lookup XRoyalties (ext_list (up_exts cur_creators)) = None /\ royal_ok XCreators new_creators /\ le32 (data (w_up kProg)) 168 <> ext_code XRoyalties /\
  okb (process env0 (i_up kProg) w_up (up (mkExtInput XCreators 102 (Some new_creators)))) = true.
Proof.
  split; [ok_arg|]. split; [exact up_layout|]. split; [vm_compute; lia|]. split; [ok_sized|]. split; [reflexivity|].
  split; [intro E; discriminate E|]. split; [vm_compute; discriminate|vm_compute; reflexivity].
Qed.
(** Create, from nothing or from an account with complete extensions and spare zero
    bytes or an incomplete last extension *)
Theorem C89_create : forall e infos w m asset hd l, env_ok e -> e_prog e <> pk_zero -> arg infos 0 asset -> sized w ->
  (exists n, open_account (data (w asset)) hd l n) \/ (exists t len bs, partial_account (data (w asset)) hd l t len bs /\ zlen bs < len) ->
  Forall (fun b => royal_ok (bk_type b) (bk_data b)) l ->
  Forall (fun x => ext_arg x /\ royal_ok (x_type x) (given x)) (inline m) ->
  (forall g, arg infos 3 g -> ahead (data (w g)) 168) ->
  contained (process e infos w (ICreate m)).
Proof. exact create_c. Qed.
Print Assumptions C89_create.
Example C89_create_case : let i := i_cr to_grp (mkInfo kDeleg true false) in arg i 0 kAsset /\ sized (w_cr raw_data 9000) /\
  open_account (data (w_cr raw_data 9000 kAsset)) (repeat x00 168) plain_exts 0 /\ Forall (fun b => royal_ok (bk_type b) (bk_data b)) plain_exts /\
  Forall (fun x => ext_arg x /\ royal_ok (x_type x) (given x)) (inline (m_cr NonFungible [x_link])) /\ ahead (data (w_cr raw_data 9000 kGroup)) 168 /\
  okb (process env0 i (w_cr [] 9000) (ICreate (m_cr NonFungible [x_link]))) = true.
Proof.
  intro i. split; [ok_arg|]. split; [ok_sized|]. split. { right. split; [lia|]. exact raw_layout. }
  split; [constructor; [intro E; discriminate E|constructor]|].
  split. { constructor; [split; [|intro E; discriminate E]|constructor]. vm_compute. intuition discriminate. }
  split; [apply (well_ahead _ (grp_exts 2 3)); apply mk_wf; vm_compute; reflexivity|vm_compute; reflexivity].
Qed.

(** A surplus header that ends at its own beginning: the walk that looks for the
    completed extension never ends. *)
Definition ring : bytes := repeat x01 24 ++ le_enc 4 (ext_code XBlob) ++ le_enc 4 16 ++ le_enc 4 208 ++ repeat x00 4.
Theorem C89_walk_refuted : exists w', data (w_build kBuf) = [] /\
  process env0 (i_build kBuf) w_build (IAllocate (mkExtInput XBucket 24 None)) = Ok w' /\
  partial_account (data (w' kBuf)) (repeat x00 168) [] XBucket 24 [] /\
  process env0 (i_build kBuf) w' (IWrite (mkDataInput false ring)) = Diverge.
Proof.
  eexists. split; [reflexivity|]. split; [apply (run_ok w_build); vm_compute; reflexivity|]. split; [|vm_compute; reflexivity].
  split; [vm_compute; reflexivity|]. split; [reflexivity|]. split; [constructor|]. split; [discriminate|]. vm_compute. intuition discriminate.
Qed.
Print Assumptions C89_walk_refuted.

(** Royalties whose account tag is not one of the three variants are turned into an
    invalid enum value before anything refuses them. *)
Definition bad_tag : bytes := le_enc 8 500 ++ le_enc 4 3 ++ le_enc 4 40 ++ le_enc 8 7 ++ pk_bytes kOther.
Theorem C89_tag_refuted : arg (i_up kProg) 0 kAsset /\ layout (data (w_up kAsset)) up_head (up_exts cur_creators) [] /\
  process env0 (i_up kProg) w_up (up (mkExtInput XRoyalties (zlen bad_tag) (Some bad_tag))) = UB.
Proof. split; [ok_arg|]. split; [exact up_layout|]. vm_compute. reflexivity. Qed.
Print Assumptions C89_tag_refuted.

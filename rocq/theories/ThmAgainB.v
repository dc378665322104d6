(** The same request twice (C88): Write, and Update from a buffer. *)
From Verif Require Import Base State Layout Constr Ext World Proc Spec SpecB SpecF SpecH SpecTake WorldL LayoutL AgainN AgainO Sample SampleE ThmBuild ThmUpdate ThmExactB ThmExactC.
From Coq Require Import Strings.Byte.

(** Write with the overwrite flag, twice, leaves what one leaves. *)
Theorem C88_overwrite : forall e infos w a w1 w2 asset hd l t len bs,
  arg infos 0 asset -> partial_account (data (w asset)) hd l t len bs -> w_overwrite a = true -> zlen (w_bytes a) <= len ->
  process e infos w (IWrite a) = Ok w1 -> process e infos w1 (IWrite a) = Ok w2 -> forall k, data (w2 k) = data (w1 k).
Proof. exact overwrite_again. Qed.
Print Assumptions C88_overwrite.
Definition all_five : data_input := mkDataInput true [x01; x41; x02; x42; x43].
Lemma part_is : partial_account (data (w_al part_data 9000 kAsset)) (repeat x00 168) plain_exts XLinks 5 [x01; x41].
Proof. apply C58_overwrite_case. Qed.
Example C88_overwrite_case : arg (i_al true) 0 kAsset /\ partial_account (data (w_al part_data 9000 kAsset)) (repeat x00 168) plain_exts XLinks 5 [x01; x41] /\
  exists w1 w2, process env0 (i_al true) (w_al part_data 9000) (IWrite all_five) = Ok w1 /\ process env0 (i_al true) w1 (IWrite all_five) = Ok w2 /\ data (w1 kAsset) = full_data.
Proof.
  split; [apply C58_overwrite_case|]. split; [exact part_is|]. eexists. eexists. split; [apply (run_ok (w_al part_data 9000)); vm_compute; reflexivity|].
  split; [apply (run_ok (w_al part_data 9000)); vm_compute; reflexivity|vm_compute; reflexivity].
Qed.

(** Without the flag the bytes are there twice. *)
Theorem C88_append : forall e infos w a w1 w2 asset hd l t len bs,
  arg infos 0 asset -> partial_account (data (w asset)) hd l t len bs -> w_overwrite a = false ->
  zlen bs + zlen (w_bytes a) < len -> zlen bs + zlen (w_bytes a) + zlen (w_bytes a) < len ->
  process e infos w (IWrite a) = Ok w1 -> process e infos w1 (IWrite a) = Ok w2 ->
  partial_account (data (w2 asset)) hd l t len (bs ++ w_bytes a ++ w_bytes a).
Proof. exact append_twice. Qed.
Print Assumptions C88_append.
Example C88_append_case : exists w1 w2, process env0 (i_al true) (w_al part_data 9000) (IWrite (mkDataInput false [x02])) = Ok w1 /\
  process env0 (i_al true) w1 (IWrite (mkDataInput false [x02])) = Ok w2 /\ data (w2 kAsset) = part_data ++ [x02; x02].
Proof.
  eexists. eexists. split; [apply (run_ok (w_al part_data 9000)); vm_compute; reflexivity|].
  split; [apply (run_ok (w_al part_data 9000)); vm_compute; reflexivity|vm_compute; reflexivity].
Qed.
(** The Write that completes a payload cannot be repeated, nor can another follow, if
    padding stands behind the payload; *)
Theorem C88_complete : forall e infos w a w1 asset hd l t len bs,
  arg infos 0 asset -> partial_account (data (w asset)) hd l t len bs -> zlen bs < len -> w_overwrite a = false ->
  zlen bs + zlen (w_bytes a) = len -> len mod 8 <> 0 -> process e infos w (IWrite a) = Ok w1 ->
  forall a2, refused e infos w1 (IWrite a2).
Proof. exact append_full. Qed.
Print Assumptions C88_complete.
Definition last_three : data_input := mkDataInput false [x02; x42; x43].
Example C88_complete_case : exists w1, process env0 (i_al true) (w_al part_data 9000) (IWrite last_three) = Ok w1 /\
  process env0 (i_al true) w1 (IWrite last_three) = Err EInvalidAccountLength.
Proof. eexists. split; [apply (run_ok (w_al part_data 9000)); vm_compute; reflexivity|vm_compute; reflexivity]. Qed.
(** it can be if the payload is a multiple of eight bytes long: then the bytes stand once
    more, behind the extension, and if they look like an extension, they are one. *)
Definition half_bucket : bytes := repeat x00 168 ++ le_enc 4 (ext_code XBucket) ++ le_enc 4 24 ++ le_enc 4 (168 + 16 + (24 + 7) / 8 * 8) ++ repeat x00 4.
Definition looks_like : bytes := le_enc 4 (ext_code XBlob) ++ le_enc 4 8 ++ le_enc 4 232 ++ repeat x00 4 ++ [x00; x01; x02; x03; x04; x05; x06; x07].
Theorem C88_complete_refuted : exists w w1 w2 a,
  partial_account (data (w kAsset)) (repeat x00 168) [] XBucket 24 [] /\ w_overwrite a = false /\ zlen (w_bytes a) = 24 /\
  process env0 (i_al true) w (IWrite a) = Ok w1 /\ process env0 (i_al true) w1 (IWrite a) = Ok w2 /\
  tight (data (w1 kAsset)) [blk_of XBucket (w_bytes a)] /\
  tight (data (w2 kAsset)) [blk_of XBucket (w_bytes a); blk_of XBlob (skipn 16 (w_bytes a))].
Proof.
  exists (w_al half_bucket 9000). eexists. eexists. exists (mkDataInput false looks_like).
  split. { split; [reflexivity|]. split; [reflexivity|]. split; [constructor|]. split; [discriminate|]. vm_compute. intuition discriminate. }
  split; [reflexivity|]. split; [reflexivity|].
  split; [apply (run_ok (w_al half_bucket 9000)); vm_compute; reflexivity|]. split; [apply (run_ok (w_al half_bucket 9000)); vm_compute; reflexivity|].
  split.
  - match goal with |- tight ?d ?l => replace d with (mk (repeat x00 168) l) by (vm_compute; reflexivity) end. apply mk_wf. vm_compute. reflexivity.
  - match goal with |- tight ?d ?l => replace d with (mk (repeat x00 168) l) by (vm_compute; reflexivity) end. apply mk_wf. vm_compute. reflexivity.
Qed.
Print Assumptions C88_complete_refuted.

(** An Update from a buffer that holds neither creators nor a grouping, sent again, changes nothing. *)
Theorem C88_buffer : forall e infos w w1 k bk l u, env_ok e -> e_prog e <> pk_zero -> sized w -> arg infos 0 k -> arg infos 2 bk -> bk <> e_prog e ->
  well_formed (data (w k)) l -> u_ext u = None -> le32 (data (w bk)) 168 <> ext_code XCreators -> le32 (data (w bk)) 168 <> ext_code XGrouping ->
  process e infos w (IUpdate u) = Ok w1 -> settled e infos w1 (IUpdate u).
Proof. exact buffer_again. Qed.
Print Assumptions C88_buffer.
Definition w_bb : world := w_buf (mk up_head (up_exts cur_creators)) (buf_data XBlob [x01; x41; x07; x08; x09; x0a; x0b; x0c; x0d]).
Example C88_buffer_case : sized w_bb /\ well_formed (data (w_bb kAsset)) (up_exts cur_creators) /\ arg (ThmUpdate.i_up kBuf) 0 kAsset /\ arg (ThmUpdate.i_up kBuf) 2 kBuf /\
  le32 (data (w_bb kBuf)) 168 = ext_code XBlob /\
  exists w1 w2, process env0 (ThmUpdate.i_up kBuf) w_bb up_buf = Ok w1 /\ process env0 (ThmUpdate.i_up kBuf) w1 up_buf = Ok w2 /\ data (w1 kAsset) <> data (w_bb kAsset).
Proof.
  split; [apply table_sized; vm_compute; reflexivity|]. split; [apply mk_wf; vm_compute; reflexivity|]. split; [ok_arg|]. split; [ok_arg|]. split; [reflexivity|].
  eexists. eexists. split; [apply (run_ok w_bb); vm_compute; reflexivity|]. split; [apply (run_ok w_bb); vm_compute; reflexivity|vm_compute; discriminate].
Qed.
(** With a grouping in the buffer it is not so: the first Update writes the group's size over the
    type and the length in the buffer. *)
Definition w_bg : world := w_buf (grp_data 1 3) (buf_data XGrouping (grp_payload 1 9)).
Theorem C88_buffer_refuted : exists w w1 w2, sized w /\ tight (data (w kAsset)) (grp_exts 1 3) /\ le32 (data (w kBuf)) 168 = ext_code XGrouping /\
  process env0 (ThmUpdate.i_up kBuf) w up_buf = Ok w1 /\ tight (data (w1 kAsset)) (grp_exts 1 9) /\ le32 (data (w1 kBuf)) 168 = ext_code XAttributes /\
  process env0 (ThmUpdate.i_up kBuf) w1 up_buf = Ok w2 /\ tight (data (w2 kAsset)) (grp_exts 1 9 ++ [blk_of XAttributes []]).
Proof.
  exists w_bg. eexists. eexists. split; [apply table_sized; vm_compute; reflexivity|].
  split; [match goal with |- tight ?d ?l => replace d with (mk (firstn 168 (grp_data 1 3)) l) by (vm_compute; reflexivity) end; apply mk_wf; vm_compute; reflexivity|]. split; [reflexivity|].
  split; [apply (run_ok w_bg); vm_compute; reflexivity|].
  split; [match goal with |- tight ?d ?l => replace d with (mk (firstn 168 (grp_data 1 3)) l) by (vm_compute; reflexivity) end; apply mk_wf; vm_compute; reflexivity|].
  split; [vm_compute; reflexivity|]. split; [apply (run_ok w_bg); vm_compute; reflexivity|].
  match goal with |- tight ?d ?l => replace d with (mk (firstn 168 (grp_data 1 3)) l) by (vm_compute; reflexivity) end. apply mk_wf. vm_compute. reflexivity.
Qed.
Print Assumptions C88_buffer_refuted.

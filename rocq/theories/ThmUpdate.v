(** Property theorems: Update (C24, C25, C31, C33, C34, C39, C44). *)
From Verif Require Import Base State Layout Constr Ext World Proc BaseL Spec SpecB WorldL AllocC CreateL BuildL UpdateT Sample ThmBuild.
From Coq Require Import Strings.Byte.

(** C24: a payload given with the instruction replaces exactly the first extension
    of its type, in place; every other extension keeps type, order and data, and
    header and other accounts change only as requested ... *)
Theorem C24_update_replaces : forall e infos w a w' asset l x bs l1 cur l2, env_ok e -> e_prog e <> pk_zero -> sized w ->
  arg infos 0 asset -> well_formed (data (w asset)) l ->
  u_ext a = Some x -> ext_arg x -> x_data x = Some bs ->
  ext_list l = l1 ++ (x_type x, cur) :: l2 -> ~ In (x_type x) (map fst l1) ->
  process e infos w (IUpdate a) = Ok w' ->
  exists auth l' b, arg infos 1 auth /\ signed infos auth /\ s_authority (data (w asset)) = pk_bytes auth /\
    mutable (data (w asset)) /\ header_updated a (data (w asset)) (data (w' asset)) /\
    well_formed (data (w' asset)) l' /\ ext_list l' = l1 ++ (x_type x, b) :: l2 /\
    updated_payload (x_type x) (pk_bytes auth) cur bs b /\ valid_payload (x_type x) b /\
    (forall k, k <> asset -> data (w' k) = data (w k)).
Proof. exact update_replaces. Qed.
Print Assumptions C24_update_replaces.
(** ... without a payload (length 0) the extension is emptied, or an empty one
    added, and nothing is validated ... *)
Theorem C24_update_none : forall e infos w a w' asset l x, env_ok e -> e_prog e <> pk_zero -> sized w ->
  arg infos 0 asset -> well_formed (data (w asset)) l ->
  u_ext a = Some x -> ext_arg x -> x_data x = None ->
  process e infos w (IUpdate a) = Ok w' ->
  exists auth l', arg infos 1 auth /\ signed infos auth /\ s_authority (data (w asset)) = pk_bytes auth /\
    mutable (data (w asset)) /\ header_updated a (data (w asset)) (data (w' asset)) /\
    well_formed (data (w' asset)) l' /\ ext_list l' = put_ext (x_type x) [] (ext_list l) /\ x_length x = 0 /\
    (forall k, k <> asset -> data (w' k) = data (w k)).
Proof. exact update_none. Qed.
Print Assumptions C24_update_none.
(** ... from a buffer account the stored payload is what the buffer holds after the
    instruction, for types other than creators also what it held before; all other
    extensions are kept. *)
Theorem C24_update_buffer : forall e infos w a w' asset l bk, env_ok e -> e_prog e <> pk_zero -> sized w ->
  arg infos 0 asset -> arg infos 2 bk -> bk <> e_prog e -> well_formed (data (w asset)) l ->
  (forall x, u_ext a = Some x -> ext_arg x) ->
  process e infos w (IUpdate a) = Ok w' ->
  exists t b l', well_formed (data (w' asset)) l' /\ le32 (data (w bk)) 168 = ext_code t /\ le32 (data (w bk)) 172 = zlen b /\
    b = sub (data (w' bk)) 184 (length b) /\ (t <> XCreators -> b = sub (data (w bk)) 184 (length b)) /\
    (forall l1 cur l2, ext_list l = l1 ++ (t, cur) :: l2 -> ~ In t (map fst l1) -> ext_list l' = l1 ++ (t, b) :: l2) /\
    (~ In t (map fst (ext_list l)) -> ext_list l' = ext_list l ++ [(t, b)]).
Proof. exact update_buffer_exts. Qed.
Print Assumptions C24_update_buffer.
Theorem C24_update_header : forall e infos w a w' asset l, env_ok e -> e_prog e <> pk_zero -> sized w ->
  arg infos 0 asset -> arg infos 2 (e_prog e) -> well_formed (data (w asset)) l -> u_ext a = None ->
  process e infos w (IUpdate a) = Ok w' ->
  exists auth, arg infos 1 auth /\ signed infos auth /\ s_authority (data (w asset)) = pk_bytes auth /\
    mutable (data (w asset)) /\ header_updated a (data (w asset)) (data (w' asset)) /\
    well_formed (data (w' asset)) l /\ (forall k, k <> asset -> data (w' k) = data (w k)).
Proof. exact update_header. Qed.
Print Assumptions C24_update_header.

Definition cur_creators : bytes := pk_bytes kOther ++ [x01; x28] ++ pk_bytes kAuth ++ [x00; x3c].
Definition up_exts (c : bytes) : list blk :=
  [blk_of XBlob five; blk_of XCreators c; blk_of XGrouping (grp_payload 2 3); blk_of XBucket eleven].
Definition up_head : bytes := header x01 x00 x00 x01 kHolder pk_zero kAuth pk_zero x00.
Definition w_up : world :=
  table [(kAsset, acc (mk up_head (up_exts cur_creators))); (kPayer, wal 10000)].
Definition i_up (buf : pubkey) : list ainfo :=
  [mkInfo kAsset false true; mkInfo kAuth true false; mkInfo buf false true; mkInfo kProg false false;
   mkInfo kPayer true true; mkInfo kSys false false].
Definition up (x : ext_input) : instr := IUpdate (mkUpdInput None None (Some x)).
(** three creators: the verified one stays verified though the input says
    otherwise, the authority keeps its unset flag, the new one is not verified *)
Definition new_creators : bytes := pk_bytes kTo ++ [x01; x0a] ++ pk_bytes kAuth ++ [x01; x32] ++ pk_bytes kOther ++ [x00; x28].
Definition new_creators' : bytes := pk_bytes kTo ++ [x00; x0a] ++ pk_bytes kAuth ++ [x00; x32] ++ pk_bytes kOther ++ [x01; x28].
Example C24_case : sized w_up /\ well_formed (data (w_up kAsset)) (up_exts cur_creators) /\
  exists w', process env0 (i_up kProg) w_up (up (mkExtInput XCreators 102 (Some new_creators))) = Ok w' /\
    data (w' kAsset) = mk up_head (up_exts new_creators').
Proof.
  split; [apply table_sized; vm_compute; reflexivity|]. split; [apply mk_wf; vm_compute; reflexivity|].
  eexists. split; [apply (run_ok w_up); vm_compute; reflexivity|]. vm_compute. auto.
Qed.
(** shrinking: the bytes that pad the new payload are left over from the old one *)
Definition one_left : blk := mkBlk XCreators (pk_bytes kOther ++ [x01; x64]) (zeros 4) (repeat x16 6).
Example C24_case_shrink : exists w', process env0 (i_up kProg) w_up (up (mkExtInput XCreators 34 (Some (pk_bytes kOther ++ [x00; x64])))) = Ok w' /\
    data (w' kAsset) = mk up_head (blk_of XBlob five :: one_left :: skipn 2 (up_exts cur_creators)).
Proof. eexists. split; [apply (run_ok w_up); vm_compute; reflexivity|]. vm_compute. reflexivity. Qed.
Definition buf_data (t : ext_type) (bs : bytes) : bytes := mk (zeros 168) [blk_of t bs].
Definition w_buf (d bd : bytes) : world := table [(kAsset, acc d); (kBuf, acc bd); (kPayer, wal 10000)].
Definition up_buf : instr := IUpdate (mkUpdInput None None None).
Example C24_case_buffer : let w := w_buf (mk up_head (up_exts cur_creators)) (buf_data XBlob (eleven ++ five)) in
  exists w', process env0 (i_up kBuf) w up_buf = Ok w' /\
    data (w' kAsset) = mk up_head (blk_of XBlob (eleven ++ five) :: skipn 1 (up_exts cur_creators)).
Proof. eexists. split; [apply (run_ok w_up); vm_compute; reflexivity|]. vm_compute. auto. Qed.
Example C24_case_none : exists w', process env0 (i_up kProg) w_up (up (mkExtInput XBlob 0 None)) = Ok w' /\
    data (w' kAsset) = mk up_head (blk_of XBlob [] :: skipn 1 (up_exts cur_creators)).
Proof. eexists. split; [apply (run_ok w_up); vm_compute; reflexivity|]. vm_compute. auto. Qed.
Example C24_case_header : exists w',
  process env0 (i_up kProg) w_up (IUpdate (mkUpdInput (Some [x61; x62]) (Some false) None)) = Ok w' /\
  s_name (data (w' kAsset)) = [x61; x62] ++ zeros 33 /\ s_mutable (data (w' kAsset)) = x00 /\
  skipn 168 (data (w' kAsset)) = skipn 168 (data (w_up kAsset)).
Proof. eexists. split; [apply (run_ok w_up); vm_compute; reflexivity|]. vm_compute. auto. Qed.
(** What is checked and adjusted are not the [length b] bytes of the payload but the
    16 bytes of its header and the payload without its last 16 bytes; of the
    adjusted bytes those after the header arrive. *)
Theorem C24_buffer_seen : forall e infos w a w' asset l bk, env_ok e -> e_prog e <> pk_zero -> sized w ->
  arg infos 0 asset -> arg infos 2 bk -> bk <> e_prog e -> well_formed (data (w asset)) l ->
  (forall x, u_ext a = Some x -> ext_arg x) ->
  process e infos w (IUpdate a) = Ok w' ->
  exists auth t b l' inp, arg infos 1 auth /\ signed infos auth /\ s_authority (data (w asset)) = pk_bytes auth /\ well_formed (data (w' asset)) l' /\
    le32 (data (w bk)) 168 = ext_code t /\ le32 (data (w bk)) 172 = zlen b /\ ext_list l' = put_ext t b (ext_list l) /\
    stored t (pk_bytes auth) (lookup t (ext_list l)) (sub (data (w bk)) 168 (length b)) inp /\
    b = sub (inp ++ skipn (168 + length b) (data (w bk))) 16 (length b) /\ (forall k, k <> asset -> k <> bk -> data (w' k) = data (w k)).
Proof. exact update_buffer_seen. Qed.
Print Assumptions C24_buffer_seen.
(** For creators the stored data is not the buffer's: validation runs 16 bytes off
    and the address of a creator changes. *)
Definition odd_creator : bytes := repeat x13 16 ++ [x13; x64] ++ repeat x13 14 ++ [x01; x64].
Theorem C24_buffer_creators_refuted : exists w w' l b, well_formed (data (w kAsset)) l /\
  process env0 (i_up kBuf) w up_buf = Ok w' /\
  data (w kBuf) = buf_data XCreators odd_creator /\
  data (w' kAsset) = mk up_head (l ++ [blk_of XCreators b]) /\
  cr_addr_at b 0 <> cr_addr_at odd_creator 0.
Proof.
  exists (w_buf (mk up_head plain_exts) (buf_data XCreators odd_creator)). eexists. exists plain_exts.
  exists (repeat x13 16 ++ [x00; x64] ++ repeat x13 14 ++ [x01; x64]).
  split; [apply mk_wf; vm_compute; reflexivity|].
  split; [apply (run_ok w_up); vm_compute; reflexivity|].
  split; [vm_compute; reflexivity|]. split; [vm_compute; reflexivity|]. vm_compute. discriminate.
Qed.
Print Assumptions C24_buffer_creators_refuted.
Example C24_buffer_seen_case : exists w', process env0 (i_up kBuf) (w_buf (mk up_head plain_exts) (buf_data XCreators odd_creator)) up_buf = Ok w' /\
  (let seen := sub (buf_data XCreators odd_creator) 168 34 in cr_share_at seen 0 = x64 /\ cr_flag_at seen 0 = x13 /\ seen <> odd_creator).
Proof. eexists. split; [apply (run_ok w_up); vm_compute; reflexivity|]. vm_compute. split; [reflexivity|]. split; [reflexivity|discriminate]. Qed.

(** C25 *)
Theorem C25_update_appends : forall e infos w a w' asset l x bs, env_ok e -> e_prog e <> pk_zero -> sized w ->
  arg infos 0 asset -> well_formed (data (w asset)) l ->
  u_ext a = Some x -> ext_arg x -> x_data x = Some bs ->
  ~ In (x_type x) (map fst (ext_list l)) ->
  process e infos w (IUpdate a) = Ok w' ->
  exists auth l' b, arg infos 1 auth /\ signed infos auth /\ s_authority (data (w asset)) = pk_bytes auth /\
    mutable (data (w asset)) /\ header_updated a (data (w asset)) (data (w' asset)) /\
    well_formed (data (w' asset)) l' /\ ext_list l' = ext_list l ++ [(x_type x, b)] /\
    fresh_payload (x_type x) (Some (pk_bytes auth)) bs b /\ valid_new (x_type x) b /\
    x_type x <> XManager /\ x_type x <> XProxy /\
    (forall k, k <> asset -> data (w' k) = data (w k)).
Proof. exact update_appends. Qed.
Print Assumptions C25_update_appends.
Example C25_case : exists w',
  process env0 (i_up kProg) w_up (up (mkExtInput XLinks 4 (Some [x01; x61; x01; x62]))) = Ok w' /\
  data (w' kAsset) = mk up_head (up_exts cur_creators ++ [blk_of XLinks [x01; x61; x01; x62]]).
Proof. eexists. split; [apply (run_ok w_up); vm_compute; reflexivity|]. vm_compute. auto. Qed.

(** C31: holds for payloads given with the instruction, *)
Theorem C31_size_kept : forall e infos w a w' asset l x bs cur, env_ok e -> e_prog e <> pk_zero -> sized w ->
  arg infos 0 asset -> well_formed (data (w asset)) l ->
  u_ext a = Some x -> ext_arg x -> x_data x = Some bs -> x_type x = XGrouping ->
  lookup XGrouping (ext_list l) = Some cur ->
  process e infos w (IUpdate a) = Ok w' ->
  exists l' b, well_formed (data (w' asset)) l' /\ lookup XGrouping (ext_list l') = Some b /\
    b = with_size (gr_size cur) bs /\ gr_size b = gr_size cur /\ (gr_max b = 0 \/ gr_size b <= gr_max b).
Proof. exact update_keeps_size. Qed.
Print Assumptions C31_size_kept.
Example C31_case : exists w',
  process env0 (i_up kProg) w_up (up (mkExtInput XGrouping 48 (Some (grp_payload 77 5)))) = Ok w' /\
  data (w' kAsset) = mk up_head [blk_of XBlob five; blk_of XCreators cur_creators; blk_of XGrouping (grp_payload 2 5); blk_of XBucket eleven].
Proof. eexists. split; [apply (run_ok w_up); vm_compute; reflexivity|]. vm_compute. auto. Qed.
(** but a buffer sets any size, *)
Theorem C31_buffer_refuted : exists w w' l l' b b', well_formed (data (w kAsset)) l /\
  process env0 (i_up kBuf) w up_buf = Ok w' /\ well_formed (data (w' kAsset)) l' /\
  lookup XGrouping (ext_list l) = Some b /\ lookup XGrouping (ext_list l') = Some b' /\
  gr_size b = 2 /\ gr_size b' = 99.
Proof.
  set (l' := [blk_of XBlob [x01]; blk_of XGrouping (grp_payload 99 3)]).
  exists (w_buf (grp_data 2 3) (buf_data XGrouping (grp_payload 99 3))). eexists. exists (grp_exts 2 3), l'.
  exists (grp_payload 2 3), (grp_payload 99 3).
  split; [apply mk_wf; vm_compute; reflexivity|].
  split; [apply (run_ok w_up); vm_compute; reflexivity|].
  split. { replace (data _) with (mk (header x01 x00 x00 x01 kHolder pk_zero kAuth pk_zero x00) l') by (vm_compute; reflexivity). apply mk_wf. vm_compute. reflexivity. }
  vm_compute. auto.
Qed.
Print Assumptions C31_buffer_refuted.
(** and an Update without payload empties the extension of a group with members. *)
Theorem C31_none_refuted : exists w w', data (w kAsset) = grp_data 2 3 /\
  process env0 (i_up kProg) w (up (mkExtInput XGrouping 0 None)) = Ok w' /\
  data (w' kAsset) = mk (header x01 x00 x00 x01 kHolder pk_zero kAuth pk_zero x00) [blk_of XBlob [x01]; blk_of XGrouping []].
Proof.
  exists (w_buf (grp_data 2 3) []). eexists. split; [reflexivity|].
  split; [apply (run_ok w_up); vm_compute; reflexivity|]. vm_compute. reflexivity.
Qed.
Print Assumptions C31_none_refuted.

(** C33: holds for payloads given with the instruction, *)
Theorem C33_verified_kept : forall e infos w a w' asset l x bs cur, env_ok e -> e_prog e <> pk_zero -> sized w ->
  arg infos 0 asset -> well_formed (data (w asset)) l ->
  u_ext a = Some x -> ext_arg x -> x_data x = Some bs -> x_type x = XCreators ->
  lookup XCreators (ext_list l) = Some cur ->
  process e infos w (IUpdate a) = Ok w' ->
  exists l' b, well_formed (data (w' asset)) l' /\ lookup XCreators (ext_list l') = Some b /\
    (forall c, verified_in cur c -> verified_in b c).
Proof. exact update_keeps_verified. Qed.
Print Assumptions C33_verified_kept.
Example C33_case : verified_in cur_creators (pk_bytes kOther) /\
  process env0 (i_up kProg) w_up (up (mkExtInput XCreators 34 (Some (pk_bytes kAuth ++ [x00; x64])))) = Err EExtensionDataInvalid.
Proof. split; [exists 0%nat; vm_compute; repeat split; [lia|discriminate]|vm_compute; reflexivity]. Qed.
(** but an Update without payload drops all creators, *)
Theorem C33_none_refuted : exists w w' l l', well_formed (data (w kAsset)) l /\ well_formed (data (w' kAsset)) l' /\
  process env0 (i_up kProg) w (up (mkExtInput XCreators 0 None)) = Ok w' /\
  (exists b, lookup XCreators (ext_list l) = Some b /\ verified_in b (pk_bytes kOther)) /\
  lookup XCreators (ext_list l') = Some [].
Proof.
  exists w_up. eexists. exists (up_exts cur_creators), (up_exts []). split; [apply mk_wf; vm_compute; reflexivity|].
  split; [|split; [apply (run_ok w_up); vm_compute; reflexivity|]].
  { replace (data _) with (mk up_head (up_exts [])) by (vm_compute; reflexivity). apply mk_wf. vm_compute. reflexivity. }
  split; [|reflexivity]. exists cur_creators. split; [reflexivity|]. apply C33_case.
Qed.
Print Assumptions C33_none_refuted.
(** and so can a buffer. *)
Definition slip : bytes := repeat x21 16 ++ [x00; x3c] ++ pk_bytes kOther ++ [x00; x28] ++ repeat x22 16.
Theorem C33_buffer_refuted : exists w w' l l' b', well_formed (data (w kAsset)) l /\ well_formed (data (w' kAsset)) l' /\
  process env0 (i_up kBuf) w up_buf = Ok w' /\
  (exists b, lookup XCreators (ext_list l) = Some b /\ verified_in b (pk_bytes kOther)) /\
  lookup XCreators (ext_list l') = Some b' /\ ~ verified_in b' (pk_bytes kOther).
Proof.
  exists (w_buf (mk up_head (up_exts cur_creators)) (buf_data XCreators slip)). eexists.
  exists (up_exts cur_creators), (up_exts (repeat x21 16 ++ [x00; x3c] ++ pk_bytes kOther ++ [x01; x28] ++ repeat x22 16)).
  eexists. split; [apply mk_wf; vm_compute; reflexivity|].
  split; [|split; [apply (run_ok w_up); vm_compute; reflexivity|]].
  { match goal with |- well_formed ?d ?l => replace d with (mk up_head l) by (vm_compute; reflexivity) end. apply mk_wf. vm_compute. reflexivity. }
  split; [exists cur_creators; split; [reflexivity|]; apply C33_case|]. split; [vm_compute; reflexivity|].
  intros (i & Hi & Ha & _). vm_compute in Hi. destruct i as [|[|i]]; [vm_compute in Ha; discriminate Ha|vm_compute in Ha; discriminate Ha|lia].
Qed.
Print Assumptions C33_buffer_refuted.

(** C34: the check is modulo 256: exact below 356 ... *)
Theorem C34_create_partial : forall e infos w m w' asset hd l n, env_ok e -> e_prog e <> pk_zero ->
  arg infos 0 asset -> open_account (data (w asset)) hd l n -> sized w -> Forall ext_arg (inline m) ->
  process e infos w (ICreate m) = Ok w' ->
  exists l', well_formed (data (w' asset)) l' /\ forall b, lookup XCreators (ext_list l') = Some b ->
    length b = (34 * cr_count b)%nat /\ shares (cr_count b) b mod 256 = 100 /\ (shares (cr_count b) b < 356 -> shares (cr_count b) b = 100).
Proof. exact create_shares. Qed.
Print Assumptions C34_create_partial.
Theorem C34_update_partial : forall e infos w a w' asset l x bs, env_ok e -> e_prog e <> pk_zero -> sized w ->
  arg infos 0 asset -> well_formed (data (w asset)) l ->
  u_ext a = Some x -> ext_arg x -> x_data x = Some bs -> x_type x = XCreators ->
  process e infos w (IUpdate a) = Ok w' ->
  exists l' b, well_formed (data (w' asset)) l' /\ lookup XCreators (ext_list l') = Some b /\
    length b = (34 * cr_count b)%nat /\ shares (cr_count b) b mod 256 = 100 /\ (shares (cr_count b) b < 356 -> shares (cr_count b) b = 100).
Proof. exact update_shares. Qed.
Print Assumptions C34_update_partial.
Example C34_case : shares 2 two_creators' = 100 /\ shares 3 new_creators' = 100 /\
  process env0 (i_up kProg) w_up (up (mkExtInput XCreators 68 (Some (pk_bytes kOther ++ [x01; x28] ++ pk_bytes kAuth ++ [x00; x3d])))) =
    Err EExtensionDataInvalid.
Proof. vm_compute. auto. Qed.
(** ... so the full claim is false: shares 200 and 156 pass. *)
Definition wrap_creators : bytes := pk_bytes kOther ++ [x00; xc8] ++ pk_bytes kAuth ++ [x01; x9c].
Theorem C34_shares_refuted : exists w w' m b, open_account (data (w kBuf)) (zeros 168) [] 0 /\
  process env0 (i_create kBuf) w (ICreate m) = Ok w' /\
  firstn 68 (skipn 184 (data (w' kBuf))) = b /\ le32 (data (w' kBuf)) 168 = ext_code XCreators /\
  le32 (data (w' kBuf)) 172 = 68 /\ shares (cr_count b) b = 356.
Proof.
  exists w_build. eexists. exists (mkMetaInput [x41] NonFungible true (Some [mkExtInput XCreators 68 (Some wrap_creators)])), wrap_creators.
  split; [left; repeat split|]. split; [apply (run_ok w_build); vm_compute; reflexivity|]. vm_compute. auto.
Qed.
Print Assumptions C34_shares_refuted.

(** C39 *)
Theorem C39_create : forall e infos w m w' asset hd l n, env_ok e -> e_prog e <> pk_zero ->
  arg infos 0 asset -> open_account (data (w asset)) hd l n -> sized w -> Forall ext_arg (inline m) ->
  process e infos w (ICreate m) = Ok w' ->
  exists l', well_formed (data (w' asset)) l' /\ forall b, lookup XRoyalties (ext_list l') = Some b -> royalty_points b <= 10000.
Proof. exact create_royalties. Qed.
Print Assumptions C39_create.
Theorem C39_update : forall e infos w a w' asset l, env_ok e -> e_prog e <> pk_zero -> sized w ->
  arg infos 0 asset -> well_formed (data (w asset)) l -> (forall x, u_ext a = Some x -> ext_arg x) ->
  (forall b, lookup XRoyalties (ext_list l) = Some b -> royalty_points b <= 10000) ->
  process e infos w (IUpdate a) = Ok w' ->
  exists l', well_formed (data (w' asset)) l' /\ forall b, lookup XRoyalties (ext_list l') = Some b -> royalty_points b <= 10000.
Proof. exact update_royalties. Qed.
Print Assumptions C39_update.
Theorem C39_write : forall e infos w w1 asset x cs hd l n,
  arg infos 0 asset -> Forall (fun c => arg (snd (fst c)) 0 asset /\ snd c <> []) cs -> cs <> [] ->
  open_account (data (w asset)) hd l n -> sized w -> x_type x = XRoyalties ->
  x_length x = zlen (given x ++ chunk_bytes cs) -> 168 + sect_size l + 16 + x_length x <= 10485760 ->
  steps ((e, infos, IAllocate x) :: map write_of cs) w = Ok w1 ->
  exists b, data (w1 asset) = hd ++ enc_sect 168 (l ++ [blk_of XRoyalties b]) /\ royalty_points b <= 10000.
Proof. exact write_royalties. Qed.
Print Assumptions C39_write.
Definition royalties (bp : Z) : bytes := le_enc 8 bp ++ le_enc 4 5 ++ le_enc 4 0.
Example C39_case : (exists w', process env0 (i_up kProg) w_up (up (mkExtInput XRoyalties 16 (Some (royalties 10000)))) = Ok w') /\
  process env0 (i_up kProg) w_up (up (mkExtInput XRoyalties 16 (Some (royalties 10001)))) = Err EExtensionDataInvalid.
Proof. split; [eexists; apply (run_ok w_up); vm_compute; reflexivity|vm_compute; reflexivity]. Qed.

(** C44: holds for payloads given with the instruction, *)
Theorem C44_proxy_fixed : forall e infos w a w' asset l x bs cur, env_ok e -> e_prog e <> pk_zero -> sized w ->
  arg infos 0 asset -> well_formed (data (w asset)) l ->
  u_ext a = Some x -> ext_arg x -> x_data x = Some bs ->
  lookup XProxy (ext_list l) = Some cur ->
  process e infos w (IUpdate a) = Ok w' ->
  exists l' b, well_formed (data (w' asset)) l' /\ lookup XProxy (ext_list l') = Some b /\
    sub b 0 65 = sub cur 0 65 /\ (x_type x = XProxy -> length b = 97%nat).
Proof. exact update_keeps_proxy. Qed.
Print Assumptions C44_proxy_fixed.
Definition px_exts (b : bytes) : list blk := [blk_of XProxy b].
Definition px_head : bytes := header x01 x00 x03 x01 kHolder pk_zero kAuth pk_zero x00.
Definition w_pxu : world := table [(kAsset, acc (mk px_head (px_exts px_payload))); (kPayer, wal 10000)].
Definition i_upx : list ainfo :=
  [mkInfo kAsset true true; mkInfo kAuth true false; mkInfo kProg false false; mkInfo kProg false false;
   mkInfo kPayer true true; mkInfo kSys false false].
Definition px_auth (k : pubkey) : bytes := firstn 65 px_payload ++ pk_bytes k.
Example C44_case : (exists w', process env0 (i_upx) w_pxu (up (mkExtInput XProxy 97 (Some (px_auth kOther)))) = Ok w' /\
    data (w' kAsset) = mk px_head (px_exts (px_auth kOther))) /\
  process env0 (i_upx) w_pxu (up (mkExtInput XProxy 97 (Some (pk_bytes kAuth ++ skipn 32 px_payload)))) = Err EExtensionDataInvalid.
Proof. split; [eexists; split; [apply (run_ok w_pxu); vm_compute; reflexivity|]|]; vm_compute; reflexivity. Qed.
(** but an Update without payload erases the data. *)
Theorem C44_none_refuted : exists w w', data (w kAsset) = mk px_head (px_exts px_payload) /\
  process env0 (i_upx) w (up (mkExtInput XProxy 0 None)) = Ok w' /\ data (w' kAsset) = mk px_head (px_exts []).
Proof. exists w_pxu. eexists. split; [reflexivity|]. split; [apply (run_ok w_pxu); vm_compute; reflexivity|]. vm_compute. reflexivity. Qed.
Print Assumptions C44_none_refuted.

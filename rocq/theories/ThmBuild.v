(** Property theorems: building and resizing accounts (C20-C23, C47). *)
From Verif Require Import Base State Layout Constr Ext World Proc BaseL Spec SpecB WorldL AllocC CreateL BuildL ResizeL Sample.
From Coq Require Import Strings.Byte.

(** C20: Allocate with the complete payload appends exactly that extension,
    zero-padded; what was there stays; spare zero bytes are used up first, and an
    account that has not more of them than needed ends exactly filled. *)
Theorem C20_allocate_appends : forall e infos w w' asset t bs hd l n,
  arg infos 0 asset -> open_account (data (w asset)) hd l n -> sized w -> t <> XNone -> zlen bs <= u32_max ->
  process e infos w (IAllocate (mkExtInput t (zlen bs) (Some bs))) = Ok w' ->
  lookup t (ext_list l) = None /\
  data (w' asset) = hd ++ enc_sect 168 (l ++ [blk_of t bs]) ++ repeat x00 (Z.to_nat (n - blk_size (blk_of t bs))) /\
  well_formed (data (w' asset)) (l ++ [blk_of t bs]) /\
  (n <= blk_size (blk_of t bs) -> tight (data (w' asset)) (l ++ [blk_of t bs]) /\ zlen (data (w' asset)) mod 8 = 0) /\
  (forall k, k <> asset -> data (w' k) = data (w k)).
Proof. exact allocate_appends. Qed.
Print Assumptions C20_allocate_appends.
Definition w_build : world :=
  table [(kAsset, acc (mk (zeros 168) plain_exts)); (kBuf, wal 0); (kPayer, wal 100000)].
Definition i_build (k : pubkey) : list ainfo :=
  [mkInfo k true true; mkInfo kPayer true true; mkInfo kSys false false].
Definition five : bytes := [x01; x02; x03; x04; x05].
Definition eleven : bytes := [x61; x62; x63; x64; x65; x66; x67; x68; x69; x6a; x6b].
Example C20_case : sized w_build /\ open_account (data (w_build kAsset)) (zeros 168) plain_exts 0 /\
  exists w', process env0 (i_build kAsset) w_build (IAllocate (mkExtInput XBucket 11 (Some eleven))) = Ok w' /\
    data (w' kAsset) = mk (zeros 168) (plain_exts ++ [blk_of XBucket eleven]) /\ zlen (data (w' kAsset)) = 224.
Proof.
  split; [apply table_sized; vm_compute; reflexivity|]. split.
  { right. split; [lia|]. apply (mk_layout (zeros 168) plain_exts []). vm_compute. reflexivity. }
  eexists. split; [apply (run_ok w_build); vm_compute; reflexivity|]. vm_compute. auto.
Qed.

(** C21: Allocate with any prefix and any Writes of the rest give an account with
    the complete payload, validated as a payload nobody signed for ... *)
Theorem C21_chunked_content : forall e infos w w1 asset x cs hd l n,
  arg infos 0 asset -> Forall (fun c => arg (snd (fst c)) 0 asset /\ snd c <> []) cs -> cs <> [] ->
  open_account (data (w asset)) hd l n -> sized w -> x_type x <> XNone ->
  x_length x = zlen (given x ++ chunk_bytes cs) -> 168 + sect_size l + 16 + x_length x <= 10485760 ->
  steps ((e, infos, IAllocate x) :: map write_of cs) w = Ok w1 ->
  exists b', fresh_payload (x_type x) None (given x ++ chunk_bytes cs) b' /\ valid_new (x_type x) b' /\
    data (w1 asset) = hd ++ enc_sect 168 (l ++ [blk_of (x_type x) b']) /\
    tight (data (w1 asset)) (l ++ [blk_of (x_type x) b']) /\
    (forall k, k <> asset -> data (w1 k) = data (w k)).
Proof. exact chunked_content. Qed.
Print Assumptions C21_chunked_content.
(** ... hence the very bytes one Allocate with everything gives, provided a
    creators payload is a whole number of entries with no verified flag set and
    the account has not more spare bytes than the extension needs. *)
Theorem C21_chunked_equals_oneshot : forall e infos w w1 asset x cs hd l n e2 infos2 w2,
  arg infos 0 asset -> Forall (fun c => arg (snd (fst c)) 0 asset /\ snd c <> []) cs -> cs <> [] ->
  open_account (data (w asset)) hd l n -> sized w -> x_type x <> XNone ->
  x_length x = zlen (given x ++ chunk_bytes cs) -> 168 + sect_size l + 16 + x_length x <= 10485760 ->
  n <= 16 + x_length x -> unflagged (x_type x) (given x ++ chunk_bytes cs) ->
  (x_type x = XCreators -> length (given x ++ chunk_bytes cs) = (34 * cr_count (given x ++ chunk_bytes cs))%nat) ->
  steps ((e, infos, IAllocate x) :: map write_of cs) w = Ok w1 ->
  arg infos2 0 asset ->
  process e2 infos2 w (IAllocate (mkExtInput (x_type x) (x_length x) (Some (given x ++ chunk_bytes cs)))) = Ok w2 ->
  forall k, data (w1 k) = data (w2 k).
Proof. exact chunked_equals_oneshot. Qed.
Print Assumptions C21_chunked_equals_oneshot.
Definition prefix5 : ext_input := mkExtInput XBucket 11 (Some (firstn 5 eleven)).
Definition two_chunks : list (env * list ainfo * bytes) :=
  [(env0, i_build kBuf, [x66]); (env0, i_build kBuf, skipn 6 eleven)].
Example C21_case : sized w_build /\ open_account (data (w_build kBuf)) (repeat x00 168) [] 0 /\
  x_length prefix5 = zlen (given prefix5 ++ chunk_bytes two_chunks) /\ given prefix5 ++ chunk_bytes two_chunks = eleven /\
  exists w1 w2, steps ((env0, i_build kBuf, IAllocate prefix5) :: map write_of two_chunks) w_build = Ok w1 /\
    process env0 (i_build kBuf) w_build (IAllocate (mkExtInput XBucket 11 (Some eleven))) = Ok w2 /\
    data (w1 kBuf) = data (w2 kBuf) /\ zlen (data (w1 kBuf)) = 200.
Proof.
  split; [apply table_sized; vm_compute; reflexivity|]. split; [left; repeat split|].
  split; [reflexivity|]. split; [reflexivity|].
  eexists. eexists. split; [apply (run_ok w_build); vm_compute; reflexivity|].
  split; [apply (run_ok w_build); vm_compute; reflexivity|]. vm_compute. auto.
Qed.
(** Without the condition on flags the equality is false: one creator, claimed
    verified, share 100.  One Allocate stores the flag, the chunked upload clears
    it. *)
Definition one_creator : bytes := pk_bytes kOther ++ [x01; x64].
Theorem C21_flags_refuted : exists w x cs w1 w2, x_type x = XCreators /\
  x_length x = zlen (given x ++ chunk_bytes cs) /\ open_account (data (w kBuf)) (repeat x00 168) [] 0 /\
  steps ((env0, i_build kBuf, IAllocate x) :: map write_of cs) w = Ok w1 /\
  process env0 (i_build kBuf) w (IAllocate (mkExtInput (x_type x) (x_length x) (Some (given x ++ chunk_bytes cs)))) = Ok w2 /\
  nth (184 + 32) (data (w1 kBuf)) x00 = x00 /\ nth (184 + 32) (data (w2 kBuf)) x00 = x01.
Proof.
  exists w_build, (mkExtInput XCreators 34 (Some (firstn 30 one_creator))), [(env0, i_build kBuf, skipn 30 one_creator)].
  eexists. eexists. split; [reflexivity|]. split; [reflexivity|]. split; [left; repeat split|].
  split; [apply (run_ok w_build); vm_compute; reflexivity|].
  split; [apply (run_ok w_build); vm_compute; reflexivity|]. vm_compute. auto.
Qed.
Print Assumptions C21_flags_refuted.

(** C22: header fields as requested; state, delegate and roles as found (unlocked
    and empty on a new account); every payload kept, creators' flags recomputed. *)
Theorem C22_create : forall e infos w m w' asset hd l n, env_ok e -> e_prog e <> pk_zero ->
  arg infos 0 asset -> open_account (data (w asset)) hd l n -> sized w -> Forall ext_arg (inline m) ->
  process e infos w (ICreate m) = Ok w' ->
  exists auth owner l' hd' tl, arg infos 1 auth /\ arg infos 2 owner /\ signed infos asset /\
    layout (data (w' asset)) hd' l' tl /\ acct_owner (w' asset) = e_prog e /\
    Forall2 (validated (pk_bytes auth)) (l ++ inline_blks (inline m)) l' /\
    Forall (fun b => valid_new (bk_type b) (bk_data b)) l' /\
    Forall (fun x => x_length x = zlen (given x)) (inline m) /\
    s_disc (data (w' asset)) = x01 /\ s_standard (data (w' asset)) = standard_code (m_standard m) /\
    s_mutable (data (w' asset)) = bool_byte (m_mutable m) /\
    s_owner (data (w' asset)) = pk_bytes owner /\ s_authority (data (w' asset)) = pk_bytes auth /\
    s_name (data (w' asset)) = name_field (m_name m) /\
    s_state (data (w' asset)) = s_state hd /\ s_delegate (data (w' asset)) = s_delegate hd /\
    s_roles (data (w' asset)) = s_roles hd /\
    (data (w asset) = [] -> s_state hd = x00 /\ s_delegate hd = no_key /\ s_roles hd = x00 /\ s_group hd = no_key).
Proof. exact create_initializes. Qed.
Print Assumptions C22_create.
Definition i_create (k : pubkey) : list ainfo :=
  [mkInfo k true true; mkInfo kAuth true false; mkInfo kHolder false false; mkInfo kProg false false;
   mkInfo kProg false false; mkInfo kPayer true true; mkInfo kSys false false].
Definition two_creators : bytes := pk_bytes kOther ++ [x01; x28] ++ pk_bytes kAuth ++ [x00; x3c].
Definition two_creators' : bytes := pk_bytes kOther ++ [x00; x28] ++ pk_bytes kAuth ++ [x01; x3c].
Definition m_case (s : standard) : metadata_input :=
  mkMetaInput [x41; x42] s true (Some [mkExtInput XCreators 68 (Some two_creators); mkExtInput XManager 33 (Some man_payload)]).
(** two creators: the claimed flag of the one who is not the authority is cleared,
    the authority's is set *)
Example C22_case : sized w_build /\ Forall ext_arg (inline (m_case Managed)) /\
  exists w', process env0 (i_create kBuf) w_build (ICreate (m_case Managed)) = Ok w' /\
    data (w' kBuf) =
      mk ([x01; x00; x01; x01] ++ pk_bytes kHolder ++ no_key ++ pk_bytes kAuth ++ no_key ++ [x00; x41; x42] ++ repeat x00 33)
         [blk_of XCreators two_creators'; blk_of XManager man_payload].
Proof.
  split; [apply table_sized; vm_compute; reflexivity|]. split.
  { repeat constructor; vm_compute; congruence. }
  eexists. split; [apply (run_ok w_build); vm_compute; reflexivity|]. vm_compute. auto.
Qed.

(** C23 *)
Theorem C23_create_kind : forall e infos w m w' asset hd l n, env_ok e -> e_prog e <> pk_zero ->
  arg infos 0 asset -> open_account (data (w asset)) hd l n -> sized w -> Forall ext_arg (inline m) ->
  process e infos w (ICreate m) = Ok w' ->
  exists l', well_formed (data (w' asset)) l' /\ s_standard (data (w' asset)) = standard_code (m_standard m) /\
    (m_standard m = Managed <-> exists b, lookup XManager (ext_list l') = Some b) /\
    (m_standard m = Proxied <-> exists b, lookup XProxy (ext_list l') = Some b) /\
    (forall b, lookup XProxy (ext_list l') = Some b -> proxy_derives e b asset).
Proof. exact create_kind. Qed.
Print Assumptions C23_create_kind.
Definition env_px : env :=
  mkEnv kProg (fun n => Z.max 0 (128 + n)) (fun s b p => if bytes_eqb (s ++ b :: p) (pk_bytes kTo ++ x05 :: pk_bytes kOther) then Some kBuf else None) false 0 100.
Definition px_payload : bytes := pk_bytes kOther ++ pk_bytes kTo ++ [x05] ++ pk_bytes pk_zero.
Definition m_px (s : standard) : metadata_input := mkMetaInput [x41] s true (Some [mkExtInput XProxy 97 (Some px_payload)]).
Example C23_case :
  (exists w', process env0 (i_create kBuf) w_build (ICreate (m_case Managed)) = Ok w') /\
  process env0 (i_create kBuf) w_build (ICreate (m_case NonFungible)) = Err EExtensionDataInvalid /\
  (exists w', process env_px (i_create kBuf) w_build (ICreate (m_px Proxied)) = Ok w') /\
  process env_px (i_create kBuf) w_build (ICreate (m_px NonFungible)) = Err EExtensionDataInvalid /\
  process env0 (i_create kBuf) w_build (ICreate (m_px Proxied)) = Err EInvalidSeeds.
Proof.
  split; [eexists; apply (run_ok w_build); vm_compute; reflexivity|]. split; [vm_compute; reflexivity|].
  split; [eexists; apply (run_ok w_build); vm_compute; reflexivity|]. vm_compute. auto.
Qed.

(** C47: Trim keeps header and extensions and leaves nothing after them ... *)
Theorem C47_trim : forall e infos w w' asset hd l tl, arg infos 0 asset -> layout (data (w asset)) hd l tl ->
  process e infos w (IResize Trim) = Ok w' ->
  (exists auth, arg infos 1 auth /\ signed infos auth /\ s_authority (data (w asset)) = pk_bytes auth) /\ mutable (data (w asset)) /\
  layout (data (w' asset)) hd l [] /\ (forall k, k <> asset -> data (w' k) = data (w k)) /\
  (forall k, acct_owner (w' k) = acct_owner (w k)).
Proof. exact trim_effect. Qed.
Print Assumptions C47_trim.
(** ... Extend adds zeros, always; when the tail is zeros the asset stays
    well-formed with the same header and extensions ... *)
Theorem C47_extend_bytes : forall e infos w w' asset v, arg infos 0 asset -> 0 <= v ->
  process e infos w (IResize (Extend v)) = Ok w' ->
  data (w' asset) = data (w asset) ++ repeat x00 (Z.to_nat v).
Proof. exact extend_bytes. Qed.
Print Assumptions C47_extend_bytes.
Theorem C47_extend : forall e infos w w' asset hd l n v, arg infos 0 asset -> 0 <= n -> 0 <= v <= 65535 -> sized w' ->
  layout (data (w asset)) hd l (repeat x00 (Z.to_nat n)) ->
  process e infos w (IResize (Extend v)) = Ok w' ->
  (exists auth, arg infos 1 auth /\ signed infos auth /\ s_authority (data (w asset)) = pk_bytes auth) /\ mutable (data (w asset)) /\
  layout (data (w' asset)) hd l (repeat x00 (Z.to_nat (n + v))) /\ (forall k, k <> asset -> data (w' k) = data (w k)) /\
  (forall k, acct_owner (w' k) = acct_owner (w k)).
Proof. exact extend_effect. Qed.
Print Assumptions C47_extend.
(** ... and Trim undoes Extend. *)
Theorem C47_extend_trim : forall e1 infos1 e2 infos2 w w' asset l v, arg infos1 0 asset -> arg infos2 0 asset -> 0 <= v <= 65535 ->
  env_ok e1 -> e_prog e1 <> pk_zero -> lam_ok w -> sized w -> tight (data (w asset)) l ->
  steps [(e1, infos1, IResize (Extend v)); (e2, infos2, IResize Trim)] w = Ok w' ->
  data (w' asset) = data (w asset).
Proof. exact extend_trim. Qed.
Print Assumptions C47_extend_trim.
Definition w_rs (tl : bytes) : world := table [(kAsset, acc (plain_data ++ tl)); (kPayer, wal 10000)].
Definition i_rs : list ainfo :=
  [mkInfo kAsset false true; mkInfo kAuth true false; mkInfo kPayer true true; mkInfo kSys false false].
Example C47_case : exists w1 w2, process env0 i_rs (w_rs []) (IResize (Extend 21)) = Ok w1 /\
  data (w1 kAsset) = plain_data ++ zeros 21 /\
  process env0 i_rs w1 (IResize Trim) = Ok w2 /\ data (w2 kAsset) = plain_data.
Proof.
  eexists. eexists. split; [apply (run_ok (w_rs [])); vm_compute; reflexivity|]. split; [vm_compute; reflexivity|].
  split; [apply (run_ok (w_rs [])); vm_compute; reflexivity|]. vm_compute. reflexivity.
Qed.
(** With other bytes after the section Extend can turn them into an extension:
    twelve bytes after the last extension are no header; four more make one. *)
Theorem C47_junk_tail_refuted : exists w w' l l' tl, layout (data (w kAsset)) (firstn 168 plain_data) l tl /\
  process env0 i_rs w (IResize (Extend 4)) = Ok w' /\ well_formed (data (w' kAsset)) l' /\
  ext_list l' = ext_list l ++ [(XManager, [])].
Proof.
  set (tl := le_enc 4 8 ++ le_enc 4 0 ++ le_enc 4 208).
  exists (w_rs tl). eexists. exists plain_exts, (plain_exts ++ [blk_of XManager []]), tl.
  split. { pose proof (mk_layout (firstn 168 plain_data) plain_exts tl) as L. apply L. vm_compute. reflexivity. }
  split; [apply (run_ok (w_rs tl)); vm_compute; reflexivity|].
  split; [|reflexivity].
  replace (data _) with (mk (firstn 168 plain_data) (plain_exts ++ [blk_of XManager []])) by (vm_compute; reflexivity).
  apply mk_wf. vm_compute. reflexivity.
Qed.
Print Assumptions C47_junk_tail_refuted.

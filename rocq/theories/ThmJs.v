(** Property theorems: the JavaScript client, data (C60–C62). *)
From Verif Require Import Base State Layout Constr Ext ExtLen World Proc Borsh Client Js BaseL Spec SpecB SpecC SpecI SpecF SpecJ WorldL LayoutL CountL JsL JsM JsN JsO Sample ThmConstr ThmCodec.
From Coq Require Import Strings.Byte.

(** C60: instruction data.  The client writes data for an instruction exactly when its
    numbers and lengths are in range, and what it writes is the one encoding the
    program's reader accepts for it ... *)
Theorem C60_data : forall i b, named i -> (js_instr i = Some b <-> instr_ok i /\ b = write_instr i).
Proof. exact js_instr_iff. Qed.
Print Assumptions C60_data.
(** ... so that the program executes the instruction meant. *)
Theorem C60_runs : forall e infos w i b, named i -> js_instr i = Some b -> Borsh.entry e infos w b = process e infos w i.
Proof. exact js_instr_runs. Qed.
Print Assumptions C60_runs.
Definition i_data : instr := IUpdate (mkUpdInput (Some hat) (Some false) (Some (mkExtInput XBlob 5 (Some [x01; x02])))).
Example C60_case : named i_data /\ instr_ok i_data /\
  js_instr i_data = Some ([x0a; x01; x03; x00; x00; x00] ++ hat ++ [x01; x00; x01; x02; x05; x00; x00; x00; x01; x02; x00; x00; x00; x01; x02]) /\
  js_instr (IResize (Extend 65535)) = Some [x11; x01; xff; xff] /\ js_instr (IResize (Extend 65536)) = None /\
  js_instr (IApprove (DSome [RLock; RNone])) = Some [x03; x01; x02; x00; x00; x00; x02; x00].
Proof.
  assert (U : utf8_text hat) by (apply BorshL.utf8_iff; vm_compute; reflexivity).
  split; [exact U|]. split; [repeat split; cbn; try lia; try exact U; vm_compute; discriminate|]. vm_compute. auto 6.
Qed.

(** C61: payloads.  The client serializes an extension exactly when every value fits
    its place, *)
Theorem C61_range : forall x, typed x -> ((exists b, js_payload x = Some b) <-> in_range x).
Proof. exact payload_exists. Qed.
Print Assumptions C61_range.
(** the program reads the same values in what it wrote, *)
Theorem C61_says : forall x b, typed x -> js_payload x = Some b -> zlen b <= u32_max -> says x b.
Proof. exact payload_read. Qed.
Print Assumptions C61_says.
(** and the client reads them back: texts without NUL bytes, the zero key as no key,
    the roles as a set. *)
Theorem C61_back : forall x b, typed x -> js_payload x = Some b -> zlen b <= u32_max ->
  exists y r, js_read (jext_type x) b = Some (y, r) /\ same_value x y.
Proof. exact read_back. Qed.
Print Assumptions C61_back.
Definition x_roy : jext := JRoyalties 500 (JAnd [JNot (JOwnedBy AAsset [pk_bytes kOther]); JOr [JPubkeyMatch ARecipient [pk_bytes kTo; pk_bytes kHolder]; JEmpty]]).
Definition x_props : jext := JProperties [(hat, JText red); (red, JNumber 18446744073709551615); ([], JBoolean true)].
Definition x_man : jext := JManager (Some (pk_bytes kMan)) [RBurn; RTransfer; RBurn].
Example C61_case : Forall typed [x_roy; x_props; x_man] /\ Forall in_range [x_roy; x_props; x_man] /\
  js_payload x_props = Some ([x03] ++ hat ++ [x00; x03] ++ red ++ [x03] ++ red ++ [x01] ++ repeat xff 8 ++ [x00; x02; x01]) /\
  js_payload x_man = Some (pk_bytes kMan ++ [x05]) /\
  (match js_payload x_roy with Some b => zlen b = 168 /\ js_read XRoyalties b = Some (x_roy, []) | None => False end) /\
  js_read XManager (pk_bytes kMan ++ [x05]) = Some (JManager (Some (pk_bytes kMan)) [RTransfer; RBurn], []) /\
  js_payload (JCreators [(pk_bytes kOther, true, 256)]) = None /\ js_payload (JBlob (repeat x61 256) []) = None.
Proof.
  split; [repeat constructor|]. split.
  { repeat constructor; cbn; try lia; try (intros [Q|[Q|[Q|[]]]]; discriminate); unfold text255, hat, red; cbn; lia. }
  vm_compute. auto 12.
Qed.
(** A manager with the role None — which the client itself shows for a manager
    without roles — cannot be written: what was read cannot be sent again. *)
Theorem C61_rewrite_refuted : exists b x, js_read XManager b = Some (x, []) /\ manager_from_bytes b = Ok (mkDelegate (pk_bytes kMan) x00) /\
  x = JManager (Some (pk_bytes kMan)) [RNone] /\ js_payload x = None.
Proof. exists (pk_bytes kMan ++ [x00]). eexists. split; [vm_compute; reflexivity|]. vm_compute. auto. Qed.
Print Assumptions C61_rewrite_refuted.

(** C62: accounts.  What the client shows of an account laid out as the program
    leaves it is what the program reads in it ([shown]); it shows it exactly when
    nothing or at least 16 bytes follow the extensions. *)
Theorem C62_account : forall d hd l tl a, layout d hd l tl -> valid_header d -> readable l ->
  (js_asset d = JDone a <-> end_ok tl /\ shown_header d a /\
   Forall2 (fun k x => shown (bk_type k) (bk_data k) (bk_pad k) x) l (ja_exts a)).
Proof. exact account_shown. Qed.
Print Assumptions C62_account.
(** Which accounts that are: groupings of 48 bytes, metadata with four texts. *)
Theorem C62_showable : forall d hd l tl, layout d hd l tl -> valid_header d -> readable l ->
  ((exists a, js_asset d = JDone a) <-> end_ok tl /\ Forall showable l).
Proof. exact account_showable. Qed.
Print Assumptions C62_showable.
(** Its loop always ends. *)
Theorem C62_ends : forall d hd l tl, layout d hd l tl -> valid_header d -> js_asset d <> JHang.
Proof. exact account_never_hangs. Qed.
Print Assumptions C62_ends.
Definition four : bytes := build_metadata (Some hat) (Some red) None (Some hat).
Definition js_hd : bytes := header x01 x01 x00 x01 kHolder pk_zero kAuth kDeleg x05.
Definition js_l : list blk := [blk_of XAttributes (build_attributes [(hat, red)]); blk_of XMetadata four;
                               blk_of XGrouping (le_enc 8 2 ++ le_enc 8 9 ++ repeat x00 32)].
Example C62_case : layout (js_hd ++ enc_sect 168 js_l ++ []) js_hd js_l [] /\ valid_header (js_hd ++ enc_sect 168 js_l ++ []) /\ readable js_l /\
  js_asset (js_hd ++ enc_sect 168 js_l ++ []) = JDone (mkJasset 1 0 true (pk_bytes kHolder) None (pk_bytes kAuth)
    (Some (pk_bytes kDeleg, [RTransfer; RBurn])) (repeat x41 35) [JAttributes [(hat, red)]; JMetadata hat red [] hat; JGrouping 2 9 None]).
Proof.
  split; [apply mk_layout; vm_compute; reflexivity|]. split.
  { split; [|split]; [|vm_compute; reflexivity|vm_compute; reflexivity]. split; [vm_compute; lia|reflexivity]. }
  split; [|vm_compute; reflexivity].
  repeat constructor; cbn [bk_type bk_data blk_of parses].
  - apply AcceptL.pairs_goes. eexists. vm_compute. reflexivity.
  - apply AcceptL.metadata_goes. eexists. vm_compute. reflexivity.
Qed.
(** Of the accounts the program makes, the client cannot show all.  Metadata as the
    Rust client writes it from JSON — three texts and no image — when its length is
    a multiple of 8: the reader throws. *)
Definition ctx0 : jctx := mkJctx kHolder kPayer.
Definition i_new : list ainfo := js_create_metas kProg ctx0 kAsset None None None None (Some kPayer) None.
Definition i_upd : list ainfo := js_update_metas kProg ctx0 kAsset None None None (Some kPayer) None.
Definition new_with (n : bytes) (xs : list ext_input) : instr := ICreate (mkMetaInput n NonFungible true (Some xs)).
Definition ext_in (t : ext_type) (b : bytes) : ext_input := mkExtInput t (zlen b) (Some b).
Definition w_new : world := table [(kPayer, wal 100000)].
Theorem C62_no_image_refuted : exists b w', b = json_metadata hat [] [x75; x69] /\
  metadata_from_bytes b = Ok (hat, [], [x75; x69], []) /\
  process env0 i_new w_new (new_with hat [ext_in XMetadata b]) = Ok w' /\ js_asset (data (w' kAsset)) = JThrow.
Proof.
  eexists. eexists. split; [reflexivity|]. split; [vm_compute; reflexivity|].
  split; [apply (run_ok w_new); vm_compute; reflexivity|]. vm_compute. reflexivity.
Qed.
Print Assumptions C62_no_image_refuted.
(** A group's payload of 16 bytes, size and limit, which the program accepts: the
    same. *)
Theorem C62_short_group_refuted : exists w', process env0 i_new w_new (new_with hat [ext_in XGrouping (repeat x00 16)]) = Ok w' /\
  js_asset (data (w' kAsset)) = JThrow.
Proof. eexists. split; [apply (run_ok w_new); vm_compute; reflexivity|]. vm_compute. reflexivity. Qed.
Print Assumptions C62_short_group_refuted.
(** An asset that is shown, lengthened by 5 bytes with Resize, is no longer. *)
Theorem C62_resized_refuted : exists w1 w2 a, process env0 i_new w_new (new_with hat [ext_in XLinks (build_attributes [(hat, red)])]) = Ok w1 /\
  js_asset (data (w1 kAsset)) = JDone a /\
  process env0 (js_resize_metas kProg ctx0 kAsset None None None) w1 (IResize (Extend 5)) = Ok w2 /\ js_asset (data (w2 kAsset)) = JThrow.
Proof.
  set (m1 := process env0 i_new w_new (new_with hat [ext_in XLinks (build_attributes [(hat, red)])])).
  exists (run w_new m1). eexists. eexists. split; [apply run_ok; vm_compute; reflexivity|]. split; [vm_compute; reflexivity|].
  split; [apply (run_ok w_new); vm_compute; reflexivity|]. vm_compute. reflexivity.
Qed.
Print Assumptions C62_resized_refuted.
(** An image removed by Update is still shown when the rest of the payload stays
    as it was: the reader goes on into the padding, which Update leaves. *)
Theorem C62_old_image_refuted : exists w1 w2 a l off,
  process env0 i_new w_new (new_with hat [ext_in XMetadata (build_metadata (Some [x61]) None (Some [x75]) (Some [x49]))]) = Ok w1 /\
  process env0 i_upd w1 (IUpdate (mkUpdInput None None (Some (ext_in XMetadata (json_metadata [x61] [] [x75]))))) = Ok w2 /\
  well_formed (data (w2 kAsset)) l /\ has_ext (data (w2 kAsset)) XMetadata off (json_metadata [x61] [] [x75]) /\
  metadata_from_bytes (json_metadata [x61] [] [x75]) = Ok ([x61], [], [x75], []) /\
  js_asset (data (w2 kAsset)) = JDone a /\ ja_exts a = [JMetadata [x61] [] [x75] [x49]].
Proof.
  set (m1 := process env0 i_new w_new (new_with hat [ext_in XMetadata (build_metadata (Some [x61]) None (Some [x75]) (Some [x49]))])).
  set (m2 := process env0 i_upd (run w_new m1) (IUpdate (mkUpdInput None None (Some (ext_in XMetadata (json_metadata [x61] [] [x75])))))).
  assert (L : layout (data (run w_new m2 kAsset)) (firstn 168 (data (run w_new m2 kAsset))) [mkBlk XMetadata (json_metadata [x61] [] [x75]) [x00; x00; x00; x00] [x01; x49; x00]] []).
  { assert (E : data (run w_new m2 kAsset) = firstn 168 (data (run w_new m2 kAsset)) ++ enc_sect 168 [mkBlk XMetadata (json_metadata [x61] [] [x75]) [x00; x00; x00; x00] [x01; x49; x00]] ++ []) by (vm_compute; reflexivity).
    rewrite E at 1. apply mk_layout. vm_compute. reflexivity. }
  exists (run w_new m1), (run w_new m2). eexists. eexists.
  destruct (CountL.lookup_has_ext _ _ _ _ XMetadata (json_metadata [x61] [] [x75]) L) as [off X]; [reflexivity|]. exists off.
  split; [apply run_ok; vm_compute; reflexivity|]. split; [apply run_ok; vm_compute; reflexivity|].
  split; [eexists; eexists; exact L|]. split; [exact X|]. split; [vm_compute; reflexivity|]. split; [vm_compute; reflexivity|]. reflexivity.
Qed.
Print Assumptions C62_old_image_refuted.
(** Assets with different names can look alike: NUL characters are dropped. *)
Theorem C62_names_refuted : exists w1 w2 a, process env0 i_new w_new (new_with [x61; x00; x62] []) = Ok w1 /\
  process env0 i_new w_new (new_with [x61; x62] []) = Ok w2 /\ s_name (data (w1 kAsset)) <> s_name (data (w2 kAsset)) /\
  js_asset (data (w1 kAsset)) = JDone a /\ js_asset (data (w2 kAsset)) = JDone a.
Proof.
  eexists. eexists. eexists. split; [apply (run_ok w_new); vm_compute; reflexivity|]. split; [apply (run_ok w_new); vm_compute; reflexivity|].
  split; [vm_compute; discriminate|]. split; vm_compute; reflexivity.
Qed.
Print Assumptions C62_names_refuted.

(** Account search: a filter selects exactly the accounts whose field has the value
    given (a role list: the mask with exactly these roles; a name: filled or cut to
    35 bytes). *)
Theorem C62_filter : forall f p d, (168 <= length d)%nat -> filter_typed f -> js_filter f = Some p -> (matches d p <-> selects f d).
Proof. exact filter_selects. Qed.
Print Assumptions C62_filter.
Example C62_filter_case : js_filter (JFRoles [RBurn; RTransfer]) = Some (132%nat, [x05]) /\ js_filter (JFGroup None) = Some (36%nat, repeat x00 32) /\
  js_filter (JFName hat) = Some (133%nat, hat ++ repeat x00 32) /\ matches js_hd (132%nat, [x05]) /\ matches js_hd (36%nat, repeat x00 32) /\
  ~ matches js_hd (133%nat, hat ++ repeat x00 32).
Proof. vm_compute. repeat split; discriminate. Qed.

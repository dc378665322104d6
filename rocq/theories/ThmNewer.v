(** C72: extensions of types that this version does not know. *)
From Verif Require Import Base State Layout Constr Ext ExtLen World Proc Borsh Client Js BaseL Spec SpecB SpecC SpecI SpecF SpecJ SpecN NewerL Sample.
From Coq Require Import Strings.Byte.

(** The readers of the library skip them. *)
Theorem C72_get : forall d l stop, headers d 168 l stop -> forall t, t <> XNone ->
  asset_get t d = Ok (option_map (fun i => (it_at i + 16, it_data i)) (first_of t l)).
Proof. exact newer_get. Qed.
Print Assumptions C72_get.
Theorem C72_contains : forall d l stop, headers d 168 l stop -> forall t, t <> XNone ->
  asset_contains t d = Ok (match first_of t l with Some _ => true | None => false end).
Proof. exact newer_contains. Qed.
Print Assumptions C72_contains.
Theorem C72_get_extension : forall d l stop, headers d 168 l stop -> forall t, t <> XNone ->
  asset_get_extension t d = Ok (option_map (fun i => (item_header i, it_at i + 16)) (first_of t l)).
Proof. exact newer_get_extension. Qed.
Print Assumptions C72_get_extension.
Theorem C72_section : forall d l stop, headers d 168 l stop -> forall t, t <> XNone -> zlen d < 2147483648 ->
  sect_get t (drop 168 d) = Ok (option_map (fun i => (it_at i + 16 - 168, it_data i)) (first_of t l)).
Proof. exact newer_sect. Qed.
Print Assumptions C72_section.
Theorem C72_list : forall d l stop, headers d 168 l stop -> get_extensions d = Ok (map fst (known l)).
Proof. exact newer_list. Qed.
Print Assumptions C72_list.
(** First and last extension: up to the first unknown type only. *)
Theorem C72_first : forall d l stop, headers d 168 l stop ->
  first_extension d = Ok (match known_prefix l with i :: _ => Some (item_header i, 184) | [] => None end).
Proof. exact newer_first. Qed.
Print Assumptions C72_first.
Theorem C72_last : forall d l stop, headers d 168 l stop ->
  last_extension d = Ok (last (map (fun i => Some (item_header i, it_at i + 16)) (known_prefix l)) None).
Proof. exact newer_last. Qed.
Print Assumptions C72_last.
(** The JavaScript client shows the others. *)
Theorem C72_js : forall d l stop, headers d 168 l stop -> forall a, valid_header d -> Forall (fun p => parses (fst p) (it_data (snd p))) (known l) ->
  (js_asset d = JDone a <-> (zlen d <= stop \/ stop + 16 <= zlen d) /\ shown_header d a /\
     Forall2 (fun p x => shown (fst p) (it_data (snd p)) (it_pad (snd p)) x) (known l) (ja_exts a)) /\ js_asset d <> JHang.
Proof. exact newer_js. Qed.
Print Assumptions C72_js.
(** Accounts as this version writes them are a special case. *)
Theorem C72_own : forall d hd l tl, layout d hd l tl -> headers d 168 (items_of 168 l) (168 + sect_size l) /\
  map (fun i => (it_code i, it_data i)) (items_of 168 l) = map (fun k => (ext_code (bk_type k), bk_data k)) l.
Proof. exact layout_headers. Qed.
Print Assumptions C72_own.

(** links, then an extension of type 99, then a bucket *)
Definition newer_hd : bytes := header x01 x00 x00 x01 kHolder pk_zero kAuth pk_zero x00.
Definition newer_data : bytes :=
  newer_hd ++ le_enc 4 4 ++ le_enc 4 5 ++ le_enc 4 192 ++ zeros 4 ++ [x01; x61; x02; x62; x63; x00; x00; x00] ++
  le_enc 4 99 ++ le_enc 4 3 ++ le_enc 4 216 ++ zeros 4 ++ [x09; x09; x09; x00; x00; x00; x00; x00] ++
  le_enc 4 11 ++ le_enc 4 2 ++ le_enc 4 240 ++ zeros 4 ++ [x05; x06; x00; x00; x00; x00; x00; x00].
Definition newer_items : list item :=
  [mkItem 4 168 [x01; x61; x02; x62; x63] [x00; x00; x00]; mkItem 99 192 [x09; x09; x09] (repeat x00 5); mkItem 11 216 [x05; x06] (repeat x00 6)].
Example C72_case : headers newer_data 168 newer_items 240 /\ valid_header newer_data /\
  get_extensions newer_data = Ok [XLinks; XBucket] /\ asset_get XBucket newer_data = Ok (Some (232, [x05; x06])) /\
  (exists a, js_asset newer_data = JDone a /\ ja_exts a = [JLinks [([x61], [x62; x63])]; JBucket [x05; x06]]).
Proof.
  split.
  { apply (hs_item newer_data 168 4 5 192); [reflexivity|vm_compute; reflexivity|vm_compute; reflexivity|vm_compute; reflexivity|discriminate|vm_compute; split; discriminate|].
    apply (hs_item newer_data 192 99 3 216); [reflexivity|vm_compute; reflexivity|vm_compute; reflexivity|vm_compute; reflexivity|discriminate|vm_compute; split; discriminate|].
    apply (hs_item newer_data 216 11 2 240); [reflexivity|vm_compute; reflexivity|vm_compute; reflexivity|vm_compute; reflexivity|discriminate|vm_compute; split; discriminate|].
    apply hs_end; [reflexivity|]. left. vm_compute. reflexivity. }
  split. { split; [|split]; [|vm_compute; reflexivity|vm_compute; reflexivity]. split; [vm_compute; lia|reflexivity]. }
  split; [vm_compute; reflexivity|]. split; [vm_compute; reflexivity|]. eexists. split; vm_compute; reflexivity.
Qed.
(** "If the account contains an unrecognized extension type, last_extension
    returns None" (its comment): false, it returns the last one before. *)
Theorem C72_last_refuted : exists d l stop h off, headers d 168 l stop /\ (exists i, In i l /\ type_of i = None) /\ last_extension d = Ok (Some (h, off)) /\
  h_bnd h < stop.
Proof.
  exists newer_data, newer_items, 240. eexists. eexists. split; [apply C72_case|].
  split; [eexists; split; [right; left; reflexivity|reflexivity]|]. split; [vm_compute; reflexivity|]. vm_compute. reflexivity.
Qed.
Print Assumptions C72_last_refuted.
(** So Resize with Trim, which cuts the account after the last extension, cuts off
    the extension of unknown type and those after it. *)
Definition w_newer : world := table [(kAsset, mkAcct 100000 kProg newer_data); (kAuth, wal 5)].
Definition i_trim : list ainfo := [mkInfo kAsset true true; mkInfo kAuth true true; mkInfo kAuth true true; mkInfo kSys false false].
Theorem C72_trim_refuted : exists w', process env0 i_trim w_newer (IResize Trim) = Ok w' /\ 
  asset_get XBucket (data (w_newer kAsset)) = Ok (Some (232, [x05; x06])) /\ asset_get XBucket (data (w' kAsset)) = Ok None /\ zlen (data (w' kAsset)) = 192.
Proof. eexists. split; [apply (run_ok w_newer); vm_compute; reflexivity|]. split; [vm_compute; reflexivity|]. split; vm_compute; reflexivity. Qed.
Print Assumptions C72_trim_refuted.

(** Property theorems: extension payloads (C40). *)
From Verif Require Import Base State Layout Constr Ext ExtLen World Proc BaseL Spec SpecC WorldL LayoutL CreatorsL ConstrL CodecL Sample ThmConstr.
From Coq Require Import Strings.Byte.

(** C40: what each builder writes parses back to the values given, and the length
    reported is the number of bytes.  Strings have at most 255 bytes ([short]). *)
Theorem C40_attributes : forall l, Forall short_pair l ->
  attributes_from_bytes (build_attributes l) = Ok l /\ pairs_length l = zlen (build_attributes l).
Proof. exact pairs_round. Qed.
Print Assumptions C40_attributes.
Theorem C40_links : forall l, Forall short_pair l ->
  links_from_bytes (build_links l) = Ok l /\ pairs_length l = zlen (build_links l).
Proof. exact pairs_round. Qed.
Print Assumptions C40_links.
Theorem C40_blob : forall ct dat, short ct ->
  blob_from_bytes (build_blob ct dat) = Ok (ct, dat) /\ blob_length (ct, dat) = zlen (build_blob ct dat).
Proof. exact blob_round. Qed.
Print Assumptions C40_blob.
Theorem C40_bucket : forall dat, bucket_from_bytes (build_bucket dat) = Ok dat /\ bucket_length dat = zlen (build_bucket dat).
Proof. intro dat. exact (conj eq_refl eq_refl). Qed.
Print Assumptions C40_bucket.
Theorem C40_metadata : forall s d u i, short (text_of s) -> short (text_of d) -> short (text_of u) -> short (text_of i) ->
  metadata_from_bytes (build_metadata s d u i) = Ok (text_of s, text_of d, text_of u, text_of i) /\
  metadata_length (text_of s, text_of d, text_of u, text_of i) = zlen (build_metadata s d u i).
Proof. exact metadata_round. Qed.
Print Assumptions C40_metadata.
Theorem C40_properties : forall l, Forall short_prop l -> exists r, properties_from_bytes (build_properties l) = Ok r /\
  map fst r = map fst l /\ map (fun p => prop_deref (snd p)) r = map (fun p => Ok (snd p)) l /\ props_length r = zlen (build_properties l).
Proof. exact props_round. Qed.
Print Assumptions C40_properties.
Theorem C40_properties_get : forall l t name, Forall short_prop l -> exists r, properties_from_bytes (build_properties l) = Ok r /\
  props_get t name r = match find (fun p => bytes_eqb (fst p) name) l with
    | None => Ok None
    | Some p => if ptype_eqb (prop_type (raw_val (snd p))) t then Ok (Some (snd p)) else UB end.
Proof. exact props_read. Qed.
Print Assumptions C40_properties_get.
Theorem C40_creators : forall l, zlen l <= 256 -> creators_from_bytes (build_creators (map entry l)) = Ok (map entry l) /\
  creators_length (map entry l) = zlen (build_creators (map entry l)).
Proof. exact creators_round. Qed.
Print Assumptions C40_creators.
Theorem C40_grouping : forall al max del, al mod 8 = 0 -> 0 <= max_of max < two64 ->
  grouping_from_bytes al (build_grouping max del) = Ok (mkGrouping 0 (max_of max) (key_of del)) /\
  grouping_length (mkGrouping 0 (max_of max) (key_of del)) = zlen (build_grouping max del).
Proof. exact grouping_round. Qed.
Print Assumptions C40_grouping.
Theorem C40_royalties : forall al bp f, al mod 8 = 0 -> 0 <= bp < two64 -> zlen (build f) <= u32_max ->
  exists c, royalties_from_bytes al (build_royalties bp f) = Ok (bp, c) /\ erase c = wanted f /\ royalties_length (bp, c) = zlen (build_royalties bp f).
Proof. exact royalties_round. Qed.
Print Assumptions C40_royalties.
Theorem C40_manager : forall k roles, manager_from_bytes (build_manager (mkDelegate (pk_bytes k) roles)) = Ok (mkDelegate (pk_bytes k) roles) /\
  manager_length (mkDelegate (pk_bytes k) roles) = zlen (build_manager (mkDelegate (pk_bytes k) roles)).
Proof. exact manager_round. Qed.
Print Assumptions C40_manager.
Theorem C40_proxy : forall prog seeds bump auth, zlen seeds = 32 ->
  proxy_from_bytes (build_proxy prog seeds bump auth) = Ok (mkProxy (pk_bytes prog) seeds bump (key_of auth)) /\
  proxy_length (mkProxy (pk_bytes prog) seeds bump (key_of auth)) = zlen (build_proxy prog seeds bump auth).
Proof. exact proxy_round. Qed.
Print Assumptions C40_proxy.

(** Conversely a payload is determined by what is parsed from it, with the length
    reported being its length, whoever wrote it. *)
Theorem C40_pairs_exact : forall b l, attributes_from_bytes b = Ok l -> Forall short_pair l /\ build_attributes l = b /\ pairs_length l = zlen b.
Proof. exact pairs_exact. Qed.
Print Assumptions C40_pairs_exact.
Theorem C40_pairs_total : forall b, attributes_from_bytes b = Panic \/ exists l, attributes_from_bytes b = Ok l.
Proof. intro b. exact (pairs_total (S (length b)) b (Nat.lt_succ_diag_r (length b))). Qed.
Print Assumptions C40_pairs_total.
Theorem C40_blob_exact : forall b p, blob_from_bytes b = Ok p -> short (fst p) /\ build_blob (fst p) (snd p) = b /\ blob_length p = zlen b.
Proof. exact blob_exact. Qed.
Print Assumptions C40_blob_exact.
Theorem C40_properties_exact : forall b l, properties_from_bytes b = Ok l -> props_length l = zlen b /\
  (forall b', properties_from_bytes b' = Ok l -> b' = b).
Proof. exact props_exact. Qed.
Print Assumptions C40_properties_exact.
Theorem C40_creators_exact : forall b l, creators_from_bytes b = Ok l -> enc_creators l = b /\ creators_length l = zlen b.
Proof. exact creators_exact. Qed.
Print Assumptions C40_creators_exact.

Definition hat : bytes := [x68; x61; x74].
Definition red : bytes := [x72; x65; x64].
Example C40_case :
  attributes_from_bytes (build_attributes [(hat, red); (red, []); ([], hat)]) = Ok [(hat, red); (red, []); ([], hat)] /\
  Forall short_pair [(hat, red); (red, []); ([], hat)] /\ pairs_length [(hat, red); (red, []); ([], hat)] = 18 /\
  attributes_from_bytes (firstn 17 (build_attributes [(hat, red); (red, []); ([], hat)])) = Panic /\
  metadata_from_bytes (build_metadata (Some hat) None (Some red) None) = Ok (hat, [], red, []) /\
  blob_from_bytes (build_blob hat [x01; x02]) = Ok (hat, [x01; x02]) /\
  (exists r, properties_from_bytes (build_properties [(hat, TText red); (red, TNumber 300); ([], TBool true)]) = Ok r /\
    props_get TyNumber red r = Ok (Some (TNumber 300)) /\ props_get TyBoolean [] r = Ok (Some (TBool true)) /\ props_get TyText [x00] r = Ok None) /\
  creators_from_bytes (build_creators (map entry [(kMan, true, x20); (kAuth, false, x40)])) = Ok (map entry [(kMan, true, x20); (kAuth, false, x40)]) /\
  grouping_from_bytes 8 (build_grouping (Some 70000) (Some kMan)) = Ok (mkGrouping 0 70000 (pk_bytes kMan)) /\
  (exists c, royalties_from_bytes 8 (build_royalties 500 f_case) = Ok (500, c)) /\
  proxy_from_bytes (build_proxy kProg (pk_bytes kMan) xfe None) = Ok (mkProxy (pk_bytes kProg) (pk_bytes kMan) xfe zero32).
Proof.
  split; [vm_compute; reflexivity|]. split; [repeat constructor; unfold short; vm_compute; discriminate|].
  split; [vm_compute; reflexivity|]. split; [vm_compute; reflexivity|]. split; [vm_compute; reflexivity|]. split; [vm_compute; reflexivity|].
  split; [eexists; split; [vm_compute; reflexivity|]; vm_compute; auto|].
  split; [vm_compute; reflexivity|]. split; [vm_compute; reflexivity|]. split; [eexists; vm_compute; reflexivity|]. vm_compute. reflexivity.
Qed.

(** Outside those bounds it fails: a string of 256 bytes, *)
Theorem C40_long_refuted : exists l, ~ Forall short_pair l /\ (forall l', attributes_from_bytes (build_attributes l) = Ok l' -> l' <> l).
Proof.
  exists [(repeat x61 256, [])]. split.
  - intro H. apply Forall_cons_iff in H as [[H _] _]. unfold short in H. vm_compute in H. now apply H.
  - intros l' H. apply pairs_exact in H as (H & _). intros ->. apply Forall_cons_iff in H as [[H _] _]. unfold short in H. vm_compute in H. now apply H.
Qed.
Print Assumptions C40_long_refuted.
(** 257 creators (the builder's count is a u8 and starts over), *)
Theorem C40_many_creators_refuted : exists l, zlen l = 257 /\ forall r, creators_from_bytes (build_creators (map entry l)) = Ok r -> r <> map entry l.
Proof.
  exists (repeat (kMan, true, x20) 256 ++ [(kAuth, false, x40)]). split; [vm_compute; reflexivity|].
  intros r H E. subst r. apply creators_exact in H as [H _]. rewrite map_app in H.
  assert (W : firstn 34 (build_creators (map entry (repeat (kMan, true, x20) 256) ++ map entry [(kAuth, false, x40)])) = enc_creator (entry (kAuth, false, x40))).
  { apply build_creators_wrap; [apply entries_wf|vm_compute; reflexivity|apply (entries_wf [(kAuth, false, x40)])]. }
  rewrite <- H in W. vm_compute in W. discriminate W.
Qed.
Print Assumptions C40_many_creators_refuted.
(** a metadata payload in the older form without image uri, whose reported length is one too many, *)
Theorem C40_metadata_length_refuted : exists b m, metadata_from_bytes b = Ok m /\ metadata_length m <> zlen b.
Proof. exists [x00; x00; x00]. eexists. split; [vm_compute; reflexivity|]. vm_compute. discriminate. Qed.
Print Assumptions C40_metadata_length_refuted.
(** and a property read as another type than it was written, which is undefined. *)
Theorem C40_get_type_refuted : exists l r name, Forall short_prop l /\ properties_from_bytes (build_properties l) = Ok r /\
  props_get TyNumber name r = UB.
Proof.
  exists [(hat, TText red)]. eexists. exists hat. split; [repeat constructor; unfold short; vm_compute; discriminate|].
  split; vm_compute; reflexivity.
Qed.
Print Assumptions C40_get_type_refuted.

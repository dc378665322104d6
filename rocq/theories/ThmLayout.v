(** Property theorems: reading an asset (C18, C19, C49). *)
From Verif Require Import Base State Layout Constr Ext World Proc Spec LayoutL LayoutM HeadL Sample.
From Coq Require Import Strings.Byte.

(** C18: on a well-formed account lookup by type gives the payload stored under
    that type (the first, if there are several), where it lies in the account;
    nothing when the type is absent. *)
Theorem C18_get : forall d l t, well_formed d l -> t <> XNone ->
  (lookup t (ext_list l) = None /\ asset_get t d = Ok None) \/
  (exists off b, lookup t (ext_list l) = Some b /\ asset_get t d = Ok (Some (off, b)) /\
     sub d (Z.to_nat off) (length b) = b /\ off mod 8 = 0 /\ 184 <= off /\ off + zlen b <= zlen d).
Proof. exact get_wf. Qed.
Print Assumptions C18_get.
Theorem C18_distinct : forall t b l, NoDup (map fst l) -> In (t, b) l -> lookup t l = Some b.
Proof. exact lookup_in. Qed.
Print Assumptions C18_distinct.
Theorem C18_absent : forall t l, lookup t l = None <-> ~ In t (map fst l).
Proof. exact lookup_none. Qed.
Print Assumptions C18_absent.
Theorem C18_contains : forall d l t, well_formed d l -> t <> XNone ->
  exists c, asset_contains t d = Ok c /\ (c = true <-> In t (map fst (ext_list l))).
Proof. exact contains_wf. Qed.
Print Assumptions C18_contains.
Theorem C18_types : forall d l, well_formed d l -> get_extensions d = Ok (map fst (ext_list l)).
Proof. exact extensions_wf. Qed.
Print Assumptions C18_types.
Theorem C18_last : forall d l, well_formed d l ->
  (l = [] /\ last_extension d = Ok None) \/
  (exists l' b h off, l = l' ++ [b] /\ last_extension d = Ok (Some (h, off)) /\
     h_type h = ext_code (bk_type b) /\ h_len h = zlen (bk_data b) /\
     h_bnd h = 168 + sect_size l /\ sub d (Z.to_nat off) (length (bk_data b)) = bk_data b).
Proof. exact last_wf. Qed.
Print Assumptions C18_last.
Theorem C18_first : forall d l, well_formed d l ->
  (l = [] /\ first_extension d = Ok None) \/
  (exists b l' h, l = b :: l' /\ first_extension d = Ok (Some (h, 184)) /\
     h_type h = ext_code (bk_type b) /\ h_len h = zlen (bk_data b) /\ h_bnd h = 168 + blk_size b).
Proof. exact first_wf. Qed.
Print Assumptions C18_first.
Example C18_case : well_formed man_data man_exts /\
  asset_get XManager man_data = Ok (Some (208, man_payload)) /\
  asset_get XGrouping man_data = Ok None /\
  get_extensions man_data = Ok [XBlob; XManager] /\ zlen man_data = 248.
Proof. split; [exact man_wf|]. vm_compute. auto. Qed.

(** C19: the two lookups agree; the one over the section counts offsets from the
    start of the section. *)
Theorem C19_lookups_agree : forall d l t, well_formed d l -> t <> XNone ->
  exists r, asset_get t d = Ok r /\
    sect_get t (drop ASSET_LEN d) = Ok (option_map (fun p => (fst p - 168, snd p)) r).
Proof. exact lookups_agree. Qed.
Print Assumptions C19_lookups_agree.
Example C19_case : well_formed man_data man_exts /\
  sect_get XManager (drop ASSET_LEN man_data) = Ok (Some (40, man_payload)).
Proof. split; [exact man_wf|]. vm_compute. auto. Qed.

(** C49: none of the readers panics, fails or runs out of steps. *)
Theorem C49_accessors_total : forall d l, well_formed d l ->
  (forall t, t <> XNone -> returns (asset_get t d) /\ returns (asset_contains t d) /\
     returns (asset_get_extension t d) /\ returns (sect_get t (drop ASSET_LEN d))) /\
  returns (get_extensions d) /\ returns (last_extension d) /\ returns (first_extension d) /\
  ((forall b, lookup XManager (ext_list l) = Some b -> (33 <= length b)%nat) -> returns (manager_delegate d)).
Proof. exact accessors_total. Qed.
Print Assumptions C49_accessors_total.
(** The manager hypothesis is needed: a shorter payload panics. *)
Example C49_case : well_formed man_data man_exts /\
  lookup XManager (ext_list man_exts) = Some man_payload /\ length man_payload = 33%nat /\
  manager_delegate (mk (header x01 x00 x01 x01 kHolder pk_zero kAuth kDeleg x07) [blk_of XManager []]) = Panic.
Proof. split; [exact man_wf|]. vm_compute. auto. Qed.

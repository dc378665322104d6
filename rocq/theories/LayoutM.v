(** Lookup on well-formed accounts, in the vocabulary of Spec.v (C18, C49). *)
From Verif Require Import Base State Layout Constr Ext World Proc BaseL Spec LayoutL HeadL.
From Coq Require Import Strings.Byte.

Lemma lookup_in t b l : NoDup (map fst l) -> In (t, b) l -> lookup t l = Some b.
Proof.
  induction l as [|[t' b'] l IH]; cbn [map fst lookup In]; intros Hn Hi; [contradiction|]. inv Hn.
  destruct (ext_type_eqb t' t) eqn:E.
  - apply ext_type_eqb_eq in E. subst t'. destruct Hi as [Hi|Hi]; [congruence|].
    exfalso. apply H1. apply in_map_iff. now exists (t, b).
  - destruct Hi as [Hi|Hi]; [|auto]. injection Hi as -> ->. rewrite ext_type_eqb_refl in E. discriminate.
Qed.
Lemma lookup_none t l : lookup t l = None <-> ~ In t (map fst l).
Proof.
  induction l as [|[t' b'] l IH]; cbn [map fst lookup In]; [tauto|].
  destruct (ext_type_eqb t' t) eqn:E.
  - apply ext_type_eqb_eq in E. subst t'. split; [discriminate|]. tauto.
  - rewrite IH. split; intro H; [|tauto]. intros [->|H2]; [rewrite ext_type_eqb_refl in E; discriminate|tauto].
Qed.

Lemma get_wf d l t : well_formed d l -> t <> XNone ->
  (lookup t (ext_list l) = None /\ asset_get t d = Ok None) \/
  (exists off b, lookup t (ext_list l) = Some b /\ asset_get t d = Ok (Some (off, b)) /\
     sub d (Z.to_nat off) (length b) = b /\ off mod 8 = 0 /\ 184 <= off /\ off + zlen b <= zlen d).
Proof.
  intros (hd & tl & HL) Ht. rewrite (layout_get _ _ _ _ HL t Ht). rewrite (loc_lookup t l 168).
  destruct (loc t 168 l) as [[c b]|] eqn:E; cbn [option_map fst snd]; [right|left; auto].
  exists (c + 16), (bk_data b). split; [reflexivity|]. split; [reflexivity|].
  destruct (loc_some _ _ _ _ _ E) as (l1 & l2 & E1 & E2 & _).
  pose proof (layout_slice _ _ _ _ HL c l1 b l2 E1 E2) as Hs.
  apply slice_ok in Hs as (H1 & H2 & H3 & H4 & H5).
  pose proof (sect_size_nonneg l1).
  assert (Hf : Forall blk_ok l1).
  { destruct HL as (_ & _ & Hf & _). rewrite E1 in Hf. now apply Forall_app in Hf. }
  pose proof (sect_size_mod l1 Hf).
  split; [|repeat split; lia].
  rewrite sub_fld, Z2Nat.id by lia. rewrite H4 at 2. f_equal. unfold zlen. lia.
Qed.
Lemma contains_wf d l t : well_formed d l -> t <> XNone ->
  exists c, asset_contains t d = Ok c /\ (c = true <-> In t (map fst (ext_list l))).
Proof.
  intros (hd & tl & HL) Ht. eexists. split; [apply (layout_contains _ _ _ _ HL t Ht)|].
  destruct (lookup t (ext_list l)) eqn:E.
  - split; [|reflexivity]. intros _.
    destruct (in_dec (fun a b : ext_type => ltac:(decide equality)) t (map fst (ext_list l))) as [H|H]; [assumption|].
    apply lookup_none in H. congruence.
  - apply lookup_none in E. split; [discriminate|contradiction].
Qed.
Lemma extensions_wf d l : well_formed d l -> get_extensions d = Ok (map fst (ext_list l)).
Proof.
  intros (hd & tl & HL). rewrite (layout_extensions _ _ _ _ HL). unfold ext_list. rewrite map_map. reflexivity.
Qed.
Lemma last_wf d l : well_formed d l ->
  (l = [] /\ last_extension d = Ok None) \/
  (exists l' b h off, l = l' ++ [b] /\ last_extension d = Ok (Some (h, off)) /\
     h_type h = ext_code (bk_type b) /\ h_len h = zlen (bk_data b) /\
     h_bnd h = 168 + sect_size l /\ sub d (Z.to_nat off) (length (bk_data b)) = bk_data b).
Proof.
  intros (hd & tl & HL). rewrite (layout_last _ _ _ _ HL).
  destruct (list_last_case l) as [->|(l' & b & ->)]; [left; auto|right].
  exists l', b. rewrite last_blk_app. cbn [last_res option_map fst snd]. eexists; eexists.
  split; [reflexivity|]. split; [reflexivity|]. cbn [blk_hdr h_type h_len h_bnd].
  repeat split.
  - rewrite sect_size_app. cbn [sect_size]. lia.
  - pose proof (layout_slice _ _ _ _ HL _ l' b [] eq_refl eq_refl) as Hs.
    apply slice_ok in Hs as (H1 & H2 & H3 & H4 & H5).
    rewrite sub_fld, Z2Nat.id by lia. rewrite H4 at 2. f_equal. unfold zlen. lia.
Qed.
Lemma first_wf d l : well_formed d l ->
  (l = [] /\ first_extension d = Ok None) \/
  (exists b l' h, l = b :: l' /\ first_extension d = Ok (Some (h, 184)) /\
     h_type h = ext_code (bk_type b) /\ h_len h = zlen (bk_data b) /\ h_bnd h = 168 + blk_size b).
Proof.
  intros (hd & tl & HL). pose proof (layout_u32 _ _ _ _ HL). destruct HL as (-> & Hh & Hf & Ht & Hz).
  destruct l as [|b l'].
  - left. split; [reflexivity|]. cbn [enc_sect app]. unfold first_extension.
    destruct (tail_hdr hd tl 168) as [E|(E & h & E2 & E3)]; [lia|reflexivity|assumption| |].
    + unfold ASSET_LEN. now rewrite E.
    + unfold ASSET_LEN. rewrite E, E2. cbn [bind]. now rewrite E3.
  - right. exists b, l', (blk_hdr 168 b). split; [reflexivity|]. inv Hf.
    split; [|cbn; auto]. unfold first_extension. cbn [enc_sect]. rewrite <- app_assoc.
    cbn [sect_size] in *. pose proof (sect_size_nonneg l'). pose proof (blk_size_pos b).
    replace (ASSET_LEN + EXT_LEN <=? _) with true
      by (rewrite !zlen_app, zlen_enc_blk, zlen_enc_sect by assumption; pose proof (zlen_nonneg tl); unfold ASSET_LEN, EXT_LEN; lia).
    unfold ASSET_LEN. rewrite load_hdr_blk; auto; try lia. cbn [bind h_type]. rewrite ext_of_code_code.
    destruct H2 as [H2 _]. unfold blk_hdr. destruct (bk_type b); try reflexivity. contradiction.
Qed.

(** C49: no accessor panics or diverges on a well-formed account *)
Definition returns {A} (m : res A) : Prop := exists a, m = Ok a.
Lemma accessors_total d l : well_formed d l ->
  (forall t, t <> XNone -> returns (asset_get t d) /\ returns (asset_contains t d) /\
     returns (asset_get_extension t d) /\ returns (sect_get t (drop ASSET_LEN d))) /\
  returns (get_extensions d) /\ returns (last_extension d) /\ returns (first_extension d) /\
  ((forall b, lookup XManager (ext_list l) = Some b -> (33 <= length b)%nat) -> returns (manager_delegate d)).
Proof.
  intros Hwf. pose proof Hwf as (hd & tl & HL). split; [|split; [|split; [|split]]].
  - intros t Ht. split; [eexists; apply (layout_get _ _ _ _ HL t Ht)|].
    split; [eexists; apply (layout_contains _ _ _ _ HL t Ht)|].
    split; [|eexists; apply (layout_sect _ _ _ _ HL t Ht)].
    unfold asset_get_extension. rewrite (layout_find _ _ _ _ HL t Ht). cbn [bind]. eexists; reflexivity.
  - eexists; apply (layout_extensions _ _ _ _ HL).
  - eexists; apply (layout_last _ _ _ _ HL).
  - destruct (first_wf d l Hwf) as [[_ H]|(b & l' & h & _ & H & _)]; eexists; exact H.
  - intro Hm. rewrite (manager_layout _ _ Hwf). destruct (lookup XManager (ext_list l)) as [b|]; [|eexists; reflexivity].
    specialize (Hm b eq_refl). unfold load_delegate, guard.
    replace (33 <=? zlen b) with true by (unfold zlen; lia). eexists; reflexivity.
Qed.

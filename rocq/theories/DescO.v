(** Proofs about the interface descriptions: what is missing, accounts, extensions, the
    header, the other programs, errors. *)
From Verif Require Import Base State Layout Constr Ext World Proc Borsh BorshL Js Rs Cpi Codes Client Proxy ProxyC ProxyL Bridge BridgeC Desc DescData
  Spec SpecI SpecJ SpecDesc BaseL JsN JsO DescL DescM DescN.
From Coq Require Import Strings.Byte Strings.String Strings.Ascii Lia.
Open Scope string_scope.
Open Scope list_scope.
Open Scope Z_scope.

(** ** Instructions as the program decodes them *)
Lemma kind_name_inj a b : kind_name a = kind_name b -> a = b.
Proof. destruct a, b; intros H; try reflexivity; discriminate H. Qed.
Lemma role_name_inj a b : role_name a = role_name b -> a = b.
Proof. destruct a, b; intros H; try reflexivity; discriminate H. Qed.
Lemma standard_name_inj a b : standard_name a = standard_name b -> a = b.
Proof. destruct a, b; intros H; try reflexivity; discriminate H. Qed.
Lemma map_inj {A B} (f : A -> B) : (forall a b, f a = f b -> a = b) -> forall l m, map f l = map f m -> l = m.
Proof.
  intros I l. induction l as [|a l IH]; intros [|b m] H; try reflexivity; try discriminate H. cbn [map] in H. injection H as H1 H2.
  rewrite (I _ _ H1), (IH _ H2). reflexivity.
Qed.
Lemma maybe_inj {A} (f : A -> cval) : (forall a b, f a = f b -> a = b) -> forall x y, maybe f x = maybe f y -> x = y.
Proof. intros I [x|] [y|] H; try reflexivity; try discriminate H. cbn [maybe] in H. injection H as H. rewrite (I _ _ H). reflexivity. Qed.
Lemma raw_inj a b : VRaw a = VRaw b -> a = b.
Proof. intros H. injection H as ->. reflexivity. Qed.
Lemma bool_inj a b : VBool a = VBool b -> a = b.
Proof. intros H. injection H as ->. reflexivity. Qed.
Lemma ext_value_inj a b : ext_value a = ext_value b -> a = b.
Proof.
  destruct a as [t n d], b as [t' n' d']. unfold ext_value, word. cbn [x_type x_length x_data]. intros H. injection H as H1 H2 H3.
  apply kind_name_inj in H1. apply (maybe_inj _ raw_inj) in H3. subst. reflexivity.
Qed.
Lemma roles_value_inj a b : roles_value a = roles_value b -> a = b.
Proof.
  destruct a as [|l], b as [|m]; unfold roles_value, word; intros H; try reflexivity; try discriminate H. injection H as H. f_equal.
  revert H. apply map_inj. intros x y H. injection H as H. apply role_name_inj, H.
Qed.
Lemma strategy_value_inj a b : strategy_value a = strategy_value b -> a = b.
Proof. destruct a, b; unfold strategy_value, word; intros H; try reflexivity; try discriminate H. injection H as ->. reflexivity. Qed.
Lemma told_inj i j : told i = told j -> i = j.
Proof.
  destruct i, j; cbn [told]; intros H; try reflexivity; try discriminate H.
  - destruct m as [n s m x], m0 as [n' s' m' x']. cbn [m_name m_standard m_mutable m_exts] in H. unfold word in H. injection H as H1 H2 H3 H4.
    apply standard_name_inj in H2. assert (x = x'); [|subst; reflexivity]. revert H4. apply maybe_inj. intros a b H. injection H as H.
    revert H. apply map_inj. exact ext_value_inj.
  - injection H as H. rewrite (roles_value_inj _ _ H). reflexivity.
  - injection H as H. assert (x = x0); [|subst; reflexivity]. apply ext_value_inj. unfold ext_value. cbn. congruence.
  - injection H as H. rewrite (roles_value_inj _ _ H). reflexivity.
  - destruct u as [n m x], u0 as [n' m' x']. cbn [u_name u_mutable u_ext] in H. injection H as H1 H2 H3.
    apply (maybe_inj _ raw_inj) in H1. apply (maybe_inj _ bool_inj) in H2. apply (maybe_inj _ ext_value_inj) in H3. subst. reflexivity.
  - destruct d, d0. cbn [Proc.w_overwrite Proc.w_bytes] in H. injection H as -> ->. reflexivity.
  - unfold word in H. injection H as H. apply kind_name_inj in H. subst. reflexivity.
  - injection H as H. rewrite (strategy_value_inj _ _ H). reflexivity.
Qed.
Lemma told_shank_inj i j : told_shank i = told_shank j -> i = j.
Proof.
  intros H. apply told_inj. rewrite (surjective_pairing (told i)), (surjective_pairing (told j)). unfold told_shank in H.
  destruct i, j; cbn [told fst snd] in H |- *; try reflexivity; try discriminate H; try exact H.
  all: injection H; intros; congruence.
Qed.
Lemma codama_decodes hooks b i : try_from_slice b = Some i <-> cdata hooks codama_asset (fst (told i)) (snd (told i)) = Some b.
Proof.
  rewrite instr_exact, codama_exact. split.
  - intros [O ->]. exists i. split; [apply surjective_pairing|auto].
  - intros (j & T & O & ->). rewrite <- surjective_pairing in T. apply told_inj in T. subst j. auto.
Qed.
Lemma codama_only hooks s args b : cdata hooks codama_asset s args = Some b -> exists i, told i = (s, args) /\ try_from_slice b = Some i.
Proof. rewrite codama_exact. intros (i & T & O & ->). exists i. split; [exact T|]. apply instr_exact. auto. Qed.
Lemma shank_decodes hooks b i : try_from_slice b = Some i <-> cdata hooks shank_whole (fst (told_shank i)) (snd (told_shank i)) = Some b.
Proof.
  rewrite instr_exact, shank_exact. split.
  - intros [O ->]. exists i. split; [apply surjective_pairing|auto].
  - intros (j & T & O & ->). rewrite <- surjective_pairing in T. apply told_shank_inj in T. subst j. auto.
Qed.
Lemma shank_only hooks s args b : cdata hooks shank_whole s args = Some b -> exists i, told_shank i = (s, args) /\ try_from_slice b = Some i.
Proof. rewrite shank_exact. intros (i & T & O & ->). exists i. split; [exact T|]. apply instr_exact. auto. Qed.

(** ** Without the types kinobi adds *)
Lemma enc_link_in h defs n s t v : cfind defs s = Some t -> cenc (S n) h defs (CLink s) v = cenc n h defs t v.
Proof. intros D. cbn [cenc]. rewrite D. destruct v; reflexivity. Qed.
Lemma opt_none h defs n t v : cenc n h defs t v = None -> cenc (S n) h defs (COpt t) (VSome v) = None.
Proof. intros H. cbn [cenc]. rewrite H. reflexivity. Qed.
Lemma vec_none h defs n k t v l : cenc n h defs t v = None -> cenc (S n) h defs (CVec k t) (VSeq (v :: l)) = None.
Proof. intros H. cbn [cenc map cseq]. rewrite H. destruct (cnum _ _); reflexivity. Qed.
Lemma shank_missing hooks i : names_kind i -> cdata hooks shank_asset (fst (told_shank i)) (snd (told_shank i)) = None.
Proof.
  intros N. destruct (cdata _ _ _ _) as [b|] eqn:D; [exfalso|reflexivity]. apply cdata_iff in D. destruct D as (c & r & C & _ & R & _).
  assert (KS : forall n v, cenc n hooks (cp_types shank_asset) (CLink "standard") v = None) by (intros; apply no_link; reflexivity).
  assert (KT : forall n v, cenc n hooks (cp_types shank_asset) (CLink "extensionType") v = None) by (intros; apply no_link; reflexivity).
  assert (KR : forall n v, cenc n hooks (cp_types shank_asset) (CLink "delegateRole") v = None) by (intros; apply no_link; reflexivity).
  assert (KX : forall n v, cenc n hooks (cp_types shank_asset) (CLink "extensionInput") v = None).
  { intros [|n] v; [reflexivity|]. rewrite (enc_link_in _ _ _ _ t_ext) by reflexivity. destruct n as [|n]; [reflexivity|].
    destruct (cenc _ _ _ _ v) as [x|] eqn:E; [exfalso|reflexivity].
    apply E_struct in E. destruct E as (vs & _ & G). apply F_cons in G. destruct G as (v1 & vs1 & b1 & b2 & _ & G & _). rewrite KT in G. discriminate G. }
  assert (KD : forall n q l, cenc n hooks (cp_types shank_asset) (CLink "delegateInput") (roles_value (DSome (q :: l))) = None).
  { intros [|n] q l; [reflexivity|]. rewrite (enc_link_in _ _ _ _ t_delegate) by reflexivity. destruct n as [|n]; [reflexivity|].
    destruct (cenc _ _ _ _ _) as [x|] eqn:E; [exfalso|reflexivity].
    apply E_enum in E. destruct E as (s & vs & k & ts & rr & E & P & _ & G & _). injection E as <- <-. injection P as <- <-.
    apply F_cons in G. destruct G as (v1 & vs1 & b1 & b2 & E & G & _). injection E as <- <-. destruct n as [|n]; [discriminate G|]. cbn [map] in G. rewrite vec_none in G by apply KR. discriminate G. }
  destruct i; cbn [names_kind] in N; try contradiction; unfold told_shank in C, R; cbn [told fst snd] in C, R;
    (vm_compute in C; injection C as <-; cbn [ci_args] in R).
  - apply (fields_rec hooks (cp_types shank_asset) 7 _ _ _ _ _ (eq_refl : cfind (cp_types shank_asset) "metadataInput" = Some (CStruct _))) in R.
    destruct R as (us & _ & R). apply F_cons in R. destruct R as (v1 & vs1 & b1 & b2 & _ & _ & R & _).
    apply F_cons in R. destruct R as (v2 & vs2 & b3 & b4 & _ & R & _). rewrite KS in R. discriminate R.
  - apply F_cons in R. destruct R as (v1 & vs1 & b1 & b2 & E & R & _). injection E as <- <-. destruct d as [|[|q l]]; try contradiction.
    rewrite KD in R. discriminate R.
  - apply (fields_rec hooks (cp_types shank_asset) 7 _ _ _ _ _ (eq_refl : cfind (cp_types shank_asset) "allocateInput" = Some (CStruct _))) in R.
    destruct R as (us & _ & R). apply F_cons in R. destruct R as (v1 & vs1 & b1 & b2 & _ & R & _). rewrite KX in R. discriminate R.
  - apply F_cons in R. destruct R as (v1 & vs1 & b1 & b2 & E & R & _). injection E as <- <-. destruct d as [|[|q l]]; try contradiction.
    rewrite KD in R. discriminate R.
  - apply (fields_rec hooks (cp_types shank_asset) 7 _ _ _ _ _ (eq_refl : cfind (cp_types shank_asset) "updateInput" = Some (CStruct _))) in R.
    destruct R as (us & E & R). injection E as <-. apply F_cons in R. destruct R as (v1 & vs1 & b1 & b2 & E & _ & R & _). injection E as <- <-.
    apply F_cons in R. destruct R as (v1 & vs1 & b3 & b4 & E & _ & R & _). injection E as <- <-.
    apply F_cons in R. destruct R as (v1 & vs1 & b5 & b6 & E & R & _). injection E as <- <-.
    destruct (u_ext u) as [x|]; [|contradiction N; reflexivity]. cbn [maybe] in R. rewrite opt_none in R by apply KX. discriminate R.
  - apply F_cons in R. destruct R as (v1 & vs1 & b1 & b2 & _ & R & _). rewrite KT in R. discriminate R.
Qed.
Lemma shank_rest hooks i : instr_ok i -> ~ names_kind i -> exists b, cdata hooks shank_asset (fst (told_shank i)) (snd (told_shank i)) = Some b /\ try_from_slice b = Some i.
Proof.
  intros O N. exists (write_instr i). split; [|apply instr_exact; auto]. apply cdata_iff.
  destruct i as [ | |m|d|x| |d| | | |u| |d| | | |t|s]; try destruct d as [|[|q l]]; cbn [names_kind] in N; try (exfalso; apply N; exact I); unfold told_shank; cbn [told fst snd];
    (eexists; eexists; split; [reflexivity|]; cbn [ci_disc ci_args]; split; [lia|]); cbn [instr_ok] in O.
  all: try (split; [apply F_nil; split; reflexivity|reflexivity]).
  all: try match goal with u : update_input |- _ => fail 1 | d : data_input |- _ => fail 1 | s : strategy |- _ => fail 1
    | |- _ => split; [vm_compute; reflexivity|reflexivity] end.
  - destruct u as [n m [x|]]; cbn [u_ext u_name u_mutable] in *; [exfalso; apply N; discriminate|]. destruct O as [O _]. cbn [u_name] in O.
    split; [apply (fields_rec hooks (cp_types shank_asset) 7 _ _ _ _ _ (eq_refl : cfind (cp_types shank_asset) "updateInput" = Some (CStruct _)))|reflexivity].
    eexists. split; [reflexivity|].
    apply F_cons. do 4 eexists. split; [reflexivity|].
    split; [apply (codes_opt hooks (cp_types shank_asset) _ _ _ _ _ (codes_text4 hooks (cp_types shank_asset) 4)); exists n; split; [reflexivity|split; [exact O|reflexivity]]|].
    split; [|reflexivity]. apply F_cons. do 4 eexists. split; [reflexivity|].
    split; [apply (codes_opt hooks (cp_types shank_asset) _ _ _ _ _ (codes_bool hooks (cp_types shank_asset) 5)); exists m; split; [reflexivity|split; [destruct m; exact I|reflexivity]]|].
    split; [|reflexivity]. apply F_cons. exists VNone, [], [x00], []. split; [reflexivity|]. split; [reflexivity|]. split; [reflexivity|]. reflexivity.
  - split; [apply (fields_rec hooks (cp_types shank_asset) 7 _ _ _ _ _ (eq_refl : cfind (cp_types shank_asset) "dataInput" = Some (CStruct _)))|reflexivity].
    eexists. split; [reflexivity|]. apply (fields_data hooks (cp_types shank_asset) 5). exists d. auto.
  - split; [|reflexivity]. destruct s as [|z].
    + vm_compute; reflexivity.
    + apply F_cons. do 4 eexists. split; [reflexivity|]. split; [|split; [apply F_nil; auto|rewrite app_nil_r; reflexivity]].
      rewrite (enc_link_in _ _ _ _ t_strategy) by reflexivity. unfold strategy_value.
      apply (E_enum hooks (cp_types shank_asset) 7). exists "extend", [VNum z], 1, [("value", CNum 2)], (le_enc 2 z).
      split; [reflexivity|]. split; [reflexivity|]. split; [lia|]. split; [|reflexivity].
      apply F_cons. exists (VNum z), [], (le_enc 2 z), []. split; [reflexivity|].
      split; [apply codes_num; exists z; split; [reflexivity|split; [exact O|reflexivity]]|]. split; [apply F_nil; auto|rewrite app_nil_r; reflexivity].
Qed.

(** ** Accounts *)
Lemma codama_accounts prog x : cmetas codama_asset (fst (given x)) prog (snd (given x)) = Some (rs_metas prog x).
Proof.
  destruct x; repeat match goal with o : option pubkey |- _ => destruct o end; repeat match goal with p : (pubkey * bool)%type |- _ => destruct p end; reflexivity.
Qed.
Lemma shank_accounts prog x : cmetas shank_asset (fst (given x)) prog (snd (given x)) = Some (rs_metas prog x).
Proof.
  destruct x; repeat match goal with o : option pubkey |- _ => destruct o end; repeat match goal with p : (pubkey * bool)%type |- _ => destruct p end; reflexivity.
Qed.
Lemma interface_accounts prog x : cmetas shank_interface (fst (given x)) prog (snd (given x)) = Some (if_metas prog x).
Proof.
  destruct x; repeat match goal with o : option pubkey |- _ => destruct o end; repeat match goal with p : (pubkey * bool)%type |- _ => destruct p end; reflexivity.
Qed.
Lemma interface_data hooks s args : cdata hooks (mkCProg (cp_instrs shank_interface) (cp_types shank_interface ++ kinobi_types) []) s args = cdata hooks shank_whole s args.
Proof.
  unfold cdata, cinstr_of. cbn [cp_instrs cp_types shank_interface shank_whole shank_asset map ci_name cfind].
  repeat match goal with |- context [String.eqb ?x s] => destruct (String.eqb x s); [reflexivity|] end. reflexivity.
Qed.

(** ** Extensions *)
Lemma cseq_jseq l : cseq l = jseq l.
Proof. induction l as [|[a|] l IH]; cbn [cseq jseq]; [reflexivity| |reflexivity]. rewrite IH. reflexivity. Qed.
Notation TY := (cp_types codama_asset).
Lemma enc_str8 h n s : utf8_text s -> cenc (S (S n)) h TY (CSized 1 CStr) (VRaw s) = jstr8 s.
Proof. intros U. apply utf8_iff in U. cbn [cenc]. rewrite U. rewrite cseq_jseq. reflexivity. Qed.
Lemma enc_octets h n b : cseq (map (cenc (S n) h TY (CNum 1)) (map (fun x => VNum (b2z x)) b)) = Some b.
Proof.
  induction b as [|x b IH]; [reflexivity|]. cbn [map cseq]. rewrite IH.
  assert (E : cenc (S n) h TY (CNum 1) (VNum (b2z x)) = Some [x]) by (destruct x; reflexivity). rewrite E. reflexivity.
Qed.
Lemma enc_all {A} h n t (val : A -> cval) (ser : A -> option bytes) l : Forall (fun a => cenc n h TY t (val a) = ser a) l ->
  cseq (map (cenc n h TY t) (map val l)) = jremainder ser l.
Proof.
  intros H. rewrite cseq_jseq. unfold jremainder. f_equal. rewrite map_map. induction H as [|a l E H IH]; [reflexivity|]. cbn [map]. rewrite E, IH. reflexivity.
Qed.
Lemma enc_link h n s t v : cfind TY s = Some t -> cenc (S n) h TY (CLink s) v = cenc n h TY t v.
Proof. apply enc_link_in. Qed.
Lemma enc_hook h n s t v : cfind h s = Some t -> cenc (S n) h TY (CHook s) v = cenc n h TY t v.
Proof. intros D. cbn [cenc]. rewrite D. destruct v; reflexivity. Qed.
Lemma enc_struct h n ts vs : List.length ts = List.length vs ->
  cenc (S n) h TY (CStruct ts) (VRec vs) = jseq (map (fun p => cenc n h TY (snd (fst p)) (snd p)) (combine ts vs)).
Proof. intros L. cbn [cenc]. apply Nat.eqb_eq in L. rewrite L. apply cseq_jseq. Qed.
Lemma enc_pair h n s a b p : cfind TY s = Some (CStruct [(a, CSized 1 CStr); (b, CSized 1 CStr)]) -> utf8_text (fst p) /\ utf8_text (snd p) ->
  cenc (S (S (S (S n)))) h TY (CLink s) (two p) = jpair p.
Proof.
  intros D [U V]. rewrite (enc_link h _ _ _ _ D). unfold two. rewrite enc_struct by reflexivity. cbn [combine map fst snd].
  rewrite !enc_str8 by assumption. reflexivity.
Qed.
Lemma enc_key h n k : key32 k -> cenc (S n) h TY CKey (VRaw k) = Some k.
Proof. intros L. cbn [cenc]. apply Nat.eqb_eq in L. rewrite L. reflexivity. Qed.
Lemma enc_nullable n o : opt_key32 o -> cenc (S (S n)) hooked_types TY (CHook "nullablePublicKey") (VRaw (key_or_zero o)) = jnullable o.
Proof. intros L. rewrite (enc_hook _ _ _ CKey) by reflexivity. destruct o as [k|]; [apply enc_key; exact L|reflexivity]. Qed.
Lemma jseq_one o : jseq [o] = o.
Proof. destruct o as [x|]; cbn [jseq]; [rewrite app_nil_r|]; reflexivity. Qed.
Lemma mask_fold l : ~ In RNone l -> forall a, fold_left Z.lor (map role_shift l) a = Z.lor a (mask l).
Proof.
  induction l as [|r l IH]; intros N a; cbn [map fold_left mask fold_right]; [rewrite Z.lor_0_r; reflexivity|].
  rewrite IH by (intros H; apply N; right; exact H). rewrite <- Z.lor_assoc. f_equal. f_equal.
  destruct r; try reflexivity. exfalso. apply N. left. reflexivity.
Qed.
Lemma ext_described x s v : typed x -> describable x -> told_ext x = Some (s, v) ->
  cenc DEPTH hooked_types TY (CLink s) v = js_payload x.
Proof.
  intros T D H. unfold DEPTH. destruct x; cbn [told_ext] in H; try discriminate H; injection H as <- <-; cbn [typed describable] in T, D.
  - rewrite (enc_link _ _ _ (CStruct [("values", CRest (CLink "trait"))])) by reflexivity. rewrite enc_struct by reflexivity. cbn [combine map fst snd].
    rewrite jseq_one. cbn [js_payload]. change (cenc 8 ?h ?d (CRest ?t) (VSeq ?l)) with (cseq (map (cenc 7 h d t) l)). apply enc_all.
    revert D. apply Forall_impl. intros p. apply (enc_pair hooked_types 3 "trait" "name" "value"). reflexivity.
  - rewrite (enc_link _ _ _ (CStruct [("contentType", CSized 1 CStr); ("data", CRest (CNum 1))])) by reflexivity. rewrite enc_struct by reflexivity.
    cbn [combine map fst snd js_payload]. rewrite enc_str8 by exact D. unfold octets.
    change (cenc 8 ?h ?d (CRest ?t) (VSeq ?l)) with (cseq (map (cenc 7 h d t) l)). rewrite enc_octets. reflexivity.
  - rewrite (enc_link _ _ _ (CStruct [("values", CRest (CLink "creator"))])) by reflexivity. rewrite enc_struct by reflexivity. cbn [combine map fst snd].
    rewrite jseq_one. cbn [js_payload]. change (cenc 8 ?h ?d (CRest ?t) (VSeq ?l)) with (cseq (map (cenc 7 h d t) l)). apply enc_all.
    revert T. apply Forall_impl. intros [[k f] n] L. cbn [fst snd] in L |- *.
    rewrite (enc_link _ _ _ (CStruct [("address", CKey); ("verified", CBool); ("share", CNum 1)])) by reflexivity. rewrite enc_struct by reflexivity.
    cbn [combine map fst snd jcreator]. rewrite enc_key by exact L. reflexivity.
  - rewrite (enc_link _ _ _ (CStruct [("values", CRest (CLink "link"))])) by reflexivity. rewrite enc_struct by reflexivity. cbn [combine map fst snd].
    rewrite jseq_one. cbn [js_payload]. change (cenc 8 ?h ?d (CRest ?t) (VSeq ?l)) with (cseq (map (cenc 7 h d t) l)). apply enc_all.
    revert D. apply Forall_impl. intros p. apply (enc_pair hooked_types 3 "link" "name" "uri"). reflexivity.
  - destruct D as (D1 & D2 & D3 & D4).
    rewrite (enc_link _ _ _ (CStruct [("symbol", CSized 1 CStr); ("description", CSized 1 CStr); ("uri", CSized 1 CStr); ("imageUri", CSized 1 CStr)])) by reflexivity.
    rewrite enc_struct by reflexivity. cbn [combine map fst snd js_payload]. rewrite !enc_str8 by assumption. reflexivity.
  - rewrite (enc_link _ _ _ (CStruct [("size", CNum 8); ("maxSize", CNum 8); ("delegate", CHook "nullablePublicKey")])) by reflexivity.
    rewrite enc_struct by reflexivity. cbn [combine map fst snd js_payload]. rewrite enc_nullable by exact T. reflexivity.
  - rewrite (enc_link _ _ _ (CStruct [("delegate", CLink "delegate")])) by reflexivity.
    rewrite enc_struct by reflexivity. cbn [combine map fst snd js_payload]. rewrite jseq_one.
    rewrite (enc_link _ _ _ (CStruct [("address", CHook "nullablePublicKey"); ("roles", CHook "delegateRoles")])) by reflexivity.
    rewrite enc_struct by reflexivity. cbn [combine map fst snd]. rewrite enc_nullable by exact T.
    rewrite (enc_hook _ _ _ (CNum 1)) by reflexivity. unfold jroles. rewrite (mask_fold _ D). rewrite Z.lor_0_l. reflexivity.
  - destruct T as [T1 T2].
    rewrite (enc_link _ _ _ (CStruct [("program", CKey); ("seeds", CArr 32 (CNum 1)); ("bump", CNum 1); ("authority", CHook "nullablePublicKey")])) by reflexivity.
    rewrite enc_struct by reflexivity. cbn [combine map fst snd js_payload]. rewrite enc_nullable by exact T2. rewrite enc_key by exact T1. unfold octets.
    change (cenc 8 ?h ?d (CArr ?k ?t) (VSeq ?l)) with (if Nat.eqb (List.length l) k then cseq (map (cenc 7 h d t) l) else None).
    rewrite map_length, enc_octets. reflexivity.
  - rewrite (enc_link _ _ _ (CStruct [("data", CRest (CNum 1))])) by reflexivity. rewrite enc_struct by reflexivity. cbn [combine map fst snd].
    rewrite jseq_one. unfold octets. change (cenc 8 ?h ?d (CRest ?t) (VSeq ?l)) with (cseq (map (cenc 7 h d t) l)). rewrite enc_octets. reflexivity.
Qed.
Lemma ext_says x s v b : typed x -> describable x -> told_ext x = Some (s, v) -> zlen b <= u32_max ->
  cenc DEPTH hooked_types TY (CLink s) v = Some b -> says x b.
Proof. intros T D H L E. rewrite (ext_described x s v T D H) in E. exact (payload_read x b T E L). Qed.
Lemma told_kind x s v : told_ext x = Some (s, v) -> s = kind_name (jext_type x).
Proof. destruct x; intros H; try discriminate H; injection H as <- <-; reflexivity. Qed.

(** ** The header *)
Lemma header_described d : valid_header d -> (s_mutable d = x00 \/ s_mutable d = x01) -> utf8_text (s_name d) ->
  cenc DEPTH hooked_types TY codama_account (told_header d) = Some (firstn 168 d).
Proof.
  intros ([L HD] & HS & HT) HM U. unfold DEPTH.
  destruct (header_split d L) as (x0 & x1 & x2 & x3 & ow & g & au & de & ro & nm & rest & E & L1 & L2 & L3 & L4 & L5).
  assert (S1 : s_owner d = ow). { unfold s_owner. rewrite E. apply (sub_mid [x0; x1; x2; x3] ow); [reflexivity|lia]. }
  assert (S2 : s_group d = g). { unfold s_group. rewrite E. change (x0 :: x1 :: x2 :: x3 :: ?t) with ([x0; x1; x2; x3] ++ t). rewrite app_assoc. apply sub_mid; [rewrite app_length; cbn [List.length]; lia|lia]. }
  assert (S3 : s_authority d = au). { unfold s_authority. rewrite E. change (x0 :: x1 :: x2 :: x3 :: ?t) with ([x0; x1; x2; x3] ++ t). rewrite 2app_assoc. apply sub_mid; [rewrite !app_length; cbn [List.length]; lia|lia]. }
  assert (S4 : s_delegate d = de). { unfold s_delegate. rewrite E. change (x0 :: x1 :: x2 :: x3 :: ?t) with ([x0; x1; x2; x3] ++ t). rewrite 3app_assoc. apply sub_mid; [rewrite !app_length; cbn [List.length]; lia|lia]. }
  assert (S5 : s_roles d = ro).
  { unfold s_roles. rewrite E. change (x0 :: x1 :: x2 :: x3 :: ?t) with ([x0; x1; x2; x3] ++ t). rewrite 4app_assoc. rewrite app_nth2; rewrite !app_length; cbn [List.length]; [|lia].
    replace (132 - _)%nat with 0%nat by lia. reflexivity. }
  assert (S6 : s_name d = nm).
  { unfold s_name. rewrite E. change (x0 :: x1 :: x2 :: x3 :: ?t) with ([x0; x1; x2; x3] ++ t). rewrite 4app_assoc.
    change (ro :: nm ++ rest) with ([ro] ++ nm ++ rest). rewrite app_assoc. apply sub_mid; [rewrite !app_length; cbn [List.length]; lia|lia]. }
  assert (S7 : s_disc d = x0) by (rewrite E; reflexivity). assert (S8 : s_state d = x1) by (rewrite E; reflexivity).
  assert (S9 : s_standard d = x2) by (rewrite E; reflexivity). assert (S10 : s_mutable d = x3) by (rewrite E; reflexivity).
  unfold told_header, codama_account. rewrite S1, S2, S3, S4, S5, S6, S8, S9, S10. rewrite S6 in U. rewrite S7 in HD. rewrite S8 in HS. rewrite S9 in HT. rewrite S10 in HM.
  rewrite enc_struct by reflexivity. cbn [combine map fst snd]. rewrite !enc_key by assumption.
  rewrite (enc_hook _ _ "nullablePublicKey" CKey) by reflexivity. rewrite enc_key by assumption.
  rewrite (enc_link _ _ "delegate" (CStruct [("address", CHook "nullablePublicKey"); ("roles", CHook "delegateRoles")])) by reflexivity.
  rewrite enc_struct by reflexivity. cbn [combine map fst snd].
  rewrite (enc_hook _ _ "nullablePublicKey" CKey) by reflexivity. rewrite enc_key by assumption.
  rewrite (enc_hook _ _ "delegateRoles" (CNum 1)) by reflexivity.
  assert (N : cenc 9 hooked_types TY (CFixed 35 CStr) (VRaw nm) = Some nm).
  { apply utf8_iff in U. change (match (if utf8 nm then Some nm else None) with Some b => Some (firstn 35 (b ++ repeat x00 35)) | None => None end = Some nm).
    rewrite U. rewrite firstn_app, L5, Nat.sub_diag, firstn_all2 by lia. cbn [firstn]. rewrite app_nil_r. reflexivity. }
  rewrite N. assert (RO : cenc 6 hooked_types TY (CNum 1) (VNum (b2z ro)) = Some [ro]) by (destruct ro; reflexivity). rewrite RO.
  assert (A : firstn 168 d = x01 :: x1 :: x2 :: x3 :: ow ++ g ++ au ++ (de ++ [ro]) ++ nm).
  { rewrite E, HD. do 4 (rewrite firstn_cons; f_equal). rewrite !app_assoc. rewrite <- !app_assoc. change (ro :: nm ++ rest) with ([ro] ++ nm ++ rest).
    rewrite 5app_assoc. rewrite firstn_app. rewrite !app_length. cbn [List.length]. replace (164 - _)%nat with 0%nat by lia. rewrite firstn_O, app_nil_r.
    rewrite firstn_all2 by (rewrite !app_length; cbn [List.length]; lia). rewrite <- !app_assoc. reflexivity. }
  rewrite A.
  assert (W0 : cenc 9 hooked_types TY (CLink "discriminator") (word "asset") = Some [x01]) by reflexivity.
  assert (W1 : cenc 9 hooked_types TY (CLink "state") (word (if b2z x1 =? 0 then "unlocked" else "locked")) = Some [x1]).
  { destruct x1; try (cbv in HS; discriminate HS); reflexivity. }
  assert (W2 : cenc 9 hooked_types TY (CLink "standard") (word match b2z x2 with 0 => "nonFungible" | 1 => "managed" | 2 => "soulbound" | _ => "proxied" end) = Some [x2]).
  { destruct x2; try (cbv in HT; discriminate HT); reflexivity. }
  assert (W3 : cenc 9 hooked_types TY CBool (VBool (b2z x3 =? 1)) = Some [x3]) by (destruct HM as [-> | ->]; reflexivity).
  rewrite W0, W1, W2, W3. cbn [jseq app]. rewrite !app_nil_r, <- ?app_assoc. reflexivity.
Qed.
(** without the code for the two types nothing of these is described *)
Lemma header_hooked n defs v : cenc n [] defs codama_account v = None.
Proof.
  destruct (cenc n [] defs codama_account v) as [b|] eqn:E; [exfalso|reflexivity]. destruct n as [|n]; [discriminate E|].
  apply (E_struct [] defs n) in E. destruct E as (vs & _ & E).
  do 5 (apply F_cons in E; destruct E as (? & ? & ? & ? & _ & _ & E & _)).
  apply F_cons in E. destruct E as (? & ? & ? & ? & _ & E & _). rewrite no_hook in E by reflexivity. discriminate E.
Qed.
Lemma grouping_hooked n v : cenc n [] TY (CLink "grouping") v = None.
Proof.
  destruct n as [|n]; [reflexivity|]. rewrite (enc_link _ _ _ (CStruct [("size", CNum 8); ("maxSize", CNum 8); ("delegate", CHook "nullablePublicKey")])) by reflexivity.
  destruct (cenc n _ _ _ v) as [b|] eqn:E; [exfalso|reflexivity]. destruct n as [|n]; [discriminate E|].
  apply (E_struct [] TY n) in E. destruct E as (vs & _ & E). do 2 (apply F_cons in E; destruct E as (? & ? & ? & ? & _ & _ & E & _)).
  apply F_cons in E. destruct E as (? & ? & ? & ? & _ & E & _). rewrite no_hook in E by reflexivity. discriminate E.
Qed.
Lemma undescribed n hooks v : cenc n hooks TY (CLink "royalties") v = None /\ cenc n hooks TY (CLink "properties") v = None.
Proof. split; apply no_link; reflexivity. Qed.

(** ** The proxy and the bridge *)
Lemma proxy_described hooks s args b : cdata hooks shank_proxy s args = Some b <-> exists n, (s, args) = told_proxy n /\ proxy_decode b = Some n.
Proof.
  rewrite cdata_iff. split.
  - intros (i & r & H & _ & R & ->). unfold cinstr_of in H. cbn [shank_proxy cp_instrs map ci_name cfind] in H. rows H. cbn [ci_args ci_disc] in R |- *.
    apply (fields_rec hooks (cp_types shank_proxy) 7 _ _ _ _ _ (eq_refl : cfind (cp_types shank_proxy) "metadata" = Some (CStruct _))) in R.
    destruct R as (us & -> & R). apply (fields_one _ _ _ _ _ _ _ _ _ _ (codes_text4 hooks (cp_types shank_proxy) 5)) in R. destruct R as (x & -> & O & ->).
    exists x. split; [reflexivity|]. apply proxy_decode_iff. split; [exact O|reflexivity].
  - intros (n & T & D). injection T as -> ->. apply proxy_decode_iff in D. destruct D as [O ->]. eexists. eexists. split; [reflexivity|].
    cbn [ci_disc ci_args]. split; [lia|].
    split; [apply (fields_rec hooks (cp_types shank_proxy) 7 _ _ _ _ _ (eq_refl : cfind (cp_types shank_proxy) "metadata" = Some (CStruct _)))|reflexivity].
    eexists. split; [reflexivity|]. apply (fields_one _ _ _ _ _ _ _ _ _ _ (codes_text4 hooks (cp_types shank_proxy) 5)). exists n. auto.
Qed.
Lemma proxy_accounts e me c i m : js_proxied_create e me c i = Some m ->
  exists a, jelse (jp_asset i) (js_find_proxied e me (jp_stub i)) = Some a /\
  cmetas shank_proxy "create" me [must a; must (jp_stub i); must (jp_owner i); must (jor (jp_auth i) (jc_identity c)); may (jp_payer i);
    may (option_map fst (jsys (jp_payer i) (jp_sys i))); must (jor (jp_nifty i) (e_prog e))] = Some m.
Proof.
  unfold js_proxied_create. destruct (jelse _ _) as [a|]; [|discriminate]. intros H. injection H as <-. exists a. split; [reflexivity|].
  destruct (jp_payer i), (jp_sys i); reflexivity.
Qed.
Lemma bridge_described hooks s args b : cdata hooks shank_bridge s args = Some b <-> exists i, (s, args) = told_bridge i /\ bridge_decode b = Some i.
Proof.
  rewrite cdata_iff. split.
  - intros (i & r & H & _ & R & ->). unfold cinstr_of in H. cbn [shank_bridge cp_instrs map ci_name cfind] in H. rows H; cbn [ci_args ci_disc] in R |- *.
    + apply F_nil in R. destruct R as [-> ->]. exists BBridge. split; reflexivity.
    + apply (fields_rec hooks (cp_types shank_bridge) 7 _ _ _ _ _ (eq_refl : cfind (cp_types shank_bridge) "createArgs" = Some (CStruct _))) in R.
      destruct R as (us & -> & R). apply (fields_one _ _ _ _ _ _ _ _ _ _ (codes_bool hooks (cp_types shank_bridge) 6)) in R. destruct R as (x & -> & O & ->).
      exists (BCreate x). destruct x; split; reflexivity.
  - intros (i & T & D). destruct i as [|x]; injection T as -> ->; (eexists; eexists; split; [reflexivity|]; cbn [ci_disc ci_args]; split; [lia|]).
    + split; [apply F_nil; split; reflexivity|]. destruct b as [|t [|t2 [|t3 b]]]; cbn [bridge_decode] in D; try discriminate D.
      * destruct (b2z t =? 0) eqn:E; [|discriminate D]. destruct t; try (cbv in E; discriminate E). reflexivity.
      * destruct (b2z t =? 1); [|discriminate D]. destruct (b2z t2 =? 0); [discriminate D|]. destruct (b2z t2 =? 1); discriminate D.
    + split; [apply (fields_rec hooks (cp_types shank_bridge) 7 _ _ _ _ _ (eq_refl : cfind (cp_types shank_bridge) "createArgs" = Some (CStruct _)))|].
      { eexists. split; [reflexivity|]. apply (fields_one _ _ _ _ _ _ _ _ _ _ (codes_bool hooks (cp_types shank_bridge) 6)). exists x. split; [reflexivity|split; [exact I|reflexivity]]. }
      destruct b as [|t [|t2 [|t3 b]]]; cbn [bridge_decode] in D; try discriminate D.
      * destruct (b2z t =? 0); discriminate D.
      * destruct (b2z t =? 1) eqn:E; [|discriminate D]. destruct t; try (cbv in E; discriminate E).
        destruct (b2z t2 =? 0) eqn:E2; [injection D as <-; destruct t2; try (cbv in E2; discriminate E2); reflexivity|].
        destruct (b2z t2 =? 1) eqn:E3; [injection D as <-; destruct t2; try (cbv in E3; discriminate E3); reflexivity|discriminate D].
Qed.
Lemma bridge_accounts me i : cmetas shank_bridge "bridge" me (given_bridge i) = Some (rs_bridge me i).
Proof. destruct i as [? ? ? ? ? ? ? o1 ? o2 ? ? ? ? ? ? ? o3 o4 o5]. destruct o1, o2, o3, o4, o5; reflexivity. Qed.
Lemma bridge_create_accounts me i : cmetas shank_bridge "create" me (given_create i) = Some (rs_create me i).
Proof. destruct i as [? ? ? ? [k s] o ? ? ?]. destruct o; reflexivity. Qed.

(** ** Errors *)
Lemma errors_described c : get_z (cp_errors codama_asset) c = option_map small (rust_from_code c).
Proof.
  unfold rust_from_code. cbn [codama_asset cp_errors rust_errors map fst snd get_z].
  repeat match goal with |- context [?k =? c] => destruct (k =? c); [reflexivity|] end. reflexivity.
Qed.
Lemma errors_same : cp_errors shank_asset = cp_errors codama_asset.
Proof. reflexivity. Qed.
Lemma errors_returned er c : custom_code er = Some c -> exists n, In (Some er, n) asset_errors /\ get_z (cp_errors codama_asset) c = Some (small n).
Proof.
  destruct er; intros H; vm_compute in H; try discriminate H; injection H as <-; eexists; (split; [cbn [asset_errors In]; eauto 30|reflexivity]).
Qed.

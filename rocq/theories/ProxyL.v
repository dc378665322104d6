(** Lemmas about the pass-through and the proxy program. *)
From Verif Require Import Base State Layout Constr Ext World Proc Borsh Proxy BaseL Spec SpecB SpecH SpecI SpecP WorldL LayoutL LayoutM GroupL CountL HeadL UpdateL BorshL.
From Coq Require Import Strings.Byte.

Lemma listed_iff infos k : listed infos k = true <-> mentions infos k.
Proof.
  unfold listed, mentions. rewrite existsb_exists. split; intros (i & H & E); exists i; split; auto.
  - now apply pk_eqb_eq.
  - now apply pk_eqb_eq.
Qed.
Lemma granted_iff infos pda m : granted infos pda m = true <->
  mentions infos (ai_key m) /\ (ai_signer m = true -> signs infos (ai_key m) \/ ai_key m = pda) /\
  (ai_writable m = true -> writes infos (ai_key m)).
Proof.
  unfold granted. rewrite !andb_true_iff, listed_iff, !orb_true_iff, !negb_true_iff.
  rewrite is_signer_spec, is_writable_spec, pk_eqb_eq. unfold signs, writes.
  destruct (ai_signer m), (ai_writable m); intuition congruence.
Qed.
Lemma grown_iff infos w w' : grown infos w w' = true <-> bounded_growth infos w w'.
Proof.
  unfold grown, bounded_growth. rewrite forallb_forall. unfold MAX_INCREASE. split; intros H i Hi; specialize (H i Hi); lia.
Qed.
Lemma invoke_iff e me infos w0 w metas b seeds bump w' : invoke e me infos w0 w metas b seeds bump = Ok w' <->
  exists pda i, e_cpa e seeds bump (pk_bytes me) = Some pda /\ mentions infos (e_prog e) /\
    Forall (fun m => granted infos pda m = true) metas /\ instr_ok i /\ b = write_instr i /\
    process (in_cpi e) metas w i = Ok w' /\ bounded_growth infos w0 w'.
Proof.
  unfold invoke. split.
  - intro H. apply bind_ok in H as (pda & H1 & H). apply require_ok in H as [H2 H]. apply require_ok in H as [H3 H].
    apply bind_ok in H as (w1 & H4 & H). apply require_ok in H as [H5 H]. apply Ok_inj in H. subst w1.
    apply entry_only in H4 as (i & I1 & I2 & I3).
    exists pda, i. split; [destruct (e_cpa e seeds bump (pk_bytes me)); [apply Ok_inj in H1; congruence|discriminate]|].
    split; [now apply listed_iff|]. split; [apply Forall_forall; now apply forallb_forall|].
    split; [assumption|]. split; [assumption|]. split; [assumption|]. now apply grown_iff.
  - intros (pda & i & H1 & H2 & H3 & H4 & -> & H5 & H6). rewrite H1. cbn [ok_or bind].
    apply listed_iff in H2. rewrite H2. cbn [require].
    assert (forallb (granted infos pda) metas = true) as -> by (apply forallb_forall; now apply Forall_forall).
    cbn [require]. rewrite (entry_written _ _ _ _ H4), H5. cbn [bind]. apply grown_iff in H6. now rewrite H6.
Qed.

Lemma proxy_fields b : length b = 97%nat -> proxy_from_bytes b = Ok (mkProxy (sub b 0 32) (sub b 32 32) (nth 64 b x00) (sub b 65 32)).
Proof.
  intro L. unfold proxy_from_bytes. assert (zlen b =? 97 = true) as -> by (unfold zlen; lia). cbn [guard].
  now rewrite !sub_fld.
Qed.
Lemma fetch_proxy_ok d p : fetch_proxy d = Ok p -> exists off b, has_ext d XProxy off b /\ length b = 97%nat /\
  p = mkProxy (sub b 0 32) (sub b 32 32) (nth 64 b x00) (sub b 65 32).
Proof.
  unfold fetch_proxy. intro H. apply bind_ok in H as (r & H1 & H). destruct r as [[off b]|]; [|discriminate].
  apply asset_get_some in H1. exists off, b. split; [assumption|].
  assert (L : length b = 97%nat) by (unfold proxy_from_bytes in H; apply guard_ok in H as [H _]; unfold zlen in H; lia).
  split; [assumption|]. rewrite (proxy_fields _ L) in H. now apply Ok_inj in H.
Qed.
Lemma fetch_proxy_run d l b : well_formed d l -> lookup XProxy (ext_list l) = Some b -> length b = 97%nat ->
  fetch_proxy d = Ok (mkProxy (sub b 0 32) (sub b 32 32) (nth 64 b x00) (sub b 65 32)).
Proof.
  intros W L Hb. unfold fetch_proxy. destruct (get_wf d l XProxy W ltac:(discriminate)) as [[N _]|(off & b' & L' & -> & _)]; [congruence|].
  cbn [bind]. assert (b' = b) as -> by congruence. now apply proxy_fields.
Qed.

(** ** Tags *)
Definition forwardable (i : instr) : Prop := match i with IResize _ => False | _ => True end.
Lemma tag_of i : exists t r, write_instr i = t :: r /\ (forwardable i <-> b2z t <=? 16 = true).
Proof.
  destruct i; unfold write_instr; cbn [app]; eexists; eexists; (split; [reflexivity|]); cbn [forwardable]; vm_compute; intuition congruence.
Qed.
Lemma iface_refuses e me infos w s : iface_process e me infos w (write_instr (IResize s)) = Err EInvalidInstructionData.
Proof. unfold iface_process, write_instr. cbn [app]. reflexivity. Qed.

Lemma first_granted infos pda r i : infos = i :: r -> ai_key i = pda \/ signs infos (ai_key i) ->
  Forall (fun m => granted infos pda m = true) (mkInfo (ai_key i) true (ai_writable i) :: r).
Proof.
  intros -> H. apply Forall_forall. intros m [<-|Hm]; apply granted_iff; cbn [ai_key ai_signer ai_writable].
  - split; [exists i; split; [now left|reflexivity]|]. split; [tauto|]. intro W. exists i. split; [now left|]. auto.
  - split; [exists m; split; [now right|reflexivity]|].
    split; intro W; [left|]; exists m; (split; [now right|]); auto.
Qed.
Lemma iface_forward e me i r w j w' l b : instr_ok j -> forwardable j -> let infos := i :: r in
  well_formed (data (w (ai_key i))) l -> lookup XProxy (ext_list l) = Some b -> proxies e me b (ai_key i) -> mentions infos (e_prog e) ->
  (iface_process e me infos w (write_instr j) = Ok w' <->
   process (in_cpi e) (first_signs infos) w j = Ok w' /\ bounded_growth infos w w').
Proof.
  intros Hj Hf infos W L [Hb C] Hp. destruct (tag_of j) as (t & rr & E & T). apply T in Hf.
  assert (R : iface_process e me infos w (write_instr j) =
    invoke e me infos w w (first_signs infos) (write_instr j) (sub b 32 32) (nth 64 b x00)).
  { rewrite E. unfold iface_process, infos. rewrite Hf. cbn [require]. rewrite (fetch_proxy_run _ _ _ W L Hb). reflexivity. }
  rewrite R, invoke_iff. split.
  - intros (pda & j' & H1 & H2 & H3 & H4 & H5 & H6 & H7). apply instr_unambiguous in H5; [subst j'|assumption|assumption]. auto.
  - intros [H1 H2]. exists (ai_key i), j. split; [assumption|]. split; [assumption|].
    split; [apply first_granted with (r := r) (i := i); auto|]. auto.
Qed.
Lemma iface_only e me infos w bs w' : iface_process e me infos w bs = Ok w' ->
  exists i r off b j pda, infos = i :: r /\ instr_ok j /\ forwardable j /\ bs = write_instr j /\
    has_ext (data (w (ai_key i))) XProxy off b /\ length b = 97%nat /\ e_cpa e (sub b 32 32) (nth 64 b x00) (pk_bytes me) = Some pda /\
    (ai_key i = pda \/ signs infos (ai_key i)) /\ mentions infos (e_prog e) /\
    process (in_cpi e) (first_signs infos) w j = Ok w' /\ bounded_growth infos w w'.
Proof.
  intro H. unfold iface_process in H. destruct bs as [|t rr]; [discriminate|]. apply require_ok in H as [T H].
  destruct infos as [|i r]; [discriminate|]. apply bind_ok in H as (p & H1 & H).
  apply fetch_proxy_ok in H1 as (off & b & X1 & X2 & ->). apply invoke_iff in H as (pda & j & I1 & I2 & I3 & I4 & I5 & I6 & I7).
  cbn [p_seeds p_bump] in I1. exists i, r, off, b, j, pda. split; [reflexivity|]. split; [assumption|].
  split. { destruct (tag_of j) as (t' & r' & E & T'). apply T'. congruence. }
  split; [assumption|]. split; [assumption|]. split; [assumption|]. split; [assumption|].
  split. { apply Forall_cons_iff in I3 as [G _]. apply granted_iff in G as (_ & G & _). specialize (G eq_refl). cbn [ai_key] in G. tauto. }
  auto.
Qed.

(** ** The proxy program's own instruction *)
Lemma proxy_codec : codec read_proxy write_proxy text_ok.
Proof.
  destruct codec_text as [C1 C2]. split.
  - intros n r Hn. unfold read_proxy, write_proxy. cbn [app]. unfold rbind at 1, read_u8. cbn. apply C1. assumption.
  - intros b n r H. unfold read_proxy in H. apply rbind_some in H as (t & b1 & H1 & H). unfold read_u8 in H1. destruct b as [|t' b']; [discriminate|].
    apply Some_inj in H1. assert (t' = t /\ b' = b1) as [-> ->] by (split; congruence).
    destruct (b2z t =? 0) eqn:E; [|discriminate]. apply C2 in H as [H3 ->]. split; [assumption|].
    unfold write_proxy. cbn [app]. f_equal. apply b2z_inj. change (b2z x00) with 0. lia.
Qed.
Lemma proxy_decode_iff b n : proxy_decode b = Some n <-> text_ok n /\ b = write_proxy n.
Proof.
  destruct proxy_codec as [C1 C2]. unfold proxy_decode. split.
  - destruct (read_proxy b) as [[n' r]|] eqn:E; [|discriminate]. destruct r; [|discriminate]. intro H. apply Some_inj in H. subst n'.
    apply C2 in E as [H1 E]. rewrite app_nil_r in E. auto.
  - intros [H ->]. specialize (C1 n [] H). rewrite app_nil_r in C1. now rewrite C1.
Qed.
Lemma own_apart n i : write_proxy n <> write_instr i.
Proof.
  intro H. unfold write_proxy, write_bytes in H.
  destruct i; unfold write_instr in H; cbn [app] in H; try discriminate H.
Qed.
Lemma own_not_asset b n : proxy_decode b = Some n -> try_from_slice b = None.
Proof.
  intro H. apply proxy_decode_iff in H as [_ ->]. destruct (try_from_slice (write_proxy n)) as [i|] eqn:E; [|reflexivity].
  apply instr_only in E as [_ E]. now apply own_apart in E.
Qed.
Lemma asset_not_own i : instr_ok i -> proxy_decode (write_instr i) = None.
Proof.
  intro H. destruct (proxy_decode (write_instr i)) as [n|] eqn:E; [|reflexivity]. apply own_not_asset in E. rewrite (instr_round _ H) in E. discriminate.
Qed.
Lemma proxy_forwards pe e me infos w i : instr_ok i -> i <> ITransfer -> (forall u, i <> IUpdate u) ->
  proxy_entry pe e me infos w (write_instr i) = iface_process e me infos w (write_instr i).
Proof.
  intros H N1 N2. unfold proxy_entry. rewrite (asset_not_own _ H), (instr_round _ H). destruct i; try reflexivity; [congruence|]. now specialize (N2 u).
Qed.

(** ** Everything the proxy program does is calls within its rights *)
Lemma invoke_calls e me infos w0 w metas b seeds bump w' : invoke e me infos w0 w metas b seeds bump = Ok w' ->
  forall v, calls e me infos v w -> calls e me infos v w'.
Proof.
  intros H v C. apply invoke_iff in H as (pda & i & I1 & I2 & I3 & I4 & I5 & I6 & I7).
  eapply calls_one; [exact C| |exact I4|exact I6].
  intros m Hm. rewrite Forall_forall in I3. specialize (I3 m Hm). apply granted_iff in I3 as (G1 & G2 & G3).
  split; [assumption|]. split; [|assumption]. intro S. destruct (G2 S) as [G|G]; [now left|right]. exists seeds, bump. congruence.
Qed.
Lemma proxy_calls pe e me infos w b w' : proxy_entry pe e me infos w b = Ok w' -> calls e me infos w w'.
Proof.
  pose proof (calls_none e me infos w) as C0. unfold proxy_entry.
  assert (P : forall bs, iface_process e me infos w bs = Ok w' -> calls e me infos w w').
  { intros bs H. unfold iface_process in H. destruct bs as [|t r]; [discriminate|]. apply require_ok in H as [_ H].
    destruct infos as [|i0 r0]; [discriminate|]. apply bind_ok in H as (p & _ & H). eapply invoke_calls; eauto. }
  destruct (proxy_decode b) as [n|].
  - unfold proxy_create. intro H. do 7 (apply bind_ok in H as (? & _ & H)).
    do 2 (apply require_ok in H as [_ H]). destruct (find_address _ _ _ _) as [[k bump]|]; [|discriminate].
    apply require_ok in H as [_ H]. eapply invoke_calls; eauto.
  - destruct (try_from_slice b) as [i|]; [|apply P]. destruct i; try (apply P).
    + unfold proxy_transfer. intro H. do 4 (apply bind_ok in H as (? & _ & H)). apply bind_ok in H as (p & _ & H).
      apply require_ok in H as [_ H]. apply bind_ok in H as (a & _ & H). destruct a as [[off ab]|]; [|discriminate].
      apply bind_ok in H as (l & _ & H). apply bind_ok in H as (cur & _ & H).
      apply bind_ok in H as (w1 & H1 & H). apply bind_ok in H as (w2 & H2 & H). apply bind_ok in H as (w3 & H3 & H).
      eapply invoke_calls; [exact H|]. eapply invoke_calls; [exact H3|]. eapply invoke_calls; [exact H2|]. eapply invoke_calls; eauto.
    + unfold proxy_update. intro H. do 6 (apply bind_ok in H as (? & _ & H)). apply bind_ok in H as (p & _ & H).
      do 2 (apply require_ok in H as [_ H]). destruct (nullable _); [|discriminate]. apply require_ok in H as [_ H]. eapply invoke_calls; eauto.
Qed.
Lemma in_cpi_ok e : env_ok e -> env_ok (in_cpi e).
Proof. intros H n. apply H. Qed.
Lemma calls_history e me infos w w' : env_ok e -> calls e me infos w w' -> history (e_prog e) w w'.
Proof.
  intros He C. induction C as [|w w1 metas i w2 C IH R Hi H]; [apply hist_refl|].
  eapply hist_instr; [exact IH| |apply in_cpi_ok; exact He|exact H]. reflexivity.
Qed.
Lemma proxy_history pe e me infos w b w' : env_ok e -> proxy_entry pe e me infos w b = Ok w' -> history (e_prog e) w w'.
Proof. intros He H. eapply calls_history; [exact He|]. eapply proxy_calls; eauto. Qed.

(** Lemmas about the Rust client. *)
From Verif Require Import Base State Layout Constr Ext World Proc Borsh Client BaseL Spec SpecB SpecH SpecI SpecK WorldL LayoutL LayoutM FrameL HeadL AllocM AllocC CreateL BuildL UpdateL StepH CodecL BorshL.
From Coq Require Import Strings.Byte.

(** ** Chunks *)
Lemma chunks_concat n : (0 < n)%nat -> forall f b, (length b <= f)%nat -> concat (chunks f n b) = b.
Proof.
  intros Hn. induction f as [|f IH]; intros b Hb; [destruct b; [reflexivity|cbn in Hb; lia]|].
  destruct b as [|x b]; [reflexivity|]. cbn [chunks concat]. rewrite IH; [apply firstn_skipn|]. rewrite skipn_length. cbn [length] in *. lia.
Qed.
Lemma chunks_sizes n : (0 < n)%nat -> forall f b, Forall (fun c => c <> [] /\ (length c <= n)%nat) (chunks f n b).
Proof.
  intros Hn. induction f as [|f IH]; intros b; [constructor|]. destruct b as [|x b]; [constructor|]. cbn [chunks]. constructor; [|apply IH].
  split; [destruct n; [lia|discriminate]|]. rewrite firstn_length. lia.
Qed.
Lemma chunks_nil n f b : (0 < n)%nat -> (length b <= f)%nat -> chunks f n b = [] -> b = [].
Proof. intros Hn Hf H. pose proof (chunks_concat n Hn f b Hf) as C. rewrite H in C. now symmetry. Qed.
Lemma pieces n1 n2 b : (0 < n2)%nat -> firstn n1 b ++ concat (chunks (length b) n2 (skipn n1 b)) = b.
Proof.
  intro H. rewrite chunks_concat; [apply firstn_skipn|exact H|]. rewrite skipn_length. lia.
Qed.

(** ** Running *)
Lemma run_app e l1 : forall l2 w, run_ixs e (l1 ++ l2) w = (w1 <- run_ixs e l1 w ;; run_ixs e l2 w1).
Proof.
  induction l1 as [|[m b] l1 IH]; intros l2 w; cbn [app run_ixs]; [reflexivity|]. destruct (Borsh.entry e m w b); cbn [bind]; auto.
Qed.
Lemma run_steps e (js : list (list ainfo * instr)) : Forall (fun j => instr_ok (snd j)) js -> forall w,
  run_ixs e (map (fun j => (fst j, write_instr (snd j))) js) w = steps (map (fun j => (e, fst j, snd j)) js) w.
Proof.
  induction 1 as [|[m i] js Hi _ IH]; intro w; cbn [map run_ixs steps fst snd]; [reflexivity|].
  cbn [snd] in Hi. rewrite (entry_written _ _ _ _ Hi). destruct (process e m w i); cbn [bind]; auto.
Qed.
Lemma steps_keeps l : forall w w', Forall (fun j => env_ok (fst (fst j)) /\ e_prog (fst (fst j)) <> pk_zero) l ->
  sized w -> lam_ok w -> steps l w = Ok w' -> sized w' /\ lam_ok w'.
Proof.
  induction l as [|[[e m] i] l IH]; intros w w' HF Hs Hl H; cbn [steps] in H; [apply Ok_inj in H; subst; auto|].
  apply Forall_cons_iff in HF as [[He Hp] HF]. apply bind_ok in H as (w1 & H1 & H). cbn [fst] in *.
  apply (IH w1 w' HF); [exact (sized_preserved _ _ _ _ _ He Hp Hl Hs H1)|exact (lam_ok_preserved _ _ _ _ _ He Hp Hl H1)|assumption].
Qed.

(** ** One extension *)
Definition ext_job (n1 n2 : nat) (infos : list ainfo) (t : ext_type) (b : bytes) : list (list ainfo * instr) :=
  (infos, IAllocate (mkExtInput t (zlen b) (Some (firstn n1 b)))) ::
  map (fun c => (infos, IWrite (mkDataInput false c))) (chunks (length b) n2 (skipn n1 b)).
Definition mint_infos (a : mint_args) : list ainfo := [mkInfo (mi_asset a) true true; mkInfo (mint_payer a) true true; sys].
Lemma mint_ext_jobs e a t b : zlen b < 4294967296 ->
  mint_ext e a (t, b) = map (fun j => (fst j, write_instr (snd j))) (ext_job MAX_ALLOCATE MAX_WRITE (mint_infos a) t b).
Proof.
  intro Hb. unfold mint_ext, ext_job. cbn [map fst snd]. rewrite map_map. f_equal.
  unfold allocate_ix. rewrite Z.mod_small; [reflexivity|]. pose proof (zlen_nonneg b). unfold two32. lia.
Qed.
Lemma ext_job_ok n1 n2 infos t b : (0 < n2)%nat -> zlen b < 4294967296 -> Forall (fun j => instr_ok (snd j)) (ext_job n1 n2 infos t b).
Proof.
  intros Hn Hb. pose proof (zlen_nonneg b). constructor.
  - cbn [snd instr_ok]. split; cbn [x_length x_data opt_valid]; [unfold SpecI.u32; lia|]. unfold fits, zlen in *. rewrite firstn_length. lia.
  - apply Forall_map. apply Forall_forall. intros c Hc. cbn [snd instr_ok w_bytes]. unfold fits.
    assert (L : (length c <= length b)%nat).
    { rewrite <- (pieces n1 n2 b Hn), app_length. apply in_split in Hc as (l1 & l2 & ->). rewrite concat_app, app_length. cbn [concat]. rewrite app_length. lia. }
    unfold zlen in *. lia.
Qed.
Lemma tight_open d hd l : d = hd ++ enc_sect 168 l -> zlen hd = 168 -> tight d l -> open_account d hd l 0.
Proof.
  intros E Hh (hd' & HL). right. split; [lia|]. cbn [Z.to_nat repeat]. destruct HL as (E' & Hh' & R).
  rewrite app_nil_r in E'. split; [rewrite app_nil_r; exact E|]. split; [assumption|exact R].
Qed.
Lemma open_head d hd l n : open_account d hd l n -> zlen hd = 168.
Proof. intros [(_ & -> & _)|(_ & _ & H & _)]; [reflexivity|assumption]. Qed.
Lemma fresh_refl t b : t <> XCreators -> fresh_payload t None b b.
Proof. intro H. repeat split; contradiction. Qed.
Definition kept (t : ext_type) (b b' : bytes) : Prop := b' = b \/ fresh_payload t None b b'.
Lemma ext_job_effect n1 n2 infos e asset t b w w' hd l : (0 < n2)%nat -> env_ok e -> e_prog e <> pk_zero -> sized w -> lam_ok w -> t <> XNone ->
  arg infos 0 asset ->
  open_account (data (w asset)) hd l 0 -> 168 + sect_size l + 16 + zlen b <= 10485760 ->
  run_ixs e (map (fun j => (fst j, write_instr (snd j))) (ext_job n1 n2 infos t b)) w = Ok w' ->
  exists b', kept t b b' /\ open_account (data (w' asset)) hd (l ++ [blk_of t b']) 0 /\
    tight (data (w' asset)) (l ++ [blk_of t b']) /\ sized w' /\ lam_ok w' /\
    lookup t (ext_list l) = None /\ (forall k, k <> asset -> data (w' k) = data (w k)).
Proof.
  intros Hn He Hp Hs Hl Ht A0 HO Hsz H. pose proof (zlen_nonneg b) as Zb.
  assert (Hb : zlen b < 4294967296) by (pose proof (sect_size_nonneg l); lia).
  rewrite (run_steps e _ (ext_job_ok n1 n2 infos t b Hn Hb)) in H.
  assert (HF : Forall (fun j : env * list ainfo * instr => env_ok (fst (fst j)) /\ e_prog (fst (fst j)) <> pk_zero) (map (fun j => (e, fst j, snd j)) (ext_job n1 n2 infos t b))).
  { apply Forall_map. apply Forall_forall. intros j _. cbn [fst]. auto. }
  pose proof (steps_keeps _ _ _ HF Hs Hl H) as [Hs' Hl']. pose proof (open_head _ _ _ _ HO) as Hh.
  unfold ext_job in H. cbn [map fst snd] in H. rewrite map_map in H. cbn [fst snd] in H.
  destruct (chunks (length b) n2 (skipn n1 b)) as [|c cs] eqn:C.
  - apply chunks_nil in C; [|exact Hn|rewrite skipn_length; lia].
    assert (E : firstn n1 b = b).
    { rewrite <- (firstn_skipn n1 b) at 2. rewrite C. symmetry. apply app_nil_r. }
    rewrite E in H. cbn [map steps] in H. apply bind_ok in H as (w1 & H & Q). apply Ok_inj in Q. subst w1.
    destruct (allocate_appends e infos w w' asset t b hd l 0 A0 HO Hs Ht ltac:(unfold u32_max, two32; lia) H) as (N & D & W & T & F).
    pose proof (blk_size_pos (blk_of t b)) as Bp. destruct (T ltac:(lia)) as [T' _].
    replace (Z.to_nat (0 - blk_size (blk_of t b))) with 0%nat in D by lia. cbn [repeat] in D. rewrite app_nil_r in D.
    exists b. split; [now left|]. split; [now apply tight_open|]. auto 6.
  - set (cc := map (fun c => (e, infos, c)) (c :: cs)).
    assert (EW : map (fun x => (e, infos, IWrite (mkDataInput false x))) (c :: cs) = map write_of cc) by (unfold cc; rewrite map_map; reflexivity).
    rewrite EW in H.
    assert (CB : chunk_bytes cc = concat (c :: cs)) by (unfold chunk_bytes, cc; rewrite map_map; cbn [snd]; now rewrite map_id).
    pose proof (pieces n1 n2 b Hn) as MP. rewrite C in MP.
    assert (HC : Forall (fun c => arg (snd (fst c)) 0 asset /\ snd c <> []) cc).
    { unfold cc. apply Forall_map. pose proof (chunks_sizes n2 Hn (length b) (skipn n1 b)) as CS. rewrite C in CS.
      eapply Forall_impl; [|exact CS]. intros x [Hx _]. cbn [fst snd]. auto. }
    pose proof H as H0. cbn [steps] in H0. apply bind_ok in H0 as (wa & Ha & _).
    assert (N : lookup t (ext_list l) = None).
    { eapply allocate_effect in Ha; [|exact A0|exact HO|apply Hs|exact Ht|cbn [x_length]; unfold u32_max; lia|].
      - now destruct Ha as (_ & Ha & _).
      - cbn [given x_data]. unfold zlen, two32 in *. rewrite firstn_length. lia. }
    destruct (chunked_content e infos w w' asset (mkExtInput t (zlen b) (Some (firstn n1 b))) cc hd l 0 A0 HC ltac:(discriminate) HO Hs Ht) as (b' & Fp & V & D & T & F); try exact H.
    { cbn [x_length given x_data]. rewrite CB, MP. reflexivity. }
    { exact Hsz. }
    cbn [x_type given x_data] in *. rewrite CB, MP in Fp.
    exists b'. split; [now right|]. split; [now apply tight_open|]. auto 6.
Qed.
Lemma mint_ext_effect e a t b w w' hd l : env_ok e -> e_prog e <> pk_zero -> sized w -> lam_ok w -> t <> XNone ->
  open_account (data (w (mi_asset a))) hd l 0 -> 168 + sect_size l + 16 + zlen b <= 10485760 ->
  run_ixs e (mint_ext e a (t, b)) w = Ok w' ->
  exists b', kept t b b' /\ open_account (data (w' (mi_asset a))) hd (l ++ [blk_of t b']) 0 /\
    tight (data (w' (mi_asset a))) (l ++ [blk_of t b']) /\ sized w' /\ lam_ok w' /\
    lookup t (ext_list l) = None /\ (forall k, k <> mi_asset a -> data (w' k) = data (w k)).
Proof.
  intros He Hp Hs Hl Ht HO Hsz H. rewrite mint_ext_jobs in H by (pose proof (sect_size_nonneg l); lia).
  eapply ext_job_effect; try eassumption; [unfold MAX_WRITE; lia|]. eexists; split; reflexivity.
Qed.

(** ** All of them *)
Lemma kept_len t b b' : kept t b b' -> zlen b' = zlen b.
Proof. intros [-> | (H & _)]; unfold zlen; congruence. Qed.
Lemma kept_fresh t auth b b1 b2 : kept t b b1 -> fresh_payload t auth b1 b2 -> fresh_payload t auth b b2.
Proof.
  intros [-> | (L & N & C)] H; [assumption|]. destruct H as (L' & N' & C'). split; [congruence|]. split; [intro Q; rewrite N', N by assumption; reflexivity|].
  intros Q i Hi. assert (E : cr_count b1 = cr_count b) by (unfold cr_count; now rewrite L).
  destruct (C Q i Hi) as (A1 & S1 & _). destruct (C' Q i ltac:(rewrite E; exact Hi)) as (A2 & S2 & F1 & F2).
  rewrite A1 in A2, F1, F2. rewrite S1 in S2. auto.
Qed.
Lemma blk_size_of t b : blk_size (blk_of t b) <= 16 + (zlen b + 7) / 8 * 8.
Proof.
  unfold blk_size, blk_of. cbn [bk_data bk_pad]. unfold zlen at 2. rewrite repeat_length.
  pose proof (Z.mod_pos_bound (- zlen b) 8). pose proof (Z_div_mod_eq_full (- zlen b) 8). rewrite Z2Nat.id by lia.
  pose proof (Z_div_mod_eq_full (zlen b + 7) 8). pose proof (Z.mod_pos_bound (zlen b + 7) 8). lia.
Qed.
Lemma mint_loop e a : env_ok e -> e_prog e <> pk_zero -> forall xs w w' l,
  sized w -> lam_ok w -> Forall (fun x => fst x <> XNone) xs ->
  open_account (data (w (mi_asset a))) (repeat x00 168) l 0 -> 168 + sect_size l + space xs <= 10485760 ->
  run_ixs e (concat (map (mint_ext e a) xs)) w = Ok w' ->
  (forall x, In x xs -> lookup (fst x) (ext_list l) = None) /\ NoDup (map fst xs) /\
  exists l2, Forall2 (fun x b => bk_type b = fst x /\ kept (fst x) (snd x) (bk_data b)) xs l2 /\
    open_account (data (w' (mi_asset a))) (repeat x00 168) (l ++ l2) 0 /\ sized w' /\ lam_ok w' /\
    (forall k, k <> mi_asset a -> data (w' k) = data (w k)).
Proof.
  intros He Hp. induction xs as [|[t b] xs IH]; intros w w' l Hs Hl HT HO Hsz H.
  - cbn [map concat run_ixs] in H. apply Ok_inj in H. subst w'. split; [intros x []|]. split; [constructor|]. exists []. rewrite app_nil_r. auto 6.
  - cbn [map concat] in H. rewrite run_app in H. apply bind_ok in H as (w1 & H1 & H). apply Forall_cons_iff in HT as [Ht HT]. cbn [fst] in Ht.
    cbn [space] in Hsz. assert (Hsp : 0 <= space xs) by (clear; induction xs as [|[t b] xs IH]; cbn [space]; [lia|]; pose proof (zlen_nonneg b); pose proof (Z.div_pos (zlen b + 7) 8); lia).
    destruct (mint_ext_effect e a t b w w1 _ l He Hp Hs Hl Ht HO) as (b' & K & O1 & _ & Hs1 & Hl1 & N1 & F1); [|exact H1|].
    { pose proof (Z_div_mod_eq_full (zlen b + 7) 8). pose proof (Z.mod_pos_bound (zlen b + 7) 8). lia. }
    destruct (IH w1 w' (l ++ [blk_of t b']) Hs1 Hl1 HT O1) as (N2 & ND & l2 & F2 & O2 & Hs2 & Hl2 & F3); [|exact H|].
    { rewrite sect_size_app. cbn [sect_size]. pose proof (blk_size_of t b') as Q. rewrite (kept_len _ _ _ K) in Q. cbn [sect_size fold_right] in *. lia. }
    assert (N3 : forall x, In x xs -> ~ In (fst x) (map bk_type l) /\ fst x <> t).
    { intros x Hx. specialize (N2 x Hx). apply lookup_none in N2. unfold ext_list in N2. rewrite map_map in N2. cbn [fst] in N2.
      rewrite map_app, in_app_iff in N2. cbn [map In bk_type blk_of] in N2. split; [tauto|]. intro Q. apply N2. right. left. now symmetry. }
    split. { intros x [<-|Hx]; [exact N1|]. apply lookup_none. unfold ext_list. rewrite map_map. cbn [fst]. now apply N3. }
    split. { cbn [map fst]. constructor; [|exact ND]. intro Q. apply in_map_iff in Q as (x & E & Hx). now destruct (N3 x Hx). }
    exists (blk_of t b' :: l2). split; [constructor; [split; [reflexivity|exact K]|exact F2]|]. rewrite <- app_assoc in O2. split; [exact O2|].
    split; [assumption|]. split; [assumption|]. intros k Hk. rewrite F3, F1 by assumption. reflexivity.
Qed.
Lemma mint_effect e a w w' : env_ok e -> e_prog e <> pk_zero -> sized w -> lam_ok w -> data (w (mi_asset a)) = [] ->
  Forall (fun x => fst x <> XNone) (mi_exts a) -> 168 + space (mi_exts a) <= 10485760 -> text_ok (mi_name a) ->
  run_ixs e (mint e a) w = Ok w' ->
  NoDup (map fst (mi_exts a)) /\ minted e a w' /\ (forall k, k <> mi_asset a -> data (w' k) = data (w k)).
Proof.
  intros He Hp Hs Hl Hd HT Hsz Hn H. unfold mint in H. rewrite flat_map_concat_map, run_app in H. apply bind_ok in H as (w1 & H1 & H).
  destruct (mint_loop e a He Hp (mi_exts a) w w1 [] Hs Hl HT) as (_ & ND & l2 & F2 & O2 & Hs2 & Hl2 & F3); [now left|cbn [sect_size fold_right]; lia|exact H1|].
  cbn [app] in O2. cbn [run_ixs] in H. apply bind_ok in H as (w2 & H & Q). apply Ok_inj in Q. subst w2. unfold create_ix in H.
  rewrite entry_written in H by (split; [exact Hn|exact I]).
  set (infos := [mkInfo (mi_asset a) true true; _; _; _; _; _; _]) in H.
  assert (A0 : arg infos 0 (mi_asset a)) by (eexists; split; reflexivity).
  assert (A1 : arg infos 1 (mi_owner a)) by (eexists; split; reflexivity).
  assert (A2 : arg infos 2 (mi_owner a)) by (eexists; split; reflexivity).
  assert (A3 : arg infos 3 (e_prog e)) by (eexists; split; reflexivity).
  pose proof (create_effect _ _ _ _ _ _ _ _ _ He Hp A0 O2 Hs2 (Forall_nil ext_arg : Forall ext_arg (inline (mkMetaInput (mi_name a) (mi_standard a) (mi_mutable a) None))) H) as (auth & owner & l' & hd' & B1 & B2 & _ & HL & HC & _ & Ow & D1 & D2 & D3 & D4 & D5 & D6 & D7 & D8 & D9 & _ & _ & _ & G & _).
  rewrite (arg_det _ _ _ _ B1 A1), (arg_det _ _ _ _ B2 A2) in *. cbn [m_name m_standard m_mutable inline m_exts inline_blks map] in *. rewrite app_nil_r in HC.
  destruct G as [(_ & G & F4)|(g & aa & off & b & B3 & Hg & _)]; [|now rewrite (arg_det _ _ _ _ B3 A3) in Hg].
  pose proof (hd_fields _ _ _ _ HL) as (Q1 & Q2 & Q3 & Q4 & Q5 & Q6 & Q7 & Q8 & Q9 & Q10).
  split; [exact ND|]. split; [|intros k Hk; rewrite F4, F3 by assumption; reflexivity].
  assert (R : Z.to_nat (create_room (data (w1 (mi_asset a))) 0 (mkMetaInput (mi_name a) (mi_standard a) (mi_mutable a) None)) = 0%nat).
  { unfold create_room. destruct (data (w1 (mi_asset a))); reflexivity. }
  rewrite R in HL. cbn [repeat] in HL. exists l'. split; [eexists; exact HL|]. split; [assumption|].
  pose proof (created_validated _ _ _ HC) as HV.
  split; [|split; [|split; [exact (created_valid _ _ _ HC)|]]].
  - clear -F2 HV. revert l' HV. induction F2 as [|x b xs l2 [T _] _ IH]; intros l' HV; inversion HV as [|? b' ? l3 [T' _] HV' ]; subst; [reflexivity|].
    cbn [map]. f_equal; [congruence|now apply IH].
  - clear -F2 HV. revert l' HV. induction F2 as [|x b xs l2 [T K] _ IH]; intros l' HV; inversion HV as [|? b' ? l3 [T' Fp] HV']; subst; constructor.
    + rewrite T in Fp. eapply kept_fresh; eassumption.
    + now apply IH.
  - repeat split; try congruence.
    + rewrite Q2, D7. reflexivity.
    + rewrite Q6, G. reflexivity.
    + rewrite Q8, D8. reflexivity.
    + rewrite Q9, D9. reflexivity.
Qed.

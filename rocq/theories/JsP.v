(** Lemmas about the JavaScript client's helpers that make several instructions. *)
From Verif Require Import Base State Layout Constr Ext World Proc Borsh Client Js BaseL Spec SpecB SpecH SpecI SpecJ SpecK WorldL LayoutL LayoutM FrameL HeadL AllocM AllocC CreateL BuildL UpdateL StepH CodecL BorshL ClientL UpdateM UpdateT GroupL AuthM JsL.
From Coq Require Import Strings.Byte.

(** ** The first Write *)
(** with the overwrite flag, where nothing was written yet, it is a plain one *)
Lemma overwrite_first e infos w asset hd l t len c : arg infos 0 asset -> partial_account (data (w asset)) hd l t len [] -> zlen c < len ->
  process e infos w (IWrite (mkDataInput true c)) = process e infos w (IWrite (mkDataInput false c)).
Proof.
  intros A0 HP Hc. unfold process. destruct (validate_access e w (firstn MAX_ACCOUNTS infos)) as [o| | | |]; cbn [bind]; try reflexivity.
  assert (D : dispatch e (firstn MAX_ACCOUNTS infos) w (IWrite (mkDataInput true c)) = dispatch e (firstn MAX_ACCOUNTS infos) w (IWrite (mkDataInput false c))).
  { cbn [dispatch]. unfold process_write. apply acct_arg in A0. change (passed infos) with (firstn MAX_ACCOUNTS infos) in A0. rewrite A0. cbn [bind].
    pose proof (partial_len _ _ _ _ _ _ HP) as Hd. rewrite (partial_last _ _ _ _ _ _ HP). cbn [bind w_overwrite w_bytes h_len h_bnd].
    change (zlen []) with 0 in Hd. unfold EXT_LEN.
    replace (168 + sect_size l + 16) with (zlen (data (w asset))) by lia.
    replace (zlen (data (w asset)) + zlen c =? zlen (data (w asset)) + len) with false by lia. reflexivity. }
  destruct o; [|exact D]. cbn [blocked_when_locked]. exact D.
Qed.

(** ** Instructions as jobs *)
Definition job : Set := (list ainfo * instr)%type.
Definition jixj (j : job) : option ix := jix (fst j) (snd j).
Definition encj (j : job) : ix := (fst j, write_instr (snd j)).
Lemma jall_jobs js : Forall (fun j => named (snd j)) js -> forall xs,
  jall (map jixj js) = Some xs <-> Forall (fun j => instr_ok (snd j)) js /\ xs = map encj js.
Proof.
  induction 1 as [|[m i] js Hn _ IH]; intro xs; cbn [map jall].
  - split; [intro H; apply Some_inj in H; subst; auto|]. intros [_ ->]. reflexivity.
  - cbn [snd] in Hn. unfold jixj at 1, jix. cbn [fst snd]. destruct (js_instr i) as [b|] eqn:E.
    + pose proof (proj1 (js_instr_iff i b Hn) E) as [K ->]. destruct (jall (map jixj js)) as [ys|] eqn:Y.
      * destruct (proj1 (IH ys) eq_refl) as [K2 ->]. split.
        -- intro H. apply Some_inj in H. subst xs. split; [constructor; assumption|reflexivity].
        -- intros [_ ->]. reflexivity.
      * split; [discriminate|]. intros [H _]. apply Forall_cons_iff in H as [_ H]. assert (Q : None = Some (map encj js)) by (apply IH; auto). discriminate Q.
    + split; [discriminate|]. intros [H _]. apply Forall_cons_iff in H as [H _]. cbn [snd] in H.
      assert (Q : js_instr i = Some (write_instr i)) by (apply js_instr_iff; auto). congruence.
Qed.
Definition write_jobs (iw : list ainfo) (n : nat) (b : bytes) : list job :=
  match chunks (length b) n b with
  | [] => []
  | x :: r => (iw, IWrite (mkDataInput true x)) :: map (fun y => (iw, IWrite (mkDataInput false y))) r
  end.
Definition split_jobs (ia iw : list ainfo) (n : nat) (t : ext_type) (b : bytes) : list job :=
  (ia, IAllocate (mkExtInput t (zlen b) None)) :: write_jobs iw n b.
Definition init_jobs (e : env) (c : jctx) (asset : pubkey) (payer sysp : option pubkey) (t : ext_type) (b : bytes) : list job :=
  let ia := js_allocate_metas (e_prog e) asset payer sysp in
  if Nat.ltb DEFAULT_CHUNK_SIZE (length b) then split_jobs ia (js_write_metas (e_prog e) c asset (Some (jor payer (jc_payer c))) None) DEFAULT_CHUNK_SIZE t b
  else [(ia, IAllocate (mkExtInput t (zlen b) (Some b)))].
Lemma js_write_jobs e c asset payer n b :
  js_write e c asset payer n b = map jixj (write_jobs (js_write_metas (e_prog e) c asset (Some (jor payer (jc_payer c))) None) n b).
Proof. unfold js_write, write_jobs. destruct (chunks (length b) n b); [reflexivity|]. cbn [map]. rewrite map_map. reflexivity. Qed.
Lemma init_is_jobs e c asset payer sysp x b : js_payload x = Some b ->
  js_initialize e c asset payer sysp x = map jixj (init_jobs e c asset payer sysp (jext_type x) b).
Proof.
  intro H. unfold js_initialize, init_jobs, split_jobs. rewrite H, js_write_jobs. destruct (Nat.ltb _ _); reflexivity.
Qed.
Lemma write_jobs_named iw n b : Forall (fun j => named (snd j)) (write_jobs iw n b).
Proof. unfold write_jobs. destruct (chunks (length b) n b); [constructor|]. constructor; [exact I|]. apply Forall_map. apply Forall_forall. intros; exact I. Qed.
Lemma init_named e c asset payer sysp t b : Forall (fun j => named (snd j)) (init_jobs e c asset payer sysp t b).
Proof. unfold init_jobs, split_jobs. destruct (Nat.ltb _ _); constructor; try exact I; [apply write_jobs_named|constructor]. Qed.

(** ** One extension in pieces *)
Definition at_env (e : env) (js : list job) : list (env * list ainfo * instr) := map (fun j => (e, fst j, snd j)) js.
Lemma at_env_ok e js : env_ok e -> e_prog e <> pk_zero -> Forall (fun j => env_ok (fst (fst j)) /\ e_prog (fst (fst j)) <> pk_zero) (at_env e js).
Proof. intros He Hp. unfold at_env. apply Forall_map. apply Forall_forall. intros j _. cbn [fst]. auto. Qed.
Lemma run_jobs e js w : Forall (fun j => instr_ok (snd j)) js -> run_ixs e (map encj js) w = steps (at_env e js) w.
Proof. intro H. exact (run_steps e js H w). Qed.
Lemma steps_app l1 : forall l2 w, steps (l1 ++ l2) w = (w1 <- steps l1 w ;; steps l2 w1).
Proof. induction l1 as [|[[e m] i] l1 IH]; intros l2 w; cbn [app steps]; [reflexivity|]. destruct (process e m w i); cbn [bind]; auto. Qed.
Definition loaded (t : ext_type) (b b' : bytes) (asset : pubkey) (hd : bytes) (l : list blk) (w w' : world) : Prop :=
  kept t b b' /\ open_account (data (w' asset)) hd (l ++ [blk_of t b']) 0 /\
  tight (data (w' asset)) (l ++ [blk_of t b']) /\ sized w' /\ lam_ok w' /\
  lookup t (ext_list l) = None /\ (forall k, k <> asset -> data (w' k) = data (w k)).
Lemma split_effect ia iw n e asset t b w w' hd l : (0 < n < length b)%nat -> env_ok e -> e_prog e <> pk_zero -> sized w -> lam_ok w -> t <> XNone ->
  arg ia 0 asset -> arg iw 0 asset ->
  open_account (data (w asset)) hd l 0 -> 168 + sect_size l + 16 + zlen b <= 10485760 ->
  steps (at_env e (split_jobs ia iw n t b)) w = Ok w' ->
  exists b', loaded t b b' asset hd l w w'.
Proof.
  intros [Hn Hnb] He Hp Hs Hl Ht A0 A1 HO Hsz H. pose proof (zlen_nonneg b) as Zb. pose proof (sect_size_nonneg l) as Hsn.
  pose proof (steps_keeps _ _ _ (at_env_ok e _ He Hp) Hs Hl H) as [Hs' Hl']. pose proof (open_head _ _ _ _ HO) as Hh.
  unfold split_jobs, write_jobs in H. cbn [at_env map fst snd] in H. fold at_env in H.
  pose proof (chunks_concat n Hn (length b) b (le_n _)) as CC. pose proof (chunks_sizes n Hn (length b) b) as CS.
  destruct (chunks (length b) n b) as [|c cs] eqn:C.
  { cbn [concat] in CC. subst b. cbn [length] in Hnb. lia. }
  assert (Hc : zlen c < zlen b).
  { apply Forall_cons_iff in CS as [[_ CS] _]. unfold zlen. lia. }
  pose proof (zlen_nonneg c) as Zc.
  (* the header is there *)
  pose proof H as H0. cbn [steps] in H0. apply bind_ok in H0 as (wa & Ha & H1). fold (at_env e) in H1.
  pose proof Ha as Ha0. eapply allocate_effect in Ha0; [|exact A0|exact HO|apply Hs|exact Ht|cbn [x_length]; unfold u32_max; lia|cbn [given x_data]; reflexivity].
  destruct Ha0 as (_ & N & _ & _ & Pa & _).
  assert (HP : partial_account (data (wa asset)) hd l t (zlen b) []).
  { destruct (open_room _ _ _ _ HO) as (_ & _ & _ & Hf & _). cbn [given x_data x_length x_type] in Pa. change (zlen []) with 0 in Pa.
    split; [rewrite Pa by lia; rewrite bnd_pad8 by assumption; unfold enc_hdr; now rewrite <- !app_assoc|]. change (zlen []) with 0. repeat split; auto; lia. }
  set (cc := map (fun x => (e, iw, x)) (c :: cs)).
  assert (EW : steps ((e, ia, IAllocate (mkExtInput t (zlen b) None)) :: map write_of cc) w = Ok w').
  { cbn [steps]. rewrite Ha. cbn [bind]. unfold cc. cbn [map write_of steps]. cbn [at_env map fst snd steps] in H1.
    rewrite (overwrite_first _ _ _ _ _ _ _ _ _ A1 HP Hc) in H1. rewrite map_map. cbn [write_of fst snd]. rewrite map_map in H1. cbn [fst snd] in H1. exact H1. }
  assert (CB : chunk_bytes cc = b) by (unfold chunk_bytes, cc; rewrite map_map; cbn [snd]; rewrite map_id; exact CC).
  assert (HC : Forall (fun c => arg (snd (fst c)) 0 asset /\ snd c <> []) cc).
  { unfold cc. apply Forall_map. eapply Forall_impl; [|exact CS]. intros x [Hx _]. cbn [fst snd]. auto. }
  destruct (chunked_content e ia w w' asset (mkExtInput t (zlen b) None) cc hd l 0 A0 HC ltac:(discriminate) HO Hs Ht) as (b' & Fp & V & D & T & F); try exact EW.
  { cbn [x_length given x_data app]. rewrite CB. reflexivity. }
  { exact Hsz. }
  cbn [x_type given x_data app] in *. rewrite CB in Fp.
  exists b'. split; [now right|]. split; [now apply tight_open|]. auto 8.
Qed.
Lemma whole_effect ia e asset t b w w' hd l : env_ok e -> e_prog e <> pk_zero -> sized w -> lam_ok w -> t <> XNone ->
  arg ia 0 asset -> open_account (data (w asset)) hd l 0 -> zlen b <= u32_max ->
  process e ia w (IAllocate (mkExtInput t (zlen b) (Some b))) = Ok w' ->
  loaded t b b asset hd l w w'.
Proof.
  intros He Hp Hs Hl Ht A0 HO Hsz H. pose proof (open_head _ _ _ _ HO) as Hh.
  pose proof (sized_preserved _ _ _ _ _ He Hp Hl Hs H) as Hs'. pose proof (lam_ok_preserved _ _ _ _ _ He Hp Hl H) as Hl'.
  destruct (allocate_appends e ia w w' asset t b hd l 0 A0 HO Hs Ht Hsz H) as (N & D & W & T & F).
  pose proof (blk_size_pos (blk_of t b)) as Bp. destruct (T ltac:(lia)) as [T' _].
  replace (Z.to_nat (0 - blk_size (blk_of t b))) with 0%nat in D by lia. cbn [repeat] in D. rewrite app_nil_r in D.
  split; [now left|]. split; [now apply tight_open|]. auto 8.
Qed.

(** ** Minting *)
Lemma init_effect e c asset payer sysp t b w w' hd l : env_ok e -> e_prog e <> pk_zero -> sized w -> lam_ok w -> t <> XNone ->
  open_account (data (w asset)) hd l 0 -> 168 + sect_size l + 16 + zlen b <= 10485760 ->
  steps (at_env e (init_jobs e c asset payer sysp t b)) w = Ok w' -> exists b', loaded t b b' asset hd l w w'.
Proof.
  intros He Hp Hs Hl Ht HO Hsz H. unfold init_jobs in H. destruct (Nat.ltb_spec DEFAULT_CHUNK_SIZE (length b)) as [L|L].
  - eapply split_effect; try eassumption; [unfold DEFAULT_CHUNK_SIZE in *; lia|eexists; split; reflexivity|eexists; split; reflexivity].
  - exists b. cbn [at_env map fst snd steps] in H. apply bind_ok in H as (w1 & H & Q). apply Ok_inj in Q. subst w1.
    eapply whole_effect; try eassumption; [eexists; split; reflexivity|]. pose proof (sect_size_nonneg l). unfold u32_max. lia.
Qed.
Lemma space_nonneg xs : 0 <= space xs.
Proof. induction xs as [|[t b] xs IH]; cbn [space]; [lia|]. pose proof (zlen_nonneg b). pose proof (Z.div_pos (zlen b + 7) 8). lia. Qed.
Lemma at_env_app e a b : at_env e (a ++ b) = at_env e a ++ at_env e b.
Proof. apply map_app. Qed.
Definition all_jobs (e : env) (c : jctx) (asset : pubkey) (payer sysp : option pubkey) (ps : list (ext_type * bytes)) : list job :=
  concat (map (fun p => init_jobs e c asset payer sysp (fst p) (snd p)) ps).
Lemma init_loop e c asset payer sysp hd : env_ok e -> e_prog e <> pk_zero -> forall xs w w' l,
  sized w -> lam_ok w -> Forall (fun x => fst x <> XNone) xs ->
  open_account (data (w asset)) hd l 0 -> 168 + sect_size l + space xs <= 10485760 ->
  steps (at_env e (all_jobs e c asset payer sysp xs)) w = Ok w' ->
  (forall x, In x xs -> lookup (fst x) (ext_list l) = None) /\ NoDup (map fst xs) /\
  exists l2, Forall2 (fun x b => bk_type b = fst x /\ kept (fst x) (snd x) (bk_data b)) xs l2 /\
    open_account (data (w' asset)) hd (l ++ l2) 0 /\ sized w' /\ lam_ok w' /\
    (forall k, k <> asset -> data (w' k) = data (w k)).
Proof.
  intros He Hp. induction xs as [|[t b] xs IH]; intros w w' l Hs Hl HT HO Hsz H.
  - unfold all_jobs in H. cbn [map concat at_env steps] in H. apply Ok_inj in H. subst w'. split; [intros x []|]. split; [constructor|]. exists []. rewrite app_nil_r. auto 6.
  - unfold all_jobs in H. cbn [map concat fst snd] in H. fold (all_jobs e c asset payer sysp xs) in H. rewrite at_env_app, steps_app in H.
    apply bind_ok in H as (w1 & H1 & H). apply Forall_cons_iff in HT as [Ht HT]. cbn [fst] in Ht.
    cbn [space] in Hsz. pose proof (space_nonneg xs) as Hsp.
    destruct (init_effect e c asset payer sysp t b w w1 hd l He Hp Hs Hl Ht HO) as (b' & K & O1 & _ & Hs1 & Hl1 & N1 & F1); [|exact H1|].
    { pose proof (Z_div_mod_eq_full (zlen b + 7) 8). pose proof (Z.mod_pos_bound (zlen b + 7) 8). lia. }
    destruct (IH w1 w' (l ++ [blk_of t b']) Hs1 Hl1 HT O1) as (N2 & ND & l2 & F2 & O2 & Hs2 & Hl2 & F3); [|exact H|].
    { rewrite sect_size_app. cbn [sect_size]. pose proof (blk_size_of t b') as Q. rewrite (kept_len _ _ _ K) in Q. cbn [sect_size fold_right] in *. lia. }
    assert (N3 : forall x, In x xs -> ~ In (fst x) (map bk_type l) /\ fst x <> t).
    { intros x Hx. specialize (N2 x Hx). apply lookup_none in N2. unfold ext_list in N2. rewrite map_map in N2. cbn [fst] in N2.
      rewrite map_app, in_app_iff in N2. cbn [map In bk_type blk_of] in N2. split; [tauto|]. intro Q. apply N2. right. left. now symmetry. }
    split. { intros x [<-|Hx]; [exact N1|]. apply lookup_none. unfold ext_list. rewrite map_map. cbn [fst]. now apply N3. }
    split. { cbn [map fst]. constructor; [|exact ND]. intro Q. apply in_map_iff in Q as (x & E & Hx). now destruct (N3 x Hx). }
    exists (blk_of t b' :: l2). split; [constructor; [split; [reflexivity|exact K]|exact F2]|]. rewrite <- app_assoc in O2. split; [exact O2|].
    split; [assumption|]. split; [assumption|]. intros k Hk. rewrite F3, F1 by assumption. reflexivity.
Qed.
Lemma jext_kind x : jext_type x <> XNone.
Proof. destruct x; discriminate. Qed.
Lemma parts_kinds xs ps : parts xs ps -> Forall (fun x => fst x <> XNone) ps /\ map fst ps = map jext_type xs.
Proof.
  induction 1 as [|x p xs ps [H _] _ [IH1 IH2]]; [split; constructor|]. split; [constructor; [rewrite H; apply jext_kind|assumption]|].
  cbn [map]. congruence.
Qed.
Lemma parts_jobs e c asset payer sysp xs ps : parts xs ps ->
  flat_map (js_initialize e c asset payer sysp) xs = map jixj (all_jobs e c asset payer sysp ps).
Proof.
  induction 1 as [|x p xs ps [H1 H2] _ IH]; [reflexivity|]. cbn [flat_map]. unfold all_jobs. cbn [map concat]. fold (all_jobs e c asset payer sysp ps).
  rewrite map_app, <- IH, (init_is_jobs _ _ _ _ _ _ _ H2), H1. reflexivity.
Qed.
Lemma all_named e c asset payer sysp ps : Forall (fun j => named (snd j)) (all_jobs e c asset payer sysp ps).
Proof. unfold all_jobs. induction ps as [|p ps IH]; cbn [map concat]; [constructor|]. apply Forall_app. split; [apply init_named|exact IH]. Qed.
Lemma jall_app l1 : forall l2, jall (l1 ++ l2) = match jall l1, jall l2 with Some a, Some b => Some (a ++ b) | _, _ => None end.
Proof.
  induction l1 as [|[x|] l1 IH]; intro l2; cbn [app jall]; [now destruct (jall l2)| |reflexivity].
  rewrite IH. destruct (jall l1); [|reflexivity]. destruct (jall l2); reflexivity.
Qed.
(** a list of instructions exists only if every payload does *)
Lemma mint_parts e c a ixs : js_mint e c a = Some ixs -> exists ps, parts (jm_exts a) ps.
Proof.
  unfold js_mint. rewrite jall_app. destruct (jall (flat_map _ _)) as [ys|] eqn:E; [|discriminate]. intros _. revert ys E.
  induction (jm_exts a) as [|x xs IH]; intros ys E; [exists []; constructor|]. cbn [flat_map] in E. rewrite jall_app in E.
  destruct (jall (js_initialize e c (jm_asset a) (jm_payer a) (jm_sysp a) x)) as [zs|] eqn:E1; [|discriminate].
  destruct (jall (flat_map _ xs)) as [us|] eqn:E2; [|discriminate]. destruct (IH us eq_refl) as [ps Hps].
  unfold js_initialize in E1. destruct (js_payload x) as [b|] eqn:Eb; [|discriminate]. exists ((jext_type x, b) :: ps). constructor; auto.
Qed.
Lemma js_mint_run e c a ps ixs w : parts (jm_exts a) ps -> utf8_text (jm_name a) -> js_mint e c a = Some ixs ->
  run_ixs e ixs w = steps (at_env e (all_jobs e c (jm_asset a) (jm_payer a) (jm_sysp a) ps ++ [(jmint_create_metas e c a, ICreate (jmint_meta a))])) w.
Proof.
  intros HP HU H. unfold js_mint in H. rewrite (parts_jobs _ _ _ _ _ _ _ HP) in H.
  change [jix (jmint_create_metas e c a) (ICreate (jmint_meta a))] with (map jixj [(jmint_create_metas e c a, ICreate (jmint_meta a))]) in H.
  rewrite <- map_app in H. apply jall_jobs in H as [K ->]; [now apply run_jobs|].
  apply Forall_app. split; [apply all_named|]. constructor; [exact HU|constructor].
Qed.
Lemma jmeta_some p wr k s : ai_key (jmeta p wr (Some (k, s))) = k.
Proof. reflexivity. Qed.
Lemma js_mint_effect e c a ps ixs w w' : env_ok e -> e_prog e <> pk_zero -> sized w -> lam_ok w -> data (w (jm_asset a)) = [] ->
  parts (jm_exts a) ps -> 168 + space ps <= 10485760 -> utf8_text (jm_name a) -> jm_group a <> Some (e_prog e) ->
  js_mint e c a = Some ixs -> run_ixs e ixs w = Ok w' ->
  NoDup (map jext_type (jm_exts a)) /\ acct_owner (w' (jm_asset a)) = e_prog e /\
  match jm_group a with
  | None => js_minted c a ps no_key (data (w' (jm_asset a))) /\ (forall k, k <> jm_asset a -> data (w' k) = data (w k))
  | Some g => g <> jm_asset a /\ js_minted c a ps (pk_bytes g) (data (w' (jm_asset a))) /\ group_joined e c a g w w'
  end.
Proof.
  intros He Hp Hs Hl Hd HP Hsz HU HG HM H. rewrite (js_mint_run _ _ _ _ _ _ HP HU HM) in H. rewrite at_env_app, steps_app in H.
  apply bind_ok in H as (w1 & H1 & H). destruct (parts_kinds _ _ HP) as [HT HK].
  destruct (init_loop e c (jm_asset a) (jm_payer a) (jm_sysp a) (repeat x00 168) He Hp ps w w1 [] Hs Hl HT) as (_ & ND & l2 & F2 & O2 & Hs2 & Hl2 & F3); [now left|cbn [sect_size fold_right]; lia|exact H1|].
  cbn [app] in O2. cbn [at_env map fst snd steps] in H. apply bind_ok in H as (w2 & H & Q). apply Ok_inj in Q. subst w2.
  set (infos := jmint_create_metas e c a) in *.
  assert (A0 : arg infos 0 (jm_asset a)) by (eexists; split; reflexivity).
  assert (A1 : arg infos 1 (js_authority c a)) by (unfold js_authority; eexists; split; [reflexivity|]; destruct (jm_auth a) as [[k s]|]; reflexivity).
  assert (A2 : arg infos 2 (js_owner c a)) by (eexists; split; reflexivity).
  assert (A3 : arg infos 3 match jm_group a with Some g => g | None => e_prog e end) by (eexists; split; [reflexivity|]; destruct (jm_group a); reflexivity).
  set (m := jmint_meta a) in *.
  pose proof (create_effect _ _ _ _ _ _ _ _ _ He Hp A0 O2 Hs2 (Forall_nil ext_arg : Forall ext_arg (inline m)) H) as (auth & owner & l' & hd' & B1 & B2 & _ & HL & HC & _ & Ow & D1 & D2 & D3 & D4 & D5 & D6 & D7 & D8 & D9 & _ & _ & _ & G & OF).
  rewrite (arg_det _ _ _ _ B1 A1), (arg_det _ _ _ _ B2 A2) in *. unfold m, jmint_meta in *. cbn [m_name m_standard m_mutable inline m_exts inline_blks map] in *. rewrite app_nil_r in HC.
  pose proof (hd_fields _ _ _ _ HL) as (Q1 & Q2 & Q3 & Q4 & Q5 & Q6 & Q7 & Q8 & Q9 & Q10).
  set (mm := mkMetaInput _ _ _ _) in *.
  assert (R : Z.to_nat (create_room (data (w1 (jm_asset a))) 0 mm) = 0%nat).
  { unfold create_room. destruct (data (w1 (jm_asset a))); reflexivity. }
  rewrite R in HL. cbn [repeat] in HL. pose proof (created_validated _ _ _ HC) as HV.
  assert (MINT : js_minted c a ps (s_group hd') (data (w' (jm_asset a)))).
  { exists l'. split; [eexists; exact HL|].
    split; [|split; [|split; [exact (created_valid _ _ _ HC)|]]].
    - rewrite <- HK. clear -F2 HV. revert l' HV. induction F2 as [|x b xs l2 [T _] _ IH]; intros l' HV; inversion HV as [|? b' ? l3 [T' _] HV' ]; subst; [reflexivity|].
      cbn [map]. f_equal; [congruence|now apply IH].
    - clear -F2 HV. revert l' HV. induction F2 as [|x b xs l2 [T K] _ IH]; intros l' HV; inversion HV as [|? b' ? l3 [T' Fp] HV']; subst; constructor.
      + rewrite T in Fp. eapply kept_fresh; eassumption.
      + now apply IH.
    - repeat split; try congruence.
      + rewrite Q2, D7. reflexivity.
      + rewrite Q3, D2. unfold js_default. destruct (jm_standard a); reflexivity.
      + rewrite Q4, D3. unfold js_default. destruct (jm_mutable a) as [[]|]; reflexivity.
      + rewrite Q8, D8. reflexivity.
      + rewrite Q9, D9. reflexivity. }
  split; [rewrite <- HK; exact ND|]. split; [exact Ow|].
  destruct G as [(B3 & G & F4)|(g & aa & off & b & B3 & Hg & Hga & _ & G & _ & _ & G1 & G2 & G3 & G4 & _ & _ & G5 & G6 & G7)]; pose proof (arg_det _ _ _ _ B3 A3) as E3.
  - destruct (jm_group a) as [g|] eqn:Eg; [subst g; now elim HG|]. split.
    + rewrite G in MINT. exact MINT.
    + intros k Hk. rewrite F4, F3 by assumption. reflexivity.
  - destruct (jm_group a) as [g'|] eqn:Eg; [|contradiction]. subst g'. split; [exact Hga|]. split; [rewrite <- G; exact MINT|].
    rewrite F3 in * by assumption. exists off, b.
    split; [rewrite OF by assumption; exact G1|]. repeat (split; [assumption|]). intros k K1 K2. rewrite G7, F3 by assumption. reflexivity.
Qed.

(** ** Update through a buffer *)
Lemma locates_type d t c r : locates d t c r -> le32 d r = ext_code t.
Proof. induction 1; assumption. Qed.
Lemma one_block d hd t b : layout d hd [blk_of t b] [] ->
  le32 d 168 = ext_code t /\ le32 d 172 = zlen b /\ b = sub d 184 (length b).
Proof.
  intro HL. pose proof (block_has_ext d hd [] (blk_of t b) [] [] HL (Forall_nil _)) as (cur & Lc & E1 & _ & E2 & E3). cbn [sect_size blk_of bk_type bk_data] in *.
  assert (cur = 168) by lia. subst cur. apply locates_type in Lc. split; [assumption|]. split; [symmetry; exact E2|exact E3].
Qed.
Lemma code_inj t t' : ext_code t = ext_code t' -> t = t'.
Proof. destruct t, t'; intro H; try reflexivity; discriminate H. Qed.
Lemma js_update_jobs e c buffer a b ixs w : js_payload (ju_ext a) = Some b -> (js_default DEFAULT_CHUNK_SIZE (ju_chunk a) < length b)%nat ->
  opt_valid utf8_text (ju_name a) -> js_update_with_buffer e c buffer a = Some ixs ->
  run_ixs e ixs w = steps (at_env e (split_jobs (js_allocate_metas (e_prog e) buffer (ju_payer a) None) (js_write_metas (e_prog e) c buffer (Some (jor (ju_payer a) (jc_payer c))) None)
       (js_default DEFAULT_CHUNK_SIZE (ju_chunk a)) (jext_type (ju_ext a)) b ++
     [(js_update_metas (e_prog e) c (ju_asset a) (ju_auth a) (Some buffer) (ju_group a) (ju_payer a) (Some pk_zero), IUpdate (mkUpdInput (ju_name a) (ju_mutable a) None));
      (js_close_metas (e_prog e) buffer (jor (ju_payer a) (jc_payer c)), IClose)])) w.
Proof.
  intros HP Hn HU H. unfold js_update_with_buffer in H. rewrite HP in H. cbn zeta in H. apply Nat.ltb_lt in Hn. rewrite Hn in H.
  rewrite js_write_jobs in H.
  match type of H with jall ?L = _ => match goal with |- context[at_env e ?J] => set (jobs := J) in *; assert (EJ : L = map jixj jobs) end end.
  { unfold jobs, split_jobs. cbn [app map]. rewrite map_app. reflexivity. }
  rewrite EJ in H. clear EJ.
  apply jall_jobs in H as [K ->]; [now apply run_jobs|].
  unfold jobs, split_jobs. constructor; [exact I|]. apply Forall_app. split; [apply write_jobs_named|].
  constructor; [exact HU|]. constructor; [exact I|constructor].
Qed.
Lemma js_update_effect e c buffer a b ixs w w' l : env_ok e -> e_prog e <> pk_zero -> sized w -> lam_ok w ->
  data (w buffer) = [] -> buffer <> e_prog e -> well_formed (data (w (ju_asset a))) l ->
  js_payload (ju_ext a) = Some b -> 184 + zlen b <= 10485760 -> opt_valid utf8_text (ju_name a) ->
  (0 < js_default DEFAULT_CHUNK_SIZE (ju_chunk a) < length b)%nat ->
  js_update_with_buffer e c buffer a = Some ixs -> run_ixs e ixs w = Ok w' ->
  buffer <> ju_asset a /\ w' buffer = mkAcct 0 pk_zero [] /\
  (exists b', length b' = length b /\ (jext_type (ju_ext a) <> XCreators -> b' = b) /\
     js_updated c a (jext_type (ju_ext a)) b' l (data (w (ju_asset a))) (data (w' (ju_asset a)))) /\
  (forall k, k <> buffer -> k <> ju_asset a -> data (w' k) = data (w k)).
Proof.
  intros He Hp Hs Hl Hd Hb HW HP Hsz HU [Hn0 Hn] HM H. rewrite (js_update_jobs _ _ _ _ _ _ _ HP Hn HU HM) in H.
  rewrite at_env_app, steps_app in H. apply bind_ok in H as (w1 & H1 & H). set (t := jext_type (ju_ext a)) in *.
  assert (Ht : t <> XNone) by (unfold t; destruct (ju_ext a); discriminate).
  match type of H1 with context[split_jobs ?ia ?iw] => assert (U0 : arg ia 0 buffer) by (eexists; split; reflexivity); assert (U1 : arg iw 0 buffer) by (eexists; split; reflexivity) end.
  assert (U2 : open_account (data (w buffer)) (repeat x00 168) [] 0) by (left; auto).
  destruct (split_effect _ _ _ _ buffer _ _ _ _ (repeat x00 168) [] (conj Hn0 Hn) He Hp Hs Hl Ht U0 U1 U2 ltac:(cbn [sect_size]; lia) H1)
    as (b1 & K & _ & (hd & HL) & Hs1 & Hl1 & _ & F1).
  cbn [app] in HL. apply one_block in HL as (T1 & L1 & B1).
  cbn [at_env map fst snd steps] in H. apply bind_ok in H as (w2 & H2 & H). apply bind_ok in H as (w3 & H3 & Q). apply Ok_inj in Q. subst w3.
  match type of H2 with process _ ?I _ _ = _ => assert (A0 : arg I 0 (ju_asset a)) by (eexists; split; reflexivity); assert (A2 : arg I 2 buffer) by (eexists; split; reflexivity);
    assert (A1 : arg I 1 (jor (ju_auth a) (jc_identity c))) by (eexists; split; reflexivity) end.
  pose proof (lam_ok_preserved _ _ _ _ _ He Hp Hl1 H2) as Hl2.
  assert (N : buffer <> ju_asset a).
  { intros ->. destruct HW as (hd0 & tl0 & E & Q & _). rewrite Hd in E. apply (f_equal zlen) in E. rewrite !zlen_app in E. pose proof (zlen_nonneg tl0). pose proof (zlen_nonneg (enc_sect 168 l)). change (zlen []) with 0 in E. lia. }
  assert (W1 : well_formed (data (w1 (ju_asset a))) l) by (rewrite F1 by congruence; assumption).
  assert (Hx : forall x, u_ext (mkUpdInput (ju_name a) (ju_mutable a) None) = Some x -> ext_arg x) by discriminate.
  destruct (update_buffer_exts _ _ _ _ _ _ _ _ He Hp Hs1 A0 A2 Hb W1 Hx H2) as (t1 & b2 & _ & _ & C1 & C2 & C3 & C4 & _).
  destruct (update_buffer _ _ _ _ _ _ _ _ He Hp Hs1 A0 A2 Hb W1 Hx H2)
    as (auth & t2 & b3 & l' & B0 & _ & Au & Mu & Hu & _ & _ & _ & _ & _ & D1 & _ & D2 & W' & EL & D3 & _ & F2).
  rewrite (arg_det _ _ _ _ B0 A1) in *.
  assert (t1 = t) by (apply code_inj; congruence). assert (t2 = t) by (apply code_inj; congruence). subst t1 t2.
  assert (Ln : length b2 = length b1 /\ length b3 = length b1) by (unfold zlen in *; lia). destruct Ln as [Ln2 Ln3].
  assert (b3 = b2) by (rewrite D3, C3, Ln2, Ln3; reflexivity). subst b3.
  destruct (close_effect _ _ _ _ Hl2 H3) as (bk & rc & P0 & P1 & _ & _ & _ & _ & E1 & E2 & F3).
  assert (bk = buffer) by (apply (arg_det _ _ _ _ P0); eexists; split; reflexivity). subst bk.
  assert (F4 : forall k, k <> buffer -> data (w' k) = data (w2 k)).
  { intros k Hk. destruct (pk_dec k rc) as [->|Nr]; [rewrite E2; reflexivity|rewrite F3 by assumption; reflexivity]. }
  split; [assumption|]. split; [assumption|]. split.
  - exists b2. split; [|split].
    + rewrite Ln2. destruct K as [->|[K _]]; congruence.
    + intro Nc. rewrite (C4 Nc), Ln2, <- B1. destruct K as [->|(_ & K & _)]; [reflexivity|now apply K].
    + rewrite F4 by congruence. rewrite F1 in * by congruence. split; [assumption|]. split; [assumption|]. split; [assumption|]. exists l'. split; assumption.
  - intros k Kb Ka. rewrite F4, F2, F1 by assumption. reflexivity.
Qed.

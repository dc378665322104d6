(** Lemmas: when the JavaScript client's [mint] goes through. *)
From Verif Require Import Base State Layout Constr Ext World Proc Borsh Client Js BaseL Spec SpecB SpecE SpecF SpecH SpecI SpecJ SpecK SpecL WorldL LayoutL LayoutM LayoutE FrameL HeadL ProcSteps AllocL AllocM AllocC CreateL ExactL ExactM AcceptL ExactN ExactO BuildL UpdateL StepH CodecL BorshL ClientL LiveL JsL JsP.
From Coq Require Import Strings.Byte.

(** ** The jobs of the client are those of the Rust client, chunked differently *)
Lemma alloc_none e infos w t n : 0 <= n -> process e infos w (IAllocate (mkExtInput t n None)) = process e infos w (IAllocate (mkExtInput t n (Some []))).
Proof.
  intro Hn. unfold process. destruct (validate_access e w (firstn MAX_ACCOUNTS infos)) as [o| | | |]; cbn [bind]; try reflexivity.
  assert (D : dispatch e (firstn MAX_ACCOUNTS infos) w (IAllocate (mkExtInput t n None)) = dispatch e (firstn MAX_ACCOUNTS infos) w (IAllocate (mkExtInput t n (Some [])))).
  { cbn [dispatch]. unfold process_allocate. destruct (acct _ 0); [|reflexivity..]. cbn [bind]. destruct (opt_acct _ _ 1); [|reflexivity..]. cbn [bind]. destruct (opt_acct _ _ 2); [|reflexivity..]. cbn [bind].
    unfold do_allocate. cbn [x_data x_length x_type]. change (zlen [] mod two32) with 0. unfold require. replace (0 <=? n) with true by lia. cbn [bind]. reflexivity. }
  destruct o; [|exact D]. cbn [blocked_when_locked]. exact D.
Qed.
Definition jinfos (asset p : pubkey) : list ainfo := [mkInfo asset true true; mkInfo p true true; mkInfo pk_zero false false].
Definition jsplit (x : ext_type * bytes) : nat := if Nat.ltb DEFAULT_CHUNK_SIZE (length (snd x)) then 0 else DEFAULT_CHUNK_SIZE.
Lemma jinfos_alloc e asset p sysp : jor sysp pk_zero = pk_zero -> js_allocate_metas (e_prog e) asset (Some p) sysp = jinfos asset p.
Proof. destruct sysp as [s|]; cbn [jor]; intro H; [subst s|]; reflexivity. Qed.
Lemma split_same e infos asset w hd l n t b : (0 < n < length b)%nat -> arg infos 0 asset -> open_account (data (w asset)) hd l 0 -> zlen (data (w asset)) <= 10485760 -> t <> XNone ->
  168 + sect_size l + 16 + zlen b <= 10485760 ->
  steps (at_env e (split_jobs infos infos n t b)) w = run_ixs e (map encj (ext_job 0 n infos t b)) w.
Proof.
  intros [Hn Hnb] A0 HO Hd Ht Hsz. pose proof (zlen_nonneg b) as Zb. pose proof (sect_size_nonneg l) as S0.
  assert (K := ext_job_ok 0 n infos t b Hn ltac:(lia)). rewrite (run_jobs e _ w K).
  unfold split_jobs, ext_job, write_jobs. cbn [firstn skipn at_env map fst snd steps].
  rewrite alloc_none by lia. destruct (process e infos w (IAllocate (mkExtInput t (zlen b) (Some [])))) as [w1| | | |] eqn:H1; try reflexivity. cbn [bind].
  pose proof (chunks_concat n Hn (length b) b (le_n _)) as CC. pose proof (chunks_sizes n Hn (length b) b) as CS.
  destruct (chunks (length b) n b) as [|c cs] eqn:C; [reflexivity|]. cbn [at_env map fst snd steps].
  assert (Hc : zlen c < zlen b) by (apply Forall_cons_iff in CS as [[_ CS] _]; unfold zlen; lia).
  eapply allocate_effect in H1; [|exact A0|exact HO|exact Hd|exact Ht|cbn [x_length]; unfold u32_max; lia|cbn [given x_data]; reflexivity].
  destruct H1 as (_ & N & _ & _ & Pa & _).
  assert (HP : partial_account (data (w1 asset)) hd l t (zlen b) []).
  { destruct (open_room _ _ _ _ HO) as (_ & _ & _ & Hf & _). cbn [given x_data x_length x_type] in Pa. change (zlen []) with 0 in Pa. pose proof (zlen_nonneg c).
    pose proof (open_head _ _ _ _ HO). split; [rewrite Pa by lia; rewrite bnd_pad8 by assumption; unfold enc_hdr; now rewrite <- !app_assoc|]. change (zlen []) with 0. repeat split; auto; lia. }
  rewrite (overwrite_first _ _ _ _ _ _ _ _ _ A0 HP Hc). rewrite !map_map. reflexivity.
Qed.
Lemma init_same e c asset p sysp w l t b : jor sysp pk_zero = pk_zero -> open_account (data (w asset)) (repeat x00 168) l 0 -> sized w -> t <> XNone -> 168 + sect_size l + 16 + zlen b <= 10485760 ->
  steps (at_env e (init_jobs e c asset (Some p) sysp t b)) w = run_ixs e (job_ixs (jinfos asset p) jsplit DEFAULT_CHUNK_SIZE (t, b)) w.
Proof.
  intros Hy HO Hs Ht Hsz. pose proof (sect_size_nonneg l) as S0. unfold init_jobs, job_ixs, jsplit. cbn [fst snd]. rewrite (jinfos_alloc e asset p sysp Hy).
  change (js_write_metas (e_prog e) c asset (Some (jor (Some p) (jc_payer c))) None) with (jinfos asset p).
  destruct (Nat.ltb_spec DEFAULT_CHUNK_SIZE (length b)) as [L|L].
  - apply (split_same e _ asset w (repeat x00 168) l); try assumption; [unfold DEFAULT_CHUNK_SIZE in *; lia|eexists; split; reflexivity|apply Hs].
  - assert (K := ext_job_ok DEFAULT_CHUNK_SIZE DEFAULT_CHUNK_SIZE (jinfos asset p) t b ltac:(unfold DEFAULT_CHUNK_SIZE; lia) ltac:(lia)). rewrite (run_steps e _ K w).
    unfold ext_job. rewrite firstn_all2, skipn_all2 by assumption. assert (Ch : forall f, chunks f DEFAULT_CHUNK_SIZE [] = []) by (intros [|f]; reflexivity). rewrite Ch. reflexivity.
Qed.
Lemma jinfos_crew e asset p : p <> e_prog e -> crew e (jinfos asset p) asset p.
Proof.
  intro N. split; [eexists; split; reflexivity|]. split; [eexists; split; reflexivity|]. split; [eexists; split; reflexivity|]. split; [assumption|].
  split; [|split; [|split]]; first [exists (mkInfo asset true true); split; [left; reflexivity|split; reflexivity]|exists (mkInfo p true true); split; [right; left; reflexivity|split; reflexivity]].
Qed.
Lemma jsplit_le x : (jsplit x <= 2000)%nat.
Proof. unfold jsplit. destruct (Nat.ltb _ _); unfold DEFAULT_CHUNK_SIZE; lia. Qed.
Lemma chunk_le : (0 < DEFAULT_CHUNK_SIZE <= 2000)%nat.
Proof. unfold DEFAULT_CHUNK_SIZE. lia. Qed.
Lemma all_same e c w0 big asset p T sysp : env_ok e -> rent_mono e -> e_prog e <> pk_zero -> p <> e_prog e -> jor sysp pk_zero = pk_zero -> T < 18446744073709551616 -> incl (passed (jinfos asset p)) (passed big) ->
  forall ps w l, stage e big w0 asset p T w -> open_account (data (w asset)) (repeat x00 168) l 0 -> Forall (fun x => fst x <> XNone) ps -> 168 + sect_size l + space ps <= 10485760 ->
  steps (at_env e (all_jobs e c asset (Some p) sysp ps)) w = run_ixs e (concat (map (job_ixs (jinfos asset p) jsplit DEFAULT_CHUNK_SIZE) ps)) w.
Proof.
  intros He M Hz Np Hy HT Hbig. induction ps as [|[t b] ps IH]; intros w l HS HO HX Hsz; [reflexivity|].
  unfold all_jobs. cbn [map concat fst snd]. fold (all_jobs e c asset (Some p) sysp ps). rewrite at_env_app, steps_app, run_app.
  apply Forall_cons_iff in HX as [Ht HX]. cbn [fst] in Ht. cbn [space] in Hsz. pose proof (LiveL.space_nonneg ps) as Hsp. pose proof (zlen_nonneg b) as Zb.
  assert (Hsz1 : 168 + sect_size l + 16 + zlen b <= 10485760) by lia.
  destruct (run_ixs e (job_ixs (jinfos asset p) jsplit DEFAULT_CHUNK_SIZE (t, b)) w) as [w1| | | |] eqn:H1;
    rewrite (eq_trans (init_same e c asset p sysp w l t b Hy HO (proj1 (proj2 HS)) Ht Hsz1) H1); try reflexivity. cbn [bind].
  destruct (job_effect e w0 big (jinfos asset p) asset p T He Hz M (jinfos_crew e asset p Np) (jsplit (t, b)) DEFAULT_CHUNK_SIZE t b w w1 l (proj1 chunk_le) Ht HS HO ltac:(rewrite full_space; lia) H1) as (b' & K & O1 & _ & _ & _ & HS1 & _).
  pose proof (kept_size l t b b' K) as Sz. rewrite full_space in Sz. apply (IH w1 (l ++ [blk_of t b'])); try assumption. lia.
Qed.

(** ** mint *)
Lemma js_mint_goes e c a ps ixs w p lg : env_ok e -> rent_mono e -> e_prog e <> pk_zero -> sized w -> lam_ok w ->
  vacant w (jm_asset a) -> jm_payer a = Some p -> (jm_sysp a = None \/ jm_sysp a = Some pk_zero) -> wallet w p -> p <> jm_asset a -> p <> e_prog e ->
  plain_accounts e (jmint_create_metas e c a) w ->
  jm_group a <> Some (e_prog e) -> jm_gauth a <> Some (e_prog e) ->
  (forall g, jm_group a = Some g -> acct_owner (w g) = e_prog e -> initialized (data (w g)) -> well_formed (data (w g)) lg /\ grouping_sane lg) ->
  parts (jm_exts a) ps -> 168 + space ps <= 10485760 -> utf8_text (jm_name a) ->
  js_mint e c a = Some ixs ->
  (exists w', run_ixs e ixs w = Ok w') <->
  NoDup (map jext_type (jm_exts a)) /\ Forall (fun x => acceptable (fst x) (snd x)) ps /\
  standard_ok e (js_default NonFungible (jm_standard a)) (jm_asset a) (map (fun x => blk_of (fst x) (snd x)) ps) /\
  e_rent e (168 + space ps) <= lamports (w p) /\
  forall g, jm_group a = Some g -> may_join e (jmint_create_metas e c a) w (jm_asset a) g (jor (jm_gauth a) (js_authority c a)) lg no_key (pk_bytes (js_authority c a)).
Proof.
  intros He M Hz Hs Hl (D0 & O0 & L0) Ep Hy0 (P1 & P2 & PT) Npa Npe Hpl HG1 HG2 HG HP Hsz HU HM.
  assert (Hy : jor (jm_sysp a) pk_zero = pk_zero) by (destruct Hy0 as [Hy0|Hy0]; rewrite Hy0; reflexivity). clear Hy0.
  rewrite (js_mint_run e c a ps ixs w HP HU HM), at_env_app, steps_app. rewrite Ep.
  destruct (parts_kinds _ _ HP) as [HX HK]. rewrite <- HK. set (asset := jm_asset a) in *. set (T := lamports (w p)) in *.
  change (map (fun x => blk_of (fst x) (snd x)) ps) with (map of_ext ps).
  set (ci := jmint_create_metas e c a) in *.
  assert (Eci : ci = [mkInfo asset true true; jmeta (e_prog e) false (Some match jm_auth a with Some k => k | None => jsigner (jc_identity c) end);
     mkInfo (js_owner c a) false false; jmeta (e_prog e) true (option_map jpub (jm_group a)); jmeta (e_prog e) false (option_map jsigner (jm_gauth a)); mkInfo p true true; mkInfo pk_zero false false]).
  { unfold ci, jmint_create_metas, js_create_metas. rewrite Ep. cbn [option_map]. fold asset. do 6 f_equal. destruct (jm_sysp a) as [s|]; cbn [jor] in Hy; [subst s|]; reflexivity. }
  assert (Pm : incl (passed (jinfos asset p)) (passed ci)).
  { intros i Hi. unfold jinfos in Hi. match type of Hi with In i (passed ?l) => change (passed l) with l in Hi end. rewrite Eci. match goal with |- In i (passed ?l) => change (passed l) with l end. cbn [In] in *. tauto. }
  pose proof (stage_start e ci asset p w Hz Npa P1 P2 D0 O0 L0 Hs Hl Hpl) as HS. fold T in HS.
  assert (HO : open_account (data (w asset)) (repeat x00 168) [] 0) by (left; auto).
  rewrite (all_same e c w ci asset p T (jm_sysp a) He M Hz Npe Hy PT Pm ps w [] HS HO HX) by (cbn [sect_size fold_right]; lia).
  pose proof (jinfos_crew e asset p Npe) as C.
  assert (A0 : arg ci 0 asset) by (rewrite Eci; eexists; split; reflexivity).
  assert (A1 : arg ci 1 (js_authority c a)) by (rewrite Eci; unfold js_authority; eexists; split; [reflexivity|]; destruct (jm_auth a) as [[k s]|]; reflexivity).
  assert (A2 : arg ci 2 (js_owner c a)) by (rewrite Eci; eexists; split; reflexivity).
  assert (A3 : optional e ci 3 (jm_group a)).
  { rewrite Eci. destruct (jm_group a) as [g|]; [split; [eexists; split; reflexivity|congruence]|eexists; split; reflexivity]. }
  assert (A4 : optional e ci 4 (jm_gauth a)).
  { rewrite Eci. destruct (jm_gauth a) as [g|]; [split; [eexists; split; reflexivity|congruence]|eexists; split; reflexivity]. }
  assert (A5 : optional e ci 5 (Some p)) by (rewrite Eci; split; [eexists; split; reflexivity|assumption]).
  assert (A6 : optional e ci 6 (Some pk_zero)) by (rewrite Eci; split; [eexists; split; reflexivity|congruence]).
  assert (S0 : signed ci asset) by (rewrite Eci; exists (mkInfo asset true true); split; [left; reflexivity|split; reflexivity]).
  assert (W0 : writable ci asset) by (rewrite Eci; exists (mkInfo asset true true); split; [left; reflexivity|split; reflexivity]).
  assert (S5 : signed ci p) by (rewrite Eci; exists (mkInfo p true true); split; [do 5 right; left; reflexivity|split; reflexivity]).
  assert (W5 : writable ci p) by (rewrite Eci; exists (mkInfo p true true); split; [do 5 right; left; reflexivity|split; reflexivity]).
  assert (WG : forall g, jm_group a = Some g -> writable ci g).
  { intros g Eg. rewrite Eci, Eg. exists (mkInfo g false true). split; [do 3 right; left; reflexivity|split; reflexivity]. }
  set (auth := js_authority c a) in *. set (m := jmint_meta a).
  assert (CR : forall w1 l2, Forall2 (fun x b => bk_type b = fst x /\ kept (fst x) (snd x) (bk_data b)) ps l2 -> open_account (data (w1 asset)) (repeat x00 168) l2 0 ->
     stage e ci w asset p T w1 ->
     goes (steps (at_env e [(ci, ICreate m)]) w1) <->
     (data (w1 asset) = [] -> e_rent e 168 <= T) /\ Forall (fun x => acceptable (fst x) (snd x)) ps /\ standard_ok e (js_default NonFungible (jm_standard a)) asset (map of_ext ps) /\
     forall g, jm_group a = Some g -> may_join e ci w asset g (jor (jm_gauth a) auth) lg no_key (pk_bytes auth)).
  { intros w1 l2 F2 O2 (P' & Hs1 & Hl1 & Hp1 & Fr). cbn [at_env map fst snd steps].
    assert (EB : goes (w2 <- process e ci w1 (ICreate m) ;; Ok w2) <-> exists w', process e ci w1 (ICreate m) = Ok w').
    { unfold goes. destruct (process e ci w1 (ICreate m)); cbn [bind]; reflexivity. }
    rewrite EB. clear EB.
    assert (MJ : (forall g, jm_group a = Some g -> may_join e ci w1 asset g (jor (jm_gauth a) auth) lg no_key (pk_bytes auth)) <-> (forall g, jm_group a = Some g -> may_join e ci w asset g (jor (jm_gauth a) auth) lg no_key (pk_bytes auth))).
    { split; intros Q g Eg; destruct (Q g Eg) as (J1 & J2 & J3 & J4 & J5); destruct (Fr g J4) as [F3 F4]; unfold may_join in *; [rewrite F3, F4 in *|rewrite F3, F4]; auto. }
    rewrite <- MJ.
    rewrite (create_goes e ci w1 m asset auth (js_owner c a) (jm_group a) (jm_gauth a) (Some p) (Some pk_zero) (repeat x00 168) l2 0 lg A0 A1 A2 A3 A4 A5 A6 O2); try assumption.
    2: { unfold m, jmint_meta, inline. cbn [m_exts]. constructor. }
    2: { right. unfold m, jmint_meta, inline. cbn [m_exts inline_blks map sect_size fold_right]. lia. }
    2: { intros g Eg. split; [now apply WG|]. intros Q1 Q2. destruct (pk_dec g asset) as [->|Ng].
         - exfalso. destruct O2 as [(E & _)|(_ & HL)]; [rewrite E in Q2; destruct Q2 as [Q2 Q3]; cbn [length] in *; lia|]. destruct HL as (E & _). rewrite E in Q2. destruct Q2 as [Q2 Q3]. discriminate Q3.
         - destruct (Fr g Ng) as [F3 F4]. rewrite F3, F4 in *. apply (HG g Eg); assumption. }
    unfold m, jmint_meta, inline. cbn [m_exts m_standard inline_blks map sect_size fold_right]. rewrite app_nil_r.
    rewrite (kept_acceptable _ _ F2), (kept_standard _ _ _ _ _ F2). destruct P' as (_ & Q1 & Q2 & Q3 & Q4 & Q5).
    change (s_group (repeat x00 168)) with no_key.
    split.
    - intros (_ & B1 & _ & _ & _ & _ & B2 & B3 & B6). split; [|split; [assumption|split; [assumption|exact B6]]]. intro E. destruct (B1 E) as (_ & Z1 & _ & _ & _ & p' & Eq & _ & B4). assert (p' = p) by congruence. subst p'. destruct B4 as (_ & _ & _ & _ & B5). change (168 + 0) with 168 in B5. lia.
    - intros (B1 & B2 & B3 & B6). split; [assumption|]. split.
      + intro E. destruct (Q4 E) as [Z1 Z2]. split; [assumption|]. split; [assumption|]. change (168 + 0) with 168. specialize (B1 E). split; [lia|]. split; [lia|]. split; [reflexivity|]. exists p. split; [reflexivity|]. split; [assumption|].
        split; [assumption|]. split; [assumption|]. split; [assumption|]. split; [assumption|]. lia.
      + split; [intro E; split; [apply (Q5 E)|apply (open_zeros _ _ O2 E)]|]. split; [constructor|]. split; [constructor|]. split; [constructor|]. split; [assumption|]. split; [assumption|]. exact B6. }
  split.
  - intros [w' H]. apply bind_ok in H as (w1 & H1 & H).
    destruct (loop_effect e w ci (jinfos asset p) asset p T jsplit DEFAULT_CHUNK_SIZE He Hz M C jsplit_le chunk_le ps w w1 [] HS HX HO ltac:(cbn [sect_size fold_right]; lia) H1) as (_ & ND & l2 & F2 & O2 & HS1 & _ & R).
    cbn [app] in O2. destruct (proj1 (CR w1 l2 F2 O2 HS1) (ex_intro _ w' H)) as (B1 & B2 & B3 & B4). split; [assumption|]. split; [assumption|]. split; [assumption|]. split; [|assumption].
    destruct ps as [|x xs].
    + cbn [map concat run_ixs] in H1. apply Ok_inj in H1. subst w1. exact (B1 D0).
    + destruct (R ltac:(discriminate)) as [_ R1]. exact R1.
  - intros (ND & HA & HSt & HR & HJ). assert (G1 : goes (run_ixs e (concat (map (job_ixs (jinfos asset p) jsplit DEFAULT_CHUNK_SIZE) ps)) w)).
    { apply (loop_goes e w ci (jinfos asset p) asset p T jsplit DEFAULT_CHUNK_SIZE He Hz M C PT Pm jsplit_le chunk_le ps w [] HS HX HO); try assumption. intros x _. reflexivity. }
    destruct G1 as [w1 H1]. rewrite H1. cbn [bind].
    destruct (loop_effect e w ci (jinfos asset p) asset p T jsplit DEFAULT_CHUNK_SIZE He Hz M C jsplit_le chunk_le ps w w1 [] HS HX HO ltac:(cbn [sect_size fold_right]; lia) H1) as (_ & _ & l2 & F2 & O2 & HS1 & _ & R).
    cbn [app] in O2. apply (CR w1 l2 F2 O2 HS1). split; [|split; [assumption|split; assumption]]. intro E. destruct ps as [|x xs]; [exact HR|]. destruct (R ltac:(discriminate)) as [R0 _]. contradiction.
Qed.

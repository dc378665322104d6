(** Proofs about executions that stay inside their data and end (C89). *)
From Verif Require Import Base State Layout Constr Ext World Proc BaseL Spec SpecF SpecE SpecSafe WorldL LayoutL ConstrL HeadL AcceptL.
From Coq Require Import Strings.Byte.

Lemma s_bind {A B} (m : res A) (k : A -> res B) : contained m -> (forall a, m = Ok a -> contained (k a)) -> contained (bind m k).
Proof. destruct m; cbn; auto. Qed.
Lemma s_req {B} c er (k : res B) : (c = true -> contained k) -> contained (require c er k).
Proof. destruct c; cbn; auto. Qed.
Lemma s_guard {B} c (k : res B) : (c = true -> contained k) -> contained (guard c k).
Proof. destruct c; cbn; auto. Qed.
Lemma s_oo {A} (o : option A) er : contained (ok_or o er).
Proof. destruct o; exact I. Qed.
Lemma s_slice d a b : contained (slice d a b).
Proof. apply s_guard. intros _. exact I. Qed.
Lemma s_map {A} (m : res A) er : contained m -> contained (map_err m er).
Proof. destruct m; auto. Qed.
Lemma s_load d c : contained (load_hdr d c).
Proof. apply s_guard. intros _. exact I. Qed.
Lemma s_sethdr d c x y z : contained (set_hdr d c x y z).
Proof. apply s_guard. intros _. exact I. Qed.
Lemma s_acct infos i : contained (acct infos i).
Proof. unfold acct. destruct (nth_error infos i); exact I. Qed.
Lemma s_opt e infos i : contained (opt_acct e infos i).
Proof. apply s_bind; [apply s_acct|]. intros. exact I. Qed.
Lemma s_set e infos w k d : contained (set_data e infos w k d).
Proof. unfold set_data. destruct (bytes_eqb d (data (w k))); [exact I|]. apply s_req. intros _. exact I. Qed.
Lemma s_move e infos w a b n : contained (move_lamports e infos w a b n).
Proof. unfold move_lamports. destruct ((n =? 0) || pk_eqb a b); [exact I|]. do 2 (apply s_req; intros _). cbv zeta. apply s_req. intros _. exact I. Qed.
Lemma s_sys infos w a b n : contained (sys_transfer infos w a b n).
Proof. unfold sys_transfer. do 3 (apply s_req; intros _). cbv zeta. apply s_req. intros _. exact I. Qed.
Lemma s_screate e infos w p k n m : contained (sys_create e infos w p k n m).
Proof. unfold sys_create. do 3 (apply s_req; intros _). cbv zeta. apply s_sys. Qed.
Lemma s_realloc e infos w0 w k n : contained (realloc e infos w0 w k n).
Proof. unfold realloc. destruct (n =? zlen (data (w k))); [exact I|]. apply s_req. intros _. apply s_set. Qed.
Lemma s_resize e infos w0 w n k p s : contained (resize e infos w0 w n k p s).
Proof.
  unfold resize. cbv zeta. apply s_bind; [|intros; apply s_realloc]. destruct (n <? zlen (data (w k))).
  - apply s_bind; [apply s_oo|]. intros. apply s_move.
  - apply s_req. intros _. destruct (0 <? Z.max 0 _); [|exact I]. apply s_bind; [apply s_oo|]. intros. apply s_bind; [apply s_oo|]. intros.
    do 2 (apply s_req; intros _). apply s_sys.
Qed.
Lemma s_close e infos w k r : contained (close_account e infos w k r).
Proof. unfold close_account. apply s_req. intros _. apply s_guard. intros _. apply s_bind; [apply s_move|]. intros. apply s_req. intros _. exact I. Qed.
Lemma s_newacc e infos w a p s n : contained (alloc_create_account e infos w a p s n).
Proof. unfold alloc_create_account. apply s_bind; [apply s_oo|]. intros. apply s_req. intros _. apply s_bind; [apply s_oo|]. intros. apply s_req. intros _. apply s_screate. Qed.

(** ** The walks *)
Lemma ahead_step d cur h : ahead d cur -> load_hdr d cur = Ok h -> (h_type h =? 0) = false -> cur + 16 <= h_bnd h /\ ahead d (h_bnd h).
Proof.
  intros H L N. apply load_hdr_ok in L as (L1 & L2 & L3 & ->). cbn [h_type h_bnd] in *. inversion H as [c Hc|c Hc|c Hc Hn]; subst; [lia|lia|]. auto.
Qed.
Lemma s_find t d : forall fuel cur, ahead d cur -> (0 < fuel)%nat -> zlen d < cur + Z.of_nat fuel -> contained (find_loop fuel t d cur).
Proof.
  induction fuel as [|f IH]; intros cur H Hf Hz; [lia|]. cbn [find_loop]. destruct (cur + EXT_LEN <=? zlen d) eqn:E; [|exact I]. unfold EXT_LEN in E.
  apply s_bind; [apply s_load|]. intros h L. destruct (h_type h =? ext_code t); [exact I|]. destruct (h_type h =? 0) eqn:N; [exact I|].
  destruct (ahead_step _ _ _ H L N). apply IH; [assumption|lia|lia].
Qed.
Lemma s_findext t d : ahead d 168 -> contained (find_ext t d).
Proof. intro H. apply s_find; [exact H|unfold walk_fuel; lia|]. unfold walk_fuel, zlen, ASSET_LEN. lia. Qed.
Lemma s_contains t d : ahead d 168 -> contained (asset_contains t d).
Proof. intro H. apply s_bind; [now apply s_findext|]. intros. exact I. Qed.
Lemma s_get t d : ahead d 168 -> contained (asset_get t d).
Proof. intro H. apply s_bind; [now apply s_findext|]. intros [[c h]|] _; [|exact I]. apply s_bind; [apply s_slice|]. intros. exact I. Qed.
Lemma code_zero h t : ext_of_code (h_type h) = Some t -> t <> XNone -> (h_type h =? 0) = false.
Proof. intros E N. apply ext_of_code_some in E. rewrite E. destruct t; try reflexivity. contradiction. Qed.
Lemma s_last d : forall fuel cur acc, ahead d cur -> (0 < fuel)%nat -> zlen d < cur + Z.of_nat fuel -> contained (last_loop fuel d cur acc).
Proof.
  induction fuel as [|f IH]; intros cur acc H Hf Hz; [lia|]. cbn [last_loop]. destruct (cur + EXT_LEN <=? zlen d) eqn:E; [|exact I]. unfold EXT_LEN in E.
  apply s_bind; [apply s_load|]. intros h L. destruct (ext_of_code (h_type h)) as [t|] eqn:T; [|exact I].
  destruct (ext_type_eqb t XNone) eqn:X.
  - assert (t = XNone) as -> by (destruct t; try discriminate X; reflexivity). exact I.
  - assert (N : t <> XNone) by (intros ->; discriminate X). destruct (ahead_step _ _ _ H L (code_zero _ _ T N)) as [A B].
    assert (K : contained (last_loop f d (h_bnd h) (Some (h, cur + EXT_LEN)))) by (apply IH; [assumption|lia|lia]).
    destruct t; try exact K. exact I.
Qed.
Lemma s_lastext d : ahead d 168 -> contained (last_extension d).
Proof. intro H. apply s_last; [exact H|unfold walk_fuel; lia|]. unfold walk_fuel, zlen, ASSET_LEN. lia. Qed.
Lemma s_sectloop t d : 168 <= zlen d -> forall fuel cur, ahead d (168 + cur) -> 0 <= cur -> cur <= u32_max -> (0 < fuel)%nat -> zlen d < 169 + cur + Z.of_nat fuel ->
  contained (sect_loop fuel t (drop ASSET_LEN d) cur).
Proof.
  intro Hd. induction fuel as [|f IH]; intros cur H Hc Hc2 Hf Hz; [lia|]. cbn [sect_loop].
  destruct ((cur + EXT_LEN) mod two64 <=? zlen (drop ASSET_LEN d)) eqn:E; [|exact I].
  apply s_bind; [apply s_load|]. intros h L.
  destruct (h_type h =? ext_code t). { apply s_bind; [apply s_slice|]. intros. exact I. }
  destruct (h_type h =? 0) eqn:N; [exact I|].
  apply load_hdr_ok in L as (L1 & L2 & L3 & ->). cbn [h_type h_bnd] in *. rewrite drop_len in * by lia. rewrite le32_drop in * by lia.
  pose proof (le32_range d (168 + (cur + 8))) as R.
  inversion H as [c Q|c Q|c Q Qn]; subst; [lia|lia|]. rewrite Z.add_assoc in *. unfold ASSET_LEN.
  replace ((le32 d (168 + cur + 8) - 168) mod two64) with (le32 d (168 + cur + 8) - 168) by (unfold two64, u32_max in *; rewrite Z.mod_small; lia).
  apply IH; [|lia|unfold u32_max in *; lia|lia|lia]. now replace (168 + (le32 d (168 + cur + 8) - 168)) with (le32 d (168 + cur + 8)) by lia.
Qed.
Lemma s_sect t d : ahead d 168 -> contained (sect_get t (drop ASSET_LEN d)).
Proof.
  intro H. destruct (Z_lt_le_dec (zlen d) 168) as [L|L].
  - unfold sect_get. assert (E : drop ASSET_LEN d = []) by (unfold drop, ASSET_LEN; apply skipn_all2; unfold zlen in L; lia).
    rewrite E. exact I.
  - apply s_sectloop; try assumption; try lia; unfold walk_fuel, u32_max; try lia. pose proof (drop_len d L) as Z. unfold zlen in *. lia.
Qed.

(** ** Payloads *)
Lemma s_grouping al b : contained (grouping_from_bytes al b).
Proof. unfold grouping_from_bytes. do 2 (apply s_guard; intros _). cbv zeta. apply s_guard. intros _. exact I. Qed.
Lemma s_creators b : contained (creators_from_bytes b).
Proof. apply s_guard. intros _. exact I. Qed.
Lemma s_deleg b : contained (load_delegate b).
Proof. unfold load_delegate. apply s_guard. intros _. exact I. Qed.
Lemma s_pstr b : contained (pstr b).
Proof. unfold pstr. destruct b; [exact I|]. apply s_guard. intros _. exact I. Qed.
Lemma pstr_len b s : pstr b = Ok s -> (0 < length b)%nat.
Proof. destruct b; cbn [pstr length]; [discriminate|lia]. Qed.
Lemma drop_short n b : 0 < n -> (0 < length b)%nat -> (length (drop n b) < length b)%nat.
Proof. intros. unfold drop. rewrite skipn_length. lia. Qed.
Lemma psize_pos s : 0 < pstr_size s.
Proof. unfold pstr_size. pose proof (zlen_nonneg s). lia. Qed.
Lemma s_pairs : forall fuel b, (length b < fuel)%nat -> contained (parse_pairs fuel b).
Proof.
  induction fuel as [|f IH]; intros b H; [lia|]. cbn [parse_pairs]. destruct b as [|x r]; [exact I|]. set (b := x :: r) in *.
  apply s_bind; [apply s_pstr|]. intros n N. apply s_bind; [apply s_pstr|]. intros v V. apply s_bind; [|intros; exact I].
  pose proof (psize_pos n). pose proof (psize_pos v). apply IH. assert (0 < length b)%nat by (unfold b; cbn; lia).
  pose proof (drop_short (pstr_size n + pstr_size v) b). lia.
Qed.
Lemma s_propval b : contained (parse_prop_val b).
Proof.
  unfold parse_prop_val. destruct b as [|t r]; [exact I|]. destruct (b2z t =? 0); [apply s_bind; [apply s_pstr|]; intros; exact I|].
  destruct (b2z t =? 1); [apply s_guard; intros _; exact I|]. destruct (b2z t =? 2); [|exact I]. destruct r; exact I.
Qed.
Lemma s_props : forall fuel b, (length b < fuel)%nat -> contained (parse_props fuel b).
Proof.
  induction fuel as [|f IH]; intros b H; [lia|]. cbn [parse_props]. destruct b as [|x r]; [exact I|]. set (b := x :: r) in *.
  apply s_bind; [apply s_pstr|]. intros n N. apply s_bind; [apply s_propval|]. intros v V. apply s_bind; [|intros; exact I].
  pose proof (psize_pos n). assert (0 < prop_val_size v) by (destruct v as [s|s|s]; cbn [prop_val_size]; [pose proof (psize_pos s); lia|pose proof (zlen_nonneg s); lia|lia]).
  apply IH. assert (0 < length b)%nat by (unfold b; cbn; lia).
  pose proof (drop_short (pstr_size n + prop_val_size v) b). lia.
Qed.
Lemma s_meta b : contained (metadata_from_bytes b).
Proof.
  unfold metadata_from_bytes. do 3 (apply s_bind; [apply s_pstr|]; intros; cbv zeta).
  match goal with |- contained (match ?m with _ => _ end) => destruct m end; [exact I|]. apply s_bind; [apply s_pstr|]. intros. exact I.
Qed.
Lemma s_blob b : contained (blob_from_bytes b).
Proof. apply s_bind; [apply s_pstr|]. intros. exact I. Qed.
Lemma s_proxy b : contained (proxy_from_bytes b).
Proof. apply s_guard. intros _. exact I. Qed.
Lemma s_roy al b : parses XRoyalties b -> contained (royalties_from_bytes al b).
Proof.
  intro P. destruct (al mod 8 =? 0) eqn:E.
  - assert (A : al mod 8 = 0) by lia. destruct (proj2 (royalties_goes al b A) P) as [x X]. rewrite X. exact I.
  - unfold royalties_from_bytes. rewrite E. apply s_guard. intros _. exact I.
Qed.
Lemma s_eval c ctx : contained (eval_constr c ctx).
Proof.
  assert (G : forall a, contained (get_account a ctx)) by (intros []; cbn [get_account]; try exact I; apply s_oo).
  induction c as [s l IH|s l IH|s x IH|s a ks|s a ks|s] using constr_ind2; cbn [eval_constr].
  - induction IH as [|x l Hx _ IH]; [exact I|]. apply s_bind; [exact Hx|]. intros [] _; [exact IH|exact I].
  - induction IH as [|x l Hx _ IH]; [exact I|]. apply s_bind; [exact Hx|]. intros [] _; [exact I|exact IH].
  - apply s_bind; [exact IH|]. intros. exact I.
  - apply s_bind; [apply G|]. intros. exact I.
  - apply s_bind; [apply G|]. intros. exact I.
  - exact I.
Qed.
Lemma s_ccreate auth l : contained (creators_on_create auth l).
Proof. unfold creators_on_create. cbv zeta. destruct (_ =? 100); exact I. Qed.
Lemma s_kept o l : contained (check_kept o l).
Proof.
  induction o as [|c r IH]; [exact I|]. cbn [check_kept]. destruct (pod_true (cr_verified c)); [|exact IH].
  destruct (creators_get (cr_addr c) l) as [u|]; [|exact I]. destruct (pod_true (cr_verified u)); [exact IH|exact I].
Qed.
Lemma s_cupdate auth cur l : contained (creators_on_update auth cur l).
Proof. unfold creators_on_update. cbv zeta. destruct (_ =? 100); [|exact I]. apply s_bind; [apply s_kept|]. intros. exact I. Qed.
Lemma s_oncreate t al auth b : royal_ok t b -> contained (on_create t al auth b).
Proof.
  intro R. destruct t; cbn [on_create]; try exact I;
    try (apply s_bind; [first [apply s_blob|apply s_meta|apply s_deleg|apply s_proxy|apply s_pairs; lia|apply s_props; lia]|]; intros; exact I).
  - apply s_bind; [apply s_creators|]. intros. apply s_bind; [apply s_ccreate|]. intros. exact I.
  - apply s_bind; [apply s_grouping|]. intros g _. destruct (0 <? g_size g); exact I.
  - apply s_bind; [apply s_roy; now apply R|]. intros g _. destruct (10000 <? fst g); exact I.
Qed.
Lemma s_onupdate t al1 cur al b auth : royal_ok t cur -> royal_ok t b -> contained (on_update t al1 cur al b auth).
Proof.
  intros R1 R. destruct t; cbn [on_update]; try exact I;
    try (do 2 (apply s_bind; [first [apply s_blob|apply s_meta|apply s_deleg|apply s_pairs; lia|apply s_props; lia]|]; intros); exact I).
  - do 2 (apply s_bind; [apply s_creators|]; intros). apply s_bind; [apply s_cupdate|]. intros. exact I.
  - do 2 (apply s_bind; [apply s_grouping|]; intros). destruct (_ && _); exact I.
  - do 2 (apply s_bind; [apply s_roy; auto|]; intros). destruct (10000 <? _); exact I.
  - do 2 (apply s_bind; [apply s_proxy|]; intros). destruct (_ || _); exact I.
Qed.

Lemma s_manager d : ahead d 168 -> contained (manager_delegate d).
Proof. intro H. apply s_bind; [now apply s_sect|]. intros [[o b]|] _; [|exact I]. apply s_bind; [apply s_deleg|]. intros. exact I. Qed.
Lemma s_assert ds t r : contained (assert_delegate ds t r).
Proof.
  unfold assert_delegate. generalize (I : contained (Err EDelegateNotFound : res unit)). generalize (Err EDelegateNotFound : res unit).
  induction ds as [|o ds IH]; intros z Z; [exact Z|]. cbn [fold_left]. apply IH. destruct o as [dl|]; [|exact Z].
  destruct (negb _); [exact I|]. destruct (negb _); exact I.
Qed.
Lemma s_royalties e w a s r d : settled d -> contained (process_royalties e w a s r d).
Proof.
  intros [H R]. unfold process_royalties. apply s_bind; [now apply s_get|]. intros [[off b]|] G; [|exact I].
  apply asset_get_some in G. apply s_bind; [apply s_roy; eauto|]. intros x _. cbv zeta. destruct (_ && _); [exact I|].
  apply s_bind; [apply s_eval|]. intros. apply s_req. intros _. exact I.
Qed.
Lemma s_locked e w l : contained (find_locked e w l).
Proof.
  induction l as [|i l IH]; [exact I|]. cbn [find_locked]. cbv zeta. destruct (_ && _); [|exact IH]. destruct (beqb _ _); [|exact IH].
  apply s_guard. intros _. destruct (beqb _ _); [exact I|exact IH].
Qed.
Lemma s_access e w infos : contained (validate_access e w infos).
Proof.
  apply s_bind; [|intros; apply s_locked]. destruct infos as [|i l]; [exact I|]. cbv zeta. destruct (_ && _); [|exact I].
  apply s_guard. intros _. destruct (beqb _ _); [|exact I]. apply s_req. intros _. exact I.
Qed.
Lemma s_process e infos w i : contained (dispatch e (passed infos) w i) -> contained (process e infos w i).
Proof.
  intro H. unfold process. cbv zeta. apply s_bind; [apply s_access|]. intros [k|] _; [|exact H]. destruct (blocked_when_locked i); [exact I|exact H].
Qed.

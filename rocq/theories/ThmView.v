(** Property theorems: what is stored can be read back, and the clients show the
    registry (C80). *)
From Verif Require Import Base State Layout Constr Ext World Proc Client Js Rs BaseL Spec SpecB SpecE SpecF SpecG SpecH SpecI SpecJ SpecK SpecL SpecR SpecS SpecView FrameL LayoutL BorshL CountL HelpL ViewL ViewM Sample SampleE SampleP ThmCodec ThmBuild ThmHist ThmGroup ThmUpdate ThmJsB ThmReg ThmHelp.
From Coq Require Import Strings.Byte.

(** C80: a payload that cannot be read is never stored: a step from assets whose
    payloads all can be read leads to such assets, *)
Theorem C80_step : forall e infos w w' R, env_ok e -> e_prog e <> pk_zero -> sound (e_prog e) w -> pictures (e_prog e) w R -> all_legible R ->
  forall i, proper e infos w i -> process e infos w i = Ok w' ->
  exists R', act e w infos R i R' /\ pictures (e_prog e) w' R' /\ all_legible R'.
Proof. exact step_legible. Qed.
Print Assumptions C80_step.
(** and so does a history. *)
Theorem C80_history : forall p w w' R, p <> pk_zero -> sound p w -> pictures p w R -> all_legible R -> history_of good_step p w w' ->
  exists R', evolves p R R' /\ pictures p w' R' /\ sound p w' /\ all_legible R'.
Proof. exact legible_history. Qed.
Print Assumptions C80_history.
(** From no assets at all: whatever has happened, the accounts show a registry that
    came about by its steps, and both clients show what is in it; the JavaScript
    client if groupings have all their bytes, metadata four texts, and what is behind
    the extensions is nothing or at least 16 bytes. *)
Theorem C80_clients : forall p w w', p <> pk_zero -> sized w -> lam_ok w -> (forall x, acct_owner (w x) <> p) -> history_of good_step p w w' ->
  exists R', evolves p (fun _ => None) R' /\ pictures p w' R' /\ all_legible R' /\
    forall k v, R' k = Some v ->
      (exists a, rs_read (data (w' k)) = Some a /\ reflects v a) /\
      (Forall complete (as_exts v) -> zlen (data (w' k)) = full_size v \/ full_size v + 16 <= zlen (data (w' k)) ->
       (exists s, js_asset (data (w' k)) = JDone s) /\ forall s, js_asset (data (w' k)) = JDone s <-> portrays v s).
Proof. exact clients_show. Qed.
Print Assumptions C80_clients.
(** an asset is created and gets royalties *)
Definition roy_payload : bytes := match js_payload (js_royalties 500 None) with Some b => b | None => [] end.
Definition q_roy : update_input := mkUpdInput (Some hat) None (Some (mkExtInput XRoyalties (zlen roy_payload) (Some roy_payload))).
Definition w_roy : world := run w_new (process env0 (i_update kBuf) w_new (IUpdate q_roy)).
Lemma void_unowned x : acct_owner (w_void x) <> kProg.
Proof.
  unfold w_void, table. cbn [find fst]. destruct (pk_eqb x kBuf); [|destruct (pk_eqb x kPayer)]; cbn; intro E; apply (f_equal pk_bytes) in E; vm_compute in E; discriminate.
Qed.
Lemma roy_proper : proper env0 (i_update kBuf) w_new (IUpdate q_roy).
Proof.
  split; [ok_arg|]. intros x Ex. apply ExactL.some_inj in Ex. subst x. split; [|discriminate]. unfold ext_arg. cbn [x_type x_length given x_data].
  split; [discriminate|]. vm_compute. intuition discriminate.
Qed.
Lemma new_assets g : asset_of kProg w_new g -> g = kBuf.
Proof.
  intros [O _]. assert (R : process env0 i_new w_void (ICreate m_born) = Ok w_new) by (apply run_ok; vm_compute; reflexivity).
  destruct (pk_eqb g kBuf) eqn:E; [now apply pk_eqb_eq|]. exfalso. destruct (pk_eqb g kPayer) eqn:E2.
  - apply pk_eqb_eq in E2. subst g. apply (f_equal pk_bytes) in O. vm_compute in O. discriminate O.
  - apply pk_eqb_neq in E, E2. apply (void_unowned g). rewrite <- O. f_equal. symmetry.
    apply (frame_untouched env0 i_new w_void (ICreate m_born) w_new g env0_ok ltac:(discriminate) ltac:(apply table_lam_ok; vm_compute; reflexivity) R).
    clear R O. intros (x & Hx & <- & Hw). cbn in Hx. repeat (destruct Hx as [<- |Hx]; [cbn [ai_key ai_writable] in *; congruence|]). contradiction.
Qed.
Lemma roy_history : history_of good_step kProg w_void w_roy.
Proof.
  destruct C77_history_case as (Sz & La & Nn & H1 & _).
  refine (hof_instr _ _ _ w_new env0 (i_update kBuf) (IUpdate q_roy) _ H1 eq_refl env0_ok _ _).
  - split; [apply roy_proper|]. intros g n [(A & l & T & ->)|[_ ->]]; [|lia]. apply new_assets in A. subst g.
    assert (T2 : tidy (data (w_new kBuf)) plain_exts).
    { exists (sub (data (w_new kBuf)) 0 168), 0%nat.
      replace (data (w_new kBuf)) with (mk (sub (data (w_new kBuf)) 0 168) plain_exts) at 1 by (vm_compute; reflexivity).
      apply (mk_layout _ plain_exts []). vm_compute. reflexivity. }
    rewrite (size_det _ _ _ T T2). vm_compute. reflexivity.
  - apply run_ok. vm_compute. reflexivity.
Qed.
Definition v_roy : asset := mkAsset (pk_bytes kHolder) None (pk_bytes kAuth) None false x00 true (hat ++ repeat x00 32) [(XBlob, five); (XRoyalties, roy_payload)].
Example C80_clients_case : sized w_void /\ lam_ok w_void /\ (forall x, acct_owner (w_void x) <> kProg) /\ history_of good_step kProg w_void w_roy /\
  SpecS.shows (data (w_roy kBuf)) v_roy /\ Forall complete (as_exts v_roy) /\ zlen (data (w_roy kBuf)) = full_size v_roy /\
  js_asset (data (w_roy kBuf)) = JDone (mkJasset 0 0 true (pk_bytes kHolder) None (pk_bytes kAuth) None hat [JBlob [x02] [x03; x04; x05]; JRoyalties 500 JEmpty]).
Proof.
  split; [apply table_sized; vm_compute; reflexivity|]. split; [apply table_lam_ok; vm_compute; reflexivity|]. split; [apply void_unowned|]. split; [apply roy_history|].
  split.
  { split; [split; [vm_compute; lia|vm_compute; reflexivity]|]. split; [vm_compute; reflexivity|]. exists [blk_of XBlob five; blk_of XRoyalties roy_payload].
    split; [|vm_compute; reflexivity]. exists (sub (data (w_roy kBuf)) 0 168), 0%nat. 
    replace (data (w_roy kBuf)) with (mk (sub (data (w_roy kBuf)) 0 168) [blk_of XBlob five; blk_of XRoyalties roy_payload]) at 1 by (vm_compute; reflexivity).
    apply (mk_layout _ [blk_of XBlob five; blk_of XRoyalties roy_payload] []). vm_compute. reflexivity. }
  split; [repeat constructor; discriminate|]. split; vm_compute; reflexivity.
Qed.
Example C80_step_case : exists R, sound kProg w_new /\ pictures kProg w_new R /\ all_legible R /\ proper env0 (i_update kBuf) w_new (IUpdate q_roy) /\
  okb (process env0 (i_update kBuf) w_new (IUpdate q_roy)) = true /\ asset_of kProg w_new kBuf /\ ~ legible (XCreators, five) /\ ~ legible (XGrouping, five).
Proof.
  destruct C77_history_case as (Sz & La & Nn & H1 & A & _).
  destruct (legible_history kProg w_void w_new (fun _ => None) ltac:(discriminate) (CountH.sound_empty _ _ Sz La Nn) Nn ltac:(intros k v E; discriminate) H1) as (R & _ & P & S & L).
  exists R. split; [exact S|]. split; [exact P|]. split; [exact L|]. split; [apply roy_proper|]. split; [vm_compute; reflexivity|]. split; [exact A|].
  split; intros [Q _]; cbn [parses fst snd] in Q; vm_compute in Q; [discriminate Q|lia].
Qed.
(** One asset by itself. *)
Theorem C80_js : forall d v, SpecS.shows d v -> good_head d -> Forall legible (as_exts v) -> Forall complete (as_exts v) ->
  zlen d = full_size v \/ full_size v + 16 <= zlen d ->
  (exists s, js_asset d = JDone s) /\ forall s, js_asset d = JDone s <-> portrays v s.
Proof. exact js_portrays. Qed.
Print Assumptions C80_js.
Theorem C80_rs : forall d v, SpecS.shows d v -> good_head d -> exists a, rs_read d = Some a /\ reflects v a.
Proof. exact rs_reflects. Qed.
Print Assumptions C80_rs.
(** The restriction to Updates that carry a payload is needed: one without empties the
    extension, and royalties cannot be read then. *)
Definition q_empty : update_input := mkUpdInput None None (Some (mkExtInput XRoyalties 0 None)).
Theorem C80_history_refuted : exists w w' k, (forall x, acct_owner (w x) <> kProg) /\ history kProg w w' /\ asset_of kProg w' k /\
  (exists s, rs_read (data (w' k)) = Some s) /\ forall s, js_asset (data (w' k)) <> JDone s.
Proof.
  exists w_void, (run w_roy (process env0 (i_update kBuf) w_roy (IUpdate q_empty))), kBuf. split; [apply void_unowned|]. split.
  { refine (hist_instr _ _ w_roy env0 (i_update kBuf) (IUpdate q_empty) _ (forget _ _ _ _ roy_history) eq_refl env0_ok _). apply run_ok. vm_compute. reflexivity. }
  split; [split; [vm_compute; reflexivity|split; [vm_compute; lia|vm_compute; reflexivity]]|]. split; [eexists; vm_compute; reflexivity|]. intro s. vm_compute. discriminate.
Qed.
Print Assumptions C80_history_refuted.

(** Which values an Update can put in the place of a current one, in terms of the
    values the client shows; *)
Theorem C80_follow : forall c y0 x b, typed x -> js_payload x = Some b -> zlen b <= u32_max ->
  match c, y0 with Some c, Some y => legible (jext_type x, c) /\ shown (jext_type x) c [] y | None, None => True | _, _ => False end ->
  (SpecF.fits (jext_type x) c b <-> may_follow y0 x).
Proof. exact follow_iff. Qed.
Print Assumptions C80_follow.
Definition cr0 : jext := JCreators [(pk_bytes kOther, true, 40); (pk_bytes kAuth, false, 60)].
Definition cr1 : jext := JCreators [(pk_bytes kTo, true, 10); (pk_bytes kAuth, true, 50); (pk_bytes kOther, false, 40)].
Lemma creators_legible : legible (XCreators, cur_creators).
Proof. split; [reflexivity|]. intros _ i Hi. change (i < 2)%nat in Hi. destruct i as [|[|i]]; [right; reflexivity|left; reflexivity|lia]. Qed.
Example C80_follow_case : may_follow (Some cr0) cr1 /\ ~ may_follow (Some cr0) (JCreators [(pk_bytes kTo, true, 100)]) /\ may_follow None (JCreators [(pk_bytes kTo, true, 100)]) /\
  ~ may_follow None (JManager None [RLock]) /\ may_follow (Some (JManager None [RBurn])) (JManager None [RLock]) /\
  ~ may_follow (Some (JGrouping 3 5 None)) (JGrouping 0 2 None) /\ may_follow (Some (JGrouping 3 5 None)) (JGrouping 7 3 None) /\
  legible (XCreators, cur_creators) /\ shown XCreators cur_creators [] cr0.
Proof.
  split.
  { split; [reflexivity|]. intros k s [E|[E|[]]]; [|discriminate]. injection E as <- <-. split; [cbn; tauto|vm_compute; reflexivity]. }
  split; [intros [_ Q]; destruct (Q _ _ (or_introl eq_refl)) as [[Q1|[]] _]; vm_compute in Q1; discriminate|].
  split; [reflexivity|]. split; [exact (fun Q => Q)|]. split; [exact I|]. split; [cbn; lia|]. split; [cbn; lia|]. split.
  { apply creators_legible. }
  split; [reflexivity|]. eexists. split; [vm_compute; reflexivity|vm_compute; reflexivity].
Qed.
(** and updateWithBuffer of the JavaScript client with a payload of one chunk: it goes
    through exactly when the authority shown is the one that signs, the asset is
    shown as mutable, the value can follow the one getExtension gives, and the rent
    can be moved; afterwards the client shows the change asked for — creators keep
    their flags and new ones are verified if they are the authority, a group keeps
    its size — and nothing else. *)
Theorem C80_update : forall e c buffer a b ixs w hd l s,
  let infos := js_update_metas (e_prog e) c (ju_asset a) (ju_auth a) None (ju_group a) (ju_payer a) None in
  let d := data (w (ju_asset a)) in let x := ju_ext a in let auth := jor (ju_auth a) (jc_identity c) in
  let size := updated_size d l (jext_type x) (zlen b) in
  ready e infos w (ju_asset a) -> ju_group a <> Some (e_prog e) -> ju_payer a <> Some (e_prog e) ->
  layout d hd l [] -> lam_ok w -> env_ok e -> e_prog e <> pk_zero -> e_heap_al e mod 8 = 0 -> (length l < e_fuel e)%nat ->
  good_head d -> Forall legible (ext_list l) -> Forall complete (ext_list l) -> js_asset d = JDone s ->
  typed x -> js_payload x = Some b -> zlen b <= 2000000000 -> (length b <= js_default DEFAULT_CHUNK_SIZE (ju_chunk a))%nat ->
  opt_valid utf8_text (ju_name a) -> js_update_with_buffer e c buffer a = Some ixs ->
  ((exists w', run_ixs e ixs w = Ok w') <->
     gate infos w (ju_asset a) /\ ja_authority s = pk_bytes auth /\ ja_mutable s = true /\ may_follow (js_get (jext_type x) (ja_exts s)) x /\
     (size <> zlen d -> can_size e infos w (ju_asset a) (ju_payer a) (match ju_payer a with Some _ => Some pk_zero | None => None end) size)) /\
  (forall w', run_ixs e ixs w = Ok w' -> exists s', js_asset (data (w' (ju_asset a))) = JDone s' /\ changed (pk_bytes auth) (ju_name a) (ju_mutable a) x s s').
Proof. exact js_update_values. Qed.
Print Assumptions C80_update.
Definition ju1 : jupdate := mkJupdate kAsset (Some kAuth) None (Some kPayer) (Some hat) (Some false) cr1 None.
Example C80_update_case : exists ixs w' hd, js_update_with_buffer env0 jc0 kBuf ju1 = Some ixs /\ run_ixs env0 ixs w_up = Ok w' /\
  js_asset (data (w_up kAsset)) = JDone (mkJasset 0 0 true (pk_bytes kHolder) None (pk_bytes kAuth) None (repeat x41 35) [JBlob [x02] [x03; x04; x05]; cr0; JGrouping 2 3 (Some (pk_bytes kDeleg)); JBucket eleven]) /\
  js_asset (data (w' kAsset)) = JDone (mkJasset 0 0 false (pk_bytes kHolder) None (pk_bytes kAuth) None hat [JBlob [x02] [x03; x04; x05];
    JCreators [(pk_bytes kTo, false, 10); (pk_bytes kAuth, false, 50); (pk_bytes kOther, true, 40)]; JGrouping 2 3 (Some (pk_bytes kDeleg)); JBucket eleven]) /\
  ready env0 (js_update_metas kProg jc0 kAsset (Some kAuth) None None (Some kPayer) None) w_up kAsset /\ layout (data (w_up kAsset)) hd (up_exts cur_creators) [] /\
  lam_ok w_up /\ good_head (data (w_up kAsset)) /\ Forall legible (ext_list (up_exts cur_creators)) /\ Forall complete (ext_list (up_exts cur_creators)) /\ typed cr1 /\
  opt_valid utf8_text (Some hat).
Proof.
  eexists. eexists. exists up_head. split; [vm_compute; reflexivity|]. split; [apply (run_ok w_up); vm_compute; reflexivity|].
  split; [vm_compute; reflexivity|]. split; [vm_compute; reflexivity|]. split.
  { split; [ok_arg|]. split; [reflexivity|]. split; [split; [vm_compute; lia|vm_compute; reflexivity]|]. split; [ok_wr|].
    split; [apply plain_table; vm_compute; reflexivity|apply table_sized; vm_compute; reflexivity]. }
  split; [apply (mk_layout up_head (up_exts cur_creators) []); vm_compute; reflexivity|]. split; [apply table_lam_ok; vm_compute; reflexivity|]. split; [vm_compute; auto|].
  split.
  { change (ext_list (up_exts cur_creators)) with [(XBlob, five); (XCreators, cur_creators); (XGrouping, grp_payload 2 3); (XBucket, eleven)].
    apply Forall_cons; [|apply Forall_cons; [|apply Forall_cons; [|apply Forall_cons; [|constructor]]]].
    - split; [|discriminate]. exists [x02], [x01; x02], [x03; x04; x05]. split; [split; [vm_compute; discriminate|reflexivity]|reflexivity].
    - apply creators_legible.
    - split; [|discriminate]. cbn [parses fst snd]. change (16 <= 48 <= 48)%nat. lia.
    - split; [exact I|discriminate]. }
  split; [repeat constructor; discriminate|]. split; [repeat constructor|]. apply utf8_iff. vm_compute. reflexivity.
Qed.
(** An Update that carries royalties or a grouping only goes through if the argument
    happens to lie at a multiple of 8, *)
Theorem C80_aligned : forall e infos w q w' x bs asset hd l tl, process e infos w (IUpdate q) = Ok w' -> u_ext q = Some x -> x_data x = Some bs ->
  x_type x = XGrouping \/ x_type x = XRoyalties -> arg infos 0 asset -> layout (data (w asset)) hd l tl -> e_heap_al e mod 8 = 0.
Proof. exact update_aligned. Qed.
Print Assumptions C80_aligned.
(** and panics otherwise, whatever the payload. *)
Definition env_odd : env := mkEnv kProg (e_rent env0) (e_cpa env0) false 5 100.
Theorem C80_aligned_refuted : exists infos w q, okb (process env0 infos w (IUpdate q)) = true /\ process env_odd infos w (IUpdate q) = Panic.
Proof. exists (i_update kBuf), w_new, q_roy. split; vm_compute; reflexivity. Qed.
Print Assumptions C80_aligned_refuted.
Example C80_aligned_case : okb (process env0 (i_update kBuf) w_new (IUpdate q_roy)) = true /\ arg (i_update kBuf) 0 kBuf /\ e_heap_al env0 = 0 /\ e_heap_al env_odd = 5 /\
  okb (process env_odd (i_update kAsset) w_up (up (mkExtInput XCreators 102 (Some new_creators)))) = true.
Proof. split; [vm_compute; reflexivity|]. split; [ok_arg|]. repeat split. Qed.

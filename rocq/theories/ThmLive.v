(** Property theorems: when the clients' mint helpers go through (C64). *)
From Verif Require Import Base State Layout Constr Ext World Proc Borsh Client Js BaseL Spec SpecB SpecC SpecE SpecF SpecH SpecI SpecJ SpecK SpecL WorldL LayoutL BorshL ClientL LiveL JsP JsR Sample SampleE ThmClient ThmJsB.
From Coq Require Import Strings.Byte.

(** C64: on an address nothing was put at, with a wallet paying, all instructions the
    Rust client's [mint] returns go through if and only if no two extensions have one
    type, each payload is acceptable, the standard allows the extensions and the
    payer has the rent of the finished account. *)
Theorem C64_mint : forall e a w, env_ok e -> rent_mono e -> e_prog e <> pk_zero -> sized w -> lam_ok w ->
  vacant w (mi_asset a) -> wallet w (mint_payer a) -> mint_payer a <> mi_asset a -> mint_payer a <> e_prog e ->
  plain_at e w (mi_owner a) -> plain_at e w (e_prog e) -> plain_at e w pk_zero ->
  Forall (fun x => fst x <> XNone) (mi_exts a) -> 168 + space (mi_exts a) <= 10485760 -> text_ok (mi_name a) ->
  (exists w', run_ixs e (mint e a) w = Ok w') <->
  NoDup (map fst (mi_exts a)) /\ Forall (fun x => acceptable (fst x) (snd x)) (mi_exts a) /\
  standard_ok e (mi_standard a) (mi_asset a) (map (fun x => blk_of (fst x) (snd x)) (mi_exts a)) /\
  e_rent e (168 + space (mi_exts a)) <= lamports (w (mint_payer a)).
Proof. exact mint_goes. Qed.
Print Assumptions C64_mint.
(** two minters of [ma]: one has the rent to the last lamport, the other lacks one *)
Definition w_rich (n : Z) : world := table [(kPayer, wal n)].
Example C64_mint_case : e_rent env0 (168 + space (mi_exts ma)) = 2328 /\
  (exists w', run_ixs env0 (mint env0 ma) (w_rich 2328) = Ok w') /\ run_ixs env0 (mint env0 ma) (w_rich 2327) = Err ECpi /\
  NoDup (map fst (mi_exts ma)).
Proof.
  split; [vm_compute; reflexivity|]. split; [eexists; apply (run_ok (w_rich 2328)); vm_compute; reflexivity|]. split; [vm_compute; reflexivity|].
  repeat constructor; cbn [map fst In mi_exts ma]; intuition discriminate.
Qed.
Lemma env0_mono : rent_mono env0.
Proof. intros a b H. unfold env0. cbn [e_rent]. lia. Qed.
Example C64_mint_hyps : forall n, 0 <= n < 18446744073709551616 -> env_ok env0 /\ rent_mono env0 /\ e_prog env0 <> pk_zero /\ sized (w_rich n) /\ lam_ok (w_rich n) /\
  vacant (w_rich n) (mi_asset ma) /\ wallet (w_rich n) (mint_payer ma) /\ mint_payer ma <> mi_asset ma /\ mint_payer ma <> e_prog env0 /\
  plain_at env0 (w_rich n) (mi_owner ma) /\ plain_at env0 (w_rich n) (e_prog env0) /\ plain_at env0 (w_rich n) pk_zero /\
  Forall (fun x => fst x <> XNone) (mi_exts ma) /\ 168 + space (mi_exts ma) <= 10485760 /\ text_ok (mi_name ma).
Proof.
  intros n Hn. destruct C45_hyps as (H1 & H2 & _ & _ & _ & H3 & H4 & H5).
  split; [exact H1|]. split; [exact env0_mono|]. split; [exact H2|]. split; [apply table_sized; reflexivity|].
  split. { intro k. unfold w_rich, table, find. destruct (pk_eqb k (fst (kPayer, wal n))); cbn; lia. }
  split; [split; [reflexivity|split; reflexivity]|]. split; [split; [reflexivity|split; [reflexivity|exact (proj2 Hn)]]|].
  split; [discriminate|]. split; [discriminate|]. split; [intros _; left; reflexivity|]. split; [intros _; left; reflexivity|]. split; [intros _; left; reflexivity|].
  split; [exact H3|]. split; [exact H4|exact H5].
Qed.

(** The same of the JavaScript client's [mint], which can also put the asset in a
    group: then the group must take it. *)
Theorem C64_js : forall e c a ps ixs w p lg, env_ok e -> rent_mono e -> e_prog e <> pk_zero -> sized w -> lam_ok w ->
  vacant w (jm_asset a) -> jm_payer a = Some p -> (jm_sysp a = None \/ jm_sysp a = Some pk_zero) -> wallet w p -> p <> jm_asset a -> p <> e_prog e ->
  plain_accounts e (jmint_create_metas e c a) w -> jm_group a <> Some (e_prog e) -> jm_gauth a <> Some (e_prog e) ->
  (forall g, jm_group a = Some g -> acct_owner (w g) = e_prog e -> initialized (data (w g)) -> well_formed (data (w g)) lg /\ grouping_sane lg) ->
  parts (jm_exts a) ps -> 168 + space ps <= 10485760 -> utf8_text (jm_name a) ->
  js_mint e c a = Some ixs ->
  (exists w', run_ixs e ixs w = Ok w') <->
  NoDup (map jext_type (jm_exts a)) /\ Forall (fun x => acceptable (fst x) (snd x)) ps /\
  standard_ok e (match jm_standard a with Some s => s | None => NonFungible end) (jm_asset a) (map (fun x => blk_of (fst x) (snd x)) ps) /\
  e_rent e (168 + space ps) <= lamports (w p) /\
  forall g, jm_group a = Some g -> may_join e (jmint_create_metas e c a) w (jm_asset a) g
    (match jm_gauth a with Some k => k | None => js_authority c a end) lg no_key (pk_bytes (js_authority c a)).
Proof. exact js_mint_goes. Qed.
Print Assumptions C64_js.
(** a grouped mint: the group has room for one more, or none *)
Definition jmg : jmint := mkJmint kAsset (Some (kAuth, true)) None (Some kGroup) None (Some kPayer) None [x41] None None [JBlob [x74] [x07; x08]].
Definition jwg (n : Z) : world := table [(kGroup, acc (grp_data n 3)); (kPayer, wal 500)].
Example C64_js_case : exists ps ixs, parts (jm_exts jmg) ps /\ js_mint env0 jc0 jmg = Some ixs /\ length ixs = 2%nat /\
  (exists w', run_ixs env0 ixs (jwg 2) = Ok w') /\ run_ixs env0 ixs (jwg 3) = Err EExtensionDataInvalid.
Proof.
  exists [(XBlob, [x01; x74; x07; x08])]. eexists. split; [repeat constructor; vm_compute; reflexivity|]. split; [vm_compute; reflexivity|]. split; [reflexivity|].
  split; [eexists; apply (run_ok (jwg 2)); vm_compute; reflexivity|]. vm_compute. reflexivity.
Qed.
Example C64_js_hyps : env_ok env0 /\ rent_mono env0 /\ sized (jwg 2) /\ lam_ok (jwg 2) /\ vacant (jwg 2) (jm_asset jmg) /\ wallet (jwg 2) kPayer /\
  plain_accounts env0 (jmint_create_metas env0 jc0 jmg) (jwg 2) /\ well_formed (data (jwg 2 kGroup)) (grp_exts 2 3) /\ grouping_sane (grp_exts 2 3) /\
  utf8_text (jm_name jmg) /\ may_join env0 (jmint_create_metas env0 jc0 jmg) (jwg 2) kAsset kGroup kAuth (grp_exts 2 3) no_key (pk_bytes kAuth).
Proof.
  split; [exact env0_ok|]. split; [exact env0_mono|]. split; [apply table_sized; reflexivity|]. split; [apply table_lam_ok; reflexivity|].
  split; [split; [reflexivity|split; reflexivity]|]. split; [split; [reflexivity|split; reflexivity]|].
  split; [apply plain_table; vm_compute; reflexivity|]. split; [apply mk_wf; reflexivity|].
  split. { intros b Hb. found Hb. cbn [length]. lia. }
  split; [apply utf8_iff; vm_compute; reflexivity|].
  split. { exists (mkInfo kAuth true false). split; [apply (nth_error_In _ 1); vm_compute; reflexivity|split; reflexivity]. }
  split; [reflexivity|]. split; [split; [vm_compute; repeat constructor|vm_compute; reflexivity]|]. split; [discriminate|]. split; [reflexivity|].
  split; [vm_compute; reflexivity|]. eexists. split; [vm_compute; reflexivity|]. split; [left; vm_compute; reflexivity|]. right. vm_compute. reflexivity.
Qed.

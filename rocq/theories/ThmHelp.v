(** Property theorems: the JavaScript client from values to values (C79). *)
From Verif Require Import Base State Layout Constr Ext World Proc Borsh Client Js BaseL Spec SpecB SpecE SpecF SpecI SpecJ SpecK SpecL SpecJs LayoutL BorshL HelpL Sample SampleE SampleP ThmCodec ThmJsB ThmLive.
From Coq Require Import Strings.Byte.

(** C79: a value can be given to a new extension exactly when it is sensible: shares
    that add up to 100 modulo 256, a group of size 0, at most 10000 basis points. *)
Theorem C79_sensible : forall x b, typed x -> js_payload x = Some b -> zlen b <= u32_max -> (acceptable (jext_type x) b <-> sensible x).
Proof. exact sensible_iff. Qed.
Print Assumptions C79_sensible.
(** The helper functions make sensible values, but for the shares and the basis
    points they are given. *)
Theorem C79_helpers : (forall l, sensible (js_creators l) <-> share_sum (map (fun c => (fst c, false, snd c)) l) mod 256 = 100) /\
  (forall m k, sensible (js_grouping m k)) /\ (forall s d u i, sensible (js_metadata s d u i)) /\ (forall bp o, sensible (js_royalties bp o) <-> bp <= 10000).
Proof. exact helper_sensible. Qed.
Print Assumptions C79_helpers.
Definition x_cr : jext := js_creators [(pk_bytes kHolder, 60); (pk_bytes kAuth, 40)].
Example C79_helpers_case : sensible x_cr /\ sensible (js_royalties 10000 None) /\ ~ sensible (js_royalties 10001 None) /\
  ~ sensible (js_creators [(pk_bytes kHolder, 60)]) /\ sensible (js_creators [(pk_bytes kHolder, 200); (pk_bytes kAuth, 156)]) /\
  js_payload (js_grouping None None) = Some (repeat x00 48) /\ js_payload (js_metadata None None (Some hat) None) = Some ([x00; x00; x03] ++ hat ++ [x00]).
Proof. repeat split; try (vm_compute; reflexivity); intro H; vm_compute in H; try discriminate; now apply H. Qed.

(** mint: with extensions of different types, sensible values, a standard they go
    with, a payer who has the rent and a group, if one is given, that takes the asset
    — and only then — all its instructions succeed, *)
Theorem C79_mint : forall e c a ps ixs w p lg, env_ok e -> rent_mono e -> e_prog e <> pk_zero -> sized w -> lam_ok w ->
  vacant w (jm_asset a) -> jm_payer a = Some p -> (jm_sysp a = None \/ jm_sysp a = Some pk_zero) -> wallet w p -> p <> jm_asset a -> p <> e_prog e ->
  plain_accounts e (jmint_create_metas e c a) w -> jm_group a <> Some (e_prog e) -> jm_gauth a <> Some (e_prog e) ->
  (forall g, jm_group a = Some g -> acct_owner (w g) = e_prog e -> initialized (data (w g)) -> well_formed (data (w g)) lg /\ grouping_sane lg) ->
  Forall typed (jm_exts a) -> parts (jm_exts a) ps -> 168 + space ps <= 10485760 -> utf8_text (jm_name a) ->
  js_mint e c a = Some ixs ->
  (exists w', run_ixs e ixs w = Ok w') <->
  NoDup (map jext_type (jm_exts a)) /\ Forall sensible (jm_exts a) /\
  suits e (match jm_standard a with Some s => s | None => NonFungible end) (jm_asset a) (jm_exts a) /\
  e_rent e (168 + space ps) <= lamports (w p) /\
  forall g, jm_group a = Some g -> may_join e (jmint_create_metas e c a) w (jm_asset a) g
    (match jm_gauth a with Some k => k | None => js_authority c a end) lg no_key (pk_bytes (js_authority c a)).
Proof. exact mint_values. Qed.
Print Assumptions C79_mint.
(** and the client then shows the asset with the values given: texts without NUL
    bytes, zero keys as none, roles as a set, creators verified exactly when they are
    the authority. *)
Theorem C79_mint_shown : forall e c a ps ixs w w', env_ok e -> e_prog e <> pk_zero -> sized w -> lam_ok w -> data (w (jm_asset a)) = [] ->
  Forall typed (jm_exts a) -> parts (jm_exts a) ps -> 168 + space ps <= 10485760 -> utf8_text (jm_name a) -> jm_group a <> Some (e_prog e) ->
  js_mint e c a = Some ixs -> run_ixs e ixs w = Ok w' ->
  exists s, js_asset (data (w' (jm_asset a))) = JDone s /\ displayed c a (jm_exts a) s.
Proof. exact mint_displayed. Qed.
Print Assumptions C79_mint_shown.
Definition payloads (xs : list jext) : list (ext_type * bytes) := map (fun x => (jext_type x, match js_payload x with Some b => b | None => [] end)) xs.
Definition jm1 : jmint := mkJmint kAsset None None None None (Some kPayer) None (hat ++ [x00] ++ red) (Some Managed) (Some false)
  [x_cr; js_grouping (Some 5) None; JManager (Some (pk_bytes kMan)) [RBurn; RTransfer]; js_royalties 500 None].
Example C79_mint_case : exists ps ixs w', parts (jm_exts jm1) ps /\ 168 + space ps <= 10485760 /\ js_mint env0 jc0 jm1 = Some ixs /\ run_ixs env0 ixs jw0 = Ok w' /\
  js_asset (data (w' kAsset)) = JDone (mkJasset 0 1 false (pk_bytes kHolder) None (pk_bytes kHolder) None (hat ++ red)
    [JCreators [(pk_bytes kHolder, true, 60); (pk_bytes kAuth, false, 40)]; JGrouping 0 5 None; JManager (Some (pk_bytes kMan)) [RTransfer; RBurn]; JRoyalties 500 JEmpty]) /\
  Forall typed (jm_exts jm1) /\ NoDup (map jext_type (jm_exts jm1)) /\ Forall sensible (jm_exts jm1) /\ suits env0 Managed kAsset (jm_exts jm1) /\
  vacant jw0 kAsset /\ wallet jw0 kPayer /\ plain_accounts env0 (jmint_create_metas env0 jc0 jm1) jw0 /\ rent_mono env0 /\ utf8_text (jm_name jm1).
Proof.
  exists (payloads (jm_exts jm1)). eexists. eexists. split; [repeat constructor|]. split; [vm_compute; discriminate|]. split; [vm_compute; reflexivity|].
  split; [apply (run_ok jw0); vm_compute; reflexivity|]. split; [vm_compute; reflexivity|]. split; [repeat constructor|].
  split; [repeat constructor; cbn; intuition discriminate|]. split; [repeat constructor; cbn; try lia; exact I|].
  split. { split; [split; [intros _; vm_compute; tauto|reflexivity]|]. split; [split; [discriminate|]; vm_compute; intuition discriminate|]. intros prog seeds bump auth [H|[H|[H|[H|[]]]]]; discriminate H. }
  split; [repeat split|]. split; [repeat split|]. split; [apply plain_table; vm_compute; reflexivity|]. split; [exact env0_mono|]. apply utf8_iff. vm_compute. reflexivity.
Qed.

(** create, which puts the extensions in one instruction: the same conditions, and
    the account can have 10240 bytes at most; *)
Theorem C79_create : forall e c a xs ps i w p lg, env_ok e -> e_prog e <> pk_zero -> sized w ->
  vacant w (jm_asset a) -> jm_payer a = Some p -> (jm_sysp a = None \/ jm_sysp a = Some pk_zero) -> wallet w p -> p <> jm_asset a -> p <> e_prog e ->
  plain_accounts e (jmint_create_metas e c a) w -> jm_group a <> Some (e_prog e) -> jm_gauth a <> Some (e_prog e) ->
  (forall g, jm_group a = Some g -> acct_owner (w g) = e_prog e -> initialized (data (w g)) -> well_formed (data (w g)) lg /\ grouping_sane lg) ->
  Forall typed xs -> parts xs ps -> 168 + space ps <= 10485760 -> utf8_text (jm_name a) ->
  js_create e c a (Some xs) = Some i ->
  (exists w', run_ixs e [i] w = Ok w') <->
  168 + space ps <= 10240 /\ NoDup (map jext_type xs) /\ Forall sensible xs /\
  suits e (match jm_standard a with Some s => s | None => NonFungible end) (jm_asset a) xs /\
  e_rent e (168 + space ps) <= lamports (w p) /\
  forall g, jm_group a = Some g -> may_join e (jmint_create_metas e c a) w (jm_asset a) g
    (match jm_gauth a with Some k => k | None => js_authority c a end) lg no_key (pk_bytes (js_authority c a)).
Proof. exact create_values. Qed.
Print Assumptions C79_create.
(** what is shown is the same but for the order: the first, then the others from the
    last on. *)
Theorem C79_create_shown : forall e c a xs ps i w w', env_ok e -> e_prog e <> pk_zero -> sized w -> data (w (jm_asset a)) = [] ->
  Forall typed xs -> parts xs ps -> 168 + space ps <= 10485760 -> utf8_text (jm_name a) -> jm_group a <> Some (e_prog e) ->
  js_create e c a (Some xs) = Some i -> run_ixs e [i] w = Ok w' ->
  exists s, js_asset (data (w' (jm_asset a))) = JDone s /\ displayed c a (inline_order xs) s.
Proof. exact create_displayed. Qed.
Print Assumptions C79_create_shown.
Definition xs1 : list jext := [JBlob [x74] [x07]; JManager None [RLock]; x_cr].
Example C79_create_case : exists ps i w', parts xs1 ps /\ 168 + space ps <= 10240 /\ js_create env0 jc0 jm1 (Some xs1) = Some i /\ run_ixs env0 [i] jw0 = Ok w' /\
  js_asset (data (w' kAsset)) = JDone (mkJasset 0 1 false (pk_bytes kHolder) None (pk_bytes kHolder) None (hat ++ red)
    [JBlob [x74] [x07]; JCreators [(pk_bytes kHolder, true, 60); (pk_bytes kAuth, false, 40)]; JManager None [RLock]]) /\
  Forall typed xs1 /\ NoDup (map jext_type xs1) /\ Forall sensible xs1 /\ suits env0 Managed kAsset xs1.
Proof.
  exists (payloads xs1). eexists. eexists. split; [repeat constructor|]. split; [vm_compute; discriminate|]. split; [vm_compute; reflexivity|].
  split; [apply (run_ok jw0); vm_compute; reflexivity|]. split; [vm_compute; reflexivity|]. split; [repeat constructor|].
  split; [repeat constructor; cbn; intuition discriminate|]. split; [repeat constructor; cbn; try lia; exact I|].
  split; [split; [intros _; vm_compute; tauto|reflexivity]|]. split; [split; [discriminate|]; vm_compute; intuition discriminate|]. intros prog seeds bump auth [H|[H|[H|[]]]]; discriminate H.
Qed.
(** So mint and create, given the same arguments, do not make the same asset. *)
Theorem C79_same_refuted : exists ixs i w1 w2, js_mint env0 jc0 (mkJmint kAsset None None None None (Some kPayer) None hat (Some Managed) None xs1) = Some ixs /\
  js_create env0 jc0 (mkJmint kAsset None None None None (Some kPayer) None hat (Some Managed) None xs1) (Some xs1) = Some i /\
  run_ixs env0 ixs jw0 = Ok w1 /\ run_ixs env0 [i] jw0 = Ok w2 /\ js_asset (data (w1 kAsset)) <> js_asset (data (w2 kAsset)).
Proof.
  eexists. eexists. eexists. eexists. split; [vm_compute; reflexivity|]. split; [vm_compute; reflexivity|].
  split; [apply (run_ok jw0); vm_compute; reflexivity|]. split; [apply (run_ok jw0); vm_compute; reflexivity|]. vm_compute. discriminate.
Qed.
Print Assumptions C79_same_refuted.

(** getExtension finds the first extension of a type; of an account shown, the one
    the program finds. *)
Theorem C79_get : forall t l, first_of t l (js_get t l).
Proof. exact get_first. Qed.
Print Assumptions C79_get.
Theorem C79_get_account : forall l ys t, Forall2 (fun k y => shown (bk_type k) (bk_data k) (bk_pad k) y) l ys ->
  match js_get t ys with
  | Some y => exists k, In k l /\ bk_type k = t /\ lookup t (ext_list l) = Some (bk_data k) /\ shown t (bk_data k) (bk_pad k) y
  | None => lookup t (ext_list l) = None
  end.
Proof. exact get_shown. Qed.
Print Assumptions C79_get_account.
(** After a mint it gives the value that was given. *)
Theorem C79_get_minted : forall auth xs ys t, Forall2 (minted_value auth) xs ys ->
  match js_get t xs with
  | Some x => exists y, js_get t ys = Some y /\ minted_value auth x y
  | None => js_get t ys = None
  end.
Proof. exact get_minted. Qed.
Print Assumptions C79_get_minted.
Example C79_get_case : js_get XManager (jm_exts jm1) = Some (JManager (Some (pk_bytes kMan)) [RBurn; RTransfer]) /\ js_get XBlob (jm_exts jm1) = None /\
  js_get XBlob [JBucket [x01]; JBlob [] [x02]; JBlob [] [x03]] = Some (JBlob [] [x02]) /\
  Forall2 (minted_value (pk_bytes kHolder)) [x_cr] [JCreators [(pk_bytes kHolder, true, 60); (pk_bytes kAuth, false, 40)]].
Proof. repeat split; try (vm_compute; reflexivity). repeat constructor. Qed.

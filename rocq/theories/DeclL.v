(** Lemmas: flags that are not declared do not matter. *)
From Verif Require Import Base State Layout Constr Ext World Proc BaseL Spec SpecD WorldL.
From Coq Require Import Strings.Byte.

Lemma bind_ext {A B} (x y : res A) (f g : A -> res B) : x = y -> (forall a, f a = g a) -> bind x f = bind y g.
Proof. intros -> H. destruct y; cbn [bind]; auto. Qed.
Lemma require_ext {A} b b' er (x y : res A) : b = b' -> x = y -> require b er x = require b' er y.
Proof. intros -> ->. reflexivity. Qed.
Lemma guard_ext {A} b (x y : res A) : x = y -> guard b x = guard b y.
Proof. intros ->. reflexivity. Qed.

Section Agree.
Variables (e : env) (I J : list ainfo).
Definition sg (k : pubkey) : Prop := is_signer I k = is_signer J k.
Definition wr (k : pubkey) : Prop := is_writable I k = is_writable J k.

Lemma set_data_agree w k d : wr k -> set_data e I w k d = set_data e J w k d.
Proof. intro H. unfold set_data. rewrite H. reflexivity. Qed.
Lemma move_agree w s d n : wr s -> wr d -> move_lamports e I w s d n = move_lamports e J w s d n.
Proof. intros H1 H2. unfold move_lamports. rewrite H1, H2. reflexivity. Qed.
Lemma sys_transfer_agree w s d n : sg s -> wr s -> wr d -> sys_transfer I w s d n = sys_transfer J w s d n.
Proof. intros H0 H1 H2. unfold sys_transfer. rewrite H0, H1, H2. reflexivity. Qed.
Lemma sys_create_agree w p k l n : sg k -> wr k -> sg p -> wr p -> sys_create e I w p k l n = sys_create e J w p k l n.
Proof. intros H0 H1 H2 H3. unfold sys_create. rewrite H0, H1. cbv zeta. rewrite sys_transfer_agree by assumption. reflexivity. Qed.
Lemma realloc_agree w0 w k n : wr k -> realloc e I w0 w k n = realloc e J w0 w k n.
Proof. intro H. unfold realloc. rewrite set_data_agree by assumption. reflexivity. Qed.
Definition osw (o : option pubkey) : Prop := forall p, o = Some p -> sg p /\ wr p.
Lemma resize_agree w0 w n k o s : wr k -> osw o -> resize e I w0 w n k o s = resize e J w0 w n k o s.
Proof.
  intros Hk Ho. unfold resize. apply bind_ext; [|intro; now apply realloc_agree].
  destruct (n <? zlen (data (w k))).
  - destruct o as [p|]; [|reflexivity]. cbn [ok_or bind]. apply move_agree; [assumption|apply (Ho p eq_refl)].
  - apply require_ext; [reflexivity|]. cbv zeta. destruct (0 <? _); [|reflexivity]. destruct o as [p|]; [|reflexivity]. cbn [ok_or bind]. destruct (Ho p eq_refl) as [H1 H2].
    apply bind_ext; [reflexivity|]. intro q. apply require_ext; [exact H1|]. apply require_ext; [reflexivity|]. now apply sys_transfer_agree.
Qed.
(** a payer who needs not sign: the account only shrinks *)
Lemma resize_shrink_agree w0 w n k p : wr k -> wr p -> resize e I w0 w n k (Some p) None = resize e J w0 w n k (Some p) None.
Proof.
  intros Hk Hp. unfold resize. apply bind_ext; [|intro; now apply realloc_agree].
  destruct (n <? zlen (data (w k))).
  - cbn [ok_or bind]. now apply move_agree.
  - apply require_ext; [reflexivity|]. cbv zeta. destruct (0 <? _); reflexivity.
Qed.
Lemma close_agree w k r : wr k -> wr r -> close_account e I w k r = close_account e J w k r.
Proof.
  intros Hk Hr. unfold close_account. apply require_ext; [reflexivity|]. apply guard_ext. apply bind_ext; [now apply move_agree|].
  intro w1. rewrite Hk. reflexivity.
Qed.
Lemma alloc_create_agree w k o s n : sg k -> wr k -> osw o -> alloc_create_account e I w k o s n = alloc_create_account e J w k o s n.
Proof.
  intros H1 H2 Ho. unfold alloc_create_account. destruct o as [p|]; [|reflexivity]. cbn [ok_or bind]. destruct (Ho p eq_refl) as [H3 H4].
  apply require_ext; [exact H3|]. apply bind_ext; [reflexivity|]. intro q. apply require_ext; [reflexivity|]. now apply sys_create_agree.
Qed.
Lemma do_allocate_agree w0 w k o s x : sg k -> wr k -> osw o -> do_allocate e I w0 w k o s x = do_allocate e J w0 w k o s x.
Proof.
  intros H1 H2 Ho. unfold do_allocate. apply require_ext; [exact H1|]. cbv zeta. apply bind_ext; [reflexivity|]. intro st. apply bind_ext; [reflexivity|]. intro bs.
  unfold save_extension_data. cbv zeta. apply bind_ext.
  - destruct (negb (fst st)); [now apply alloc_create_agree|]. destruct (_ || _); [now apply resize_agree|reflexivity].
  - intro w1. apply bind_ext; [reflexivity|]. intro d1. apply bind_ext; [reflexivity|]. intro d2. now apply set_data_agree.
Qed.
Lemma allocate_all_agree w0 k o s l : sg k -> wr k -> osw o -> forall w, allocate_all e I w0 w k o s l = allocate_all e J w0 w k o s l.
Proof.
  intros H1 H2 Ho. induction l as [|x l IH]; intro w; [reflexivity|]. cbn [allocate_all]. apply bind_ext; [now apply do_allocate_agree|exact IH].
Qed.
Lemma do_group_agree w k g a : wr k -> wr g -> sg a -> do_group e I w k g a = do_group e J w k g a.
Proof.
  intros H1 H2 H3. unfold do_group. cbv zeta. repeat (apply require_ext; [first [exact H3|reflexivity]|]). apply bind_ext; [reflexivity|]. intros [[off b]|]; [|reflexivity].
  apply bind_ext; [reflexivity|]. intro gr. repeat (apply require_ext; [reflexivity|]). apply bind_ext; [now apply set_data_agree|]. intro w1. now apply set_data_agree.
Qed.
Lemma update_source_agree w k au bo x t off fo : (forall b, bo = Some b -> wr b) -> update_source e I w k au bo x t off fo = update_source e J w k au bo x t off fo.
Proof.
  intro Hb. unfold update_source. destruct bo as [b|]; [|reflexivity]. cbv zeta. apply bind_ext; [reflexivity|]. intros [[h o]|]; [|reflexivity].
  repeat (apply require_ext; [reflexivity|]). apply bind_ext; [reflexivity|]. intro inp. apply bind_ext; [reflexivity|]. intro cur. apply bind_ext; [reflexivity|]. intro inp'.
  apply bind_ext; [apply set_data_agree, (Hb b eq_refl)|reflexivity].
Qed.
Lemma update_room_agree w0 w k o s off fo n : wr k -> osw o -> update_room e I w0 w k o s off fo n = update_room e J w0 w k o s off fo n.
Proof.
  intros Hk Ho. unfold update_room. cbv zeta. destruct fo as [c|]; [|now apply resize_agree]. destruct (h_len c =? n); [reflexivity|].
  apply bind_ext; [reflexivity|]. intros [[lh lo]|]; [|reflexivity]. apply bind_ext; [destruct (0 <? _); [now apply resize_agree|reflexivity]|]. intro w1.
  apply bind_ext; [reflexivity|]. intro d1. apply bind_ext; [now apply set_data_agree|]. intro w2. destruct (_ <? 0); [now apply resize_agree|reflexivity].
Qed.
Lemma update_ext_agree w0 w k au bo o s x : wr k -> osw o -> (forall b, bo = Some b -> wr b) -> update_ext e I w0 w k au bo o s x = update_ext e J w0 w k au bo o s x.
Proof.
  intros Hk Ho Hb. unfold update_ext. apply bind_ext; [reflexivity|]. intro t. apply bind_ext; [reflexivity|]. intros [off fo]. apply bind_ext; [now apply update_source_agree|].
  intros [[n src] w2]. apply bind_ext; [now apply update_room_agree|]. intro w3. unfold update_finish. cbv zeta. apply bind_ext; [reflexivity|]. intro d4. apply bind_ext; [reflexivity|].
  intro d5. apply bind_ext; [reflexivity|]. intro d6. now apply set_data_agree.
Qed.
End Agree.
Lemma bind_acct {A B} (x y : res A) (f g : A -> res B) : x = y -> (forall a, x = Ok a -> f a = g a) -> bind x f = bind y g.
Proof. intros <- H. destruct x; cbn [bind]; auto. Qed.
Lemma acct_agree I J n : map ai_key I = map ai_key J -> acct I n = acct J n.
Proof.
  intro H. unfold acct. assert (E : nth_error (map ai_key I) n = nth_error (map ai_key J) n) by now rewrite H.
  rewrite !nth_error_map in E. destruct (nth_error I n), (nth_error J n); cbn [option_map] in E; congruence.
Qed.
Lemma opt_acct_agree e I J n : map ai_key I = map ai_key J -> opt_acct e I n = opt_acct e J n.
Proof. intro H. unfold opt_acct. now rewrite (acct_agree I J n H). Qed.
Lemma opt_acct_is e I n k : opt_acct e I n = Ok (Some k) -> acct I n = Ok k.
Proof. unfold opt_acct. destruct (acct I n) as [q| | | |]; cbn [bind]; try discriminate. destruct (pk_eqb q (e_prog e)); congruence. Qed.

Section Dispatch.
Variables (e : env) (I J : list ainfo).
Hypothesis HK : map ai_key I = map ai_key J.
Definition told (i : instr) : Prop := forall n d k, nth_error (declared i) n = Some d -> acct I n = Ok k ->
  (d_sign d <> SignNo -> sg I J k) /\ (d_write d = true -> wr I J k).
Lemma told_s i n d k : told i -> nth_error (declared i) n = Some d -> acct I n = Ok k -> d_sign d <> SignNo -> sg I J k.
Proof. intros T H1 H2. exact (proj1 (T n d k H1 H2)). Qed.
Lemma told_w i n d k : told i -> nth_error (declared i) n = Some d -> acct I n = Ok k -> d_write d = true -> wr I J k.
Proof. intros T H1 H2. exact (proj2 (T n d k H1 H2)). Qed.
Lemma told_sw i n d o : told i -> nth_error (declared i) n = Some d -> opt_acct e I n = Ok o -> d_sign d <> SignNo -> d_write d = true -> osw I J o.
Proof. intros T H1 H2 H3 H4 p ->. pose proof (opt_acct_is _ _ _ _ H2) as H5. split; [exact (told_s i n d p T H1 H5 H3)|exact (told_w i n d p T H1 H5 H4)]. Qed.

Ltac take := lazymatch goal with
  | |- bind (acct I ?n) _ = _ => apply bind_acct; [now apply acct_agree|let k := fresh "k" in let H := fresh "A" in intros k H]
  | |- bind (opt_acct _ I ?n) _ = _ => apply bind_acct; [now apply opt_acct_agree|let k := fresh "o" in let H := fresh "O" in intros k H]
  end.
Ltac who := first
  [ match goal with T : told ?i, A : acct I ?n = Ok ?k |- sg _ _ ?k => solve [eapply (told_s i n); [exact T|reflexivity|exact A|discriminate]] end
  | match goal with T : told ?i, A : acct I ?n = Ok ?k |- wr _ _ ?k => solve [eapply (told_w i n); [exact T|reflexivity|exact A|reflexivity]] end
  | match goal with T : told ?i, A : opt_acct _ I ?n = Ok ?k |- osw _ _ ?k => solve [eapply (told_sw i n); [exact T|reflexivity|exact A|discriminate|reflexivity]] end
  | match goal with T : told ?i, A : opt_acct _ I ?n = Ok (Some ?k) |- wr _ _ ?k => solve [eapply (told_w i n); [exact T|reflexivity|exact (opt_acct_is _ _ _ _ A)|reflexivity]] end
  | match goal with T : told ?i, A : opt_acct _ I ?n = Ok (Some ?k) |- sg _ _ ?k => solve [eapply (told_s i n); [exact T|reflexivity|exact (opt_acct_is _ _ _ _ A)|discriminate]] end ].
Ltac ask := apply require_ext; [first [reflexivity|lazymatch goal with |- is_signer I ?k = _ => change (sg I J k); who end]|].
Ltac pass := apply bind_ext; [reflexivity|intro].
Ltac ends := first [reflexivity|apply set_data_agree; who|apply close_agree; who|apply resize_agree; who].

Lemma dispatch_agree w i : told i -> dispatch e I w i = dispatch e J w i.
Proof.
  intro T. destruct i; cbn [dispatch].
  - unfold process_close. take. take. ask. ask. cbv zeta. ask. ends.
  - unfold process_burn. take. take. take. take. ask. ask. cbv zeta. ask. pass. ask. apply bind_ext.
    + destruct (nullable _) as [g|]; [|reflexivity]. destruct o0 as [ga|]; [|reflexivity]. cbn [ok_or bind]. ask. ask. pass. destruct a0 as [[off b]|]; [|reflexivity]. pass. ask. ends.
    + intro w1. pass. pass. destruct o as [r|]; ends.
  - unfold process_create. take. take. take. take. take. take. take. ask. apply bind_ext; [destruct (_ =? 0); [apply alloc_create_agree; who|reflexivity]|]. intro w1.
    apply bind_ext; [destruct (m_exts m); [apply allocate_all_agree; who|reflexivity]|]. intro w2. pass. cbv zeta. ask. pass. pass. pass. apply bind_ext; [ends|]. intro w3.
    destruct o as [g|]; [|reflexivity]. apply do_group_agree; [who|who|]. destruct o0 as [ga|]; who.
  - unfold process_approve. take. take. take. ask. cbv zeta. ask. ask. ask. ends.
  - unfold process_allocate. take. take. take. apply do_allocate_agree; who.
  - unfold process_lock, process_set_state. take. take. ask. ask. cbv zeta. ask. pass. pass. ends.
  - unfold process_revoke. take. take. ask. ask. cbv zeta. ask. ask. ends.
  - unfold process_transfer. take. take. take. take. ask. ask. cbv zeta. ask. pass. ask. pass. ask. destruct (key_is _ k1); [reflexivity|]. pass. ends.
  - unfold process_unlock, process_set_state. take. take. ask. ask. cbv zeta. ask. pass. pass. ends.
  - unfold process_unverify, process_set_verified. take. take. ask. ask. cbv zeta. ask. pass. destruct a as [[off b]|]; [|reflexivity]. pass. ask. ends.
  - unfold process_update. take. take. take. take. take. take. ask. ask. cbv zeta. unfold check_authority. ask. ask. ask. apply bind_ext; [ends|]. intro w1.
    destruct (u_ext u) as [x|], o as [b|]; try reflexivity; apply update_ext_agree; try who; intros b' E; try discriminate. injection E as <-. who.
  - unfold process_verify, process_set_verified. take. take. ask. ask. cbv zeta. ask. pass. destruct a as [[off b]|]; [|reflexivity]. pass. ask. ends.
  - unfold process_write. take. take. take. ask. ask. ask. ask. cbv zeta. ask. ask. pass. destruct a as [[h off]|]; [|reflexivity]. ask.
    apply bind_ext. { apply resize_agree; [who|]. intros p E. injection E as <-. split; who. } intro w1. pass. apply bind_ext; [ends|]. intro w2.
    destruct (_ <? _); [reflexivity|]. pass. destruct a0 as [[h2 off2]|]; [|reflexivity]. pass. pass. pass. ends.
  - unfold process_group. take. take. take. apply do_group_agree; who.
  - unfold process_ungroup. take. take. take. ask. ask. ask. cbv zeta. ask. ask. ask. ask. pass. destruct a as [[off b]|]; [|reflexivity]. pass. ask. apply bind_ext; [ends|]. intro w1. ends.
  - unfold process_handover. take. take. take. ask. ask. ask. cbv zeta. unfold check_authority. ask. ask. ask. ends.
  - unfold process_remove. take. take. take. take. ask. ask. cbv zeta. unfold check_authority. ask. ask. ask. pass. destruct a as [[off bnd]|]; [|reflexivity]. pass. pass.
    apply bind_ext; [ends|]. intro w1. apply resize_shrink_agree; who.
  - unfold process_resize. take. take. take. take. ask. ask. cbv zeta. unfold check_authority. ask. ask. ask. pass.
    apply resize_agree; [who|]. intros p E. injection E as <-. split; who.
Qed.
End Dispatch.

Lemma sg_of infos infos' k : (signed infos k <-> signed infos' k) -> sg (passed infos) (passed infos') k.
Proof.
  intro H. unfold sg. apply eq_true_iff_eq. unfold is_signer. rewrite !existsb_exists. unfold signed in H. split; intros (a & Ha & Hb); apply andb_true_iff in Hb as [Hb Hc]; apply pk_eqb_eq in Hb.
  - destruct (proj1 H) as (b & B1 & B2 & B3); [exists a; auto|]. exists b. split; [exact B1|]. rewrite B2, pk_eqb_refl, B3. reflexivity.
  - destruct (proj2 H) as (b & B1 & B2 & B3); [exists a; auto|]. exists b. split; [exact B1|]. rewrite B2, pk_eqb_refl, B3. reflexivity.
Qed.
Lemma wr_of infos infos' k : (writable infos k <-> writable infos' k) -> wr (passed infos) (passed infos') k.
Proof.
  intro H. unfold wr. apply eq_true_iff_eq. unfold is_writable. rewrite !existsb_exists. unfold writable in H. split; intros (a & Ha & Hb); apply andb_true_iff in Hb as [Hb Hc]; apply pk_eqb_eq in Hb.
  - destruct (proj1 H) as (b & B1 & B2 & B3); [exists a; auto|]. exists b. split; [exact B1|]. rewrite B2, pk_eqb_refl, B3. reflexivity.
  - destruct (proj2 H) as (b & B1 & B2 & B3); [exists a; auto|]. exists b. split; [exact B1|]. rewrite B2, pk_eqb_refl, B3. reflexivity.
Qed.
Lemma find_locked_agree e w : forall I J, map ai_key I = map ai_key J -> find_locked e w I = find_locked e w J.
Proof.
  induction I as [|a I IH]; intros [|b J] H; try discriminate; [reflexivity|]. cbn [map] in H. injection H as Hk Ht. cbn [find_locked]. rewrite <- Hk, (IH J Ht). reflexivity.
Qed.
Lemma unused_flags e infos infos' w i : agree_declared i infos infos' ->
  (forall k, arg infos 0 k -> acct_owner (w k) = e_prog e -> s_standard (data (w k)) = x03 -> (signed infos k <-> signed infos' k)) ->
  process e infos w i = process e infos' w i.
Proof.
  intros [HK HF] HP. unfold process. cbv zeta. change (firstn MAX_ACCOUNTS infos) with (passed infos). change (firstn MAX_ACCOUNTS infos') with (passed infos').
  assert (HD : dispatch e (passed infos) w i = dispatch e (passed infos') w i).
  { apply dispatch_agree; [exact HK|]. intros n d k Hn Hk. destruct (HF n d k Hn) as [H1 H2].
    { unfold acct in Hk. unfold arg. destruct (nth_error (passed infos) n) as [a|]; [|discriminate]. exists a. split; [reflexivity|]. congruence. }
    split; intro H; [apply sg_of; auto|apply wr_of; auto]. }
  apply bind_ext; [|intro l; rewrite HD; reflexivity].
  unfold validate_access. apply bind_ext; [|intros _; now apply find_locked_agree].
  destruct (passed infos) as [|a I] eqn:EI, (passed infos') as [|b J] eqn:EJ; try discriminate; [reflexivity|].
  cbn [map] in HK. pose proof HK as HK'. injection HK as Hk Ht. cbv zeta. rewrite <- Hk.
  destruct (pk_eqb (acct_owner (w (ai_key a))) (e_prog e)) eqn:EO; [|reflexivity]. cbn [andb]. destruct (negb (zlen (data (w (ai_key a))) =? 0)); [|reflexivity].
  apply guard_ext. destruct (beqb (byte_at (data (w (ai_key a))) 2) (standard_code Proxied)) eqn:ES; [|reflexivity]. apply require_ext; [|reflexivity].
  rewrite <- EI, <- EJ. apply (sg_of infos infos'). apply HP.
  - exists a. rewrite EI. split; reflexivity.
  - now apply pk_eqb_eq.
  - unfold beqb in ES. apply Byte.byte_dec_bl in ES. exact ES.
Qed.

Lemma strip_firstn m : forall ds infos, firstn m (strip ds infos) = strip ds (firstn m infos).
Proof. induction m as [|m IH]; intros ds [|a r]; [reflexivity..|]. destruct ds; cbn [strip firstn]; now rewrite IH. Qed.
Lemma strip_keys : forall infos ds, map ai_key (strip ds infos) = map ai_key infos.
Proof. induction infos as [|a r IH]; intros [|d ds]; cbn [strip map ai_key]; f_equal; auto. Qed.
Lemma strip_less : forall infos ds b, In b (strip ds infos) -> exists a, In a infos /\ ai_key a = ai_key b /\ (ai_signer b = true -> ai_signer a = true) /\ (ai_writable b = true -> ai_writable a = true).
Proof.
  induction infos as [|a r IH]; intros ds b H; [destruct H|]. destruct ds as [|d ds]; cbn [strip In] in H; destruct H as [H|H].
  - exists a. subst b. cbn [ai_key ai_signer ai_writable]. split; [now left|]. split; [reflexivity|]. split; discriminate.
  - destruct (IH _ _ H) as (a' & H1 & H2). exists a'. split; [now right|exact H2].
  - exists a. subst b. cbn [ai_key ai_signer ai_writable]. split; [now left|]. split; [reflexivity|]. split; [destruct (d_sign d); congruence|]. intro E. now apply andb_true_iff in E.
  - destruct (IH _ _ H) as (a' & H1 & H2). exists a'. split; [now right|exact H2].
Qed.
Lemma strip_nth : forall infos ds n d a, nth_error ds n = Some d -> nth_error infos n = Some a ->
  nth_error (strip ds infos) n = Some (mkInfo (ai_key a) (match d_sign d with SignNo => false | _ => ai_signer a end) (d_write d && ai_writable a)).
Proof.
  induction infos as [|a0 r IH]; intros ds n d a Hd Ha; [destruct n; discriminate|]. destruct ds as [|d0 ds]; [destruct n; discriminate|].
  destruct n as [|n]; cbn [nth_error strip] in *; [injection Hd as ->; injection Ha as ->; reflexivity|]. now apply IH.
Qed.
Lemma strip_agree i infos : coherent (passed infos) -> agree_declared i infos (strip (declared i) infos).
Proof.
  intro C. assert (P : passed (strip (declared i) infos) = strip (declared i) (passed infos)) by apply strip_firstn.
  split; [rewrite P; symmetry; apply strip_keys|]. intros n d k Hd (a & Ha & <-). pose proof (strip_nth _ _ _ _ _ Hd Ha) as Hs. apply nth_error_In in Hs. pose proof (nth_error_In _ _ Ha) as Hin.
  split; intro Hf; unfold signed, writable; rewrite P; (split; intros (b & B1 & B2 & B3); [|destruct (strip_less _ _ _ B1) as (c & C1 & C2 & C3 & C4); exists c; split; [exact C1|]; split; [congruence|auto]]).
  - destruct (C a b Hin B1 (eq_sym B2)) as [E1 E2]. eexists. split; [exact Hs|]. cbn [ai_key ai_signer]. split; [reflexivity|]. rewrite E1, B3. destruct (d_sign d); congruence.
  - destruct (C a b Hin B1 (eq_sym B2)) as [E1 E2]. eexists. split; [exact Hs|]. cbn [ai_key ai_writable]. split; [reflexivity|]. now rewrite Hf, E2, B3.
Qed.
Lemma strip_enough e infos w i : coherent (passed infos) ->
  (forall k, arg infos 0 k -> acct_owner (w k) = e_prog e -> s_standard (data (w k)) <> x03) ->
  process e (strip (declared i) infos) w i = process e infos w i.
Proof. intros C HP. symmetry. apply unused_flags; [now apply strip_agree|]. intros k Hk Ho Hs. destruct (HP k Hk Ho Hs). Qed.

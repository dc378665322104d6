(** Lemmas: the errors of the instructions. *)
From Verif Require Import Base State Layout Constr Ext World Proc BaseL Spec SpecB SpecC SpecE SpecU WorldL ProcSteps LayoutL LayoutM LayoutE HeadL AuthL AuthM GroupL ConstrL RoyalL ResizeL RemoveL ReadsL ExactL ExactM CreatorsL CreateL UpdateM ExactP VerifyL.
From Coq Require Import Strings.Byte.

(** ** The calculus *)
Lemma answers_goes {A} (m : res A) : goes m -> answers m [].
Proof. intro H. exact H. Qed.
Lemma answers_yes {A} (P : Prop) er (m : res A) l : P -> answers m l -> answers m ((P, er) :: l).
Proof. intros p H. left. auto. Qed.
Lemma answers_no {A} (P : Prop) er (m : res A) l : ~ P -> m = Err er -> answers m ((P, er) :: l).
Proof. intros p H. right. auto. Qed.
Lemma answers_require {A} c P er (m : res A) l : (c = true <-> P) -> (P -> answers m l) -> answers (require c er m) ((P, er) :: l).
Proof.
  intros H K. cbn [answers]. destruct c.
  - left. assert (p : P) by now apply H. split; [exact p|]. now apply K.
  - right. split; [|reflexivity]. intro p. apply H in p. discriminate.
Qed.
Lemma answers_app {A B} (m : res A) (f : A -> res B) l1 l2 : answers m l1 -> (forall x, m = Ok x -> answers (f x) l2) -> answers (bind m f) (l1 ++ l2).
Proof.
  intros H K. induction l1 as [|[P er] l1 IH]; cbn [app answers] in *.
  - destruct H as [x H]. rewrite H. cbn [bind]. now apply K.
  - destruct H as [[p H]|[p H]]; [left; auto|right]. rewrite H. auto.
Qed.
Lemma answers_all {A} (m : res A) l : goes m -> Forall (fun c : Prop * error => fst c) l -> answers m l.
Proof. intros G. induction 1 as [|[P er] l H _ IH]; [exact G|]. cbn [answers]. left. auto. Qed.
Definition same_conds (l l' : conds) : Prop := Forall2 (fun c c' : Prop * error => (fst c <-> fst c') /\ snd c = snd c') l l'.
Lemma answers_same {A} (m : res A) l l' : answers m l -> same_conds l l' -> answers m l'.
Proof.
  intros H E. induction E as [|[P er] [P' er'] l l' [E1 E2] _ IH]; [exact H|]. cbn [fst snd answers] in *. subst er'. destruct H as [[p H]|[p H]].
  - left. split; [now apply E1|auto].
  - right. split; [tauto|exact H].
Qed.
Lemma begins_require {A} c P er (m : res A) l : (c = true <-> P) -> (P -> begins m l) -> begins (require c er m) ((P, er) :: l).
Proof.
  intros H K. cbn [begins]. destruct c.
  - left. assert (p : P) by now apply H. split; [exact p|]. now apply K.
  - right. split; [|reflexivity]. intro p. apply H in p. discriminate.
Qed.
Lemma answers_begins {A B} (m : res A) (f : A -> res B) l1 l2 : answers m l1 -> (forall x, m = Ok x -> begins (f x) l2) -> begins (bind m f) (l1 ++ l2).
Proof.
  intros H K. induction l1 as [|[P er] l1 IH]; cbn [app answers begins] in *.
  - destruct H as [x H]. rewrite H. cbn [bind]. now apply K.
  - destruct H as [[p H]|[p H]]; [left; auto|right]. rewrite H. auto.
Qed.
Lemma answers_exact {A} (m : res A) l : answers m l -> (exists x, m = Ok x) <-> Forall (fun c : Prop * error => fst c) l.
Proof.
  intro H. induction l as [|[P er] l IH]; cbn [answers] in H.
  - split; [constructor|auto].
  - destruct H as [[p H]|[p H]].
    + rewrite (IH H). split; [intro F; now constructor|]. intro F. now apply Forall_cons_iff in F.
    + split; [intros [x X]; rewrite H in X; discriminate|]. intro F. apply Forall_cons_iff in F as [F _]. contradiction.
Qed.

(** ** The gate *)
Lemma gate_answers e infos w a : told e infos w a ->
  answers (validate_access e w (passed infos)) [(proxy_signs e infos w a, EMissingRequiredSignature)] /\
  (forall r, validate_access e w (passed infos) = Ok r -> r = None <-> none_locked e infos w).
Proof.
  intros (A0 & Hw & Hp & Hs). destruct (find_locked_total e w (firstn MAX_ACCOUNTS infos) Hp) as (r & Hr & HN).
  change (firstn MAX_ACCOUNTS infos) with (passed infos) in *.
  unfold validate_access. destruct A0 as (i & Hi & <-). destruct (passed infos) as [|i0 rest] eqn:E; [discriminate|]. inv Hi.
  assert (G : answers (if pk_eqb (acct_owner (w (ai_key i))) (e_prog e) && negb (zlen (data (w (ai_key i))) =? 0) then
       guard (3 <=? zlen (data (w (ai_key i)))) (if beqb (byte_at (data (w (ai_key i))) 2) (standard_code Proxied)
         then require (is_signer (i :: rest) (ai_key i)) EMissingRequiredSignature (Ok tt) else Ok tt) else Ok tt)
     [(proxy_signs e infos w (ai_key i), EMissingRequiredSignature)]).
  { unfold proxy_signs. destruct (pk_eqb (acct_owner (w (ai_key i))) (e_prog e)) eqn:Eo; cbn [andb].
    2:{ apply pk_eqb_neq in Eo. apply answers_all; [apply goes_ok|]. constructor; [|constructor]. cbn [fst]. intro; contradiction. }
    apply pk_eqb_eq in Eo. destruct (Hp i) as [Hd|Hd]; [rewrite E; now left|exact Eo| |].
    - rewrite Hd. cbn [zlen length Z.of_nat Z.eqb negb]. apply answers_all; [apply goes_ok|]. constructor; [|constructor]. cbn [fst]. intros _ X. discriminate.
    - replace (zlen (data (w (ai_key i))) =? 0) with false by (unfold zlen; lia). replace (3 <=? zlen (data (w (ai_key i)))) with true by (unfold zlen; lia). cbn [negb guard].
      change (byte_at (data (w (ai_key i))) 2) with (s_standard (data (w (ai_key i)))). destruct (beqb (s_standard (data (w (ai_key i)))) (standard_code Proxied)) eqn:Es.
      + apply beqb_eq in Es. apply answers_require; [|intros _; exact (goes_ok tt)]. rewrite <- E. change (is_signer (passed infos) (ai_key i) = true) with (is_signer (passed infos) (ai_key i) = true).
        rewrite signer_spec. split; [auto|]. intro H. apply H; [exact Eo|exact Es].
      + apply beqb_neq in Es. apply answers_all; [apply goes_ok|]. constructor; [|constructor]. cbn [fst]. intros _ X. elim Es. exact X. }
  split.
  - change [(proxy_signs e infos w (ai_key i), EMissingRequiredSignature)] with ([(proxy_signs e infos w (ai_key i), EMissingRequiredSignature)] ++ []). 
    apply answers_app; [exact G|]. intros _ _. now exists r.
  - intros r' H. apply bind_ok in H as (u & _ & H). rewrite Hr in H. apply Ok_inj in H. subst r'. unfold none_locked. rewrite E. exact HN.
Qed.
Lemma process_answers e infos w a i l : told e infos w a -> answers (dispatch e (passed infos) w i) l ->
  answers (process e infos w i) (front (blocked_when_locked i) e infos w a ++ l).
Proof.
  intros T H. destruct (gate_answers e infos w a T) as [G N]. unfold process, front. cbv zeta. change (firstn MAX_ACCOUNTS infos) with (passed infos).
  change ((proxy_signs e infos w a, EMissingRequiredSignature) :: ?x) with ([(proxy_signs e infos w a, EMissingRequiredSignature)] ++ x).
  rewrite <- app_assoc. apply answers_app; [exact G|]. intros r Hr. specialize (N r Hr).
  destruct (blocked_when_locked i); cbn [app answers].
  - destruct r as [k|].
    + right. split; [|reflexivity]. intro X. apply N in X. discriminate.
    + left. split; [now apply N|exact H].
  - destruct r; exact H.
Qed.
Lemma process_begins e infos w a i l : told e infos w a -> begins (dispatch e (passed infos) w i) l ->
  begins (process e infos w i) (front (blocked_when_locked i) e infos w a ++ l).
Proof.
  intros T H. destruct (gate_answers e infos w a T) as [G N]. unfold process, front. cbv zeta. change (firstn MAX_ACCOUNTS infos) with (passed infos).
  change ((proxy_signs e infos w a, EMissingRequiredSignature) :: ?x) with ([(proxy_signs e infos w a, EMissingRequiredSignature)] ++ x).
  rewrite <- app_assoc. apply answers_begins; [exact G|]. intros r Hr. specialize (N r Hr).
  destruct (blocked_when_locked i); cbn [app begins].
  - destruct r as [k|].
    + right. split; [|reflexivity]. intro X. apply N in X. discriminate.
    + left. split; [now apply N|exact H].
  - destruct r; exact H.
Qed.
Lemma told_put e infos w a o bs : told e infos w a -> held e w a -> live w a -> 0 <= o -> o + zlen bs <= 168 -> goes (set_data e (passed infos) w a (put (data (w a)) o bs)).
Proof. intros (A0 & Hw & Hp & Hs) Ho Hi. apply ready_put. exact (conj A0 (conj Ho (conj Hi (conj Hw (conj Hp Hs))))). Qed.

Ltac split_told T := pose proof T as (A0 & Hw & Hp & Hs).
(** ** Approve, Revoke, Handover *)
Lemma approve_answers e infos w a owner del x : told e infos w a -> arg infos 1 owner -> arg infos 2 del ->
  answers (process e infos w (IApprove x)) (front true e infos w a ++
    [(held e w a, EIllegalOwner); (live w a, EUninitialized); (s_owner (data (w a)) = pk_bytes owner, EInvalidAssetOwner);
     (signed infos owner, EMissingRequiredSignature)]).
Proof.
  intros T A1 A2. apply (process_answers e infos w a (IApprove x)); [exact T|]. cbn [dispatch]. split_told T. unfold process_approve. args. cbv zeta.
  apply answers_require; [apply owned_spec|intro Ho]. apply answers_require; [apply is_asset_spec|intro Hi].
  apply answers_require; [apply key_is_spec|intro Hk]. apply answers_require; [apply signer_spec|intro Hg]. apply answers_goes.
  destruct (asset_delegate (data (w a))) as [dl|]; [destruct (key_is (del_addr dl) del)|];
      apply told_put; try assumption; try lia; rewrite ?zlen_app, ?pk_zlen; unfold zlen; cbn [length]; lia.
Qed.
Lemma revoke_answers e infos w a s x : told e infos w a -> arg infos 1 s ->
  answers (process e infos w (IRevoke x)) (front true e infos w a ++
    [(signed infos s, EMissingRequiredSignature); (held e w a, EIllegalOwner); (live w a, EUninitialized);
     (s_owner (data (w a)) = pk_bytes s \/ s_delegate (data (w a)) <> no_key /\ s_delegate (data (w a)) = pk_bytes s, EInvalidAuthority)]).
Proof.
  intros T A1. apply (process_answers e infos w a (IRevoke x)); [exact T|]. cbn [dispatch]. split_told T. unfold process_revoke. args. cbv zeta.
  apply answers_require; [apply signer_spec|intro Hg]. apply answers_require; [apply owned_spec|intro Ho]. apply answers_require; [apply is_asset_spec|intro Hi].
  apply answers_require.
  - rewrite orb_true_iff, key_is_spec. change (f_owner (data (w a))) with (s_owner (data (w a))).
    destruct (asset_delegate (data (w a))) as [dl|] eqn:E.
    + apply asset_delegate_some in E as [E ->]. rewrite key_is_spec. cbn [del_addr]. tauto.
    + apply asset_delegate_none in E. split; [intros [H|H]; [now left|discriminate]|]. intros [H|[N _]]; [now left|contradiction].
  - intros _. apply answers_goes. pose proof (initialized_len _ Hi).
    assert (C : goes (set_data e (passed infos) w a (clear_delegate (data (w a))))).
    { unfold clear_delegate. apply told_put; [assumption..|lia|]. unfold zlen. rewrite ?zeros_length. vm_compute. discriminate. }
    destruct x as [|rs]; [exact C|]. destruct (asset_delegate (data (w a))) as [dl|].
    + destruct (has_active_roles _); [apply told_put; [assumption..|lia|unfold zlen; cbn [length]; lia]|exact C].
    + apply goes_set; [now split|apply Hs].
Qed.
Lemma charge_answers {A} e infos w a auth (m : res A) l : 
  (held e w a -> live w a -> s_authority (data (w a)) = pk_bytes auth -> mutable (data (w a)) -> answers m l) ->
  answers (require (owned_by_prog e w a) EIllegalOwner (check_authority (data (w a)) auth m)) (charge e infos w a auth ++ l).
Proof.
  intro H. unfold charge. cbn [app]. unfold check_authority. apply answers_require; [apply owned_spec|intro Ho]. apply answers_require; [apply is_asset_spec|intro Hi].
  apply answers_require; [apply key_is_spec|intro Hk]. apply answers_require; [apply pod_true_spec|intro Hm]. auto.
Qed.
Lemma charge_begins {A} e infos w a auth (m : res A) l : 
  (held e w a -> live w a -> s_authority (data (w a)) = pk_bytes auth -> mutable (data (w a)) -> begins m l) ->
  begins (require (owned_by_prog e w a) EIllegalOwner (check_authority (data (w a)) auth m)) (charge e infos w a auth ++ l).
Proof.
  intro H. unfold charge. cbn [app]. unfold check_authority. apply begins_require; [apply owned_spec|intro Ho]. apply begins_require; [apply is_asset_spec|intro Hi].
  apply begins_require; [apply key_is_spec|intro Hk]. apply begins_require; [apply pod_true_spec|intro Hm]. auto.
Qed.
Lemma handover_answers e infos w a auth new : told e infos w a -> arg infos 1 auth -> arg infos 2 new ->
  answers (process e infos w IHandover) (front false e infos w a ++
    (signed infos auth, EMissingRequiredSignature) :: (signed infos new, EMissingRequiredSignature) :: charge e infos w a auth).
Proof.
  intros T A1 A2. apply (process_answers e infos w a IHandover); [exact T|]. cbn [dispatch]. split_told T. unfold process_handover. args. cbv zeta.
  apply answers_require; [apply signer_spec|intro Hg]. apply answers_require; [apply signer_spec|intro Hn].
  rewrite <- (app_nil_r (charge _ _ _ _ _)). apply charge_answers. intros Ho Hi _ _. apply told_put; [assumption..|lia|rewrite pk_zlen; lia].
Qed.

(** ** Lock, Unlock *)
Lemma one_cases (k : pubkey) r (a : bytes) m : let c := (if negb (bytes_eqb a (pk_bytes k)) then Err EInvalidDelegate else if negb (is_active (mkDelegate a m) r) then Err EDelegateRoleNotActive else Ok tt) in
  (a <> pk_bytes k /\ c = Err EInvalidDelegate) \/ (a = pk_bytes k /\ ~ has_role m r /\ c = Err EDelegateRoleNotActive) \/ (a = pk_bytes k /\ has_role m r /\ c = Ok tt).
Proof.
  cbv zeta. destruct (bytes_eqb a (pk_bytes k)) eqn:E; cbn [negb].
  - apply bytes_eqb_eq in E. destruct (is_active (mkDelegate a m) r) eqn:R; cbn [negb].
    + apply is_active_spec in R. auto.
    + right. left. split; [exact E|]. split; [|reflexivity]. intro X. apply (is_active_spec a) in X. congruence.
  - left. split; [|reflexivity]. intros ->. now rewrite bytes_eqb_refl in E.
Qed.
Lemma decided_answers d l k a m : ~ free_hand d k -> decider d l a m ->
  answers (if negb (bytes_eqb a (pk_bytes k)) then Err EInvalidDelegate else if negb (is_active (mkDelegate a m) RLock) then Err EDelegateRoleNotActive else Ok tt) (lock_conds d l k).
Proof.
  intros N D. assert (U : forall a' m', decider d l a' m' -> a' = a /\ m' = m).
  { intros a' m' D'. destruct D as [b E|E1 E2], D' as [b' E'|E1' E2']; try congruence; [|auto]. assert (b' = b) as -> by congruence. auto. }
  unfold lock_conds. cbn [answers]. left. split; [right; eauto|].
  destruct (one_cases k RLock a m) as [[H ->]|[(H1 & H2 & ->)|(H1 & H2 & ->)]].
  - right. split; [|reflexivity]. intros [F|[m' F]]; [contradiction|]. apply U in F as [F _]. congruence.
  - left. split; [right; exists m; now rewrite <- H1|]. right. split; [|reflexivity]. intros [F|(m' & F & F')]; [contradiction|]. apply U in F as [_ F]. congruence.
  - left. split; [right; exists m; now rewrite <- H1|]. left. split; [right; exists m; rewrite <- H1; auto|]. now exists tt.
Qed.
Lemma lock_answers d l k : well_formed d l -> manager_sane l -> answers (lock_check d k) (lock_conds d l k).
Proof.
  intros Hwf Hm. unfold lock_check. rewrite (manager_layout _ _ Hwf).
  assert (M : forall b, lookup XManager (ext_list l) = Some b ->
    (dl <- load_delegate b ;; Ok (Some dl)) = Ok (Some (mkDelegate (sub b 0 32) (nth 32 b x00)))).
  { intros b Hb. specialize (Hm b Hb). unfold load_delegate, guard. replace (33 <=? zlen b) with true by (unfold zlen; lia). reflexivity. }
  assert (F : s_delegate d = no_key -> s_owner d = pk_bytes k -> answers (Ok tt) (lock_conds d l k)).
  { intros F1 F2. assert (free_hand d k) by now split. apply answers_all; [apply goes_ok|]. unfold lock_conds. repeat (apply Forall_cons; [cbn [fst]; now left|]). apply Forall_nil. }
  destruct (lookup XManager (ext_list l)) as [b|] eqn:El.
  - rewrite (M b eq_refl). cbn [bind]. destruct (asset_delegate d) as [dl|] eqn:Ed.
    + apply asset_delegate_some in Ed as [Ed ->]. unfold assert_delegate. cbn [fold_left del_addr]. apply decided_answers; [intros [X _]; contradiction|]. now constructor.
    + apply asset_delegate_none in Ed. destruct (key_is (f_owner d) k) eqn:Ek.
      * apply key_is_spec in Ek. now apply F.
      * apply key_is_false in Ek. unfold assert_delegate. cbn [fold_left del_addr]. apply decided_answers; [intros [_ X]; contradiction|]. now constructor.
  - cbn [bind]. destruct (asset_delegate d) as [dl|] eqn:Ed.
    + apply asset_delegate_some in Ed as [Ed ->]. unfold assert_delegate. cbn [fold_left del_addr]. apply decided_answers; [intros [X _]; contradiction|]. now constructor.
    + apply asset_delegate_none in Ed. destruct (key_is (f_owner d) k) eqn:Ek.
      * apply key_is_spec in Ek. now apply F.
      * apply key_is_false in Ek. unfold assert_delegate. cbn [fold_left]. cbn [lock_conds answers]. right. split; [|reflexivity].
        intros [[_ X]|(a & m & D)]; [contradiction|]. destruct D; congruence.
Qed.
Lemma set_state_answers st e infos w a s l : told e infos w a -> arg infos 1 s ->
  (held e w a -> live w a -> well_formed (data (w a)) l /\ manager_sane l) ->
  answers (process_set_state st e (passed infos) w)
    ([(signed infos s, EMissingRequiredSignature); (held e w a, EIllegalOwner); (live w a, EUninitialized)] ++ lock_conds (data (w a)) l s).
Proof.
  intros T A1 Hwf. split_told T. unfold process_set_state. args. cbv zeta. cbn [app].
  apply answers_require; [apply signer_spec|intro Hg]. apply answers_require; [apply owned_spec|intro Ho]. apply answers_require; [apply is_asset_spec|intro Hi].
  destruct (Hwf Ho Hi) as [W M]. rewrite <- (app_nil_r (lock_conds _ _ _)).
  assert (E : forall f : unit -> res world, (m <- manager_delegate (data (w a)) ;; u <- match asset_delegate (data (w a)) with
             | Some dl => assert_delegate [Some dl; m] (pk_bytes s) RLock
             | None => if key_is (f_owner (data (w a))) s then Ok tt else assert_delegate [m] (pk_bytes s) RLock
             end ;; f u) = bind (lock_check (data (w a)) s) f).
  { intro f. unfold lock_check. destruct (manager_delegate (data (w a))); reflexivity. }
  rewrite E. apply answers_app; [now apply lock_answers|]. intros _ _. apply answers_goes.
  apply told_put; [assumption..|lia|]. unfold zlen. cbn [length]. lia.
Qed.

(** ** Group, Ungroup *)
Section Grouping.
Variables (e : env) (infos : list ainfo) (w : world) (a g auth : pubkey) (lg : list blk).
Hypothesis T : told e infos w a.
Hypothesis A1 : arg infos 1 g.
Hypothesis A2 : arg infos 2 auth.
Hypothesis Wg : writable infos g.
Hypothesis Hwf : held e w g -> live w g -> well_formed (data (w g)) lg /\ grouping_sane lg.

Lemma join_answers : answers (process e infos w IGroup) (front false e infos w a ++
  [(signed infos auth, EMissingRequiredSignature); (held e w a, EIllegalOwner); (held e w g, EIllegalOwner); (live w a, EUninitialized);
   (g <> a, EAccountBorrowFailed); (live w g, EUninitialized); (s_group (data (w a)) = no_key, EAlreadyInGroup);
   (s_authority (data (w g)) = s_authority (data (w a)), EInvalidAuthority);
   (lookup XGrouping (ext_list lg) <> None, EExtensionNotFound);
   (forall b, lookup XGrouping (ext_list lg) = Some b -> group_signer (data (w g)) b auth, EInvalidAuthority);
   (forall b, lookup XGrouping (ext_list lg) = Some b -> gr_max b = 0 \/ gr_size b < gr_max b, EExtensionDataInvalid)]).
Proof.
  apply (process_answers e infos w a IGroup); [exact T|]. cbn [dispatch]. split_told T. unfold process_group. args. unfold do_group. cbv zeta.
  apply answers_require; [apply signer_spec|intro Hg]. apply answers_require; [apply owned_spec|intro Ho]. apply answers_require; [apply owned_spec|intro Go].
  apply answers_require; [apply is_asset_spec|intro Hi]. apply answers_require; [apply not_same_spec|intro Hn]. apply answers_require; [apply is_asset_spec|intro Gi].
  apply answers_require; [apply no_group_spec|intro Hng]. apply answers_require; [apply bytes_eqb_eq|intro Hau].
  destruct (Hwf Go Gi) as [Gw Gs]. assert (NX : XGrouping <> XNone) by discriminate.
  destruct (sect_wf _ _ _ Gw NX) as [[E S]|(off & b & E & S & M & O & Z)]; rewrite S; cbn [bind]; rewrite E.
  - apply answers_no; [congruence|reflexivity].
  - apply answers_yes; [discriminate|]. specialize (Gs b E). rewrite (grouping_goes off b Gs M). cbn [bind g_max g_size].
    apply answers_require.
    { rewrite (signer_ok_spec _ _ _ Gs). split; [intros H b' Eb; apply some_inj in Eb; now subst b'|auto]. }
    intros _. apply answers_require.
    { rewrite orb_true_iff, Z.eqb_eq, Z.ltb_lt. split; [intros H b' Eb; apply some_inj in Eb; now subst b'|auto]. }
    intros _. apply answers_goes. apply goes_two; [exact Hn|now split|now split| |].
    + rewrite zlen_put; [apply Hs|lia|]. pose proof (initialized_len _ Hi). rewrite pk_zlen. lia.
    + apply (size_len e infos _ _ _ b); [now split|exact Hs|exact O|lia|exact Z].
Qed.
Lemma leave_answers : answers (process e infos w IUngroup) (front false e infos w a ++
  [(signed infos auth, EMissingRequiredSignature); (held e w a, EIllegalOwner); (held e w g, EIllegalOwner); (live w a, EUninitialized);
   (g <> a, EAccountBorrowFailed); (live w g, EUninitialized); (s_group (data (w a)) = pk_bytes g, EInvalidArgument);
   (lookup XGrouping (ext_list lg) <> None, EExtensionNotFound);
   (forall b, lookup XGrouping (ext_list lg) = Some b -> group_signer (data (w g)) b auth, EInvalidAuthority)]).
Proof.
  apply (process_answers e infos w a IUngroup); [exact T|]. cbn [dispatch]. split_told T. unfold process_ungroup. args. cbv zeta.
  apply answers_require; [apply signer_spec|intro Hg]. apply answers_require; [apply owned_spec|intro Ho]. apply answers_require; [apply owned_spec|intro Go].
  apply answers_require; [apply is_asset_spec|intro Hi]. apply answers_require; [apply not_same_spec|intro Hn]. apply answers_require; [apply is_asset_spec|intro Gi].
  apply answers_require; [apply key_is_spec|intro Hng].
  destruct (Hwf Go Gi) as [Gw Gs]. assert (NX : XGrouping <> XNone) by discriminate.
  destruct (sect_wf _ _ _ Gw NX) as [[E S]|(off & b & E & S & M & O & Z)]; rewrite S; cbn [bind]; rewrite E.
  - apply answers_no; [congruence|reflexivity].
  - apply answers_yes; [discriminate|]. specialize (Gs b E). rewrite (grouping_goes off b Gs M). cbn [bind g_max g_size].
    apply answers_require.
    { rewrite (signer_ok_spec _ _ _ Gs). split; [intros H b' Eb; apply some_inj in Eb; now subst b'|auto]. }
    intros _. apply answers_goes. apply goes_two; [exact Hn|now split|now split| |].
    + rewrite zlen_put; [apply Hs|lia|]. pose proof (initialized_len _ Hi). change (zlen zero32) with 32. lia.
    + apply (size_len e infos _ _ _ b); [now split|exact Hs|exact O|lia|exact Z].
Qed.
End Grouping.

(** ** Close, Burn *)
Lemma empty_answers e infos w k dest : held e w k -> writable infos k -> lam_ok w -> lamports (w dest) + lamports (w k) < 18446744073709551616 ->
  answers (close_account e (passed infos) w k dest) (empty_conds infos w k dest).
Proof.
  intros Ho Hw Hl Hz. apply writable_acct in Hw. change (is_writable (passed infos) k = true) in Hw. unfold held in Ho.
  unfold close_account, empty_conds. apply answers_require; [rewrite not_same_spec; split; congruence|intro N].
  change two64 with 18446744073709551616. replace (lamports (w dest) + lamports (w k) <? 18446744073709551616) with true by lia. cbn [guard].
  rewrite Hw, Ho, pk_eqb_refl. cbn [andb require].
  unfold move_lamports. replace (pk_eqb k dest) with false by (symmetry; apply pk_eqb_neq; congruence). rewrite orb_false_r.
  destruct (Z.eqb_spec (lamports (w k)) 0) as [E|E]; [cbn [bind answers]; left; split; [now left|eauto]|].
  cbv zeta. rewrite Hw, Ho, pk_eqb_refl, andb_true_r. cbn [andb].
  assert (W : is_writable (passed infos) dest = true <-> writable infos dest) by apply writable_acct.
  cbn [answers]. destruct (is_writable (passed infos) dest) eqn:Ed; cbn [require bind].
  - left. split; [right; now apply W|]. rewrite upd_other by congruence. replace (lamports (w k) <=? lamports (w k)) with true by lia.
    change two64 with 18446744073709551616. replace (lamports (w dest) + lamports (w k) <? 18446744073709551616) with true by lia. cbn [require bind]. eauto.
  - right. split; [|reflexivity]. intros [X|X]; [contradiction|]. apply W in X. discriminate.
Qed.
Lemma close_answers e infos w k dest : told e infos w k -> arg infos 1 dest -> lam_ok w -> lamports (w dest) + lamports (w k) < 18446744073709551616 ->
  answers (process e infos w IClose) (front false e infos w k ++
    [(signed infos k, EMissingRequiredSignature); (held e w k, EIllegalOwner); (data (w k) = [] \/ s_disc (data (w k)) = x00, EAlreadyInitialized)] ++ empty_conds infos w k dest).
Proof.
  intros T A1 Hl Hz. apply (process_answers e infos w k IClose); [exact T|]. cbn [dispatch]. split_told T. unfold process_close. args. cbv zeta. cbn [app].
  apply answers_require; [apply signer_spec|intro Hg]. apply answers_require; [apply owned_spec|intro Ho]. apply answers_require; [|intro Hd; now apply empty_answers].
  rewrite orb_true_iff, Z.eqb_eq, beqb_eq. assert (Z0 : zlen (data (w k)) = 0 <-> data (w k) = []) by (split; [apply zlen_0|now intros ->]). rewrite Z0. reflexivity.
Qed.
Lemma act_answers d l k r er : well_formed d l -> manager_sane l ->
  answers (allowed <- act_check d k r ;; require allowed er (Ok tt)) [(authorized d l k r, er)].
Proof.
  intros Hwf Hm. destruct (act_check_goes d l k r Hwf Hm) as [b E]. pose proof (act_check_exact d l k r Hwf Hm) as X. rewrite E in X |- *. cbn [bind].
  apply answers_require; [|intros _; exact (goes_ok tt)]. rewrite <- X. split; [congruence|intro H; now apply Ok_inj in H].
Qed.
Lemma act_split {B} d l k r er (m : res B) c : well_formed d l -> manager_sane l -> (authorized d l k r -> answers m c) ->
  answers (allowed <- act_check d k r ;; require allowed er m) ((authorized d l k r, er) :: c).
Proof.
  intros Hwf Hm H. destruct (act_check_goes d l k r Hwf Hm) as [b E]. pose proof (act_check_exact d l k r Hwf Hm) as X. rewrite E in X |- *. cbn [bind].
  apply answers_require; [|exact H]. rewrite <- X. split; [congruence|intro Q; now apply Ok_inj in Q].
Qed.

Section Burn.
Variables (e : env) (infos : list ainfo) (w : world) (a s : pubkey) (orec og : option pubkey) (l lg : list blk).
Hypothesis T : told e infos w a.
Hypothesis Hl : lam_ok w.
Hypothesis A1 : arg infos 1 s.
Hypothesis A2 : optional e infos 2 orec.
Hypothesis A3 : optional e infos 3 og.
Hypothesis Hwf : held e w a -> live w a -> well_formed (data (w a)) l /\ manager_sane l /\ grouping_sane l.
Hypothesis Hg : forall g, og = Some g -> s_group (data (w a)) = pk_bytes g -> held e w g /\ writable infos g /\ well_formed (data (w g)) lg /\ grouping_sane lg.
Hypothesis Hz : lamports (w (receiver s orec)) + lamports (w a) < 18446744073709551616.

Lemma burn_answers : answers (process e infos w IBurn) (front true e infos w a ++
  [(held e w a, EIllegalOwner); (signed infos s, EMissingRequiredSignature); (live w a, EUninitialized); (authorized (data (w a)) l s RBurn, EInvalidBurnAuthority)] ++
  leave_conds e w a og lg ++
  [(forall b, lookup XGrouping (ext_list l) = Some b -> gr_size b = 0, EGroupNotEmpty)] ++ empty_conds infos w a (receiver s orec)).
Proof.
  apply (process_answers e infos w a IBurn); [exact T|]. cbn [dispatch]. split_told T. unfold process_burn.
  rewrite (optional_acct _ _ _ _ A2), (optional_acct _ _ _ _ A3). args. cbv zeta. cbn [app].
  apply answers_require; [apply owned_spec|intro Ho]. apply answers_require; [apply signer_spec|intro Hg1]. apply answers_require; [apply is_asset_spec|intro Hi].
  change (if key_is (f_owner (data (w a))) s then _ else _) with (act_check (data (w a)) s RBurn).
  destruct (Hwf Ho Hi) as (W & M & G). apply act_split; [exact W|exact M|]. intros _.
  assert (NX : XGrouping <> XNone) by discriminate.
  apply answers_app with (f := fun w1 => own <- asset_get XGrouping (data (w a)) ;;
         u <- (match own with
               | None => Ok tt
               | Some (off, b) =>
                   gr <- grouping_from_bytes off b ;;
                   require (g_size gr =? 0) EGroupNotEmpty (Ok tt)
               end) ;;
         close_account e (passed infos) w1 a (receiver s orec)).
  - unfold leave_conds. destruct (nullable (f_group (data (w a)))) as [gb|] eqn:En.
    2:{ apply nullable_none in En. change (f_group (data (w a))) with (s_group (data (w a))) in En. apply answers_all; [apply goes_ok|].
        repeat (apply Forall_cons; [cbn [fst]; intro; contradiction|]). apply Forall_nil. }
    apply nullable_some in En as [En Nz]. change (f_group (data (w a))) with (s_group (data (w a))) in En, Nz. subst gb.
    destruct og as [g|]; cbn [ok_or bind].
    2:{ apply answers_no; [|reflexivity]. intro X. now apply X. }
    apply answers_yes; [discriminate|]. apply answers_require.
    { rewrite key_is_spec. split; [intros H _ g' E; apply some_inj in E; now subst g'|]. intro H. now apply H. }
    intro K. specialize (K Nz g eq_refl). destruct (Hg g eq_refl K) as (Gh & Gw & Gwf & Gs).
    apply answers_require. { rewrite not_same_spec. split; [intros H _ E; apply some_inj in E; contradiction|]. intros H ->. now apply H. }
    intro Na. assert (Nga : g <> a) by (intros ->; now apply Na). clear Na.
    destruct (get_wf _ _ _ Gwf NX) as [[Q R]|(o2 & b2 & Q & R & _ & M2 & O2 & Z2)]; rewrite R, Q; cbn [bind].
    + apply answers_no; [|reflexivity]. intro X. now apply X.
    + apply answers_yes; [discriminate|]. specialize (Gs b2 Q). rewrite (grouping_goes o2 b2 Gs M2). cbn [bind g_size].
      apply answers_require.
      { rewrite Z.leb_le. split; [intros H _ b' E; apply some_inj in E; now subst b'|]. intro H. now apply H. }
      intros _. apply answers_goes. apply goes_set; [now split|]. rewrite zlen_put; [apply Hs|lia|]. rewrite le_enc_zlen. unfold zlen in *. lia.
  - intros w1 H1. 
    assert (F : (forall k, lamports (w1 k) = lamports (w k)) /\ held e w1 a).
    { destruct (nullable (f_group (data (w a)))) as [gb|]; [|apply Ok_inj in H1; now subst w1].
      apply bind_ok in H1 as (ga & _ & H1). apply require_ok in H1 as [_ H1]. apply require_ok in H1 as [_ H1]. apply bind_ok in H1 as (r & _ & H1).
      destruct r as [[o b]|]; [|discriminate]. apply bind_ok in H1 as (gr & _ & H1). apply require_ok in H1 as [_ H1].
      split; [intro k; exact (set_data_lam _ _ _ _ _ _ _ H1)|]. unfold held. rewrite (set_data_owner _ _ _ _ _ _ _ H1). exact Ho. }
    destruct F as [F1 F2].
    assert (C : answers (close_account e (passed infos) w1 a (receiver s orec)) (empty_conds infos w a (receiver s orec))).
    { apply answers_same with (l := empty_conds infos w1 a (receiver s orec)).
      - apply empty_answers; [exact F2|exact Hw|intro k; rewrite F1; apply Hl|rewrite !F1; exact Hz].
      - unfold same_conds, empty_conds. repeat (apply Forall2_cons; [split; [cbn [fst]; rewrite ?F1; tauto|reflexivity]|]). apply Forall2_nil. }
    destruct (get_wf _ _ _ W NX) as [[Q R]|(o2 & b2 & Q & R & _ & M2 & _)]; rewrite R; cbn [bind app].
    + apply answers_yes; [rewrite Q; discriminate|exact C].
    + rewrite (grouping_goes o2 b2 (G b2 Q) M2). cbn [bind g_size]. 
      assert (E : forall (c : bool) (m : res world), (u <- require c EGroupNotEmpty (Ok tt) ;; m) = require c EGroupNotEmpty m) by (intros [|] m; reflexivity).
      rewrite E. apply answers_require; [|intros _; exact C]. rewrite Z.eqb_eq, Q. split; [intros H b' E'; apply some_inj in E'; now subst b'|auto].
Qed.
End Burn.

(** ** Transfer *)
Lemma royalty_answers e w a s r d l : well_formed d l -> royalties_sane l ->
  answers (process_royalties e w a s r d) [(allows e w a s r l, EAssertionFailure)] /\
  (forall c, process_royalties e w a s r d = Ok c -> c = false <-> lookup XRoyalties (ext_list l) = None).
Proof.
  intros Hwf Hr. destruct (roy_goes e w a s r d l Hwf Hr) as [[Q G]|(b & Q & [[P G]|[P G]])]; rewrite G.
  - split; [apply answers_yes; [intros b E; congruence|exact (goes_ok false)]|]. intros c E. apply Ok_inj in E. now subst c.
  - split; [apply answers_yes; [intros b' E; assert (b' = b) as -> by congruence; exact P|exact (goes_ok true)]|]. intros c E. apply Ok_inj in E. subst c. rewrite Q. split; discriminate.
  - split; [apply answers_no; [intro X; apply P; now apply X|reflexivity]|]. intros c E. discriminate.
Qed.
Section Transfer.
Variables (e : env) (infos : list ainfo) (w : world) (a s r : pubkey) (og : option pubkey) (l lg : list blk).
Hypothesis T : told e infos w a.
Hypothesis A1 : arg infos 1 s.
Hypothesis A2 : arg infos 2 r.
Hypothesis A3 : optional e infos 3 og.
Hypothesis Hwf : held e w a -> live w a -> well_formed (data (w a)) l /\ manager_sane l /\ royalties_sane l.
Hypothesis Hg : forall g, og = Some g -> held e w g -> s_group (data (w a)) = pk_bytes g -> data (w g) <> [] /\ (s_disc (data (w g)) = x01 -> well_formed (data (w g)) lg /\ royalties_sane lg).

Lemma transfer_answers : answers (process e infos w ITransfer) (front true e infos w a ++
  [(held e w a, EIllegalOwner); (signed infos s, EMissingRequiredSignature); (live w a, EUninitialized);
   (allows e w a s r l, EAssertionFailure); (s_standard (data (w a)) <> x02, ECannotTransferSoulbound);
   (authorized (data (w a)) l s RTransfer, EInvalidTransferAuthority)] ++ group_conds e w a s r og l lg).
Proof.
  apply (process_answers e infos w a ITransfer); [exact T|]. cbn [dispatch]. split_told T. unfold process_transfer.
  rewrite (optional_acct _ _ _ _ A3). args. cbv zeta. cbn [app].
  apply answers_require; [apply owned_spec|intro Ho]. apply answers_require; [apply signer_spec|intro Hg1]. apply answers_require; [apply is_asset_spec|intro Hi].
  destruct (Hwf Ho Hi) as (W & M & Y). destruct (royalty_answers e w a s r _ _ W Y) as [R1 R2].
  change ((allows e w a s r l, EAssertionFailure) :: ?x) with ([(allows e w a s r l, EAssertionFailure)] ++ x).
  apply answers_app; [exact R1|]. intros ck Hck. specialize (R2 ck Hck).
  apply answers_require; [rewrite negb_true_iff; apply beqb_neq|intro Hsb].
  change (if key_is (f_owner (data (w a))) s then _ else _) with (act_check (data (w a)) s RTransfer).
  apply act_split; [exact W|exact M|]. intros _. pose proof (initialized_len _ Hi) as Hlen.
  assert (WR : goes (set_data e (passed infos) w a (clear_delegate (put (data (w a)) 4 (pk_bytes r))))).
  { apply goes_set; [now split|]. assert (E : zlen (put (data (w a)) 4 (pk_bytes r)) = zlen (data (w a))) by (apply zlen_put; rewrite ?pk_zlen; lia).
    rewrite clear_len by lia. rewrite E. apply Hs. }
  unfold group_conds. cbv zeta. destruct (key_is (f_owner (data (w a))) r) eqn:Ek.
  { apply key_is_spec in Ek. apply answers_all; [apply goes_ok|]. change (f_owner (data (w a))) with (s_owner (data (w a))) in Ek.
    repeat (apply Forall_cons; [cbn [fst]; intros (X & _); contradiction|]). apply Forall_nil. }
  apply key_is_false in Ek. change (f_owner (data (w a))) with (s_owner (data (w a))) in Ek.
  rewrite <- (app_nil_r (_ :: _)). apply answers_app; [|intros _ _; exact WR].
  destruct (nullable (f_group (data (w a)))) as [gb|] eqn:En.
  2:{ apply nullable_none in En. change (f_group (data (w a))) with (s_group (data (w a))) in En. apply answers_all; [apply goes_ok|].
      repeat (apply Forall_cons; [cbn [fst]; intros (_ & X & _); contradiction|]). apply Forall_nil. }
  apply nullable_some in En as [En Nz]. change (f_group (data (w a))) with (s_group (data (w a))) in En, Nz. subst gb.
  destruct ck.
  { apply answers_all; [apply goes_ok|]. assert (NL : lookup XRoyalties (ext_list l) <> None) by (intro X; apply R2 in X; discriminate).
    repeat (apply Forall_cons; [cbn [fst]; intros (_ & _ & X); contradiction|]). apply Forall_nil. }
  assert (NL : lookup XRoyalties (ext_list l) = None) by now apply R2.
  assert (N : s_owner (data (w a)) <> pk_bytes r /\ s_group (data (w a)) <> no_key /\ lookup XRoyalties (ext_list l) = None) by auto.
  destruct og as [g|]; cbn [ok_or bind].
  2:{ apply answers_no; [|reflexivity]. intro X. now apply X. }
  apply answers_yes; [discriminate|].
  apply answers_require. { rewrite owned_spec. split; [intros H _ g' E; apply some_inj in E; now subst g'|]. intro H. now apply H. }
  intro H1. specialize (H1 N g eq_refl).
  apply answers_require. { rewrite key_is_spec. split; [intros H _ g' E; apply some_inj in E; now subst g'|]. intro H. now apply H. }
  intro H2. specialize (H2 N g eq_refl). destruct (Hg g eq_refl H1 H2) as [D1 D2].
  apply answers_require. { rewrite not_same_spec. split; [intros H _ E; apply some_inj in E; contradiction|]. intros H ->. now apply H. }
  intros _. assert (Z1 : 1 <=? zlen (data (w g)) = true) by (destruct (data (w g)); [now elim D1|rewrite zlen_cons; pose proof (zlen_nonneg b0); lia]).
  rewrite Z1. cbn [guard].
  apply answers_require. { rewrite beqb_eq. split; [intros H _ g' E; apply some_inj in E; now subst g'|]. intro H. now apply H. }
  intro H3. specialize (H3 N g eq_refl). destruct (D2 H3) as [G1 G2]. destruct (royalty_answers e w a s r _ _ G1 G2) as [Q _].
  change [(_, EAssertionFailure)] with ([(s_owner (data (w a)) <> pk_bytes r /\ s_group (data (w a)) <> no_key /\ lookup XRoyalties (ext_list l) = None -> allows e w a s r lg, EAssertionFailure)] ++ []).
  apply answers_app; [|intros _ _; exact (goes_ok tt)]. apply (answers_same _ _ _ Q). constructor; [|constructor]. cbn [fst snd]. tauto.
Qed.
End Transfer.

(** ** Lock, Unlock *)
Lemma locking_answers (b : bool) e infos w a s l : told e infos w a -> arg infos 1 s ->
  (held e w a -> live w a -> well_formed (data (w a)) l /\ manager_sane l) ->
  answers (process e infos w (if b then ILock else IUnlock)) (front b e infos w a ++
    [(signed infos s, EMissingRequiredSignature); (held e w a, EIllegalOwner); (live w a, EUninitialized)] ++ lock_conds (data (w a)) l s).
Proof.
  intros T A1 H. destruct b; (apply (process_answers e infos w a); [exact T|]); apply set_state_answers; assumption.
Qed.

(** ** Verify, Unverify *)
Lemma verify_answers (v : bool) e infos w a c l : told e infos w a -> arg infos 1 c ->
  (held e w a -> live w a -> well_formed (data (w a)) l /\ (forall b, lookup XCreators (ext_list l) = Some b -> length b = (34 * cr_count b)%nat)) ->
  answers (process e infos w (if v then IVerify else IUnverify)) (front false e infos w a ++
    [(signed infos c, EMissingRequiredSignature); (held e w a, EIllegalOwner); (live w a, EUninitialized);
     (lookup XCreators (ext_list l) <> None, EExtensionNotFound);
     (forall b, lookup XCreators (ext_list l) = Some b -> exists i, (i < cr_count b)%nat /\ cr_addr_at b i = pk_bytes c, EInvalidArgument)]).
Proof.
  intros T A1 H. 
  assert (X : answers (process_set_verified v e (passed infos) w) 
    [(signed infos c, EMissingRequiredSignature); (held e w a, EIllegalOwner); (live w a, EUninitialized);
     (lookup XCreators (ext_list l) <> None, EExtensionNotFound);
     (forall b, lookup XCreators (ext_list l) = Some b -> exists i, (i < cr_count b)%nat /\ cr_addr_at b i = pk_bytes c, EInvalidArgument)]).
  2:{ destruct v; (apply (process_answers e infos w a); [exact T|]); exact X. }
  split_told T. unfold process_set_verified. args. cbv zeta.
  apply answers_require; [apply signer_spec|intro Hg]. apply answers_require; [apply owned_spec|intro Ho]. apply answers_require; [apply is_asset_spec|intro Hi].
  destruct (H Ho Hi) as [W C]. assert (NX : XCreators <> XNone) by discriminate.
  destruct (get_wf _ _ _ W NX) as [[Q R]|(off & b & Q & R & _)]; rewrite R, Q; cbn [bind].
  { apply answers_no; [|reflexivity]. intro E. now apply E. }
  apply answers_yes; [discriminate|]. specialize (C b Q).
  assert (E : creators_from_bytes b = Ok (dec_creators (cr_count b) b)).
  { rewrite <- (enc_dec (cr_count b) b C) at 1. apply from_bytes_enc. apply dec_wf. lia. }
  rewrite E. cbn [bind]. apply answers_require.
  - rewrite existsb_exists. split.
    + intros (x & Hx & Hk) b' E'. apply some_inj in E'. subst b'. apply In_nth_error in Hx as [i Hn]. exists i.
      assert (Hlt : (i < cr_count b)%nat).
      { assert (Y : nth_error (dec_creators (cr_count b) b) i <> None) by congruence. apply nth_error_Some in Y. rewrite dec_length in Y. exact Y. }
      split; [exact Hlt|]. rewrite (dec_nth _ b i Hlt) in Hn. apply some_inj in Hn. subst x. cbn [cr_addr] in Hk. now apply key_is_spec in Hk.
    + intro HH. destruct (HH b eq_refl) as (i & Hlt & Ha). eexists. split; [eapply nth_error_In; exact (dec_nth _ b i Hlt)|]. cbn [cr_addr]. now apply key_is_spec.
  - intros _. apply answers_goes.
    pose (f := fun x => if key_is (cr_addr x) c then bool_byte v else cr_verified x).
    assert (Em : map (fun x => if key_is (cr_addr x) c then mkCreator (cr_addr x) (bool_byte v) (cr_share x) else x) (dec_creators (cr_count b) b) = reflag f (dec_creators (cr_count b) b)).
    { unfold reflag, f. apply map_ext. intros [ca cv cs]. cbn [cr_addr cr_verified cr_share]. destruct (key_is ca c); reflexivity. }
    rewrite Em. destruct (reflag_bytes f _ _ E) as (R1 & _). apply goes_set; [now split|].
    apply asset_get_some in R. pose proof (has_ext_range _ _ _ _ R) as [R2 R3].
    rewrite zlen_put by (unfold zlen in *; rewrite ?R1; lia). apply Hs.
Qed.

(** ** Room *)
Lemma grow_answers e infos w k payer sysp size : ours e infos w k -> e_prog e <> pk_zero -> zlen (data (w k)) <= size -> sized w ->
  answers (resize e (passed infos) w w size k (Some payer) sysp) (grow_conds e infos w k payer sysp size).
Proof.
  intros O Hp Hd Hs. pose proof (zlen_nonneg (data (w k))) as Z0. unfold resize, grow_conds. cbv zeta. replace (size <? zlen (data (w k))) with false by lia.
  change (answers ?m (?a :: ?b :: ?c :: ?d :: ?f :: ?g :: [])) with (answers m ([a; b; c; d; f] ++ [g])).
  apply answers_app.
  - apply answers_require; [rewrite Z.leb_le; reflexivity|intros _].
    destruct (Z.lt_ge_cases (lamports (w k)) (e_rent e size)) as [C|C].
    + rewrite Z.max_r by lia. replace (0 <? e_rent e size - lamports (w k)) with true by lia. cbn [ok_or bind].
      destruct sysp as [s|]; cbn [ok_or bind].
      2:{ apply answers_no; [|reflexivity]. intro X. now apply X. }
      apply answers_yes; [discriminate|]. apply answers_require; [rewrite signer_spec; tauto|intros Hsg].
      apply answers_require. { rewrite pk_eqb_eq. split; [now intros -> _|]. intro H. specialize (H C). now apply some_inj in H. }
      intros _. 
      pose proof (sys_goes e infos w payer k (e_rent e size - lamports (w k)) O Hp ltac:(lia)) as G.
      assert (D : goes (sys_transfer (passed infos) w payer k (e_rent e size - lamports (w k))) \/ sys_transfer (passed infos) w payer k (e_rent e size - lamports (w k)) = Err ECpi).
      { unfold sys_transfer, require. cbv zeta. repeat (match goal with |- context [if ?b then _ else _] => destruct b end; [|now right]). left. apply goes_ok. }
      destruct D as [D|D].
      * apply answers_yes; [|now apply answers_goes]. intros _. apply G in D as [D1 D2]. split; [lia|exact D1].
      * apply answers_no; [|exact D]. intro X. specialize (X C) as [X1 X2]. assert (Y : goes (sys_transfer (passed infos) w payer k (e_rent e size - lamports (w k)))) by (apply G; split; [exact X2|lia]).
        destruct Y as [y Y]. congruence.
    + rewrite Z.max_l by lia. cbn [Z.ltb Z.compare]. apply answers_all; [apply goes_ok|]. repeat (apply Forall_cons; [cbn [fst]; intro; lia|]). apply Forall_nil.
  - intros w1 H1. apply require_ok in H1 as [M H1]. unfold MAX_INCREASE in M.
    assert (Y : data (w1 k) = data (w k) /\ acct_owner (w1 k) = acct_owner (w k)).
    { destruct (0 <? _); [|apply Ok_inj in H1; now subst w1]. cbn [ok_or bind] in H1. apply bind_ok in H1 as (s & _ & H1). apply require_ok in H1 as [_ H1]. apply require_ok in H1 as [_ H1].
      assert (N : payer <> k). { intros ->. unfold sys_transfer in H1. apply require_ok in H1 as [_ H1]. apply require_ok in H1 as [H1 _]. apply andb_true_iff in H1 as [H1 _]. apply pk_eqb_eq in H1. destruct O as [O _]. congruence. }
      destruct (sys_same _ _ _ _ _ _ N H1) as [S1 S2]. split; [apply S1|apply S2]. }
    destruct Y as [Y1 Y2]. destruct (Z.le_gt_cases size 10485760) as [B|B].
    + apply answers_yes; [exact B|]. apply answers_goes. destruct O as [O1 O2]. apply realloc_goes; [split; [congruence|exact O2]|lia|lia].
    + apply answers_no; [lia|]. specialize (Hs k). unfold realloc. rewrite Y1. replace (size =? zlen (data (w k))) with false by lia.
      unfold require at 1. replace (size <=? zlen (data (w k)) + MAX_INCREASE) with true by (unfold MAX_INCREASE; lia).
      assert (E : zlen (realloc_bytes (data (w k)) size) = size) by (unfold realloc_bytes; replace (size <=? zlen (data (w k))) with false by lia; rewrite zlen_app, zlen_zeros by lia; lia).
      unfold set_data. destruct (bytes_eqb _ _) eqn:Eb.
      * apply bytes_eqb_eq in Eb. rewrite Eb, Y1 in E. lia.
      * rewrite E. replace (size <=? MAX_DATA) with false by (unfold MAX_DATA; lia). now rewrite andb_false_r.
Qed.
Lemma extend_answers e infos w a auth payer sysp v : told e infos w a -> arg infos 1 auth -> arg infos 2 payer -> optional e infos 3 sysp -> e_prog e <> pk_zero -> 0 <= v ->
  answers (process e infos w (IResize (Extend v))) (front false e infos w a ++
    (signed infos auth, EMissingRequiredSignature) :: charge e infos w a auth ++ grow_conds e infos w a payer sysp (zlen (data (w a)) + v)).
Proof.
  intros T A1 A2 A3 Hpz Hv. apply (process_answers e infos w a (IResize (Extend v))); [exact T|]. cbn [dispatch]. split_told T. unfold process_resize.
  rewrite (optional_acct _ _ _ _ A3). args. cbv zeta. apply answers_require; [apply signer_spec|intro Hg].
  apply charge_answers. intros Ho Hi _ _. cbn [bind]. apply grow_answers; [now split|exact Hpz|lia|exact Hs].
Qed.

(** ** Update *)
Section Update.
Variables (e : env) (infos : list ainfo) (w : world) (a auth : pubkey) (ob og op os : option pubkey) (u : update_input).
Hypothesis T : told e infos w a.
Hypothesis A1 : arg infos 1 auth.
Hypothesis A2 : optional e infos 2 ob.
Hypothesis A3 : optional e infos 3 og.
Hypothesis A4 : optional e infos 4 op.
Hypothesis A5 : optional e infos 5 os.

Lemma head_goes : held e w a -> live w a -> goes (set_data e (passed infos) w a (upd_head u (data (w a)))).
Proof.
  intros Ho Hi. split_told T. apply goes_set; [now split|]. pose proof (initialized_len _ Hi).
  assert (E : forall d, 168 <= zlen d -> zlen (match u_name u with Some n => put d 133 (pod_str35 n) | None => d end) = zlen d).
  { intros d Hd. destruct (u_name u); [|reflexivity]. apply zlen_put; rewrite ?zlen_pod; lia. }
  unfold upd_head. cbv zeta. destruct (u_mutable u); [|rewrite E by assumption; apply Hs].
  rewrite zlen_put; [rewrite E by assumption; apply Hs|lia|]. rewrite E by assumption. change (zlen [bool_byte b]) with 1. lia.
Qed.
Lemma update_plain_answers : u_ext u = None -> ob = None ->
  answers (process e infos w (IUpdate u)) (front false e infos w a ++ (signed infos auth, EMissingRequiredSignature) :: charge e infos w a auth).
Proof.
  intros Hx Hb. apply (process_answers e infos w a (IUpdate u)); [exact T|]. pose proof T as (A0 & _). cbn [dispatch]. unfold process_update.
  rewrite (optional_acct _ _ _ _ A2), (optional_acct _ _ _ _ A3), (optional_acct _ _ _ _ A4), (optional_acct _ _ _ _ A5). args. cbv zeta.
  apply answers_require; [apply signer_spec|intro Hg]. rewrite <- (app_nil_r (charge _ _ _ _ _)). apply charge_answers. intros Ho Hi _ _.
  fold (upd_head u (data (w a))). destruct (head_goes Ho Hi) as [w1 E]. rewrite E, Hx, Hb. cbn [bind]. exact (goes_ok w1).
Qed.
Lemma update_begins :
  begins (process e infos w (IUpdate u)) (front false e infos w a ++ (signed infos auth, EMissingRequiredSignature) :: charge e infos w a auth ++
    [(u_ext u = None \/ ob = None, EInvalidInstructionData);
     (forall b, ob = Some b -> held e w b, EIllegalOwner);
     (ob <> Some a, EAccountBorrowFailed);
     (forall b, ob = Some b -> (184 <= length (data (w b)))%nat, EInvalidAccountLength);
     (forall b, ob = Some b -> s_disc (data (w b)) = x00, EAlreadyInitialized)]).
Proof.
  apply (process_begins e infos w a (IUpdate u)); [exact T|]. pose proof T as (A0 & _). cbn [dispatch]. unfold process_update.
  rewrite (optional_acct _ _ _ _ A2), (optional_acct _ _ _ _ A3), (optional_acct _ _ _ _ A4), (optional_acct _ _ _ _ A5). args. cbv zeta.
  apply begins_require; [apply signer_spec|intro Hg]. apply charge_begins. intros Ho Hi _ _.
  fold (upd_head u (data (w a))). destruct (head_goes Ho Hi) as [w1 E]. rewrite E. cbn [bind].
  apply set_data_only in E as [(P1 & P2 & P3) D].
  destruct ob as [b|]; destruct (u_ext u) as [x|].
  - right. split; [|reflexivity]. intros [Q|Q]; discriminate.
  - left. split; [now left|]. unfold update_ext, update_type.
    assert (K : forall (P : bool) (m : res ext_type) er (f : ext_type -> res world), bind (require P er m) f = require P er (bind m f)) by (intros [|]; reflexivity).
    rewrite K. apply begins_require.
    { rewrite owned_spec. split; [intros H b' Q; apply some_inj in Q; subst b'; unfold held in *; destruct (pk_dec b a) as [->|N]; [congruence|now rewrite <- (P1 b N)]|].
      intro H. specialize (H b eq_refl). unfold held in H. destruct (pk_dec b a) as [->|N]; [congruence|now rewrite (P1 b N)]. }
    intros _. rewrite K. apply begins_require. { rewrite not_same_spec. split; [intros H Q; apply some_inj in Q; contradiction|]. intros H ->. now apply H. }
    intro Na. assert (N : b <> a) by (intros ->; now apply Na). rewrite (P1 b N). cbv zeta. rewrite K.
    apply begins_require. { rewrite Z.leb_le. unfold zlen. change (ASSET_LEN + EXT_LEN) with 184. split; [intros H b' Q; apply some_inj in Q; subst b'; lia|]. intro H. specialize (H b eq_refl). lia. }
    intros _. rewrite K. apply begins_require; [|intros _; exact I]. rewrite beqb_eq. split; [intros H b' Q; apply some_inj in Q; now subst b'|]. intro H. exact (H b eq_refl).
  - cbn [begins]. repeat (left; split; [first [now right|intros; discriminate|discriminate]|]). exact I.
  - cbn [begins]. repeat (left; split; [first [now right|intros; discriminate|discriminate]|]). exact I.
Qed.
End Update.

(** ** Remove *)
Definition ext_dec (t u : ext_type) : {t = u} + {t <> u}.
Proof. decide equality. Defined.
Lemma remove_begins e infos w a auth og dest t hd l1 b l2 tl : told e infos w a -> arg infos 1 auth -> optional e infos 2 og -> arg infos 3 dest ->
  layout (data (w a)) hd (l1 ++ b :: l2) tl -> bk_type b = t -> Forall (fun x => bk_type x <> t) l1 ->
  168 + sect_size l1 + 16 < zlen (data (w a)) -> (t = XGrouping -> (16 <= length (bk_data b) <= 48)%nat) ->
  begins (process e infos w (IRemove t)) (front false e infos w a ++ (signed infos auth, EMissingRequiredSignature) :: charge e infos w a auth ++
    [(t <> XManager /\ t <> XProxy, EExtensionDataInvalid); (t = XGrouping -> gr_size (bk_data b) = 0, EGroupNotEmpty)]).
Proof.
  intros T A1 A2 A3 HL Eb Hf Hroom Hgs. apply (process_begins e infos w a (IRemove t)); [exact T|]. pose proof T as (A0 & _). cbn [dispatch]. unfold process_remove.
  rewrite (optional_acct _ _ _ _ A2). args. cbv zeta. apply begins_require; [apply signer_spec|intro Hg]. apply charge_begins. intros Ho Hi _ _.
  pose proof (layout_len _ _ _ _ HL) as Hlen. pose proof (layout_u32 _ _ _ _ HL) as Hu32. pose proof HL as HL'. destruct HL as (Ed & Hh & HF & Htl & Hz).
  apply Forall_app in HF as [HF1 HF2]. apply Forall_cons_iff in HF2 as [HFb HF2]. rewrite sect_size_app in Hlen, Hu32. cbn [sect_size] in Hlen, Hu32.
  pose proof (sect_size_nonneg l1). pose proof (sect_size_nonneg l2). pose proof (blk_size_pos b). pose proof (zlen_nonneg tl).
  assert (Ht : t <> XNone) by (destruct HFb as [HFb _]; congruence).
  set (c := 168 + sect_size l1) in *.
  assert (F : remove_find (walk_fuel (data (w a))) t (data (w a)) ASSET_LEN = Ok (Some (c, c + blk_size b))).
  { change ASSET_LEN with 168. rewrite Ed at 2. rewrite enc_sect_app. cbn [enc_sect]. fold c. rewrite <- !app_assoc.
    rewrite <- Hh. pose proof (remove_find_run t (enc_sect (c + blk_size b) l2 ++ tl) b Eb HFb l1 hd (walk_fuel (data (w a)))) as X.
    rewrite !Hh in X. fold c in X. rewrite Hh. apply X; auto; try lia.
    - pose proof (sect_size_length l1). unfold walk_fuel. unfold zlen in *. lia.
    - rewrite zlen_app, zlen_enc_sect by assumption. subst c. lia. }
  rewrite F. cbn [bind].
  destruct (ext_dec t XManager) as [Em|Nm]. { rewrite Em. right. split; [intros [X _]; now apply X|reflexivity]. }
  destruct (ext_dec t XProxy) as [Em|Np]. { rewrite Em. right. split; [intros [_ X]; now apply X|reflexivity]. }
  left. split; [now split|].
  destruct (ext_dec t XGrouping) as [Eg|Ng].
  2:{ left. split; [intro; contradiction|exact I]. }
  rewrite Eg in *. assert (Lk : lookup XGrouping (ext_list (l1 ++ b :: l2)) = Some (bk_data b)).
  { clear - Eb Hf. induction l1 as [|x l1 IH]; cbn [app ext_list map lookup].
    - rewrite Eb. reflexivity.
    - apply Forall_cons_iff in Hf as [Hx Hf]. destruct (ext_type_eqb _ _) eqn:Q; [apply ext_type_eqb_eq in Q; contradiction|]. now apply IH. }
  assert (NX : XGrouping <> XNone) by discriminate. assert (W : well_formed (data (w a)) (l1 ++ b :: l2)) by (exists hd, tl; exact HL').
  destruct (get_wf _ _ _ W NX) as [[Q _]|(o & b0 & Q & R & _ & M & _)]; [congruence|]. assert (b0 = bk_data b) as -> by congruence.
  rewrite R. cbn [bind]. rewrite (grouping_goes o _ (Hgs eq_refl) M). cbn [bind g_size].
  destruct (Z.eqb_spec (gr_size (bk_data b)) 0) as [E|E]; cbn [require bind].
  - left. split; [auto|exact I].
  - right. split; [intro X; now apply E, X|reflexivity].
Qed.

(** ** Create, Allocate, Write *)
Lemma begins_yes {A} (P : Prop) er (m : res A) l : P -> begins m l -> begins m ((P, er) :: l).
Proof. intros. now left. Qed.
Lemma begins_no {A} (P : Prop) er (m : res A) l : ~ P -> m = Err er -> begins m ((P, er) :: l).
Proof. intros. now right. Qed.
Lemma begins_all {A} (m : res A) l : Forall (fun c : Prop * error => fst c) l -> begins m l.
Proof. induction 1 as [|[P er] l H _ IH]; [exact I|]. now left. Qed.
Lemma begins_app {A B} (m : res A) (f : A -> res B) l1 : begins m l1 -> begins (bind m f) l1.
Proof. induction l1 as [|[P er] l1 IH]; [now intros|]. intros [[H1 H2]|[H1 H2]]; [left; auto|right; split; [exact H1|]]. now rewrite H2. Qed.

Lemma fund_begins e infos w a payer sysp space : begins (alloc_create_account e (passed infos) w a payer sysp space) (fund_conds infos True payer sysp).
Proof.
  unfold alloc_create_account, fund_conds. destruct payer as [p|]; cbn [ok_or bind].
  2:{ apply begins_no; [|reflexivity]. intro X. now apply X. }
  apply begins_yes; [discriminate|]. apply begins_require. { rewrite signer_spec. split; [intros H _ p' E; apply some_inj in E; now subst p'|]. intro H. now apply H. }
  intros _. destruct sysp as [s|]; cbn [ok_or bind].
  2:{ apply begins_no; [|reflexivity]. intro X. now apply X. }
  apply begins_yes; [discriminate|]. apply begins_require; [|intros _; exact I]. rewrite pk_eqb_eq. split; [now intros -> _|]. intro H. specialize (H Logic.I). now apply some_inj in H.
Qed.
Lemma begins_same {A} (m : res A) l l' : begins m l -> same_conds l l' -> begins m l'.
Proof.
  intros H S. induction S as [|[P er] [P' er'] l l' [E1 E2] _ IH]; [exact I|]. cbn [fst snd] in E1, E2. subst er'. destruct H as [[H1 H2]|[H1 H2]]; [left|right]; tauto.
Qed.
Lemma fund_same infos (N N' : Prop) payer sysp : (N <-> N') -> same_conds (fund_conds infos N payer sysp) (fund_conds infos N' payer sysp).
Proof. intro E. unfold same_conds, fund_conds. repeat (apply Forall2_cons; [split; [cbn [fst]; tauto|reflexivity]|]). apply Forall2_nil. Qed.
Lemma begins_more {A} (m : res A) l1 l2 : begins m l1 -> (Forall (fun c : Prop * error => fst c) l1 -> begins m l2) -> begins m (l1 ++ l2).
Proof.
  induction l1 as [|[P er] l1 IH]; intros H1 H2; cbn [app]; [apply H2, Forall_nil|]. destruct H1 as [[H3 H4]|[H3 H4]]; [left|now right].
  split; [exact H3|]. apply IH; [exact H4|]. intro F. apply H2. now apply Forall_cons.
Qed.
Lemma empty_or {A} (l : list A) : l = [] \/ l <> [].
Proof. destruct l; [now left|right; discriminate]. Qed.
Lemma blank_spec {A} e w a (m : res A) : data (w a) <> [] ->
  begins (require (owned_by_prog e w a) EIllegalOwner (require (ASSET_LEN <=? zlen (data (w a))) EInvalidAccountLength (require (beqb (byte_at (data (w a)) 0) DISC_UNINIT) EAlreadyInitialized m))) (blank_conds e w a).
Proof.
  intro N. unfold blank_conds. cbv zeta. apply begins_require; [rewrite owned_spec; unfold held; tauto|intros _].
  apply begins_require. { rewrite Z.leb_le. unfold zlen. change ASSET_LEN with 168. split; [intros; lia|]. intro H. specialize (H N). lia. }
  intros _. apply begins_require; [|intros _; exact I]. rewrite beqb_eq. split; [intros H _; exact H|]. intro H. exact (H N).
Qed.
Lemma blank_vac e w a : data (w a) = [] -> Forall (fun c : Prop * error => fst c) (blank_conds e w a).
Proof. intro E. unfold blank_conds. cbv zeta. repeat (apply Forall_cons; [cbn [fst]; intro; contradiction|]). apply Forall_nil. Qed.
Lemma fund_vac infos (N : Prop) payer sysp : ~ N -> Forall (fun c : Prop * error => fst c) (fund_conds infos N payer sysp).
Proof. intro E. unfold fund_conds. repeat (apply Forall_cons; [cbn [fst]; intro; contradiction|]). apply Forall_nil. Qed.

Lemma create_begins e infos w a auth owner og oa op os m : told e infos w a -> arg infos 1 auth -> arg infos 2 owner ->
  optional e infos 3 og -> optional e infos 4 oa -> optional e infos 5 op -> optional e infos 6 os ->
  begins (process e infos w (ICreate m)) (front false e infos w a ++
    (signed infos a, EMissingRequiredSignature) :: blank_conds e w a ++ fund_conds infos (data (w a) = []) op os).
Proof.
  intros T A1 A2 A3 A4 A5 A6. apply (process_begins e infos w a (ICreate m)); [exact T|]. pose proof T as (A0 & _). cbn [dispatch]. unfold process_create.
  rewrite (optional_acct _ _ _ _ A3), (optional_acct _ _ _ _ A4), (optional_acct _ _ _ _ A5), (optional_acct _ _ _ _ A6). args.
  apply begins_require; [apply signer_spec|intro Hg]. apply begins_app.
  destruct (empty_or (data (w a))) as [Ed|N].
  - replace (zlen (data (w a)) =? 0) with true by (now rewrite Ed). apply begins_more; [apply begins_all; now apply blank_vac|]. intros _.
    eapply begins_same; [apply fund_begins|]. apply fund_same. rewrite Ed. tauto.
  - replace (zlen (data (w a)) =? 0) with false by (symmetry; apply Z.eqb_neq; intro Z0; now apply N, zlen_0).
    apply begins_more; [exact (blank_spec e w a _ N)|]. intros _. apply begins_all. now apply fund_vac.
Qed.
Lemma allocate_begins e infos w a op os x : told e infos w a -> optional e infos 1 op -> optional e infos 2 os ->
  begins (process e infos w (IAllocate x)) (front false e infos w a ++
    (signed infos a, EMissingRequiredSignature) :: blank_conds e w a ++
    (data (w a) = [] -> forall bs, x_data x = Some bs -> zlen bs mod 4294967296 <= x_length x, EExtensionLengthInvalid) :: fund_conds infos (data (w a) = []) op os).
Proof.
  intros T A1 A2. apply (process_begins e infos w a (IAllocate x)); [exact T|]. pose proof T as (A0 & _). cbn [dispatch]. unfold process_allocate, do_allocate.
  rewrite (optional_acct _ _ _ _ A1), (optional_acct _ _ _ _ A2). args. cbv zeta.
  apply begins_require; [apply signer_spec|intro Hg].
  destruct (empty_or (data (w a))) as [Ed|N].
  - replace (zlen (data (w a)) =? 0) with true by (now rewrite Ed). cbn [bind fst snd]. apply begins_more; [apply begins_all; now apply blank_vac|]. intros _.
    assert (F : forall bs, begins (save_extension_data e (passed infos) w w a op os x false ASSET_LEN bs) (fund_conds infos (data (w a) = []) op os)).
    { intro bs. unfold save_extension_data. cbv zeta. cbn [negb]. apply begins_app. eapply begins_same; [apply fund_begins|]. apply fund_same. rewrite Ed. tauto. }
    change two32 with 4294967296. destruct (x_data x) as [bs|]; cbn [bind].
    + assert (K : forall (P : bool) (m : res bytes) er (f : bytes -> res world), bind (require P er m) f = require P er (bind m f)) by (intros [|]; reflexivity).
      rewrite K. apply begins_require; [|intros _; cbn [bind]; apply F]. rewrite Z.leb_le. split; [intros H _ b' E; apply some_inj in E; now subst b'|]. intro H. now apply H.
    + apply begins_yes; [discriminate|apply F].
  - replace (zlen (data (w a)) =? 0) with false by (symmetry; apply Z.eqb_neq; intro Z0; now apply N, zlen_0).
    apply begins_more; [apply begins_app; exact (blank_spec e w a _ N)|]. intros _. apply begins_yes; [intro; contradiction|]. apply begins_all. now apply fund_vac.
Qed.
Lemma write_begins e infos w a payer sysp x : told e infos w a -> arg infos 1 payer -> arg infos 2 sysp ->
  begins (process e infos w (IWrite x)) (front false e infos w a ++
    [(sysp = pk_zero, EIncorrectProgramId); (signed infos payer, EMissingRequiredSignature); (signed infos a, EMissingRequiredSignature);
     (held e w a, EIllegalOwner); ((168 <= length (data (w a)))%nat, EInvalidAccountLength); (s_disc (data (w a)) = x00, EAlreadyInitialized)]).
Proof.
  intros T A1 A2. apply (process_begins e infos w a (IWrite x)); [exact T|]. pose proof T as (A0 & _). cbn [dispatch]. unfold process_write. args. cbv zeta.
  apply begins_require; [apply pk_eqb_eq|intros _]. apply begins_require; [apply signer_spec|intros _]. apply begins_require; [apply signer_spec|intros _]. apply begins_require; [apply owned_spec|intros _].
  apply begins_require. { rewrite Z.leb_le. unfold zlen. change ASSET_LEN with 168. lia. }
  intros _. apply begins_require; [|intros _; exact I]. now rewrite beqb_eq.
Qed.

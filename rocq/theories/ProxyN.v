(** Lemmas: exactly when the proxy program's instructions go through. *)
From Verif Require Import Base State Layout Constr Ext World Proc Borsh Proxy BaseL Spec SpecB SpecC SpecE SpecF SpecH SpecI SpecP SpecL SpecW SpecM WorldL ProcSteps LayoutL LayoutM LayoutE GroupL CountL HeadL AuthL AuthM CreatorsL FrameL UpdateL UpdateM UpdateT StepH BorshL CodecL ProxyL CreateL BuildL ProxyM ExactL ExactM ExactN ExactO ExactP TailL.
From Coq Require Import Strings.Byte.

(** ** Sizes *)
Fixpoint rooms (l : list (ext_type * bytes)) : Z :=
  match l with [] => 0 | (_, b) :: r => room_for (zlen b) + rooms r end.
Lemma sect_rooms l : Forall blk_ok l -> sect_size l = rooms (ext_list l).
Proof.
  induction 1 as [|b l Hb Hl IH]; [reflexivity|]. cbn [sect_size ext_list map rooms]. rewrite (room_for_blk _ Hb). unfold ext_list in IH. now rewrite IH.
Qed.
Lemma tight_size d l : tight d l -> zlen d = 168 + rooms (ext_list l).
Proof.
  intros (hd & E & Hh & HF & _). rewrite E, app_nil_r, zlen_app, zlen_enc_sect by assumption. rewrite Hh, (sect_rooms _ HF). reflexivity.
Qed.
Lemma rooms_put t b l cur : lookup t l = Some cur -> room_for (zlen b) = room_for (zlen cur) -> rooms (put_ext t b l) = rooms l.
Proof.
  intros L R. unfold put_ext. rewrite L. revert L. induction l as [|[t' b'] l IH]; cbn [lookup]; [discriminate|].
  cbn [replaced]. destruct (ext_type_eqb t' t); intro L.
  - apply Some_inj in L. subst b'. cbn [rooms]. lia.
  - cbn [rooms]. now rewrite IH.
Qed.

(** ** Payloads *)
Lemma entry_parses s : zlen s <= 255 -> parses XAttributes (counter_entry s).
Proof.
  intro H. change (pairs_in (counter_entry s)).
  replace (counter_entry s) with ((x09 :: TRANSFERS) ++ (z2b (zlen s) :: s) ++ []) by (unfold counter_entry, TRANSFERS; now rewrite app_nil_r).
  apply pairs_cons with (n := TRANSFERS) (v := s); [split; [vm_compute; discriminate|reflexivity]|split; [exact H|reflexivity]|constructor].
Qed.
Lemma image_parses d : parses XBlob (image_entry d).
Proof. exists CONTENT_TYPE. eexists. exists d. split; [split; [vm_compute; discriminate|reflexivity]|reflexivity]. Qed.
Lemma stamp_parses t : parses XProperties (stamp_entry t).
Proof.
  change (props_in (stamp_entry t)).
  replace (stamp_entry t) with ((x10 :: LAST_TRANSFERRED) ++ (x01 :: le_enc 8 t) ++ []) by (unfold stamp_entry, LAST_TRANSFERRED; now rewrite app_nil_r).
  apply props_cons with (n := LAST_TRANSFERRED); [split; [vm_compute; discriminate|reflexivity]| |constructor].
  constructor. apply le_enc_length.
Qed.
Lemma replace_simple t c b : simple t -> t <> XRoyalties -> t <> XProxy -> parses t c -> parses t b -> replaceable t c b.
Proof.
  intros (N1 & N2 & N3) N4 N5 P1 P2. split; [auto|]. split; [assumption|]. split; [contradiction|]. split; [contradiction|]. split; [contradiction|]. contradiction.
Qed.
Lemma digits_short f : forall n k, (1 <= k <= S f)%nat -> 0 <= n < 10 ^ Z.of_nat k -> (length (digits (S f) n) <= k)%nat.
Proof.
  induction f as [|f IH]; intros n k Hk H.
  { cbn [digits]. destruct (n <? 10); cbn [length app]; [lia|]. assert (k = 1%nat) by lia. subst k. change (10 ^ Z.of_nat 1) with 10 in H. lia. }
  change (digits (S (S f)) n) with (if n <? 10 then [z2b (48 + n)] else digits (S f) (n / 10) ++ [z2b (48 + n mod 10)]).
  destruct (n <? 10) eqn:E; [cbn [length]; lia|]. rewrite app_length. cbn [length].
  destruct k as [|[|k]]; [lia|change (10 ^ Z.of_nat 1) with 10 in H; lia|].
  assert (Q : (length (digits (S f) (n / 10)) <= S k)%nat); [|lia].
  apply IH; [lia|]. split; [apply Z.div_pos; lia|]. apply Z.div_lt_upper_bound; [lia|].
  rewrite (Nat2Z.inj_succ (S k)), Z.pow_succ_r in H by lia. lia.
Qed.
Lemma decimal_short n k : (1 <= k <= 20)%nat -> 0 <= n < 10 ^ Z.of_nat k -> (length (decimal n) <= k)%nat.
Proof. intros Hk H. unfold decimal. destruct (n <? 0) eqn:E; [lia|]. now apply (digits_short 19). Qed.
Lemma colour_length h : zlen (colour_of h) = 11.
Proof.
  assert (P : forall b, zlen (pad_left 3 (decimal (b2z b))) = 3).
  { intro b. rewrite zlen_pad. pose proof (b2z_range b). pose proof (decimal_short (b2z b) 3 ltac:(lia) ltac:(change (10 ^ Z.of_nat 3) with 1000; lia)). unfold zlen. lia. }
  unfold colour_of. rewrite !zlen_app, !P. reflexivity.
Qed.
Lemma counter_length n : countable n -> 12 <= zlen (pad_left 12 (decimal n)) <= 13.
Proof.
  intro H. rewrite zlen_pad. pose proof (decimal_short n 13 ltac:(lia) ltac:(change (10 ^ Z.of_nat 13) with 10000000000000; unfold countable in H; lia)). unfold zlen. lia.
Qed.

(** ** One update sent by the program *)
Section Care.
Variables (e : env) (me : pubkey) (infos : list ainfo) (asset : pubkey) (seeds : bytes) (bump : byte).
Hypotheses (He : env_ok e) (Hz : e_prog e <> pk_zero) (Hal : e_heap_al e mod 8 = 0) (Hfu : (4 < e_fuel e)%nat)
  (C : e_cpa e seeds bump (pk_bytes me) = Some asset).
Definition upd_of (t : ext_type) (b : bytes) : instr := IUpdate (mkUpdInput None None (Some (ext_of t b))).
Lemma upd_of_ok t b : zlen b <= 100000 -> instr_ok (upd_of t b).
Proof. intro H. split; [exact I|]. now apply ext_ok_of. Qed.
Lemma upd_arg i : (2 <= i < 6)%nat -> optional (in_cpi e) (update_metas e asset asset) i None.
Proof. intro H. cbn [optional in_cpi e_prog]. exists (absent e). split; [|reflexivity]. do 2 (destruct i as [|i]; [lia|]). do 4 (destruct i as [|i]; [reflexivity|]). lia. Qed.

Lemma care_run w t b w' l : sized w -> lam_ok w -> simple t -> zlen b <= 100000 -> tight (data (w asset)) l ->
  process (in_cpi e) (update_metas e asset asset) w (upd_of t b) = Ok w' ->
  sized w' /\ lam_ok w' /\ (forall k, k <> asset -> data (w' k) = data (w k)) /\ (forall k, acct_owner (w' k) = acct_owner (w k)) /\
  header_updated (mkUpdInput None None None) (data (w asset)) (data (w' asset)) /\
  exists l', tight (data (w' asset)) l' /\ ext_list l' = put_ext t b (ext_list l).
Proof using He Hz.
  intros Hs Hl Ht Hb (hd & HL) I6.
  assert (He' : env_ok (in_cpi e)) by now apply in_cpi_ok.
  assert (XA : ext_arg (ext_of t b)) by (apply ext_arg_of; [apply Ht|assumption]).
  destruct (update_effect (in_cpi e) _ w (mkUpdInput None None (Some (ext_of t b))) w' asset hd l [] He' Hz Hs (metas_arg0 e asset) HL) as
    (auth & hd' & l' & tl' & A1 & _ & _ & _ & _ & _ & Hu & L' & T' & OO & [(Q & _)|(buffer & t' & b' & Hbf & _ & EL & SS)]).
  { intros x Q. cbn [u_ext] in Q. apply Some_inj in Q. subst x. destruct XA as (X1 & X2 & _). auto. }
  { exact I6. }
  { discriminate Q. }
  unfold source_spec in SS. destruct buffer as [bk|]; [destruct SS as (_ & Q & _); discriminate Q|].
  destruct SS as (x0 & Q & T1 & Ln & St & _ & Fr). cbn [u_ext] in Q. apply Some_inj in Q. subst x0. cbn [ext_of x_type] in T1. subst t'.
  specialize (St b eq_refl). apply (stored_simple _ _ _ _ _ Ht) in St. subst b'.
  split; [exact (sized_preserved _ _ _ _ _ He' Hz Hl Hs I6)|]. split; [exact (lam_ok_preserved _ _ _ _ _ He' Hz Hl I6)|].
  split; [exact Fr|]. split; [exact OO|]. split; [exact Hu|]. exists l'. split; [|assumption]. exists hd'. destruct T' as [->| ->]; assumption.
Qed.
Lemma care_invoked w0 w t b w' : zlen b <= 100000 ->
  invoke e me infos w0 w (update_metas e asset asset) (write_instr (upd_of t b)) seeds bump = Ok w' ->
  process (in_cpi e) (update_metas e asset asset) w (upd_of t b) = Ok w'.
Proof using.
  intros Hb H. apply invoke_iff in H as (pda & i & I1 & I2 & I3 & I4 & I5 & I6 & I7).
  apply instr_unambiguous in I5; [subst i; assumption|now apply upd_of_ok|assumption].
Qed.

(** the state in which updates go through *)
Definition caring (w : world) (l : list blk) : Prop :=
  sized w /\ lam_ok w /\ acct_owner (w asset) = e_prog e /\ s_disc (data (w asset)) = x01 /\
  s_authority (data (w asset)) = pk_bytes asset /\ mutable (data (w asset)) /\ tight (data (w asset)) l /\ (length l = 4)%nat /\ acct_owner (w (e_prog e)) <> e_prog e.
Lemma caring_init w l : caring w l -> initialized (data (w asset)).
Proof using. clear Hfu Hal. intros (_ & _ & _ & D & _ & _ & T & _). split; [|assumption]. destruct T as (hd & E & Hh & _). rewrite E, app_length. unfold zlen in Hh. lia. Qed.
Lemma care_goes w0 w t b cur l : caring w l -> mentions infos asset -> (forall k, zlen (data (w k)) = zlen (data (w0 k))) ->
  simple t -> t <> XRoyalties -> t <> XProxy -> zlen b <= 100000 -> lookup t (ext_list l) = Some cur -> parses t cur -> parses t b -> room_for (zlen b) = room_for (zlen cur) ->
  goes (invoke e me infos w0 w (update_metas e asset asset) (write_instr (upd_of t b)) seeds bump) <-> mentions infos (e_prog e) /\ writes infos asset.
Proof using He Hz Hal Hfu C.
  intros HC Ma Hsz Ht N1 N2 Hb Hlk P1 P2 HR. split.
  - intros [w' H]. apply invoke_iff in H as (pda & i & I1 & I2 & I3 & _). split; [assumption|].
    apply Forall_cons_iff in I3 as [G _]. apply granted_iff in G as (_ & _ & G). now apply G.
  - intros [Mp Wr]. pose proof (caring_init _ _ HC) as Hi. destruct HC as (Hs & Hl & Ho & Hd & Ha & Hm & HT & Hln & Hpp).
    assert (G : exists w', process (in_cpi e) (update_metas e asset asset) w (upd_of t b) = Ok w').
    { assert (SG : signed (update_metas e asset asset) asset) by (eexists; split; [left; reflexivity|split; reflexivity]).
      pose proof HT as (hd & HL).
      assert (RD : ready (in_cpi e) (update_metas e asset asset) w asset).
      { split; [exact (metas_arg0 e asset)|]. split; [assumption|]. split; [assumption|]. split; [eexists; split; [left; reflexivity|split; reflexivity]|].
        split; [|assumption]. intros a X. cbn [in_cpi e_prog]. cbn in X. destruct X as [<-|[<-|[<-|[<-|[<-|[<-|[]]]]]]]; cbn [ai_key absent]; intro Q; try contradiction; right; apply Hi. }
      apply (update_exact (in_cpi e) (update_metas e asset asset) w asset asset None None None None hd l (mkUpdInput None None (Some (ext_of t b))) RD ltac:(eexists; split; reflexivity)
        (upd_arg 2 ltac:(lia)) (upd_arg 3 ltac:(lia)) (upd_arg 4 ltac:(lia)) (upd_arg 5 ltac:(lia)) HL Hl (in_cpi_ok _ He) Hz Hal ltac:(cbn [in_cpi e_fuel]; lia) (ext_of t b) eq_refl eq_refl).
      - apply Ht.
      - cbn [ext_of x_length]. pose proof (zlen_nonneg b). lia.
      - split; [intros _; exact SG|]. split; [split; [exact SG|]; split; assumption|]. cbn [ext_of x_data x_length x_type].
        split; [split; [reflexivity|]; rewrite Hlk; now apply replace_simple|].
        intro Q. exfalso. apply Q. unfold updated_size. rewrite Hlk. unfold room_for in HR. lia. }
    destruct G as [w' G]. exists w'. apply invoke_iff. exists asset, (upd_of t b). split; [exact C|]. split; [assumption|].
    split.
    { assert (GA : forall s r, granted infos asset (mkInfo asset s r) = true).
      { intros s r. apply granted_iff. cbn [ai_key]. split; [assumption|]. split; [auto|]. auto. }
      assert (GP : granted infos asset (absent e) = true) by (apply granted_iff; cbn [ai_key absent ai_signer ai_writable]; split; [assumption|split; discriminate]).
      unfold update_metas. repeat constructor; auto. }
    split; [now apply upd_of_ok|]. split; [reflexivity|]. split; [exact G|].
    destruct (care_run w t b w' l Hs Hl Ht Hb HT G) as (_ & _ & Fr & _ & _ & l' & T' & X').
    intros i _. destruct (pk_dec (ai_key i) asset) as [->|N].
    + rewrite (tight_size _ _ T'), X', (rooms_put _ _ _ _ Hlk HR), <- (tight_size _ _ HT), Hsz. lia.
    + rewrite (Fr _ N), Hsz. lia.
Qed.
(** what stays *)
Definition unmoved (w w' : world) : Prop :=
  (forall k, k <> asset -> data (w' k) = data (w k)) /\ (forall k, acct_owner (w' k) = acct_owner (w k)) /\
  (forall k, zlen (data (w' k)) = zlen (data (w k))) /\
  same_terms (data (w asset)) (data (w' asset)) /\ s_owner (data (w' asset)) = s_owner (data (w asset)) /\
  s_delegate (data (w' asset)) = s_delegate (data (w asset)) /\ s_roles (data (w' asset)) = s_roles (data (w asset)).
Lemma unmoved_trans w1 w2 w3 : unmoved w1 w2 -> unmoved w2 w3 -> unmoved w1 w3.
Proof.
  intros (A1 & A2 & A3 & A4 & A5 & A6 & A7) (B1 & B2 & B3 & B4 & B5 & B6 & B7).
  split; [intros k N; rewrite B1, A1 by assumption; reflexivity|]. split; [intro k; rewrite B2, A2; reflexivity|]. split; [intro k; rewrite B3, A3; reflexivity|].
  split; [eapply same_terms_trans; eassumption|]. split; [congruence|]. split; congruence.
Qed.
Lemma ext_list_length l : length (ext_list l) = length l.
Proof. unfold ext_list. apply map_length. Qed.
Lemma put_length t b l cur : lookup t l = Some cur -> length (put_ext t b l) = length l.
Proof.
  intro L. unfold put_ext. rewrite L. clear L. induction l as [|[t' b'] l IH]; cbn [replaced]; [reflexivity|]. destruct (ext_type_eqb t' t); cbn [length]; [reflexivity|now rewrite IH].
Qed.
Lemma care_next w t b cur l w' : caring w l -> simple t -> zlen b <= 100000 -> lookup t (ext_list l) = Some cur -> room_for (zlen b) = room_for (zlen cur) ->
  process (in_cpi e) (update_metas e asset asset) w (upd_of t b) = Ok w' ->
  exists l', caring w' l' /\ ext_list l' = put_ext t b (ext_list l) /\ unmoved w w'.
Proof using He Hz.
  intros (Hs & Hl & Ho & Hd & Ha & Hm & HT & Hln & Hpp) Ht Hb Hlk HR H.
  destruct (care_run w t b w' l Hs Hl Ht Hb HT H) as (S' & L' & Fr & OO & Hu & l' & T' & X').
  exists l'. apply same_terms_of_update in Hu as (TT & O1 & D1 & R1).
  assert (SZ : forall k, zlen (data (w' k)) = zlen (data (w k))).
  { intro k. destruct (pk_dec k asset) as [->|N]; [|now rewrite Fr]. rewrite (tight_size _ _ T'), X', (rooms_put _ _ _ _ Hlk HR), <- (tight_size _ _ HT). reflexivity. }
  split; [|split; [assumption|split; [assumption|split; [assumption|split; [assumption|auto]]]]].
  destruct TT as (T1 & T2 & T3 & T4 & T5 & T6 & T7).
  split; [assumption|]. split; [assumption|]. split; [rewrite OO; assumption|]. split; [congruence|]. split; [congruence|].
  split; [unfold mutable in *; congruence|]. split; [assumption|]. split; [|rewrite OO; assumption].
  rewrite <- ext_list_length, X', (put_length _ _ _ _ Hlk), ext_list_length. assumption.
Qed.
End Care.

(** ** Transfer *)
Section Pass.
Variables (pe : penv) (e : env) (me : pubkey) (infos : list ainfo) (w : world) (asset signer recipient g : pubkey) (pb : bytes) (n : Z).
Hypotheses (He : env_ok e) (Hz : e_prog e <> pk_zero) (Hal : e_heap_al e mod 8 = 0) (Hfu : (4 < e_fuel e)%nat) (Hs : sized w) (Hl : lam_ok w)
  (Ht : small_template pe) (HC : in_care pe e me w asset pb n) (Hn : countable (n + 1)) (Hn0 : 0 <= n)
  (A0 : arg infos 0 asset) (A1 : arg infos 1 signer) (A2 : arg infos 2 recipient) (A3 : arg infos 3 g)
  (Hps : plain_at e w signer) (Hpr : plain_at e w recipient) (Hpp : acct_owner (w (e_prog e)) <> e_prog e).
Lemma arg_mentions i k : arg infos i k -> mentions infos k.
Proof using. intros (a & E & <-). exists a. split; [|reflexivity]. apply nth_error_In in E. unfold passed in E. rewrite <- (firstn_skipn 7 infos). apply in_or_app. now left. Qed.
Lemma arg_raw i k : arg infos i k -> acct infos i = Ok k.
Proof using.
  intros (a & E & <-). unfold acct. replace (nth_error infos i) with (Some a); [reflexivity|]. symmetry.
  unfold passed in E. rewrite <- (firstn_skipn 7 infos). rewrite nth_error_app1; [assumption|]. apply nth_error_Some. congruence.
Qed.
Definition passes : Prop :=
  mentions (skipn 4 infos) (e_prog e) /\ writes infos asset /\ (signs infos signer \/ signer = asset) /\
  (forall k, In k [asset; signer; recipient] -> acct_owner (w k) = e_prog e -> ~ locked (data (w k))) /\
  may_pass_on (data (w asset)) signer /\
  (s_owner (data (w asset)) = pk_bytes recipient \/ s_group (data (w asset)) = no_key).

Lemma care_transfer seeds bump w3 l3 : e_cpa e seeds bump (pk_bytes me) = Some asset -> caring e asset w3 l3 -> unmoved asset w w3 -> mentions infos (e_prog e) -> writes infos asset ->
  lookup XManager (ext_list l3) = None -> lookup XRoyalties (ext_list l3) = None ->
  goes (invoke e me infos w w3 (transfer_metas e asset signer recipient) (write_instr ITransfer) seeds bump) <->
  (signs infos signer \/ signer = asset) /\
  (forall k, In k [asset; signer; recipient] -> acct_owner (w k) = e_prog e -> ~ locked (data (w k))) /\
  may_pass_on (data (w asset)) signer /\
  (s_owner (data (w asset)) = pk_bytes recipient \/ s_group (data (w asset)) = no_key).
Proof using He Hz Hal Hfu Hs Hl Ht HC Hn Hn0 A0 A1 A2 A3 Hps Hpr Hpp.
  intros C HC3 (U1 & U2 & U3 & U4 & U5 & U6 & U7) Mp Wr LM LR.
  assert (St : s_standard (data (w3 asset)) = x03) by (destruct U4 as (_ & _ & Q & _); rewrite Q; apply HC).
  pose proof (caring_init _ _ _ _ HC3) as Hi3. destruct HC3 as (S3 & L3 & O3 & D3 & Au3 & Mu3 & T3 & N3 & P3).
  set (M := transfer_metas e asset signer recipient).
  assert (SA : signed M asset) by (eexists; split; [left; reflexivity|split; reflexivity]).
  assert (SS : signed M signer) by (eexists; split; [right; left; reflexivity|split; reflexivity]).
  assert (PL : forall k, k = asset \/ k = signer \/ k = recipient \/ k = e_prog e -> acct_owner (w3 k) = e_prog e -> data (w3 k) = [] \/ (168 <= length (data (w3 k)))%nat).
  { intros k K Q. destruct (pk_dec k asset) as [->|N]; [right; apply Hi3|]. rewrite (U1 _ N). rewrite U2 in Q.
    destruct K as [K|[->|[->| ->]]]; [contradiction|apply (Hps Q)|apply (Hpr Q)|contradiction]. }
  assert (RD : ready (in_cpi e) M w3 asset).
  { split; [eexists; split; reflexivity|]. split; [exact O3|]. split; [exact Hi3|]. split; [eexists; split; [left; reflexivity|split; reflexivity]|].
    split; [|assumption]. intros a X. cbn in X. cbn [in_cpi e_prog]. destruct X as [<-|[<-|[<-|[<-|[]]]]]; cbn [ai_key absent]; apply PL; auto. }
  pose proof (transfer_exact (in_cpi e) M w3 asset signer recipient None l3 [] RD ltac:(eexists; split; reflexivity) ltac:(eexists; split; reflexivity) ltac:(eexists; split; reflexivity)) as TX.
  assert (W3 : well_formed (data (w3 asset)) l3) by (destruct T3 as (hd & T3); exists hd, []; exact T3).
  specialize (TX W3 ltac:(intros b Q; congruence) ltac:(intros b Q; congruence) ltac:(intros g' Q; discriminate Q)).
  assert (K1 : none_locked (in_cpi e) M w3 <-> (forall k, In k [asset; signer; recipient] -> acct_owner (w k) = e_prog e -> ~ locked (data (w k)))).
  { assert (LK : forall k, locked (data (w3 k)) <-> locked (data (w k))).
    { intro k. destruct (pk_dec k asset) as [->|N]; [|now rewrite (U1 _ N)]. destruct U4 as (Q1 & Q2 & _). unfold locked. now rewrite Q1, Q2. }
    split.
    - intros N k K Q. rewrite <- LK. rewrite <- U2 in Q. destruct K as [<-|[<-|[<-|[]]]].
      + apply (N (mkInfo asset true true)); [now left|exact Q].
      + apply (N (mkInfo signer true false)); [right; now left|exact Q].
      + apply (N (mkInfo recipient false false)); [right; right; now left|exact Q].
    - intros N a X. cbn in X. cbn [in_cpi e_prog]. rewrite U2, LK. destruct X as [<-|[<-|[<-|[<-|[]]]]]; cbn [ai_key absent]; intro Q; [apply N; [cbn; auto|exact Q]..|contradiction]. }
  assert (K2 : authorized (data (w3 asset)) l3 signer RTransfer <-> may_pass_on (data (w asset)) signer).
  { unfold authorized, may_pass_on, delegate_is. rewrite LM, U5, U6, U7. reflexivity. }
  rewrite K1, K2 in TX.
  assert (TX' : (exists w', process (in_cpi e) M w3 ITransfer = Ok w') <->
    (forall k, In k [asset; signer; recipient] -> acct_owner (w k) = e_prog e -> ~ locked (data (w k))) /\ may_pass_on (data (w asset)) signer /\
    (s_owner (data (w asset)) = pk_bytes recipient \/ s_group (data (w asset)) = no_key)).
  { rewrite TX. assert (G3 : s_group (data (w3 asset)) = s_group (data (w asset))) by apply U4. rewrite U5, G3. split.
    - intros (_ & Q1 & _ & Q2 & _ & _ & Q3). split; [assumption|]. split; [assumption|].
      destruct (list_eq_dec byte_eq_dec (s_owner (data (w asset))) (pk_bytes recipient)) as [E|N]; [now left|right].
      destruct (list_eq_dec byte_eq_dec (s_group (data (w asset))) no_key) as [E|N']; [assumption|].
      destruct (Q3 N N' LR) as (g' & Q & _). discriminate Q.
    - intros (Q1 & Q2 & Q3). split; [intros _; exact SA|]. split; [assumption|]. split; [assumption|]. split; [assumption|].
      split; [rewrite St; discriminate|]. split; [intros b Q; congruence|]. intros N1 N2. destruct Q3; contradiction. }
  clear TX K1 K2. rewrite <- TX'. split.
  - intros [w' H]. apply invoke_iff in H as (pda & i & I1 & I2 & I3 & I4 & I5 & I6 & I7).
    assert (IT : instr_ok ITransfer) by exact I. apply instr_unambiguous in I5; [subst i|assumption|assumption].
    split; [|exists w'; exact I6]. apply Forall_cons_iff in I3 as [_ I3]. apply Forall_cons_iff in I3 as [Gs _]. apply granted_iff in Gs as (_ & Gs & _).
    assert (pda = asset) as -> by congruence. exact (Gs eq_refl).
  - intros [Q1 [w' H]]. exists w'. apply invoke_iff. exists asset, ITransfer. split; [exact C|]. split; [assumption|].
    split.
    { repeat (constructor; [apply granted_iff; cbn [ai_key ai_signer ai_writable absent]|]); [| | | |constructor].
      - split; [exact (arg_mentions _ _ A0)|]. auto.
      - split; [exact (arg_mentions _ _ A1)|]. split; [auto|discriminate].
      - split; [exact (arg_mentions _ _ A2)|]. split; discriminate.
      - split; [assumption|]. split; discriminate. }
    split; [exact I|]. split; [reflexivity|]. split; [exact H|].
    intros i _. rewrite <- U3. destruct (transfer_effect _ _ _ _ H) as (a & rc & B0 & _ & Hc).
    assert (a = asset) as -> by (eapply arg_det; [exact B0|eexists; split; reflexivity]).
    destruct Hc as [[_ Hw]|(_ & (F & _) & Ln & _)]; [rewrite Hw; lia|].
    destruct (pk_dec (ai_key i) asset) as [->|N]; [unfold zlen; lia|rewrite (F _ N); lia].
Qed.
Lemma pass_goes : goes (proxy_entry pe e me infos w (write_instr ITransfer)) <-> passes.
Proof using He Hz Hal Hfu Hs Hl Ht HC Hn Hn0 A0 A1 A2 A3 Hps Hpr Hpp.
  assert (IT : instr_ok ITransfer) by exact I. unfold proxy_entry. rewrite (asset_not_own _ IT), (instr_round _ IT).
  pose proof HC as (Ho & Hd & Hst & Ha & Hm & HP & l & s & t & doc & HT & EL & Hsh & Zs & Zd).
  assert (CR : caring e asset w l).
  { split; [assumption|]. split; [assumption|]. repeat (split; [assumption|]). split; [|assumption]. rewrite <- ext_list_length, EL. reflexivity. }
  pose proof HP as [Lb C].
  assert (HW : well_formed (data (w asset)) l) by (destruct HT as (hd & HT); exists hd, []; exact HT).
  unfold proxy_transfer. rewrite (arg_raw _ _ A0), (arg_raw _ _ A1), (arg_raw _ _ A2). cbn [bind].
  unfold opt_acct. rewrite (arg_raw _ _ A3). cbn [bind]. cbv zeta.
  rewrite (fetch_proxy_run _ _ pb HW ltac:(rewrite EL; reflexivity) Lb). cbn [bind p_seeds p_bump].
  destruct (get_wf _ _ XAttributes HW ltac:(discriminate)) as [[N _]|(off & b & L & G & _)]; [rewrite EL in N; discriminate N|].
  assert (b = counter_entry s) as -> by (rewrite EL in L; cbn in L; congruence). rewrite G. cbn [bind]. clear G L off.
  assert (ZS255 : zlen s <= 255) by lia.
  rewrite entry_pairs. unfold attributes_from_bytes, build_attributes.
  rewrite (proj1 (pairs_round [(TRANSFERS, s)] ltac:(repeat constructor; cbn [fst snd]; [vm_compute; discriminate|exact ZS255]))). cbn [bind].
  change (pairs_get TRANSFERS [(TRANSFERS, s)]) with (Some s). cbn iota.
  unfold countable in Hn. rewrite (shows_parse s n Hsh ltac:(lia)). cbn [ok_or bind]. rewrite wrap_small by lia.
  rewrite counter_payload_entry, image_payload_entry, stamp_payload_entry.
  match goal with |- context [image_entry ?d] => set (doc' := d) in * end.
  set (s' := pad_left 12 (decimal (n + 1))) in *. set (t' := pe_now pe mod two64) in *.
  assert (Zs' : 12 <= zlen s' <= 13) by (apply counter_length; exact Hn).
  assert (Zd' : zlen doc' = zlen doc) by (unfold doc'; rewrite !zlen_app, colour_length, Zd; lia).
  assert (ZD : zlen doc <= 50011) by (unfold small_template in Ht; lia).
  set (sd := sub pb 32 32) in *. set (bp := nth 64 pb x00) in *.
  fold (upd_of XAttributes (counter_entry s')). fold (upd_of XBlob (image_entry doc')). fold (upd_of XProperties (stamp_entry t')).
  assert (S1 : simple XAttributes) by (repeat split; discriminate). assert (S2 : simple XBlob) by (repeat split; discriminate). assert (S3 : simple XProperties) by (repeat split; discriminate).
  assert (R1 : room_for (zlen (counter_entry s')) = room_for (zlen (counter_entry s))).
  { rewrite !zlen_counter. unfold room_for. assert (K : forall x, 12 <= x <= 13 -> (16 + (11 + x) + 7) / 8 = 5) by (intros x Hx; assert (x = 12 \/ x = 13) as [-> | ->] by lia; reflexivity). rewrite !K by assumption. reflexivity. }
  assert (R2 : room_for (zlen (image_entry doc')) = room_for (zlen (image_entry doc))) by (rewrite !zlen_image, Zd'; reflexivity).
  assert (R3 : room_for (zlen (stamp_entry t')) = room_for (zlen (stamp_entry t))) by (rewrite !zlen_stamp; reflexivity).
  assert (B1 : zlen (counter_entry s') <= 100000) by (rewrite zlen_counter; lia). assert (B2 : zlen (image_entry doc') <= 100000) by (rewrite zlen_image; lia).
  assert (B3 : zlen (stamp_entry t') <= 100000) by (rewrite zlen_stamp; lia).
  pose proof (arg_mentions _ _ A0) as Ma.
  assert (E1 : lookup XAttributes (ext_list l) = Some (counter_entry s)) by (rewrite EL; reflexivity).
  pose proof (care_goes e me infos asset sd bp He Hz Hal Hfu C w w XAttributes (counter_entry s') _ l CR Ma (fun k => eq_refl) S1 ltac:(discriminate) ltac:(discriminate) B1 E1 (entry_parses s ltac:(lia)) (entry_parses s' ltac:(lia)) R1) as G1.
  rewrite goes_require, listed_iff. unfold passes.
  assert (MP : mentions (skipn 4 infos) (e_prog e) -> mentions infos (e_prog e)).
  { intros (x & X & E). exists x. split; [|assumption]. rewrite <- (firstn_skipn 4 infos). apply in_or_app. now right. }
  rewrite goes_bind. split.
  - intros [Mp (w1 & H1 & H)]. split; [assumption|]. pose proof (proj1 G1 (ex_intro _ w1 H1)) as [Mp' Wr]. split; [assumption|].
    apply care_invoked in H1; [|assumption]. destruct (care_next e asset He Hz w _ _ _ l w1 CR S1 B1 E1 R1 H1) as (l1 & CR1 & EL1 & U1).
    apply goes_bind in H as (w2 & H2 & H). apply care_invoked in H2; [|assumption].
    assert (E2 : lookup XBlob (ext_list l1) = Some (image_entry doc)) by (rewrite EL1, EL; reflexivity).
    destruct (care_next e asset He Hz w1 _ _ _ l1 w2 CR1 S2 B2 E2 R2 H2) as (l2 & CR2 & EL2 & U2).
    apply goes_bind in H as (w3 & H3 & H). apply care_invoked in H3; [|assumption].
    assert (E3 : lookup XProperties (ext_list l2) = Some (stamp_entry t)) by (rewrite EL2, EL1, EL; reflexivity).
    destruct (care_next e asset He Hz w2 _ _ _ l2 w3 CR2 S3 B3 E3 R3 H3) as (l3 & CR3 & EL3 & U3).
    pose proof (unmoved_trans _ _ _ _ (unmoved_trans _ _ _ _ U1 U2) U3) as U.
    apply (care_transfer sd bp w3 l3 C CR3 U Mp' Wr) in H; [exact H| |]; rewrite EL3, EL2, EL1, EL; reflexivity.
  - intros (Mp & Wr & H). split; [assumption|]. pose proof (MP Mp) as Mp'.
    destruct (proj2 G1 (conj Mp' Wr)) as [w1 H1]. exists w1. split; [exact H1|].
    apply care_invoked in H1; [|assumption]. destruct (care_next e asset He Hz w _ _ _ l w1 CR S1 B1 E1 R1 H1) as (l1 & CR1 & EL1 & U1).
    assert (E2 : lookup XBlob (ext_list l1) = Some (image_entry doc)) by (rewrite EL1, EL; reflexivity).
    assert (Z1 : forall k, zlen (data (w1 k)) = zlen (data (w k))) by apply U1.
    destruct (proj2 (care_goes e me infos asset sd bp He Hz Hal Hfu C w w1 XBlob (image_entry doc') _ l1 CR1 Ma Z1 S2 ltac:(discriminate) ltac:(discriminate) B2 E2 (image_parses _) (image_parses _) R2) (conj Mp' Wr)) as [w2 H2].
    apply goes_bind. exists w2. split; [exact H2|]. apply care_invoked in H2; [|assumption].
    destruct (care_next e asset He Hz w1 _ _ _ l1 w2 CR1 S2 B2 E2 R2 H2) as (l2 & CR2 & EL2 & U2).
    pose proof (unmoved_trans _ _ _ _ U1 U2) as U12.
    assert (Z2 : forall k, zlen (data (w2 k)) = zlen (data (w k))) by apply U12.
    assert (E3 : lookup XProperties (ext_list l2) = Some (stamp_entry t)) by (rewrite EL2, EL1, EL; reflexivity).
    destruct (proj2 (care_goes e me infos asset sd bp He Hz Hal Hfu C w w2 XProperties (stamp_entry t') _ l2 CR2 Ma Z2 S3 ltac:(discriminate) ltac:(discriminate) B3 E3 (stamp_parses _) (stamp_parses _) R3) (conj Mp' Wr)) as [w3 H3].
    apply goes_bind. exists w3. split; [exact H3|]. apply care_invoked in H3; [|assumption].
    destruct (care_next e asset He Hz w2 _ _ _ l2 w3 CR2 S3 B3 E3 R3 H3) as (l3 & CR3 & EL3 & U3).
    pose proof (unmoved_trans _ _ _ _ U12 U3) as U.
    apply (care_transfer sd bp w3 l3 C CR3 U Mp' Wr); [| |exact H]; rewrite EL3, EL2, EL1, EL; reflexivity.
Qed.
Lemma pass_run w' : proxy_entry pe e me infos w (write_instr ITransfer) = Ok w' -> exists sd bp w3 l3 s' t' doc',
  e_cpa e sd bp (pk_bytes me) = Some asset /\ caring e asset w3 l3 /\ unmoved asset w w3 /\
  ext_list l3 = [(XAttributes, counter_entry s'); (XProperties, stamp_entry t'); (XProxy, pb); (XBlob, image_entry doc')] /\
  shows s' (n + 1) /\ 12 <= zlen s' <= 13 /\ zlen doc' = zlen (pe_before pe) + 11 + zlen (pe_after pe) /\ t' = pe_now pe mod two64 /\
  process (in_cpi e) (transfer_metas e asset signer recipient) w3 ITransfer = Ok w'.
Proof using He Hz Hal Hfu Hs Hl Ht HC Hn Hn0 A0 A1 A2 A3 Hps Hpr Hpp.
  assert (IT : instr_ok ITransfer) by exact I. unfold proxy_entry. rewrite (asset_not_own _ IT), (instr_round _ IT).
  pose proof HC as (Ho & Hd & Hst & Ha & Hm & HP & l & s & t & doc & HT & EL & Hsh & Zs & Zd).
  assert (CR : caring e asset w l).
  { split; [assumption|]. split; [assumption|]. repeat (split; [assumption|]). split; [|assumption]. rewrite <- ext_list_length, EL. reflexivity. }
  pose proof HP as [Lb C].
  assert (HW : well_formed (data (w asset)) l) by (destruct HT as (hd & HT); exists hd, []; exact HT).
  unfold proxy_transfer. rewrite (arg_raw _ _ A0), (arg_raw _ _ A1), (arg_raw _ _ A2). cbn [bind].
  unfold opt_acct. rewrite (arg_raw _ _ A3). cbn [bind]. cbv zeta.
  rewrite (fetch_proxy_run _ _ pb HW ltac:(rewrite EL; reflexivity) Lb). cbn [bind p_seeds p_bump].
  destruct (get_wf _ _ XAttributes HW ltac:(discriminate)) as [[N _]|(off & b & L & G & _)]; [rewrite EL in N; discriminate N|].
  assert (b = counter_entry s) as -> by (rewrite EL in L; cbn in L; congruence). rewrite G. cbn [bind]. clear G L off.
  assert (ZS255 : zlen s <= 255) by lia.
  rewrite entry_pairs. unfold attributes_from_bytes, build_attributes.
  rewrite (proj1 (pairs_round [(TRANSFERS, s)] ltac:(repeat constructor; cbn [fst snd]; [vm_compute; discriminate|exact ZS255]))). cbn [bind].
  change (pairs_get TRANSFERS [(TRANSFERS, s)]) with (Some s). cbn iota.
  unfold countable in Hn. rewrite (shows_parse s n Hsh ltac:(lia)). cbn [ok_or bind]. rewrite wrap_small by lia.
  rewrite counter_payload_entry, image_payload_entry, stamp_payload_entry.
  match goal with |- context [image_entry ?d] => set (doc' := d) in * end.
  set (s' := pad_left 12 (decimal (n + 1))) in *. set (t' := pe_now pe mod two64) in *.
  assert (Zs' : 12 <= zlen s' <= 13) by (apply counter_length; exact Hn).
  assert (Zd' : zlen doc' = zlen doc) by (unfold doc'; rewrite !zlen_app, colour_length, Zd; lia).
  assert (ZD : zlen doc <= 50011) by (unfold small_template in Ht; lia).
  set (sd := sub pb 32 32) in *. set (bp := nth 64 pb x00) in *.
  fold (upd_of XAttributes (counter_entry s')). fold (upd_of XBlob (image_entry doc')). fold (upd_of XProperties (stamp_entry t')).
  assert (S1 : simple XAttributes) by (repeat split; discriminate). assert (S2 : simple XBlob) by (repeat split; discriminate). assert (S3 : simple XProperties) by (repeat split; discriminate).
  assert (R1 : room_for (zlen (counter_entry s')) = room_for (zlen (counter_entry s))).
  { rewrite !zlen_counter. unfold room_for. assert (K : forall x, 12 <= x <= 13 -> (16 + (11 + x) + 7) / 8 = 5) by (intros x Hx; assert (x = 12 \/ x = 13) as [-> | ->] by lia; reflexivity). rewrite !K by assumption. reflexivity. }
  assert (R2 : room_for (zlen (image_entry doc')) = room_for (zlen (image_entry doc))) by (rewrite !zlen_image, Zd'; reflexivity).
  assert (R3 : room_for (zlen (stamp_entry t')) = room_for (zlen (stamp_entry t))) by (rewrite !zlen_stamp; reflexivity).
  assert (B1 : zlen (counter_entry s') <= 100000) by (rewrite zlen_counter; lia). assert (B2 : zlen (image_entry doc') <= 100000) by (rewrite zlen_image; lia).
  assert (B3 : zlen (stamp_entry t') <= 100000) by (rewrite zlen_stamp; lia).
  pose proof (arg_mentions _ _ A0) as Ma.
  assert (E1 : lookup XAttributes (ext_list l) = Some (counter_entry s)) by (rewrite EL; reflexivity).
  intro H. apply require_ok in H as [_ H].
  apply bind_ok in H as (w1 & H1 & H). apply care_invoked in H1; [|assumption]. destruct (care_next e asset He Hz w _ _ _ l w1 CR S1 B1 E1 R1 H1) as (l1 & CR1 & EL1 & U1).
  apply bind_ok in H as (w2 & H2 & H). apply care_invoked in H2; [|assumption].
  assert (E2 : lookup XBlob (ext_list l1) = Some (image_entry doc)) by (rewrite EL1, EL; reflexivity).
  destruct (care_next e asset He Hz w1 _ _ _ l1 w2 CR1 S2 B2 E2 R2 H2) as (l2 & CR2 & EL2 & U2).
  apply bind_ok in H as (w3 & H3 & H). apply care_invoked in H3; [|assumption].
  assert (E3 : lookup XProperties (ext_list l2) = Some (stamp_entry t)) by (rewrite EL2, EL1, EL; reflexivity).
  destruct (care_next e asset He Hz w2 _ _ _ l2 w3 CR2 S3 B3 E3 R3 H3) as (l3 & CR3 & EL3 & U3).
  pose proof (unmoved_trans _ _ _ _ (unmoved_trans _ _ _ _ U1 U2) U3) as U.
  exists sd, bp, w3, l3, s', t', doc'. split; [exact C|]. split; [assumption|]. split; [assumption|].
  split; [rewrite EL3, EL2, EL1, EL; reflexivity|]. split; [apply decimal_shows; lia|]. split; [assumption|]. split; [lia|]. split; [reflexivity|].
  apply invoke_iff in H as (pda & i & _ & _ & _ & I4 & I5 & I6 & _). apply instr_unambiguous in I5; [subst i|assumption|assumption]. exact I6.
Qed.
Lemma pass_effect w' : proxy_entry pe e me infos w (write_instr ITransfer) = Ok w' ->
  in_care pe e me w' asset pb (n + 1) /\ s_owner (data (w' asset)) = pk_bytes recipient /\ same_terms (data (w asset)) (data (w' asset)) /\
  (forall k, zlen (data (w' k)) = zlen (data (w k))) /\ (forall k, acct_owner (w' k) = acct_owner (w k)) /\ (forall k, k <> asset -> data (w' k) = data (w k)) /\
  sized w' /\ lam_ok w'.
Proof using He Hz Hal Hfu Hs Hl Ht HC Hn Hn0 A0 A1 A2 A3 Hps Hpr Hpp.
  intro H. destruct (pass_run w' H) as (sd & bp & w3 & l3 & s' & t' & doc' & C & (S3 & L3 & O3 & D3 & Au3 & Mu3 & T3 & N3 & P3) & (U1 & U2 & U3 & U4 & U5 & U6 & U7) & EL & Sh & Zs & Zd & _ & X).
  destruct HC as (Ho & Hd & Hst & Ha & Hm & HP & _).
  assert (W3 : well_formed (data (w3 asset)) l3) by (destruct T3 as (hd & T3); exists hd, []; exact T3).
  assert (B0 : arg (transfer_metas e asset signer recipient) 0 asset) by (eexists; split; reflexivity).
  destruct (process_transfer_effect _ _ _ _ asset _ S3 B0 W3 X) as (sg & rc & B1 & _ & B2 & O' & W' & T' & _ & FF).
  apply transfer_metas_args in B1, B2. subst sg rc.
  assert (K : length (data (w' asset)) = length (data (w3 asset)) /\ forall k, acct_owner (w' k) = acct_owner (w3 k) /\ lamports (w' k) = lamports (w3 k)).
  { destruct (transfer_effect _ _ _ _ X) as (a & rc & B & _ & Hc). assert (a = asset) as -> by exact (arg_det _ _ _ _ B B0).
    destruct Hc as [[_ Hw]|(_ & (F & G1 & G2) & Ln & _)]; [split; [now rewrite Hw|intro k; now rewrite Hw]|].
    split; [exact Ln|]. intro k. destruct (pk_dec k asset) as [->|N]; [auto|rewrite (F _ N); auto]. }
  destruct K as [Ln K].
  assert (Z' : forall k, zlen (data (w' k)) = zlen (data (w3 k))).
  { intro k. destruct (pk_dec k asset) as [->|N]; [unfold zlen; now rewrite Ln|now rewrite (FF _ N)]. }
  pose proof (same_terms_trans _ _ _ U4 T') as TT.
  split.
  { split; [rewrite (proj1 (K asset)); assumption|]. destruct TT as (Q1 & Q2 & Q3 & Q4 & Q5 & Q6 & Q7). split; [congruence|]. split; [congruence|]. split; [congruence|].
    split; [unfold mutable in *; congruence|]. split; [assumption|]. exists l3, s', t', doc'. split; [|auto].
    destruct W' as (hd & tl & L'). exists hd. assert (tl = []) as <-; [|exact L'].
    destruct L' as (E & Hh & HF & _). pose proof (tight_size _ _ T3) as Z3. rewrite <- Z', E, !zlen_app, zlen_enc_sect, Hh, (sect_rooms _ HF) in Z3 by assumption.
    destruct tl; [reflexivity|]. unfold zlen in Z3. cbn [length] in Z3. lia. }
  split; [assumption|]. split; [assumption|]. split; [intro k; rewrite Z'; apply U3|].
  split; [intro k; rewrite (proj1 (K k)); apply U2|]. split; [intros k N; rewrite (FF _ N); apply U1, N|].
  split; [intro k; rewrite Z'; apply S3|intro k; rewrite (proj2 (K k)); apply L3].
Qed.
Lemma grouped_stays : s_group (data (w asset)) <> no_key -> s_owner (data (w asset)) <> pk_bytes recipient ->
  forall w', proxy_entry pe e me infos w (write_instr ITransfer) <> Ok w'.
Proof using He Hz Hal Hfu Hs Hl Ht HC Hn Hn0 A0 A1 A2 A3 Hps Hpr Hpp.
  intros G O w' H. assert (P : passes) by (apply pass_goes; exists w'; exact H). destruct P as (_ & _ & _ & _ & _ & [Q|Q]); contradiction.
Qed.
End Pass.

(** ** A chain of transfers *)
Lemma in_care_image pe pe' e me w asset pb n : same_image pe pe' -> in_care pe e me w asset pb n <-> in_care pe' e me w asset pb n.
Proof. intros [E1 E2]. unfold in_care. rewrite E1, E2. reflexivity. Qed.
Lemma same_image_small pe pe' : same_image pe pe' -> small_template pe -> small_template pe'.
Proof. intros [E1 E2]. unfold small_template. rewrite E1, E2. auto. Qed.
Lemma passed_chain e me asset pb pe : env_ok e -> e_prog e <> pk_zero -> e_heap_al e mod 8 = 0 -> (4 < e_fuel e)%nat -> small_template pe ->
  forall r w from n, sized w -> lam_ok w -> in_care pe e me w asset pb n -> 0 <= n -> countable (n + zlen r) ->
  acct_owner (w (e_prog e)) <> e_prog e -> ~ locked (data (w asset)) -> s_group (data (w asset)) = no_key ->
  s_owner (data (w asset)) = pk_bytes from -> acct_owner (w from) <> e_prog e ->
  Forall (fun x => same_image pe (fst x) /\ acct_owner (w (snd x)) <> e_prog e) r ->
  exists w', passed_on e me asset from r w w' /\ in_care pe e me w' asset pb (n + zlen r) /\ s_owner (data (w' asset)) = pk_bytes (last_holder from r) /\
    same_terms (data (w asset)) (data (w' asset)) /\ (forall k, zlen (data (w' k)) = zlen (data (w k))) /\ (forall k, k <> asset -> data (w' k) = data (w k)).
Proof.
  intros He Hz Hal Hfu Ht. induction r as [|[pe' to] r IH]; intros w from n Hs Hl HC Hn0 Hn Hpp Hlk Hg Ho Hf HF.
  - exists w. split; [constructor|]. unfold zlen in *. cbn [length] in *. rewrite Z.add_0_r. unfold same_terms. auto 12.
  - assert (ZR : zlen ((pe', to) :: r) = 1 + zlen r) by (unfold zlen; cbn [length]; lia). assert (ZP : 0 <= zlen r) by (unfold zlen; lia).
    rewrite ZR in *. apply Forall_cons_iff in HF as [[HI Hto] HF]. cbn [fst snd] in HI, Hto.
    pose proof (proj1 (in_care_image _ _ e me w asset pb n HI) HC) as HC'. pose proof (same_image_small _ _ HI Ht) as Ht'.
    assert (Hn1 : countable (n + 1)) by (unfold countable in *; lia).
    set (infos := pass_accounts e asset from to).
    assert (A0 : arg infos 0 asset) by (eexists; split; reflexivity). assert (A1 : arg infos 1 from) by (eexists; split; reflexivity).
    assert (A2 : arg infos 2 to) by (eexists; split; reflexivity). assert (A3 : arg infos 3 (e_prog e)) by (eexists; split; reflexivity).
    assert (P1 : plain_at e w from) by (intro Q; contradiction). assert (P2 : plain_at e w to) by (intro Q; contradiction).
    destruct (proj2 (pass_goes pe' e me infos w asset from to (e_prog e) pb n He Hz Hal Hfu Hs Hl Ht' HC' Hn1 Hn0 A0 A1 A2 A3 P1 P2 Hpp)) as [w1 H1].
    { split; [eexists; split; [left; reflexivity|reflexivity]|]. split; [eexists; split; [left; reflexivity|split; reflexivity]|].
      split; [left; eexists; split; [right; left; reflexivity|split; reflexivity]|].
      split; [intros k [<-|[<-|[<-|[]]]] Q; [assumption|contradiction|contradiction]|]. split; [left; assumption|right; assumption]. }
    destruct (pass_effect pe' e me infos w asset from to (e_prog e) pb n He Hz Hal Hfu Hs Hl Ht' HC' Hn1 Hn0 A0 A1 A2 A3 P1 P2 Hpp w1 H1) as (C1 & O1 & T1 & Z1 & W1 & F1 & S1 & L1).
    apply (in_care_image _ _ e me w1 asset pb (n + 1) HI) in C1. pose proof T1 as (Q1 & Q2 & _ & _ & Q5 & _).
    destruct (IH w1 to (n + 1) S1 L1 C1 ltac:(lia) ltac:(replace (n + 1 + zlen r) with (n + (1 + zlen r)) by lia; exact Hn) ltac:(now rewrite W1)
      ltac:(unfold locked in *; rewrite Q1, Q2; assumption) ltac:(now rewrite Q5) O1 ltac:(now rewrite W1)
      ltac:(eapply Forall_impl; [|exact HF]; intros x [X1 X2]; now rewrite W1)) as (w' & R & C' & O' & T' & Z' & F').
    exists w'. split; [econstructor; [exact H1|exact R]|]. split; [replace (n + (1 + zlen r)) with (n + 1 + zlen r) by lia; exact C'|].
    split; [rewrite O'; unfold last_holder; cbn [map snd]; f_equal; destruct (map snd r) eqn:E; [reflexivity|]|].
    { cbn [last]. clear. revert p. induction l as [|y l IHl]; intro x; [reflexivity|]. cbn. cbn in IHl. apply IHl. }
    split; [eapply same_terms_trans; eassumption|]. split; [intro k; rewrite Z'; apply Z1|intros k N; rewrite F' by assumption; apply F1, N].
Qed.

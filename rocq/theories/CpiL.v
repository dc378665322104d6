(** Lemmas: calls of the asset program from other programs. *)
From Verif Require Import Base State Layout Constr Ext World Proc Borsh Client Proxy Bridge Rs Cpi BaseL Spec SpecB SpecI SpecP SpecD SpecO WorldL HeadL BorshL ConstrL ProxyL BridgeL DeclL RsL.
From Coq Require Import Strings.Byte.

Lemma granted0_iff infos m : granted0 infos m = true <->
  mentions infos (ai_key m) /\ (ai_signer m = true -> signs infos (ai_key m)) /\ (ai_writable m = true -> writes infos (ai_key m)).
Proof.
  unfold granted0. rewrite !andb_true_iff, listed_iff, !orb_true_iff, !negb_true_iff.
  rewrite is_signer_spec, is_writable_spec. unfold signs, writes.
  destruct (ai_signer m), (ai_writable m); intuition discriminate.
Qed.
Lemma invoke0_iff e infos w0 w metas i w' : instr_ok i -> invoke0 e infos w0 w metas (write_instr i) = Ok w' <->
  mentions infos (e_prog e) /\ Forall (fun m => granted0 infos m = true) metas /\ process (in_cpi e) metas w i = Ok w' /\ bounded_growth infos w0 w'.
Proof.
  intro Hi. unfold invoke0. rewrite <- listed_iff, <- grown_iff. unfold entry. rewrite (instr_round _ Hi). split.
  - intro H. apply require_ok in H as [H1 H]. apply require_ok in H as [H2 H]. apply bind_ok in H as (w1 & H3 & H). apply require_ok in H as [H4 H].
    apply Ok_inj in H. subst w1. split; [exact H1|]. split; [apply Forall_forall; now apply forallb_forall|]. split; [exact H3|exact H4].
  - intros (H1 & H2 & H3 & H4). rewrite H1. cbn [require]. assert (G : forallb (granted0 infos) metas = true) by (apply forallb_forall; now apply Forall_forall).
    rewrite G. cbn [require]. rewrite H3. cbn [bind]. rewrite H4. reflexivity.
Qed.
(** the program handed over does not matter when the accounts named are handed over *)
Lemma call_iff e me infos w0 w sd program keys metas i w' : instr_ok i ->
  (forall m, In m metas -> ai_key m = e_prog e \/ In (ai_key m) keys) ->
  cpi_call e me infos w0 w sd program keys metas (write_instr i) = Ok w' <->
  mentions infos (e_prog e) /\ seeds_good e me sd /\ Forall (may_pass e me infos sd) metas /\ process (in_cpi e) metas w i = Ok w' /\ bounded_growth infos w0 w'.
Proof.
  intros Hi HK. unfold cpi_call.
  assert (G : forallb (fun m => pk_eqb (ai_key m) (e_prog e) || existsb (pk_eqb (ai_key m)) (program :: keys)) metas = true).
  { apply forallb_forall. intros m Hm. apply orb_true_iff. destruct (HK m Hm) as [Q|Q]; [left; now apply pk_eqb_eq|right].
    apply existsb_exists. exists (ai_key m). split; [now right|now apply pk_eqb_eq]. }
  rewrite G. cbn [require]. destruct sd as [[s b]|]; unfold may_pass, signs_for, seeds_good.
  - rewrite invoke_iff. split.
    + intros (pda & j & H1 & H2 & H3 & H4 & H5 & H6 & H7). assert (j = i) as -> by (pose proof (instr_round i Hi) as A; pose proof (instr_round j H4) as B; rewrite H5 in A; congruence).
      split; [exact H2|]. split; [eauto|]. split; [|split; assumption]. revert H3. apply Forall_impl. intros m Hm. apply granted_iff in Hm as (M1 & M2 & M3).
      split; [exact M1|]. split; [|exact M3]. intro Q. destruct (M2 Q) as [?|R]; [now left|right]. rewrite H1. now rewrite R.
    + intros (H2 & (pda & H1) & H3 & H6 & H7). exists pda, i. split; [exact H1|]. split; [exact H2|]. split; [|split; [exact Hi|split; [reflexivity|split; assumption]]].
      revert H3. apply Forall_impl. intros m (M1 & M2 & M3). apply granted_iff. split; [exact M1|]. split; [|exact M3]. intro Q. destruct (M2 Q) as [?|R]; [now left|right]. congruence.
  - rewrite (invoke0_iff _ _ _ _ _ _ _ Hi). split.
    + intros (H1 & H2 & H3 & H4). split; [exact H1|]. split; [exact I|]. split; [|split; assumption]. revert H2. apply Forall_impl. intros m Hm. apply granted0_iff in Hm as (M1 & M2 & M3). tauto.
    + intros (H1 & _ & H2 & H3 & H4). split; [exact H1|]. split; [|split; assumption]. revert H2. apply Forall_impl. intros m (M1 & M2 & M3). apply granted0_iff. tauto.
Qed.

(** ** The lists *)
Definition sign_first (l : list ainfo) : list ainfo := match l with [] => [] | a :: r => mkInfo (ai_key a) true (ai_writable a) :: r end.
Lemma if_metas_sign prog x : if_metas prog x = sign_first (rs_metas prog x).
Proof. destruct x; reflexivity. Qed.
Lemma rs_metas_first prog x : exists s r, rs_metas prog x = mkInfo (about x) s true :: r.
Proof. destruct x; cbn [rs_metas about]; eexists; eexists; reflexivity. Qed.
Lemma rs_metas_keys prog x m : In m (rs_metas prog x) -> ai_key m = prog \/ In (ai_key m) (rs_keys x).
Proof.
  destruct x; repeat match goal with o : option pubkey |- _ => destruct o end; cbn; intro H;
    repeat (destruct H as [<-|H]; [cbn; tauto|]); destruct H.
Qed.
Lemma if_metas_keys prog x m : In m (if_metas prog x) -> ai_key m = prog \/ In (ai_key m) (rs_keys x).
Proof.
  destruct x; repeat match goal with o : option pubkey |- _ => destruct o end; cbn; intro H;
    repeat (destruct H as [<-|H]; [cbn; tauto|]); destruct H.
Qed.
Lemma rest_keys r m : In m (map rest_meta r) -> In (ai_key m) (map (fun y : rest => fst (fst y)) r).
Proof. intro H. apply in_map_iff in H as (y & <- & Hy). cbn [rest_meta ai_key]. apply in_map_iff. eauto. Qed.

Lemma rs_cpi_iff e me infos w0 w sd program x r w' : instr_ok (rs_instr x) ->
  rs_cpi e me infos w0 w sd program x r = Ok w' <->
  mentions infos (e_prog e) /\ seeds_good e me sd /\ Forall (may_pass e me infos sd) (rs_metas (e_prog e) x ++ map rest_meta r) /\
  process (in_cpi e) (rs_metas (e_prog e) x ++ map rest_meta r) w (rs_instr x) = Ok w' /\ bounded_growth infos w0 w'.
Proof.
  intro Hi. apply call_iff; [exact Hi|]. intros m Hm. apply in_app_iff in Hm as [Hm|Hm].
  - destruct (rs_metas_keys _ _ _ Hm) as [?|?]; [now left|right; apply in_app_iff; now left].
  - right. apply in_app_iff. right. now apply rest_keys.
Qed.
Lemma if_cpi_iff e me infos w0 w sd program x r w' : instr_ok (rs_instr x) ->
  if_cpi e me infos w0 w sd program x r = Ok w' <->
  mentions infos (e_prog e) /\ seeds_good e me sd /\ Forall (may_pass e me infos sd) (if_metas (e_prog e) x ++ map rest_meta r) /\
  process (in_cpi e) (if_metas (e_prog e) x ++ map rest_meta r) w (rs_instr x) = Ok w' /\ bounded_growth infos w0 w'.
Proof.
  intro Hi. apply call_iff; [exact Hi|]. intros m Hm. apply in_app_iff in Hm as [Hm|Hm].
  - destruct (if_metas_keys _ _ _ Hm) as [?|?]; [now left|right; apply in_app_iff; now left].
  - right. apply in_app_iff. right. now apply rest_keys.
Qed.
Lemma rs_cpi_plain e me infos w0 w sd program x w' : instr_ok (rs_instr x) ->
  rs_cpi e me infos w0 w sd program x [] = Ok w' <->
  mentions infos (e_prog e) /\ seeds_good e me sd /\ Forall (may_pass e me infos sd) (fst (rs_build (e_prog e) x)) /\
  process (in_cpi e) (fst (rs_build (e_prog e) x)) w (rs_instr x) = Ok w' /\ bounded_growth infos w0 w'.
Proof. intro Hi. rewrite (rs_cpi_iff _ _ _ _ _ _ _ _ _ _ Hi). cbn [map]. rewrite app_nil_r. reflexivity. Qed.

(** ** The program passed *)
Lemma program_ignored e me infos w0 w sd p p' x r : instr_ok (rs_instr x) ->
  rs_cpi e me infos w0 w sd p x r = rs_cpi e me infos w0 w sd p' x r /\ if_cpi e me infos w0 w sd p x r = if_cpi e me infos w0 w sd p' x r.
Proof.
  intro Hi.
  assert (G : forall q keys metas, (forall m, In m metas -> ai_key m = e_prog e \/ In (ai_key m) keys) ->
    forallb (fun m => pk_eqb (ai_key m) (e_prog e) || existsb (pk_eqb (ai_key m)) (q :: keys)) metas = true).
  { intros q keys metas HK. apply forallb_forall. intros m Hm. apply orb_true_iff. destruct (HK m Hm) as [Q|Q]; [left; now apply pk_eqb_eq|right].
    apply existsb_exists. exists (ai_key m). split; [now right|now apply pk_eqb_eq]. }
  unfold rs_cpi, if_cpi, cpi_call. split; rewrite !G; try reflexivity; intros m Hm; apply in_app_iff in Hm as [Hm|Hm].
  all: try (right; apply in_app_iff; right; now apply rest_keys).
  all: first [destruct (rs_metas_keys _ _ _ Hm) as [?|?]|destruct (if_metas_keys _ _ _ Hm) as [?|?]]; [now left|right; apply in_app_iff; now left].
Qed.

(** ** Remaining accounts *)
Lemma rest_swapped l k wr sg : map rest_meta (add_rest l k wr sg) = map rest_meta l ++ [asked k sg wr].
Proof. unfold add_rest. rewrite map_app. reflexivity. Qed.
Lemma rest_blocked e me infos w0 w sd program x l k sg w' : instr_ok (rs_instr x) -> ~ signs infos k -> ~ signs_for e me sd k ->
  rs_cpi e me infos w0 w sd program x (add_rest l k true sg) <> Ok w' /\ if_cpi e me infos w0 w sd program x (add_rest l k true sg) <> Ok w'.
Proof.
  intros Hi N1 N2. split; intro H; [apply rs_cpi_iff in H|apply if_cpi_iff in H]; try exact Hi; destruct H as (_ & _ & H & _);
    rewrite rest_swapped in H; rewrite Forall_forall in H; destruct (H (asked k sg true)) as (_ & Q & _).
  all: try (apply in_app_iff; right; apply in_app_iff; right; now left).
  all: cbn [asked ai_signer ai_key] in Q; destruct (Q eq_refl); tauto.
Qed.

(** ** The interface crate's lists *)
Lemma if_needs_asset e me infos w0 w sd program x r w' : instr_ok (rs_instr x) -> if_cpi e me infos w0 w sd program x r = Ok w' ->
  signs infos (about x) \/ signs_for e me sd (about x).
Proof.
  intros Hi H. apply if_cpi_iff in H; [|exact Hi]. destruct H as (_ & _ & H & _). rewrite Forall_forall in H.
  destruct (rs_metas_first (e_prog e) x) as (s & l & E).
  assert (M : may_pass e me infos sd (mkInfo (about x) true true)).
  { apply H. apply in_app_iff. left. rewrite if_metas_sign, E. left. reflexivity. }
  destruct M as (_ & Q & _). exact (Q eq_refl).
Qed.
Lemma metas_short prog x : (length (rs_metas prog x) <= 7)%nat.
Proof. destruct x; cbn [rs_metas length]; lia. Qed.
Lemma passed_metas prog x : passed (rs_metas prog x) = rs_metas prog x.
Proof. unfold passed. apply firstn_all2. pose proof (metas_short prog x). unfold MAX_ACCOUNTS. lia. Qed.
Lemma sign_first_length l : length (sign_first l) = length l.
Proof. destruct l; reflexivity. Qed.
Lemma passed_if prog x : passed (sign_first (rs_metas prog x)) = sign_first (rs_metas prog x).
Proof. unfold passed. apply firstn_all2. rewrite sign_first_length. pose proof (metas_short prog x). unfold MAX_ACCOUNTS. lia. Qed.
Lemma ex_cons (P : ainfo -> Prop) b l : P b \/ (exists a, In a l /\ P a) -> exists a, In a (b :: l) /\ P a.
Proof. intros [H|(a & H & Q)]; [exists b; split; [now left|exact H]|exists a; split; [now right|exact Q]]. Qed.
Lemma forall2_nth {A B} (R : A -> B -> Prop) l l' : Forall2 R l l' -> forall n x y, nth_error l n = Some x -> nth_error l' n = Some y -> R x y.
Proof. induction 1 as [|a b l l' H _ IH]; intros [|n] x y Hx Hy; try discriminate; [cbn in Hx, Hy; congruence|exact (IH n x y Hx Hy)]. Qed.
Lemma if_same e x w : about x <> e_prog e -> (forall a au s st, x <> RsResize a au (a, false) s st) ->
  (acct_owner (w (about x)) = e_prog e -> s_standard (data (w (about x))) = x03 -> In (about x) (other_signers x)) ->
  process e (if_metas (e_prog e) x) w (rs_instr x) = process e (rs_metas (e_prog e) x) w (rs_instr x).
Proof.
  intros Na NR HP. symmetry. rewrite if_metas_sign. pose proof (rs_conforms (e_prog e) x) as C.
  destruct (rs_metas_first (e_prog e) x) as (s & l & E).
  assert (S1 : forall k, signed (rs_metas (e_prog e) x) k -> signed (sign_first (rs_metas (e_prog e) x)) k).
  { intros k (a & Ha & Hk & Hs). rewrite passed_metas, E in Ha. unfold signed. rewrite passed_if, E. cbn [sign_first ai_key ai_writable].
    destruct Ha as [<-|Ha]; [exists (mkInfo (about x) true true); split; [now left|split; [exact Hk|reflexivity]]|exists a; split; [now right|auto]]. }
  assert (S2 : forall k, signed (sign_first (rs_metas (e_prog e) x)) k -> k = about x \/ signed (rs_metas (e_prog e) x) k).
  { intros k (a & Ha & Hk & Hs). rewrite passed_if, E in Ha. cbn [sign_first ai_key ai_writable] in Ha. destruct Ha as [<-|Ha]; [left; cbn in Hk; congruence|right].
    exists a. rewrite passed_metas, E. split; [now right|auto]. }
  assert (SO : In (about x) (other_signers x) -> signed (rs_metas (e_prog e) x) (about x)).
  { clear. intro H. unfold signed. rewrite passed_metas.
    destruct x as [| |? ? ? ? [?|] [?|] ? ?| |? [?|] ? ?| | | | | |? ? ? ? [?|] ? ?| | | | | | |? ? [? []] ? ?]; cbn in H;
      repeat (destruct H as [H|H]; [cbn [rs_metas rs_opt]; repeat (apply ex_cons; first [left; split; [exact H|reflexivity]|right])|]); destruct H. }
  apply unused_flags.
  - split; [rewrite passed_metas, passed_if; rewrite E; reflexivity|].
    intros n d k Hn Hk. split.
    + intro Hd. split; [apply S1|]. intro H. destruct (S2 k H) as [->|?]; [|assumption].
      assert (F : exists a, nth_error (rs_metas (e_prog e) x) n = Some a /\ ai_key a = about x) by (destruct Hk as (a & Ha & Hk); rewrite passed_metas in Ha; eauto).
      destruct F as (a & Fa & Fk). assert (FD : fits_decl (e_prog e) d a) by (exact (forall2_nth _ _ _ C n d a Hn Fa)).
      destruct FD as [[_ ->]|[_ FD]]; [cbn in Fk; congruence|].
      destruct (d_sign d) eqn:Ed; [destruct Hd; reflexivity| |exists a; rewrite passed_metas; split; [now apply nth_error_In in Fa|auto]].
      destruct x; cbn in Hn, Fa, Fk;
        repeat (destruct n as [|n]; [cbn in Hn; try discriminate Hn; injection Hn as <-; try discriminate Ed|try discriminate Hn]).
      * unfold signed. rewrite passed_metas. eexists. split; [left; reflexivity|split; reflexivity].
      * cbn in Fa. injection Fa as <-. cbn in Fk. destruct payer as [p []]; cbn in Fk; subst p; [|destruct (NR asset authority sysp s0); reflexivity].
        unfold signed. rewrite passed_metas. eexists. split; [right; right; left; reflexivity|split; reflexivity].
    + intros _. unfold writable. rewrite passed_metas, passed_if, E. cbn [sign_first ai_key ai_writable].
      split; intros (a & [<-|Ha] & Q1 & Q2); [eexists; split; [now left|split; [exact Q1|reflexivity]]|exists a; split; [now right|auto]|eexists; split; [now left|split; [exact Q1|reflexivity]]|exists a; split; [now right|auto]].
  - intros k Hk Ho Hs. assert (k = about x) as ->.
    { destruct Hk as (a & Ha & Hk). rewrite passed_metas, E in Ha. cbn in Ha. injection Ha as <-. now cbn in Hk. }
    split; [apply S1|]. intros _. apply SO. now apply HP.
Qed.

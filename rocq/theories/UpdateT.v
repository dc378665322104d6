(** Update: the effect in the form the theorems state. *)
From Verif Require Import Base State Layout Constr Ext World Proc BaseL Spec SpecB WorldL ProcSteps FrameL LayoutL LayoutM LayoutE HeadL CreatorsL AllocL GroupL ValidL AllocC CreateL BuildL ResizeL UpdateL UpdateM.
From Coq Require Import Strings.Byte.

Lemma lookup_put_ext t b l : lookup t (put_ext t b l) = Some b.
Proof.
  unfold put_ext. destruct (lookup t l) as [c|] eqn:E.
  - revert E. induction l as [|[t' b'] l IH]; cbn [lookup replaced]; [discriminate|].
    destruct (ext_type_eqb t' t) eqn:Et; cbn [lookup]; rewrite Et; auto.
  - revert E. induction l as [|[t' b'] l IH]; cbn [lookup app].
    + now rewrite ext_type_eqb_refl.
    + destruct (ext_type_eqb t' t) eqn:Et; [discriminate|auto].
Qed.
Lemma lookup_put_ext_other t b l u : u <> t -> lookup u (put_ext t b l) = lookup u l.
Proof.
  intro Hu. unfold put_ext. destruct (lookup t l) as [c|] eqn:E.
  - clear E. induction l as [|[t' b'] l IH]; cbn [lookup replaced]; [reflexivity|].
    destruct (ext_type_eqb t' t) eqn:Et; cbn [lookup].
    + apply ext_type_eqb_eq in Et. subst t'. destruct (ext_type_eqb t u) eqn:Eu; [apply ext_type_eqb_eq in Eu; congruence|reflexivity].
    + destruct (ext_type_eqb t' u); auto.
  - clear E. induction l as [|[t' b'] l IH]; cbn [lookup app].
    + destruct (ext_type_eqb t u) eqn:Eu; [apply ext_type_eqb_eq in Eu; congruence|reflexivity].
    + destruct (ext_type_eqb t' u); auto.
Qed.
Lemma put_ext_split t b c l1 l2 : ~ In t (map fst l1) -> put_ext t b (l1 ++ (t, c) :: l2) = l1 ++ (t, b) :: l2.
Proof.
  intro H. assert (E : lookup t (l1 ++ (t, c) :: l2) = Some c).
  { induction l1 as [|[t' b'] l1 IH]; cbn [app lookup map fst In] in *; [now rewrite ext_type_eqb_refl|].
    destruct (ext_type_eqb t' t) eqn:Et; [apply ext_type_eqb_eq in Et; tauto|apply IH; tauto]. }
  unfold put_ext. rewrite E. clear E. induction l1 as [|[t' b'] l1 IH]; cbn [app replaced map fst In] in *; [now rewrite ext_type_eqb_refl|].
  destruct (ext_type_eqb t' t) eqn:Et; [apply ext_type_eqb_eq in Et; tauto|]. f_equal. apply IH. tauto.
Qed.
Lemma lookup_split t c l1 l2 : ~ In t (map fst l1) -> lookup t (l1 ++ (t, c) :: l2) = Some c.
Proof.
  intro H. induction l1 as [|[t' b'] l1 IH]; cbn [app lookup map fst In] in *; [now rewrite ext_type_eqb_refl|].
  destruct (ext_type_eqb t' t) eqn:Et; [apply ext_type_eqb_eq in Et; tauto|apply IH; tauto].
Qed.

(** payload supplied with the instruction *)
Lemma update_args e infos w a w' asset l x bs : env_ok e -> e_prog e <> pk_zero -> sized w ->
  arg infos 0 asset -> well_formed (data (w asset)) l ->
  u_ext a = Some x -> ext_arg x -> x_data x = Some bs ->
  process e infos w (IUpdate a) = Ok w' ->
  exists auth l' b, arg infos 1 auth /\ signed infos auth /\ s_authority (data (w asset)) = pk_bytes auth /\
    mutable (data (w asset)) /\ header_updated a (data (w asset)) (data (w' asset)) /\
    well_formed (data (w' asset)) l' /\ ext_list l' = put_ext (x_type x) b (ext_list l) /\
    stored (x_type x) (pk_bytes auth) (lookup (x_type x) (ext_list l)) bs b /\ x_length x = zlen bs /\
    (forall k, k <> asset -> data (w' k) = data (w k)).
Proof.
  intros He Hp Hs A0 (hd & tl & HL) Ex (X1 & X2 & _) Ed H.
  destruct (update_effect _ _ _ _ _ _ _ _ _ He Hp Hs A0 HL ltac:(intros x' Q; rewrite Ex in Q; injection Q as <-; auto) H)
    as (auth & hd' & l' & tl' & A1 & Sg & _ & _ & Au & Mu & Hu & L' & _ & _ & [(Q & _)|(buffer & t & b & _ & _ & EL & SS)]); [congruence|].
  exists auth, l'. unfold source_spec in SS. destruct buffer as [bk|]; [destruct SS as (_ & Q & _); congruence|].
  destruct SS as (x0 & Q & T1 & Ln & St & _ & Fr). rewrite Ex in Q. injection Q as <-. subst t. exists b.
  specialize (St _ Ed). repeat (split; [assumption|]). split; [eexists; eexists; eassumption|]. split; [assumption|]. split; [assumption|].
  split; [|assumption]. apply stored_len in St. unfold zlen in *. lia.
Qed.
(** no payload: nothing is validated, the extension ends up empty *)
Lemma update_none e infos w a w' asset l x : env_ok e -> e_prog e <> pk_zero -> sized w ->
  arg infos 0 asset -> well_formed (data (w asset)) l ->
  u_ext a = Some x -> ext_arg x -> x_data x = None ->
  process e infos w (IUpdate a) = Ok w' ->
  exists auth l', arg infos 1 auth /\ signed infos auth /\ s_authority (data (w asset)) = pk_bytes auth /\
    mutable (data (w asset)) /\ header_updated a (data (w asset)) (data (w' asset)) /\
    well_formed (data (w' asset)) l' /\ ext_list l' = put_ext (x_type x) [] (ext_list l) /\ x_length x = 0 /\
    (forall k, k <> asset -> data (w' k) = data (w k)).
Proof.
  intros He Hp Hs A0 (hd & tl & HL) Ex (X1 & X2 & _) Ed H.
  destruct (update_effect _ _ _ _ _ _ _ _ _ He Hp Hs A0 HL ltac:(intros x' Q; rewrite Ex in Q; injection Q as <-; auto) H)
    as (auth & hd' & l' & tl' & A1 & Sg & _ & _ & Au & Mu & Hu & L' & _ & _ & [(Q & _)|(buffer & t & b & _ & _ & EL & SS)]); [congruence|].
  exists auth, l'. unfold source_spec in SS. destruct buffer as [bk|]; [destruct SS as (_ & Q & _); congruence|].
  destruct SS as (x0 & Q & T1 & Ln & _ & Nn & Fr). rewrite Ex in Q. injection Q as <-. subst t. rewrite (Nn Ed) in *.
  repeat (split; [assumption|]). split; [eexists; eexists; eassumption|]. split; [assumption|]. split; [exact Ln|assumption].
Qed.
(** payload from a buffer account *)
Lemma update_buffer e infos w a w' asset l bk : env_ok e -> e_prog e <> pk_zero -> sized w ->
  arg infos 0 asset -> arg infos 2 bk -> bk <> e_prog e -> well_formed (data (w asset)) l ->
  (forall x, u_ext a = Some x -> ext_arg x) ->
  process e infos w (IUpdate a) = Ok w' ->
  exists auth t b l', arg infos 1 auth /\ signed infos auth /\ s_authority (data (w asset)) = pk_bytes auth /\
    mutable (data (w asset)) /\ header_updated a (data (w asset)) (data (w' asset)) /\
    u_ext a = None /\ bk <> asset /\ acct_owner (w bk) = e_prog e /\ 184 <= zlen (data (w bk)) /\ s_disc (data (w bk)) = x00 /\
    le32 (data (w bk)) 168 = ext_code t /\ t <> XNone /\ le32 (data (w bk)) 172 = zlen b /\
    well_formed (data (w' asset)) l' /\ ext_list l' = put_ext t b (ext_list l) /\
    b = sub (data (w' bk)) 184 (length b) /\
    (exists inp, stored t (pk_bytes auth) (lookup t (ext_list l)) (sub (data (w bk)) 168 (length b)) inp /\
       data (w' bk) = put (data (w bk)) 168 inp) /\
    (forall k, k <> asset -> k <> bk -> data (w' k) = data (w k)).
Proof.
  intros He Hp Hs A0 A2 Nb (hd & tl & HL) Hx H.
  destruct (update_effect _ _ _ _ _ _ _ _ _ He Hp Hs A0 HL ltac:(intros x' Q; apply Hx in Q as (?&?&_); auto) H)
    as (auth & hd' & l' & tl' & A1 & Sg & _ & _ & Au & Mu & Hu & L' & _ & _ & [(_ & Q & _)|(buffer & t & b & Hb & T & EL & SS)]).
  { elim Nb. exact (arg_det _ _ _ _ A2 Q). }
  assert (buffer = Some bk). { destruct Hb as [[_ Q]|(bk' & -> & Q & _)]; [elim Nb; exact (arg_det _ _ _ _ A2 Q)|f_equal; exact (arg_det _ _ _ _ Q A2)]. }
  subst buffer. destruct SS as (N & X & O & Z1 & D & C & inp & S1 & Ln & D2 & Eb & Fr).
  exists auth, t, b, l'. repeat (split; [assumption|]). split; [congruence|]. split; [eexists; eexists; eassumption|]. split; [assumption|]. split; [assumption|].
  split; [exists inp; auto|assumption].
Qed.
(** neither: extensions stay *)
Lemma update_header e infos w a w' asset l : env_ok e -> e_prog e <> pk_zero -> sized w ->
  arg infos 0 asset -> arg infos 2 (e_prog e) -> well_formed (data (w asset)) l -> u_ext a = None ->
  process e infos w (IUpdate a) = Ok w' ->
  exists auth, arg infos 1 auth /\ signed infos auth /\ s_authority (data (w asset)) = pk_bytes auth /\
    mutable (data (w asset)) /\ header_updated a (data (w asset)) (data (w' asset)) /\
    well_formed (data (w' asset)) l /\ (forall k, k <> asset -> data (w' k) = data (w k)).
Proof.
  intros He Hp Hs A0 A2 (hd & tl & HL) Ex H.
  destruct (update_effect e infos w a w' asset hd l tl He Hp Hs A0 HL ltac:(intros x Q; rewrite Ex in Q; discriminate Q) H)
    as (auth & hd' & l' & tl' & A1 & Sg & _ & _ & Au & Mu & Hu & L' & _ & _ & [(_ & _ & -> & Fr)|(buffer & t & b & Hb & T & EL & SS)]).
  - exists auth. repeat (split; [assumption|]). split; [eexists; eexists; eassumption|assumption].
  - destruct Hb as [[-> _]|(bk & -> & Q & N)].
    + destruct SS as (x0 & Q & _). congruence.
    + elim N. exact (arg_det _ _ _ _ Q A2).
Qed.

Lemma update_replaces e infos w a w' asset l x bs l1 cur l2 : env_ok e -> e_prog e <> pk_zero -> sized w ->
  arg infos 0 asset -> well_formed (data (w asset)) l ->
  u_ext a = Some x -> ext_arg x -> x_data x = Some bs ->
  ext_list l = l1 ++ (x_type x, cur) :: l2 -> ~ In (x_type x) (map fst l1) ->
  process e infos w (IUpdate a) = Ok w' ->
  exists auth l' b, arg infos 1 auth /\ signed infos auth /\ s_authority (data (w asset)) = pk_bytes auth /\
    mutable (data (w asset)) /\ header_updated a (data (w asset)) (data (w' asset)) /\
    well_formed (data (w' asset)) l' /\ ext_list l' = l1 ++ (x_type x, b) :: l2 /\
    updated_payload (x_type x) (pk_bytes auth) cur bs b /\ valid_payload (x_type x) b /\
    (forall k, k <> asset -> data (w' k) = data (w k)).
Proof.
  intros He Hp Hs A0 HW Ex Xa Ed El Hn H.
  destruct (update_args _ _ _ _ _ _ _ _ _ He Hp Hs A0 HW Ex Xa Ed H) as (auth & l' & b & A1 & Sg & Au & Mu & Hu & W' & EL & St & _ & Fr).
  rewrite El, put_ext_split in EL by assumption. rewrite El, lookup_split in St by assumption. destruct St as [U V].
  destruct V as [V _]. exists auth, l', b. auto 12.
Qed.
Lemma update_appends e infos w a w' asset l x bs : env_ok e -> e_prog e <> pk_zero -> sized w ->
  arg infos 0 asset -> well_formed (data (w asset)) l ->
  u_ext a = Some x -> ext_arg x -> x_data x = Some bs ->
  ~ In (x_type x) (map fst (ext_list l)) ->
  process e infos w (IUpdate a) = Ok w' ->
  exists auth l' b, arg infos 1 auth /\ signed infos auth /\ s_authority (data (w asset)) = pk_bytes auth /\
    mutable (data (w asset)) /\ header_updated a (data (w asset)) (data (w' asset)) /\
    well_formed (data (w' asset)) l' /\ ext_list l' = ext_list l ++ [(x_type x, b)] /\
    fresh_payload (x_type x) (Some (pk_bytes auth)) bs b /\ valid_new (x_type x) b /\
    x_type x <> XManager /\ x_type x <> XProxy /\
    (forall k, k <> asset -> data (w' k) = data (w k)).
Proof.
  intros He Hp Hs A0 HW Ex Xa Ed Hn H.
  destruct (update_args _ _ _ _ _ _ _ _ _ He Hp Hs A0 HW Ex Xa Ed H) as (auth & l' & b & A1 & Sg & Au & Mu & Hu & W' & EL & St & _ & Fr).
  apply lookup_none in Hn. unfold put_ext in EL. rewrite Hn in EL, St. destruct St as (? & ? & ? & ?). exists auth, l', b. auto 15.
Qed.
(** only for creators does validation touch the bytes that are copied *)
Lemma buffer_data t auth cur bd n inp : t <> XCreators -> 184 + Z.of_nat n <= zlen bd ->
  stored t auth cur (sub bd 168 n) inp -> sub (put bd 168 inp) 184 n = sub bd 184 n.
Proof.
  intros Ht Hn St.
  assert (Hi : inp = sub bd 168 n \/ (8 <= length (sub bd 168 n))%nat /\ exists s, inp = with_size s (sub bd 168 n)).
  { unfold stored in St. destruct cur as [c|].
    - destruct St as ((Ln & E & G & _) & V). destruct (ext_type_eqb t XGrouping) eqn:Et.
      + apply ext_type_eqb_eq in Et. subst t. cbn [valid_payload] in V. right. split; [lia|]. exists (gr_size c). now apply G.
      + left. apply E; [assumption|]. intros ->. discriminate Et.
    - destruct St as (_ & _ & (_ & E & _) & _). left. now apply E. }
  rewrite !sub_fld in *. change (Z.of_nat 168) with 168 in *. change (Z.of_nat 184) with 184.
  destruct Hi as [->|(L8 & v & ->)]; [rewrite put_same by lia; reflexivity|].
  assert (Hn8 : (8 <= n)%nat). { unfold fld in L8. rewrite firstn_length in L8. lia. }
  unfold with_size. assert (E8 : skipn 8 (fld bd 168 (Z.of_nat n)) = fld bd 176 (Z.of_nat n - 8)).
  { unfold fld. rewrite skipn_firstn_comm, skipn_skipn. replace (Z.to_nat (Z.of_nat n) - 8)%nat with (Z.to_nat (Z.of_nat n - 8)) by lia. reflexivity. }
  rewrite E8. rewrite <- put_app2 by (rewrite ?le_enc_zlen, ?zlen_fld; lia). rewrite le_enc_zlen. change (168 + Z.of_nat 8) with 176.
  rewrite <- (fld_put_after bd 168 (le_enc 8 v)) at 1 by (rewrite ?le_enc_zlen; lia).
  rewrite put_same by (rewrite ?zlen_put; rewrite ?le_enc_zlen; lia). apply fld_put_after; rewrite ?le_enc_zlen; lia.
Qed.
(** same two statements for the payload in a buffer account *)
Lemma update_buffer_exts e infos w a w' asset l bk : env_ok e -> e_prog e <> pk_zero -> sized w ->
  arg infos 0 asset -> arg infos 2 bk -> bk <> e_prog e -> well_formed (data (w asset)) l ->
  (forall x, u_ext a = Some x -> ext_arg x) ->
  process e infos w (IUpdate a) = Ok w' ->
  exists t b l', well_formed (data (w' asset)) l' /\ le32 (data (w bk)) 168 = ext_code t /\ le32 (data (w bk)) 172 = zlen b /\
    b = sub (data (w' bk)) 184 (length b) /\ (t <> XCreators -> b = sub (data (w bk)) 184 (length b)) /\
    (forall l1 cur l2, ext_list l = l1 ++ (t, cur) :: l2 -> ~ In t (map fst l1) -> ext_list l' = l1 ++ (t, b) :: l2) /\
    (~ In t (map fst (ext_list l)) -> ext_list l' = ext_list l ++ [(t, b)]).
Proof.
  intros He Hp Hs A0 A2 Nb HW Hx H.
  destruct (update_buffer _ _ _ _ _ _ _ _ He Hp Hs A0 A2 Nb HW Hx H) as (auth & t & b & l' & _ & _ & _ & _ & _ & _ & _ & _ & Z1 & _ & C & _ & Ln & W' & EL & Eb & Hi & _).
  exists t, b, l'. repeat (split; [assumption|]). split; [|split].
  - intro Ht. destruct Hi as (inp & St & D). assert (Zn : 184 + Z.of_nat (length b) <= zlen (data (w bk)) \/ length b = 0%nat).
    { assert (Q : length b = length (sub (data (w' bk)) 184 (length b))) by (now rewrite <- Eb).
      unfold sub in Q. rewrite firstn_length, skipn_length in Q. rewrite D in Q.
      assert (length (put (data (w bk)) 168 inp) = length (data (w bk))).
      { pose proof (stored_len _ _ _ _ _ St) as SL. unfold sub in SL. rewrite firstn_length, skipn_length in SL.
        pose proof (zlen_put (data (w bk)) 168 inp) as ZP. unfold zlen in *. lia. }
      unfold zlen. lia. }
    destruct Zn as [Zn|Zn].
    + rewrite Eb at 1. rewrite D. eapply buffer_data; eassumption.
    + destruct b; [reflexivity|discriminate Zn].
  - intros l1 cur l2 El Hn. now rewrite EL, El, put_ext_split.
  - intro Hn. apply lookup_none in Hn. unfold put_ext in EL. now rewrite Hn in EL.
Qed.

(** what the hooks see and what of their work arrives *)
Lemma update_buffer_seen e infos w a w' asset l bk : env_ok e -> e_prog e <> pk_zero -> sized w ->
  arg infos 0 asset -> arg infos 2 bk -> bk <> e_prog e -> well_formed (data (w asset)) l ->
  (forall x, u_ext a = Some x -> ext_arg x) ->
  process e infos w (IUpdate a) = Ok w' ->
  exists auth t b l' inp, arg infos 1 auth /\ signed infos auth /\ s_authority (data (w asset)) = pk_bytes auth /\ well_formed (data (w' asset)) l' /\
    le32 (data (w bk)) 168 = ext_code t /\ le32 (data (w bk)) 172 = zlen b /\ ext_list l' = put_ext t b (ext_list l) /\
    stored t (pk_bytes auth) (lookup t (ext_list l)) (sub (data (w bk)) 168 (length b)) inp /\
    b = sub (inp ++ skipn (168 + length b) (data (w bk))) 16 (length b) /\ (forall k, k <> asset -> k <> bk -> data (w' k) = data (w k)).
Proof.
  intros He Hp Hs A0 A2 Nb HW Hx H.
  destruct (update_buffer _ _ _ _ _ _ _ _ He Hp Hs A0 A2 Nb HW Hx H) as (auth & t & b & l' & A1 & Sg & Au & _ & _ & _ & _ & _ & Z1 & _ & C & _ & Ln & W' & EL & Eb & (inp & St & D) & Fr).
  exists auth, t, b, l', inp. repeat (split; [assumption|]). split; [|assumption].
  rewrite Eb at 1. rewrite D. unfold put, sub. change (Z.to_nat 168) with 168%nat. pose proof (stored_len _ _ _ _ _ St) as SL.
  assert (L168 : length (firstn 168 (data (w bk))) = 168%nat) by (rewrite firstn_length; unfold zlen in Z1; lia).
  rewrite skipn_app, L168, (skipn_all2 (firstn 168 _)) by lia. change (184 - 168)%nat with 16%nat. cbn [app]. f_equal. f_equal. f_equal.
  assert (Q : (length b + 184 <= length (data (w bk)))%nat \/ length b = 0%nat).
  { assert (Q : length b = length (sub (data (w' bk)) 184 (length b))) by (now rewrite <- Eb).
    unfold sub in Q, SL. rewrite firstn_length, skipn_length in Q, SL. rewrite D in Q. pose proof (zlen_put (data (w bk)) 168 inp) as ZP. unfold zlen in *. lia. }
  unfold sub in SL. rewrite firstn_length, skipn_length in SL. replace (length inp) with (length b) by lia. reflexivity.
Qed.
Lemma update_keeps_size e infos w a w' asset l x bs cur : env_ok e -> e_prog e <> pk_zero -> sized w ->
  arg infos 0 asset -> well_formed (data (w asset)) l ->
  u_ext a = Some x -> ext_arg x -> x_data x = Some bs -> x_type x = XGrouping ->
  lookup XGrouping (ext_list l) = Some cur ->
  process e infos w (IUpdate a) = Ok w' ->
  exists l' b, well_formed (data (w' asset)) l' /\ lookup XGrouping (ext_list l') = Some b /\
    b = with_size (gr_size cur) bs /\ gr_size b = gr_size cur /\ (gr_max b = 0 \/ gr_size b <= gr_max b).
Proof.
  intros He Hp Hs A0 HW Ex Xa Ed Et Hl H.
  destruct (update_args _ _ _ _ _ _ _ _ _ He Hp Hs A0 HW Ex Xa Ed H) as (auth & l' & b & A1 & Sg & Au & Mu & Hu & W' & EL & St & _ & Fr).
  rewrite Et in *. rewrite Hl in St. destruct St as ((Ln & _ & G & _) & V). destruct (G eq_refl) as [-> M].
  exists l', (with_size (gr_size cur) bs). split; [assumption|]. split; [rewrite EL; apply lookup_put_ext|]. split; [reflexivity|].
  cbn [valid_payload] in V.
  assert (S0 : gr_size (with_size (gr_size cur) bs) = gr_size cur).
  { unfold gr_size at 1, with_size. unfold sub.
    match goal with |- context [skipn 0 ?q] => change (skipn 0 q) with q end.
    rewrite firstn_app, le_enc_length, Nat.sub_diag. rewrite firstn_all2 by (rewrite le_enc_length; lia).
    match goal with |- context [firstn 0 ?q] => change (firstn 0 q) with (@nil byte) end. rewrite app_nil_r.
    apply le_dec_enc_small. unfold gr_size. pose proof (le_dec_range (sub cur 0 8)) as B.
    assert (Q : zlen (sub cur 0 8) <= 8) by (unfold zlen, sub; rewrite firstn_length; lia).
    assert (256 ^ zlen (sub cur 0 8) <= 256 ^ 8) by (apply Z.pow_le_mono_r; lia). change (256 ^ Z.of_nat 8) with (256 ^ 8). lia. }
  assert (M0 : gr_max (with_size (gr_size cur) bs) = gr_max bs).
  { reflexivity. }
  split; [assumption|]. now rewrite M0, S0.
Qed.
Lemma update_keeps_verified e infos w a w' asset l x bs cur : env_ok e -> e_prog e <> pk_zero -> sized w ->
  arg infos 0 asset -> well_formed (data (w asset)) l ->
  u_ext a = Some x -> ext_arg x -> x_data x = Some bs -> x_type x = XCreators ->
  lookup XCreators (ext_list l) = Some cur ->
  process e infos w (IUpdate a) = Ok w' ->
  exists l' b, well_formed (data (w' asset)) l' /\ lookup XCreators (ext_list l') = Some b /\
    (forall c, verified_in cur c -> verified_in b c).
Proof.
  intros He Hp Hs A0 HW Ex Xa Ed Et Hl H.
  destruct (update_args _ _ _ _ _ _ _ _ _ He Hp Hs A0 HW Ex Xa Ed H) as (auth & l' & b & A1 & Sg & Au & Mu & Hu & W' & EL & St & _ & Fr).
  rewrite Et in *. rewrite Hl in St. destruct St as ((Ln & _ & _ & _ & _ & G) & V).
  exists l', b. split; [assumption|]. split; [rewrite EL; apply lookup_put_ext|]. now apply G.
Qed.
Lemma update_keeps_proxy e infos w a w' asset l x bs cur : env_ok e -> e_prog e <> pk_zero -> sized w ->
  arg infos 0 asset -> well_formed (data (w asset)) l ->
  u_ext a = Some x -> ext_arg x -> x_data x = Some bs ->
  lookup XProxy (ext_list l) = Some cur ->
  process e infos w (IUpdate a) = Ok w' ->
  exists l' b, well_formed (data (w' asset)) l' /\ lookup XProxy (ext_list l') = Some b /\
    sub b 0 65 = sub cur 0 65 /\ (x_type x = XProxy -> length b = 97%nat).
Proof.
  intros He Hp Hs A0 HW Ex Xa Ed Hl H.
  destruct (update_args _ _ _ _ _ _ _ _ _ He Hp Hs A0 HW Ex Xa Ed H) as (auth & l' & b & A1 & Sg & Au & Mu & Hu & W' & EL & St & _ & Fr).
  destruct (ext_type_eqb (x_type x) XProxy) eqn:Et.
  - apply ext_type_eqb_eq in Et. rewrite Et in *. rewrite Hl in St. destruct St as ((Ln & Eq & _ & G & _) & V).
    exists l', b. split; [assumption|]. split; [rewrite EL; apply lookup_put_ext|]. cbn [valid_payload] in V.
    rewrite (Eq ltac:(discriminate) ltac:(discriminate)) in *. split; [now apply G|]. intros _. apply V.
  - assert (N : XProxy <> x_type x) by (intro Q; rewrite <- Q in Et; discriminate).
    exists l', cur. split; [assumption|]. split; [rewrite EL; now rewrite lookup_put_ext_other|]. split; [reflexivity|]. congruence.
Qed.
(** whatever an Update with a payload stores is valid *)
Lemma update_valid e infos w a w' asset l x bs : env_ok e -> e_prog e <> pk_zero -> sized w ->
  arg infos 0 asset -> well_formed (data (w asset)) l ->
  u_ext a = Some x -> ext_arg x -> x_data x = Some bs ->
  process e infos w (IUpdate a) = Ok w' ->
  exists l' b, well_formed (data (w' asset)) l' /\ lookup (x_type x) (ext_list l') = Some b /\ valid_payload (x_type x) b /\
    (forall u, u <> x_type x -> lookup u (ext_list l') = lookup u (ext_list l)).
Proof.
  intros He Hp Hs A0 HW Ex Xa Ed H.
  destruct (update_args _ _ _ _ _ _ _ _ _ He Hp Hs A0 HW Ex Xa Ed H) as (auth & l' & b & A1 & Sg & Au & Mu & Hu & W' & EL & St & _ & Fr).
  exists l', b. split; [assumption|]. split; [rewrite EL; apply lookup_put_ext|]. split.
  - unfold stored in St. destruct (lookup _ _); [apply St|]. destruct St as (_ & _ & _ & V & _). exact V.
  - intros u Hu'. rewrite EL. now apply lookup_put_ext_other.
Qed.

Lemma le_dec_app a b : le_dec (a ++ b) = le_dec a + 256 ^ zlen a * le_dec b.
Proof.
  induction a as [|x a IH]; [cbn [app le_dec]; change (256 ^ zlen []) with 1; lia|].
  cbn [app le_dec]. rewrite IH. replace (zlen (x :: a)) with (1 + zlen a) by (unfold zlen; cbn [length]; lia).
  rewrite Z.pow_add_r by (pose proof (zlen_nonneg a); lia). lia.
Qed.
Lemma fld_cat d o n m : 0 <= o -> 0 <= n -> 0 <= m -> fld d o (n + m) = fld d o n ++ fld d (o + n) m.
Proof.
  intros. unfold fld. rewrite !Z2Nat.inj_add by lia.
  rewrite <- skipn_skipn. generalize (skipn (Z.to_nat o) d). intro q. revert q.
  generalize (Z.to_nat n). induction n0 as [|k IH]; intro q; [reflexivity|]. destruct q; cbn [firstn skipn app Nat.add]; [now rewrite firstn_nil|].
  now rewrite IH.
Qed.
(** royalties: no Update leaves more than 10000 basis points *)
Lemma update_royalties e infos w a w' asset l : env_ok e -> e_prog e <> pk_zero -> sized w ->
  arg infos 0 asset -> well_formed (data (w asset)) l -> (forall x, u_ext a = Some x -> ext_arg x) ->
  (forall b, lookup XRoyalties (ext_list l) = Some b -> royalty_points b <= 10000) ->
  process e infos w (IUpdate a) = Ok w' ->
  exists l', well_formed (data (w' asset)) l' /\ forall b, lookup XRoyalties (ext_list l') = Some b -> royalty_points b <= 10000.
Proof.
  intros He Hp Hs A0 HW Hx HR H.
  destruct HW as (hd & tl & HL).
  destruct (update_effect _ _ _ _ _ _ _ _ _ He Hp Hs A0 HL ltac:(intros x' Q; apply Hx in Q as (?&?&_); auto) H)
    as (auth & hd' & l' & tl' & A1 & Sg & _ & _ & Au & Mu & Hu & L' & _ & _ & [(_ & _ & -> & _)|(buffer & t & b & Hb & T & EL & SS)]).
  { exists l. split; [eexists; eexists; eassumption|assumption]. }
  exists l'. split; [eexists; eexists; eassumption|]. rewrite EL. intros b0.
  destruct (ext_type_eqb t XRoyalties) eqn:Et.
  2:{ rewrite lookup_put_ext_other; [apply HR|]. intros <-. discriminate Et. }
  apply ext_type_eqb_eq in Et. subst t. rewrite lookup_put_ext. intro Q. injection Q as <-.
  destruct buffer as [bk|].
  - exfalso. destruct SS as (_ & _ & _ & Z1 & _ & C & inp & S1 & Ln & _ & Eb & _).
    assert (V : inp = sub (data (w bk)) 168 (length b) /\ (8 <= length inp)%nat /\ royalty_points inp <= 10000).
    { unfold stored in S1. destruct (lookup _ _) as [c|].
      - destruct S1 as ((_ & E & _) & V & _). cbn [valid_payload] in V. split; [now apply E|assumption].
      - destruct S1 as (_ & _ & (_ & E & _) & V & _). cbn [valid_payload] in V. split; [now apply E|assumption]. }
    destruct V as (-> & L8 & V). unfold royalty_points in V.
    assert (E8 : sub (sub (data (w bk)) 168 (length b)) 0 8 = fld (data (w bk)) 168 4 ++ fld (data (w bk)) 172 4).
    { assert (8 <= length b)%nat by (unfold sub in L8; rewrite firstn_length in L8; lia).
      rewrite !sub_fld. rewrite fld_fld by lia. rewrite <- fld_cat by lia. reflexivity. }
    rewrite E8, le_dec_app in V. change (le_dec (fld (data (w bk)) 168 4)) with (le32 (data (w bk)) 168) in V.
    change (le_dec (fld (data (w bk)) 172 4)) with (le32 (data (w bk)) 172) in V.
    rewrite zlen_fld in V by lia. rewrite C, <- Ln in V. unfold zlen in V.
    assert (8 <= length b)%nat by (unfold sub in L8; rewrite firstn_length in L8; lia).
    change (ext_code XRoyalties) with 7 in V. change (256 ^ 4) with 4294967296 in V. lia.
  - destruct SS as (x0 & _ & _ & _ & St & Nn & _). destruct (x_data x0) as [bs|].
    + specialize (St _ eq_refl). unfold stored in St. destruct (lookup _ _); [apply St|]. destruct St as (_ & _ & _ & V & _). apply V.
    + rewrite (Nn eq_refl). vm_compute. discriminate.
Qed.

Lemma shares_small b : valid_payload XCreators b -> length b = (34 * cr_count b)%nat /\
  shares (cr_count b) b mod 256 = 100 /\ (shares (cr_count b) b < 356 -> shares (cr_count b) b = 100).
Proof.
  cbn [valid_payload]. intros [V1 V2]. split; [assumption|]. split; [assumption|]. intro H.
  assert (0 <= shares (cr_count b) b). { generalize (cr_count b). induction n as [|n IH]; cbn [shares]; lia. }
  lia.
Qed.
Lemma update_shares e infos w a w' asset l x bs : env_ok e -> e_prog e <> pk_zero -> sized w ->
  arg infos 0 asset -> well_formed (data (w asset)) l ->
  u_ext a = Some x -> ext_arg x -> x_data x = Some bs -> x_type x = XCreators ->
  process e infos w (IUpdate a) = Ok w' ->
  exists l' b, well_formed (data (w' asset)) l' /\ lookup XCreators (ext_list l') = Some b /\
    length b = (34 * cr_count b)%nat /\ shares (cr_count b) b mod 256 = 100 /\ (shares (cr_count b) b < 356 -> shares (cr_count b) b = 100).
Proof.
  intros He Hp Hs A0 HW Ex Xa Ed Et H.
  destruct (update_valid _ _ _ _ _ _ _ _ _ He Hp Hs A0 HW Ex Xa Ed H) as (l' & b & W & L & V & _). rewrite Et in *.
  exists l', b. split; [assumption|]. split; [assumption|]. now apply shares_small.
Qed.
Lemma create_payloads e infos w m w' asset hd l n : env_ok e -> e_prog e <> pk_zero ->
  arg infos 0 asset -> open_account (data (w asset)) hd l n -> sized w -> Forall ext_arg (inline m) ->
  process e infos w (ICreate m) = Ok w' ->
  exists l', well_formed (data (w' asset)) l' /\ forall t b, lookup t (ext_list l') = Some b -> valid_new t b.
Proof.
  intros He Hp A0 HO Hs HF H.
  destruct (create_initializes _ _ _ _ _ _ _ _ _ He Hp A0 HO Hs HF H) as (auth & owner & l' & hd' & tl & _ & _ & _ & L & _ & _ & V & _).
  exists l'. split; [eexists; eexists; eassumption|]. intros t b. clear L. induction l' as [|c l' IH]; [discriminate|].
  apply Forall_cons_iff in V as [V1 V2]. cbn [ext_list map lookup fst]. destruct (ext_type_eqb (bk_type c) t) eqn:E; [|now apply IH].
  apply ext_type_eqb_eq in E. subst t. intro Q. injection Q as <-. exact V1.
Qed.
Lemma create_shares e infos w m w' asset hd l n : env_ok e -> e_prog e <> pk_zero ->
  arg infos 0 asset -> open_account (data (w asset)) hd l n -> sized w -> Forall ext_arg (inline m) ->
  process e infos w (ICreate m) = Ok w' ->
  exists l', well_formed (data (w' asset)) l' /\ forall b, lookup XCreators (ext_list l') = Some b ->
    length b = (34 * cr_count b)%nat /\ shares (cr_count b) b mod 256 = 100 /\ (shares (cr_count b) b < 356 -> shares (cr_count b) b = 100).
Proof.
  intros He Hp A0 HO Hs HF H. destruct (create_payloads _ _ _ _ _ _ _ _ _ He Hp A0 HO Hs HF H) as (l' & W & V).
  exists l'. split; [assumption|]. intros b Hb. apply V in Hb as [Hb _]. now apply shares_small.
Qed.
Lemma create_royalties e infos w m w' asset hd l n : env_ok e -> e_prog e <> pk_zero ->
  arg infos 0 asset -> open_account (data (w asset)) hd l n -> sized w -> Forall ext_arg (inline m) ->
  process e infos w (ICreate m) = Ok w' ->
  exists l', well_formed (data (w' asset)) l' /\ forall b, lookup XRoyalties (ext_list l') = Some b -> royalty_points b <= 10000.
Proof.
  intros He Hp A0 HO Hs HF H. destruct (create_payloads _ _ _ _ _ _ _ _ _ He Hp A0 HO Hs HF H) as (l' & W & V).
  exists l'. split; [assumption|]. intros b Hb. apply V in Hb as [Hb _]. apply Hb.
Qed.
Lemma write_royalties e infos w w1 asset x cs hd l n :
  arg infos 0 asset -> Forall (fun c => arg (snd (fst c)) 0 asset /\ snd c <> []) cs -> cs <> [] ->
  open_account (data (w asset)) hd l n -> sized w -> x_type x = XRoyalties ->
  x_length x = zlen (given x ++ chunk_bytes cs) -> 168 + sect_size l + 16 + x_length x <= 10485760 ->
  steps ((e, infos, IAllocate x) :: map write_of cs) w = Ok w1 ->
  exists b, data (w1 asset) = hd ++ enc_sect 168 (l ++ [blk_of XRoyalties b]) /\ royalty_points b <= 10000.
Proof.
  intros A0 HF Hne HO Hs Ht Hlen Hmax H.
  destruct (chunked_content _ _ _ _ _ _ _ _ _ _ A0 HF Hne HO Hs ltac:(rewrite Ht; discriminate) Hlen Hmax H) as (b & _ & V & D & _).
  rewrite Ht in *. exists b. split; [exact D|]. apply V.
Qed.

(** Lemmas: exactly when the proxy program's Create goes through. *)
From Verif Require Import Base State Layout Constr Ext World Proc Borsh Proxy BaseL Spec SpecB SpecC SpecE SpecF SpecH SpecI SpecP SpecL SpecW SpecY SpecM WorldL ProcSteps LayoutL LayoutM LayoutE GroupL CountL HeadL AuthL AuthM CreatorsL FrameL UpdateL UpdateM UpdateT StepH BorshL CodecL ProxyL CreateL BuildL ProxyM BridgeL ExactL ExactM ExactN ExactO ExactP TailL ProxyN.
From Coq Require Import Strings.Byte.

Lemma canonical_find e seeds me k bump : canonical (e_cpa e) me seeds k bump <-> find_address e seeds me 255 = Some (k, bump).
Proof.
  split.
  - intros (C & B & M). destruct (find_address e seeds me 255) as [[k' b']|] eqn:F.
    + pose proof (find_canonical _ _ _ _ _ _ _ C M B F) as ->. pose proof (find_address_ok _ _ _ _ _ _ F) as F'. destruct (find_max _ _ _ 255%nat _ _ (le_n _) F) as [B1 B2].
      change (Z.of_nat 255) with 255 in *. do 2 f_equal.
      destruct (Z.lt_trichotomy (b2z b') (b2z bump)) as [Q|[Q|Q]].
      * pose proof (b2z_range bump). specialize (B2 (b2z bump) ltac:(lia)). rewrite z2b_b2z in B2. congruence.
      * rewrite <- (z2b_b2z b'), <- (z2b_b2z bump). congruence.
      * specialize (M (b2z b') ltac:(lia)). rewrite z2b_b2z in M. congruence.
    + exfalso. assert (G : forall n, (n <= 255)%nat -> find_address e seeds me n = None -> forall i, 0 < i <= Z.of_nat n -> e_cpa e seeds (z2b i) (pk_bytes me) = None).
      { clear. induction n as [|n IH]; intros Hn H i Hi; [lia|]. cbn [find_address] in H.
        destruct (e_cpa e seeds (z2b (Z.of_nat (S n))) (pk_bytes me)) eqn:E; [discriminate|].
        destruct (Z.eq_dec i (Z.of_nat (S n))) as [->|N]; [assumption|]. apply IH; [lia|assumption|lia]. }
      pose proof (b2z_range bump). specialize (G 255%nat (le_n _) F (b2z bump) ltac:(change (Z.of_nat 255) with 255; lia)). rewrite z2b_b2z in G. congruence.
  - intro F. split; [now apply find_address_ok in F|]. destruct (find_max _ _ _ 255%nat _ _ (le_n _) F) as [B1 B2]. split; [lia|exact B2].
Qed.

Definition s0 : bytes := pad_left 12 (decimal 0).
Definition doc0 (pe : penv) : bytes := pe_before pe ++ NO_COLOUR ++ pe_after pe.
Definition birth_meta (pe : penv) (me : pubkey) (name : bytes) (stub auth : pubkey) (bump : byte) : metadata_input := mkMetaInput name Proxied true
  (Some [ext_of XAttributes (counter_entry s0); ext_of XBlob (image_entry (doc0 pe)); ext_of XProxy (build_proxy me (pk_bytes stub) bump (Some auth)); ext_of XProperties (stamp_entry (pe_now pe mod two64))]).
Lemma birth_lengths pe me stub auth bump : zlen (counter_entry s0) = 23 /\ zlen (image_entry (doc0 pe)) = 14 + zlen (pe_before pe) + 11 + zlen (pe_after pe) /\
  zlen (build_proxy me (pk_bytes stub) bump (Some auth)) = 97 /\ zlen (stamp_entry (pe_now pe mod two64)) = 26.
Proof.
  split; [reflexivity|]. split; [rewrite zlen_image; unfold doc0; rewrite !zlen_app; change (zlen NO_COLOUR) with 11; lia|].
  split; [|apply zlen_stamp]. unfold zlen. rewrite (proj1 (proxy_payload me (pk_bytes stub) bump auth (pk_length stub))). reflexivity.
Qed.
Lemma birth_instr pe me name stub auth bump : small_template pe -> text_ok name -> instr_ok (ICreate (birth_meta pe me name stub auth bump)).
Proof.
  intros Ht Hname. destruct (birth_lengths pe me stub auth bump) as (Z1 & Z2 & Z3 & Z4). unfold small_template in Ht.
  split; [exact Hname|]. split; [reflexivity|]. repeat (constructor; [apply ext_ok_of; lia|]). constructor.
Qed.
Lemma birth_args pe me name stub auth bump : small_template pe -> Forall ext_arg (inline (birth_meta pe me name stub auth bump)).
Proof.
  intro Ht. destruct (birth_lengths pe me stub auth bump) as (Z1 & Z2 & Z3 & Z4). unfold small_template in Ht.
  unfold inline, birth_meta, inline_order. cbn [m_exts rev app]. repeat (constructor; [apply ext_arg_of; [discriminate|lia]|]). constructor.
Qed.
Lemma birth_room pe me name stub auth bump : 168 + sect_size (inline_blks (inline (birth_meta pe me name stub auth bump))) = birth_size pe.
Proof.
  destruct (birth_lengths pe me stub auth bump) as (Z1 & Z2 & Z3 & Z4).
  unfold inline, birth_meta, inline_order, inline_blks. cbn [m_exts rev app map sect_size x_type given x_data ext_of]. rewrite !blk_of_size, Z1, Z2, Z3, Z4.
  change (pad8 (16 + 23)) with 40. change (pad8 (16 + 97)) with 120. change (pad8 (16 + 26)) with 48. unfold birth_size, pad8. lia.
Qed.

Section Birth.
Variables (pe : penv) (e : env) (me : pubkey) (infos : list ainfo) (w : world) (name : bytes) (asset stub owner auth last : pubkey) (payer sysp : option pubkey).
Hypotheses (He : env_ok e) (Hz : e_prog e <> pk_zero) (Hs : sized w) (Ht : small_template pe) (Hname : text_ok name) (Hd : data (w asset) = [])
  (A0 : arg infos 0 asset) (A1 : arg infos 1 stub) (A2 : arg infos 2 owner) (A3 : arg infos 3 auth) (A4 : maybe_at me infos 4 payer) (A5 : maybe_at me infos 5 sysp) (A6 : arg infos 6 last)
  (Hpo : plain_at e w owner) (Hpy : forall p, payer = Some p \/ sysp = Some p -> plain_at e w p) (Hpp : plain_at e w (e_prog e)).
Definition births : Prop :=
  signs infos auth /\ signs infos stub /\ mentions infos (e_prog e) /\ writes infos asset /\ (exists bump, canonical (e_cpa e) me (pk_bytes stub) asset bump) /\
  can_birth e infos w asset payer sysp (birth_size pe).
Definition inner (o : option pubkey) : option pubkey := match o with Some k => if pk_dec k (e_prog e) then None else Some k | None => None end.

Lemma birth_inner bump : e_cpa e (pk_bytes stub) bump (pk_bytes me) = Some asset ->
  let M := create_metas e asset owner payer sysp in
  (exists w', process (in_cpi e) M w (ICreate (birth_meta pe me name stub auth bump)) = Ok w') <->
  can_open (in_cpi e) M w asset (inner payer) (inner sysp) (birth_size pe).
Proof using He Hz Hs Ht Hname Hd A4 A5 Hpo Hpy Hpp.
  intros C M. pose proof (proxy_payload me (pk_bytes stub) bump auth (pk_length stub)) as (P1 & P2 & P3 & P4 & P5).
  assert (PL : plain_accounts (in_cpi e) M w).
  { intros a X. change (e_prog (in_cpi e)) with (e_prog e). cbn in X.
    destruct X as [<-|[<-|[<-|[<-|[<-|[<-|[<-|[]]]]]]]]; cbn [ai_key absent]; intro Q.
    - now left.
    - now left.
    - exact (Hpo Q).
    - exact (Hpp Q).
    - exact (Hpp Q).
    - destruct payer as [p|]; cbn [ai_key absent] in *; [exact (Hpy p (or_introl eq_refl) Q)|exact (Hpp Q)].
    - destruct sysp as [p|]; cbn [ai_key absent] in *; [exact (Hpy p (or_intror eq_refl) Q)|exact (Hpp Q)]. }
  assert (O5 : optional (in_cpi e) M 5 (inner payer)).
  { unfold inner. destruct payer as [p|]; [|eexists; split; reflexivity]. destruct (pk_dec p (e_prog e)) as [->|N]; [eexists; split; reflexivity|].
    split; [eexists; split; reflexivity|exact N]. }
  assert (O6 : optional (in_cpi e) M 6 (inner sysp)).
  { unfold inner. destruct sysp as [p|]; [|eexists; split; reflexivity]. destruct (pk_dec p (e_prog e)) as [->|N]; [eexists; split; reflexivity|].
    split; [eexists; split; reflexivity|exact N]. }
  pose proof (create_goes (in_cpi e) M w (birth_meta pe me name stub auth bump) asset asset owner None None (inner payer) (inner sysp) (repeat x00 168) [] 0 []) as G.
  specialize (G ltac:(eexists; split; reflexivity) ltac:(eexists; split; reflexivity) ltac:(eexists; split; reflexivity) ltac:(eexists; split; reflexivity) ltac:(eexists; split; reflexivity) O5 O6
    (or_introl (conj Hd (conj eq_refl (conj eq_refl eq_refl)))) (birth_args _ _ _ _ _ _ Ht) (or_introl Hd) ltac:(intros g Q; discriminate Q)
    ltac:(eexists; split; [left; reflexivity|split; reflexivity]) PL Hs (in_cpi_ok _ He) Hz).
  rewrite G, birth_room. clear G. split.
  - intros (_ & H & _). exact (H Hd).
  - intro H. split; [eexists; split; [left; reflexivity|split; reflexivity]|]. split; [intros _; exact H|]. split; [contradiction|].
    unfold inline, birth_meta, inline_order. cbn [m_exts m_standard rev app].
    split; [repeat constructor|]. split; [repeat constructor|].
    split. { repeat (constructor; [cbn; intuition discriminate|]). constructor. }
    split.
    { unfold inline_blks. cbn [map app x_type given x_data ext_of blk_of bk_type bk_data].
      assert (AC : forall t b, t <> XCreators -> t <> XGrouping -> t <> XRoyalties -> parses t b -> acceptable t b) by (intros t b N1 N2 N3 PP; split; [assumption|]; repeat split; intro; contradiction).
      constructor; [apply AC; try discriminate; apply entry_parses; vm_compute; discriminate|].
      constructor; [apply AC; try discriminate; apply stamp_parses|].
      constructor; [apply AC; try discriminate; exact P1|].
      constructor; [apply AC; try discriminate; apply image_parses|]. constructor. }
    split; [|intros g Q; discriminate Q].
    split; [cbn; intuition discriminate|]. split; [|contradiction]. intros _. exists (build_proxy me (pk_bytes stub) bump (Some auth)). split; [reflexivity|]. split; [exact P1|].
    change (e_cpa (in_cpi e)) with (e_cpa e). rewrite P2, P3, P4. exact C.
Qed.

Lemma birth_made bump w' : process (in_cpi e) (create_metas e asset owner payer sysp) w (ICreate (birth_meta pe me name stub auth bump)) = Ok w' ->
  exists l', tight (data (w' asset)) l' /\ zlen (data (w' asset)) = birth_size pe /\
    ext_list l' = [(XAttributes, counter_entry s0); (XProperties, stamp_entry (pe_now pe mod two64)); (XProxy, build_proxy me (pk_bytes stub) bump (Some auth)); (XBlob, image_entry (doc0 pe))] /\
    acct_owner (w' asset) = e_prog e /\ s_disc (data (w' asset)) = x01 /\ s_standard (data (w' asset)) = x03 /\ s_mutable (data (w' asset)) = x01 /\
    s_owner (data (w' asset)) = pk_bytes owner /\ s_authority (data (w' asset)) = pk_bytes asset /\ s_name (data (w' asset)) = name_field name /\
    s_state (data (w' asset)) = x00 /\ s_delegate (data (w' asset)) = no_key /\ s_group (data (w' asset)) = no_key /\
    (forall k, k <> asset -> data (w' k) = data (w k) /\ acct_owner (w' k) = acct_owner (w k)).
Proof using He Hz Hs Ht Hd.
  intro H. set (M := create_metas e asset owner payer sysp) in *.
  assert (B0 : arg M 0 asset) by (eexists; split; reflexivity).
  destruct (create_effect (in_cpi e) M w _ w' asset (repeat x00 168) [] 0 (in_cpi_ok _ He) Hz B0 (or_introl (conj Hd (conj eq_refl (conj eq_refl eq_refl)))) Hs (birth_args _ _ _ _ _ _ Ht) H)
    as (au & ow & l' & hd' & B1 & B2 & _ & L' & V & _ & Ow & D1 & D2 & D3 & D4 & D5 & D6 & D7 & D8 & D9 & _ & _ & _ & G & OO).
  apply create_metas_args in B1, B2. subst au ow. exists l'.
  unfold create_room in L'. rewrite Hd in L'. change (Z.to_nat 0) with 0%nat in L'. cbn [repeat] in L'.
  assert (T : tight (data (w' asset)) l') by (exists hd'; exact L'). split; [exact T|].
  destruct (created_sect _ _ _ V) as (Z1 & _ & _). cbn [app] in Z1.
  pose proof L' as (EL & Hh & HF & _).
  split. { rewrite EL, app_nil_r, zlen_app, zlen_enc_sect, Hh, Z1 by assumption. apply birth_room. }
  split.
  { clear - V. unfold inline, birth_meta, inline_order in V. cbn [m_exts rev app inline_blks map] in V.
    assert (K : forall t b, t <> XCreators -> forall b', created (pk_bytes asset) (blk_of t b) b' -> (bk_type b', bk_data b') = (t, b)).
    { intros t b Nt b' Q. apply created_fresh in Q as (T & _ & Q & _). cbn [bk_type bk_data blk_of] in T, Q. rewrite T, (Q Nt). reflexivity. }
    unfold ext_list.
    inversion V as [|b1 b1' r1 r1' V1 V1' Ea Eb]; subst. inversion V1' as [|b2 b2' r2 r2' V2 V2' Ea Eb]; subst.
    inversion V2' as [|b3 b3' r3 r3' V3 V3' Ea Eb]; subst. inversion V3' as [|b4 b4' r4 r4' V4 V4' Ea Eb]; subst. inversion V4'; subst.
    cbn [map]. apply K in V1, V2, V3, V4; try discriminate. rewrite V1, V2, V3, V4. reflexivity. }
  split; [exact Ow|].
  assert (G' : s_group hd' = no_key /\ forall k, k <> asset -> data (w' k) = data (w k)).
  { destruct G as [(_ & G1 & G2)|(g & a & off & b & Q & N & _)]; [split; [rewrite G1; reflexivity|exact G2]|].
    elim N. destruct Q as (x & Q & <-). cbn in Q. apply Some_inj in Q. subst x. reflexivity. }
  destruct G' as [G1 G2].
  destruct (hd_fields _ _ _ _ L') as (F1 & F2 & F3 & F4 & F5 & F6 & F7 & F8 & F9 & F10).
  rewrite F1, F2, F3, F4, F5, F6, F7, F8, F10, D1, D2, D3, D4, D5, D6, D7, D8, G1. repeat (split; [reflexivity|]).
  intros k N. split; [exact (G2 k N)|exact (OO k N)].
Qed.
Lemma maybe_raw i o : maybe_at me infos i o -> (k <- acct infos i ;; Ok (if pk_eqb k me then None else Some k)) = Ok o.
Proof using.
  intro H. destruct o as [k|]; cbn [maybe_at] in H.
  - destruct H as [H N]. rewrite (arg_raw infos _ _ H). cbn [bind]. now apply pk_eqb_neq in N as ->.
  - rewrite (arg_raw infos _ _ H). cbn [bind]. now rewrite pk_eqb_refl.
Qed.
Lemma birth_entry : proxy_entry pe e me infos w (write_proxy name) =
  require (is_signer infos auth) EMissingRequiredSignature (require (is_signer infos stub) EMissingRequiredSignature
    (match find_address e (pk_bytes stub) me 255 with
     | None => Panic
     | Some (k, bump) => require (pk_eqb k asset) EInvalidSeeds
        (invoke e me infos w w (create_metas e asset owner payer sysp) (write_instr (ICreate (birth_meta pe me name stub auth bump))) (pk_bytes stub) bump)
     end)).
Proof using Hname A0 A1 A2 A3 A4 A5 A6.
  unfold proxy_entry. rewrite (proj2 (proxy_decode_iff _ name) (conj Hname eq_refl)). unfold proxy_create.
  rewrite (arg_raw infos _ _ A0), (arg_raw infos _ _ A1), (arg_raw infos _ _ A2), (arg_raw infos _ _ A3). cbn [bind]. cbv zeta.
  rewrite (maybe_raw _ _ A4), (maybe_raw _ _ A5). cbn [bind]. rewrite (arg_raw infos _ _ A6). cbn [bind].
  rewrite counter_payload_entry, image_payload_entry, stamp_payload_entry. reflexivity.
Qed.
Lemma birth_goes : goes (proxy_entry pe e me infos w (write_proxy name)) <-> births.
Proof using He Hz Hs Ht Hname Hd A0 A1 A2 A3 A4 A5 A6 Hpo Hpy Hpp.
  pose proof birth_inner as BI. pose proof birth_made as BM. cbv zeta in BI.
  rewrite birth_entry, !goes_require, !is_signer_spec. unfold births.
  assert (K : (exists bump, canonical (e_cpa e) me (pk_bytes stub) asset bump) <-> exists bump, find_address e (pk_bytes stub) me 255 = Some (asset, bump)).
  { split; intros [b H]; exists b; now apply canonical_find. }
  rewrite K. clear K. pose proof (arg_mentions infos _ _ A0) as M0. pose proof (arg_mentions infos _ _ A2) as M2.
  assert (M4 : forall p, payer = Some p -> mentions infos p) by (intros p E; destruct payer as [q|]; [|discriminate]; apply Some_inj in E; subst q; exact (arg_mentions infos _ _ (proj1 A4))).
  assert (M5 : forall p, sysp = Some p -> mentions infos p) by (intros p E; destruct sysp as [q|]; [|discriminate]; apply Some_inj in E; subst q; exact (arg_mentions infos _ _ (proj1 A5))).
  split.
  - intros (S1 & S2 & H). split; [exact S1|]. split; [exact S2|]. destruct (find_address e (pk_bytes stub) me 255) as [[k bump]|] eqn:F; [|now destruct H].
    apply goes_require in H as [E H]. apply pk_eqb_eq in E. subst k. pose proof (find_address_ok _ _ _ _ _ _ F) as C.
    destruct H as [w' H]. apply invoke_iff in H as (pda & i & I1 & I2 & I3 & I4 & I5 & I6 & I7). assert (pda = asset) as -> by congruence.
    apply instr_unambiguous in I5; [subst i|apply birth_instr; assumption|assumption].
    pose proof (proj1 (BI bump C) (ex_intro _ w' I6)) as (D1 & D2 & D3 & D4 & D5 & p & D6 & D7 & _ & _ & D8 & D9 & D10).
    split; [assumption|]. pose proof (Forall_inv I3) as G0. apply granted_iff in G0 as (_ & _ & G0). split; [exact (G0 eq_refl)|].
    split; [eauto|]. split; [assumption|]. split; [assumption|]. split; [assumption|]. split; [assumption|].
    unfold inner in D5, D6. destruct sysp as [q|]; [|discriminate]. destruct (pk_dec q (e_prog e)) as [->|Nq]; [discriminate|]. split; [assumption|].
    destruct payer as [p'|]; [|discriminate]. destruct (pk_dec p' (e_prog e)) as [->|Np]; [discriminate|]. apply Some_inj in D6. subst p'. exists p.
    split; [reflexivity|]. split; [assumption|]. split; [assumption|].
    rewrite Forall_forall in I3. specialize (I3 (mkInfo p true true) ltac:(unfold create_metas; do 5 right; now left)). apply granted_iff in I3 as (_ & Gs & Gw). cbn [ai_key ai_signer ai_writable] in Gs, Gw.
    split; [destruct (Gs eq_refl) as [Q|Q]; [exact Q|contradiction]|]. split; [exact (Gw eq_refl)|]. auto.
  - intros (S1 & S2 & Mp & Wr & [bump F] & D1 & D2 & D3 & D4 & -> & p & -> & D7 & D8 & D9 & D10 & D11 & D12 & D13). split; [exact S1|]. split; [exact S2|]. rewrite F.
    apply goes_require. split; [apply pk_eqb_refl|]. pose proof (find_address_ok _ _ _ _ _ _ F) as C.
    destruct (proj2 (BI bump C)) as [w' H].
    { split; [assumption|]. split; [assumption|]. split; [assumption|]. split; [assumption|].
      unfold inner. destruct (pk_dec pk_zero (e_prog e)) as [Q|_]; [congruence|]. destruct (pk_dec p (e_prog e)) as [Q|_]; [contradiction|].
      split; [reflexivity|]. exists p. split; [reflexivity|]. split; [assumption|].
      split; [eexists; split; [do 5 right; left; reflexivity|split; reflexivity]|]. split; [eexists; split; [do 5 right; left; reflexivity|split; reflexivity]|]. auto. }
    exists w'. apply invoke_iff. exists asset, (ICreate (birth_meta pe me name stub auth bump)). split; [exact C|]. split; [assumption|].
    split.
    { repeat (constructor; [apply granted_iff; cbn [ai_key ai_signer ai_writable absent]|]); [| | | | | | |constructor].
      - split; [assumption|]. auto.
      - split; [assumption|]. split; [auto|discriminate].
      - split; [assumption|]. split; discriminate.
      - split; [assumption|]. split; discriminate.
      - split; [assumption|]. split; discriminate.
      - split; [now apply M4|]. auto.
      - split; [now apply M5|]. split; discriminate. }
    split; [apply birth_instr; assumption|]. split; [reflexivity|]. split; [exact H|].
    destruct (BM bump w' H) as (l' & _ & Z & _ & _ & _ & _ & _ & _ & _ & _ & _ & _ & _ & F').
    intros i _. destruct (pk_dec (ai_key i) asset) as [->|N]; [rewrite Z; pose proof (zlen_nonneg (data (w asset))); lia|rewrite (proj1 (F' _ N)); lia].
Qed.
Lemma birth_effect w' : lam_ok w -> proxy_entry pe e me infos w (write_proxy name) = Ok w' ->
  exists pb, in_care pe e me w' asset pb 0 /\ sub pb 0 32 = pk_bytes me /\ sub pb 32 32 = pk_bytes stub /\ sub pb 65 32 = pk_bytes auth /\
    s_owner (data (w' asset)) = pk_bytes owner /\ s_name (data (w' asset)) = name_field name /\ ~ locked (data (w' asset)) /\
    s_delegate (data (w' asset)) = no_key /\ s_group (data (w' asset)) = no_key /\ zlen (data (w' asset)) = birth_size pe /\
    (forall k, k <> asset -> data (w' k) = data (w k) /\ acct_owner (w' k) = acct_owner (w k)) /\ sized w' /\ lam_ok w'.
Proof using He Hz Hs Ht Hname Hd A0 A1 A2 A3 A4 A5 A6.
  clear Hpo Hpy Hpp. intros Hl H. rewrite birth_entry in H. apply require_ok in H as [_ H]. apply require_ok in H as [_ H].
  destruct (find_address e (pk_bytes stub) me 255) as [[k bump]|] eqn:F; [|discriminate].
  apply require_ok in H as [E H]. apply pk_eqb_eq in E. subst k. pose proof (find_address_ok _ _ _ _ _ _ F) as C.
  apply invoke_iff in H as (pda & i & _ & _ & _ & I4 & I5 & I6 & _).
  apply instr_unambiguous in I5; [subst i|apply birth_instr; assumption|assumption].
  destruct (birth_made bump w' I6) as (l' & T & Z & EL & Ow & D1 & D2 & D3 & D4 & D5 & D6 & D7 & D8 & D9 & FF).
  pose proof (proxy_payload me (pk_bytes stub) bump auth (pk_length stub)) as (P1 & P2 & P3 & P4 & P5).
  exists (build_proxy me (pk_bytes stub) bump (Some auth)). split.
  { split; [assumption|]. split; [assumption|]. split; [assumption|]. split; [assumption|]. split; [unfold mutable; rewrite D3; discriminate|].
    split; [split; [exact P1|rewrite P3, P4; exact C]|]. exists l', s0, (pe_now pe mod two64), (doc0 pe). split; [exact T|]. split; [exact EL|].
    split; [apply decimal_shows; lia|]. split; [vm_compute; split; discriminate|]. unfold doc0. rewrite !zlen_app. change (zlen NO_COLOUR) with 11. lia. }
  split; [assumption|]. split; [assumption|]. split; [assumption|]. split; [assumption|]. split; [assumption|].
  split; [unfold locked; rewrite D7; intros [_ Q]; discriminate Q|]. split; [assumption|]. split; [assumption|]. split; [assumption|]. split; [exact FF|].
  split; [exact (sized_preserved _ _ _ _ _ (in_cpi_ok _ He) Hz Hl Hs I6)|].
  apply process_psteps in I6; [|exact (in_cpi_ok _ He)|assumption|assumption]. exact (psteps_lam_ok _ _ _ _ I6 Hl).
Qed.
End Birth.

(** ** Update *)
Section Rename.
Variables (pe pe' : penv) (e : env) (me : pubkey) (infos : list ainfo) (w : world) (asset auth a2 a3 a4 a5 : pubkey) (pb : bytes) (n : Z) (u : update_input).
Hypotheses (He : env_ok e) (Hz : e_prog e <> pk_zero) (Hal : e_heap_al e mod 8 = 0) (Hfu : (4 < e_fuel e)%nat) (Hs : sized w) (Hl : lam_ok w)
  (HC : in_care pe e me w asset pb n) (HU : instr_ok (IUpdate u)) (A0 : arg infos 0 asset) (A1 : arg infos 1 auth) (A2 : arg infos 2 a2) (A3 : arg infos 3 a3) (A4 : arg infos 4 a4) (A5 : arg infos 5 a5)
  (Hpp : acct_owner (w (e_prog e)) <> e_prog e).
Definition renames : Prop :=
  mentions (skipn 6 infos) (e_prog e) /\ signs infos auth /\ sub pb 65 32 = pk_bytes auth /\ auth <> pk_zero /\ writes infos asset.
Lemma head_only_ok : instr_ok (IUpdate (mkUpdInput (u_name u) (u_mutable u) None)).
Proof using HU. destruct HU as [U1 _]. split; [exact U1|exact I]. Qed.
Lemma rename_entry : proxy_entry pe' e me infos w (write_instr (IUpdate u)) =
  require (listed (skipn 6 infos) (e_prog e)) ENotEnoughAccountKeys (require (is_signer infos auth) EMissingRequiredSignature
    (match nullable (sub pb 65 32) with
     | None => Err EInvalidArgument
     | Some a => require (key_is a auth) EInvalidArgument (invoke e me infos w w (update_metas e asset asset) (write_instr (IUpdate (mkUpdInput (u_name u) (u_mutable u) None))) (sub pb 32 32) (nth 64 pb x00))
     end)).
Proof using HC HU A0 A1 A2 A3 A4 A5.
  unfold proxy_entry. rewrite (asset_not_own _ HU), (instr_round _ HU). unfold proxy_update.
  rewrite (arg_raw infos _ _ A0), (arg_raw infos _ _ A1). cbn [bind]. unfold opt_acct. rewrite (arg_raw infos _ _ A2), (arg_raw infos _ _ A3), (arg_raw infos _ _ A4), (arg_raw infos _ _ A5). cbn [bind].
  destruct HC as (_ & _ & _ & _ & _ & [Lb _] & l & s & t & doc & (hd & HT) & EL & _).
  assert (HW : well_formed (data (w asset)) l) by (exists hd, []; exact HT).
  rewrite (fetch_proxy_run _ _ pb HW ltac:(rewrite EL; reflexivity) Lb). reflexivity.
Qed.
Lemma rename_goes : goes (proxy_entry pe' e me infos w (write_instr (IUpdate u))) <-> renames.
Proof using He Hz Hal Hfu Hs Hl HC HU A0 A1 A2 A3 A4 A5 Hpp.
  rewrite rename_entry, !goes_require, listed_iff, is_signer_spec. unfold renames. pose proof (arg_mentions infos _ _ A0) as Ma.
  pose proof HC as (Ho & Hd & _ & Ha & Hm & [Lb C] & l & s & t & doc & (hd & HL) & EL & _).
  set (a := mkUpdInput (u_name u) (u_mutable u) None) in *. set (M := update_metas e asset asset).
  assert (Hi : initialized (data (w asset))).
  { split; [|assumption]. destruct HL as (E & Hh & _). rewrite E, app_length. unfold zlen in Hh. lia. }
  assert (SG : signed M asset) by (eexists; split; [left; reflexivity|split; reflexivity]).
  assert (RD : ready (in_cpi e) M w asset).
  { split; [exact (metas_arg0 e asset)|]. split; [assumption|]. split; [assumption|]. split; [eexists; split; [left; reflexivity|split; reflexivity]|].
    split; [|assumption]. intros x X. cbn [in_cpi e_prog]. cbn in X. destruct X as [<-|[<-|[<-|[<-|[<-|[<-|[]]]]]]]; cbn [ai_key absent]; intro Q; try contradiction; right; apply Hi. }
  assert (Ll : (length l < e_fuel (in_cpi e))%nat) by (rewrite <- ext_list_length, EL; cbn [length]; exact Hfu).
  assert (G : exists w', process (in_cpi e) M w (IUpdate a) = Ok w').
  { apply (update_head_exact (in_cpi e) M w asset asset None None None None hd l a RD ltac:(eexists; split; reflexivity)
      (upd_arg e asset Hfu 2 ltac:(lia)) (upd_arg e asset Hfu 3 ltac:(lia)) (upd_arg e asset Hfu 4 ltac:(lia)) (upd_arg e asset Hfu 5 ltac:(lia)) HL Ll eq_refl eq_refl).
    split; [intros _; exact SG|]. split; [exact SG|]. split; assumption. }
  assert (NU : forall x, nullable (sub pb 65 32) = Some x -> x = sub pb 65 32 /\ sub pb 65 32 <> pk_bytes pk_zero).
  { intros x. unfold nullable. destruct (bytes_eqb (sub pb 65 32) zero32) eqn:E; [discriminate|]. intro Q. apply Some_inj in Q. split; [now symmetry|].
    intro Q'. rewrite Q' in E. vm_compute in E. discriminate. }
  split.
  - intros (Mp & Sg & H). split; [assumption|]. split; [assumption|]. destruct (nullable (sub pb 65 32)) as [x|]; [|now destruct H].
    destruct (NU x eq_refl) as [-> Nz]. apply goes_require in H as [Ka [w' H]]. apply key_is_spec in Ka. split; [assumption|]. split; [intros ->; contradiction|].
    apply invoke_iff in H as (pda & i & _ & _ & I3 & _). apply Forall_cons_iff in I3 as [Gr _]. apply granted_iff in Gr as (_ & _ & Gr). now apply Gr.
  - intros (Mp & Sg & Ea & Nz & Wr). split; [assumption|]. split; [assumption|].
    assert (NN : nullable (sub pb 65 32) = Some (sub pb 65 32)).
    { unfold nullable. destruct (bytes_eqb (sub pb 65 32) zero32) eqn:E; [|reflexivity]. exfalso. apply Nz. apply bytes_eqb_eq in E. apply pk_ext. rewrite <- Ea, E. reflexivity. }
    rewrite NN. apply goes_require. split; [now apply key_is_spec|].
    assert (Mp' : mentions infos (e_prog e)).
    { destruct Mp as (x & X & E). exists x. split; [|assumption]. rewrite <- (firstn_skipn 6 infos). apply in_or_app. now right. }
    destruct G as [w' G]. exists w'. apply invoke_iff. exists asset, (IUpdate a). split; [exact C|]. split; [assumption|].
    split.
    { assert (GA : forall s r, granted infos asset (mkInfo asset s r) = true).
      { intros s' r. apply granted_iff. cbn [ai_key]. split; [assumption|]. split; [auto|]. auto. }
      assert (GP : granted infos asset (absent e) = true) by (apply granted_iff; cbn [ai_key absent ai_signer ai_writable]; split; [assumption|split; discriminate]).
      unfold update_metas. repeat constructor; auto. }
    split; [exact head_only_ok|]. split; [reflexivity|]. split; [exact G|].
    destruct (update_effect (in_cpi e) M w a w' asset hd l [] (in_cpi_ok _ He) Hz Hs (metas_arg0 e asset) HL ltac:(intros x Q; discriminate Q) G)
      as (au & hd' & l' & tl' & _ & _ & _ & _ & _ & _ & _ & L' & T' & _ & [(_ & _ & -> & F)|(bf & t' & b' & Q & _ & _ & SS)]).
    + intros i _. destruct (pk_dec (ai_key i) asset) as [->|N]; [|rewrite (F _ N); lia].
      assert (tl' = []) as -> by (destruct T'; assumption). rewrite (layout_len _ _ _ _ L'), (layout_len _ _ _ _ HL). lia.
    + exfalso. unfold source_spec in SS. destruct bf as [bk|].
      * destruct Q as [[Q _]|(bk' & Q1 & Q2 & Q3)]; [discriminate|]. destruct Q2 as (y & Y & <-). cbn in Y. apply Some_inj in Y. subst y. now apply Q3.
      * destruct SS as (x0 & Q' & _). discriminate Q'.
Qed.
End Rename.

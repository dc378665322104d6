(** Instructions succeed exactly when: Allocate, Write. *)
From Verif Require Import Base State Layout Constr Ext World Proc BaseL Spec SpecB SpecC SpecE WorldL ProcSteps LayoutL LayoutM LayoutE HeadL CreatorsL AuthL AuthM AllocL AllocM GroupL ConstrL RoyalL ValidL ReadsL CodecL ExactL ExactM SpecF AcceptL.
From Coq Require Import Strings.Byte.

(** an account that signs for itself passes the gate *)
Lemma signed_gate e infos w k i : arg infos 0 k -> plain_accounts e infos w -> blocked_when_locked i = false -> signed infos k ->
  (exists w', process e infos w i = Ok w') <-> goes (dispatch e (passed infos) w i).
Proof.
  intros A0 Hp Hb Hs. split; [intros [w' H]; apply process_dispatch in H; now exists w'|].
  intros [w' H]. exists w'. unfold process. assert (V : goes (validate_access e w (firstn MAX_ACCOUNTS infos))).
  { destruct (find_locked_total e w (firstn MAX_ACCOUNTS infos) Hp) as (r & Hr & _). unfold validate_access.
    destruct A0 as (a & Ha & <-). unfold passed in Ha. change 7%nat with MAX_ACCOUNTS in Ha.
    destruct (firstn MAX_ACCOUNTS infos) as [|a0 rest] eqn:E; [discriminate|]. inv Ha.
    destruct (pk_eqb (acct_owner (w (ai_key a))) (e_prog e)) eqn:Ho; cbn [andb]; [|apply goes_unit; split; [rewrite ?andb_false_r; apply goes_ok|now exists r]].
    apply pk_eqb_eq in Ho. destruct (Hp a) as [Hd|Hd]; [unfold passed; change 7%nat with MAX_ACCOUNTS; rewrite E; now left|assumption| |].
    - rewrite Hd. change (zlen (@nil byte) =? 0) with true. cbn [andb negb]. apply goes_unit. split; [apply goes_ok|now exists r].
    - replace (zlen (data (w (ai_key a))) =? 0) with false by (unfold zlen; lia). cbn [negb andb].
      apply goes_unit. split; [|now exists r]. apply goes_guard. split; [unfold zlen; lia|].
      destruct (beqb _ _); [|apply goes_ok]. apply goes_require. split; [|apply goes_ok]. rewrite <- E. now apply signed_acct. }
  destruct V as [r ->]. cbn [bind]. rewrite Hb. destruct r; exact H.
Qed.

Lemma open_goes e infos w k payer sysp size : data (w k) = [] -> writable infos k -> signed infos k -> env_ok e -> e_prog e <> pk_zero ->
  goes (alloc_create_account e (passed infos) w k payer sysp size) <-> can_open e infos w k payer sysp size.
Proof.
  intros Hd Hw Hs He Hp. unfold alloc_create_account, can_open. apply writable_acct in Hw as Hw'. change (is_writable (passed infos) k = true) in Hw'.
  apply signer_spec in Hs as Hs'.
  assert (C : forall p, goes (sys_create e (passed infos) w p k (e_rent e size) size) <->
     acct_owner (w k) = pk_zero /\ lamports (w k) = 0 /\ size <= 10240 /\ e_rent e size < 18446744073709551616 /\ p <> k /\ can_pay infos w p (e_rent e size)).
  { intro p. unfold sys_create. cbv zeta. rewrite !goes_require, Hw', Hs', Hd. change (zlen (@nil byte) =? 0) with true. rewrite andb_true_r, !andb_true_iff, Z.eqb_eq, Z.leb_le, pk_eqb_eq. unfold MAX_INCREASE.
    set (w1 := upd w k (mkAcct (lamports (w k)) (e_prog e) (zeros size))).
    assert (O1 : ours e infos w1 k) by (split; [unfold w1; now rewrite upd_same|exact Hw]).
    rewrite (sys_goes e infos w1 p k (e_rent e size) O1 Hp (He size)).
    assert (L1 : lamports (w1 k) = lamports (w k)) by (unfold w1; now rewrite upd_same). rewrite L1.
    assert (P1 : can_pay infos w1 p (e_rent e size) <-> p <> k /\ can_pay infos w p (e_rent e size)).
    { unfold can_pay. destruct (pk_dec p k) as [->|N].
      - unfold w1. rewrite upd_same. cbn [acct_owner]. split; [intros (_ & _ & Q & _); congruence|intros [Q _]; congruence].
      - unfold w1. rewrite upd_other by assumption. tauto. }
    rewrite P1. split.
    - intros (_ & (H1 & H2) & H3 & H4 & H5). repeat (split; [tauto || lia|]). tauto.
    - intros (H1 & H2 & H3 & H4 & H5). split; [auto|]. split; [auto|]. split; [auto|]. split; [exact H5|]. rewrite H2. lia. }
  split.
  - intro H. apply goes_bind in H as (p & Hp1 & H). apply ok_or_ok in Hp1. apply goes_require in H as [Hp2 H]. apply goes_bind in H as (s & Hs1 & H). apply ok_or_ok in Hs1. apply goes_require in H as [Hs2 H].
    apply pk_eqb_eq in Hs2. subst s payer sysp. apply C in H as (H1 & H2 & H3 & H4 & H5 & H6). repeat (split; [assumption || reflexivity|]). exists p. auto.
  - intros (H1 & H2 & H3 & H4 & -> & p & -> & H5 & H6). cbn [ok_or bind]. rewrite !goes_require. pose proof H6 as (Q & _). apply signer_spec in Q. split; [exact Q|]. split; [apply pk_eqb_refl|].
    apply C. tauto.
Qed.
Lemma size_goes e infos w k payer sysp size : ours e infos w k -> e_prog e <> pk_zero -> env_ok e -> sized w -> lam_ok w -> 0 < size ->
  goes (resize e (passed infos) w w size k payer sysp) <-> can_size e infos w k payer sysp size.
Proof.
  intros O Hp He Hs Hl H0. unfold can_size. destruct (Z.lt_ge_cases size (zlen (data (w k)))) as [C|C].
  - destruct payer as [p|].
    + rewrite (shrink_goes e infos w w k p sysp size) by (auto; apply He). split.
      * intro H. split; [lia|]. intros _. eauto.
      * intros [_ H]. destruct (H C) as (p' & E & Q). apply some_inj in E. subst p'. exact Q.
    + split.
      * unfold resize. cbv zeta. replace (size <? zlen (data (w k))) with true by lia. cbn [ok_or bind]. intros [x H]. discriminate.
      * intros [_ H]. destruct (H C) as (p' & E & Q). discriminate.
  - rewrite (grow_goes e infos w w k payer sysp size) by (auto; lia). split; [intro H; split; [auto|lia]|tauto].
Qed.

Lemma resize_max e infos w0 w k payer sysp size w' : sized w -> resize e infos w0 w size k payer sysp = Ok w' -> zlen (data (w' k)) <= 10485760.
Proof.
  intros Hs H. unfold resize in H. cbv zeta in H. apply bind_ok in H as (w1 & H1 & H).
  assert (D : data (w1 k) = data (w k)).
  { destruct (size <? zlen (data (w k))).
    - apply bind_ok in H1 as (p & _ & H1). apply move_same in H1 as [H1 _]. apply H1.
    - apply require_ok in H1 as [_ H1]. destruct (0 <? _); [|apply Ok_inj in H1; now subst w1].
      apply bind_ok in H1 as (p & _ & H1). apply bind_ok in H1 as (s & _ & H1). apply require_ok in H1 as [_ H1]. apply require_ok in H1 as [_ H1].
      now apply (sys_transfer_data _ _ _ _ _ _ k) in H1 as [H1 _]. }
  unfold realloc in H. destruct (size =? zlen (data (w1 k))); [apply Ok_inj in H; subst w'; rewrite D; apply Hs|].
  apply require_ok in H as [_ H]. pose proof (set_data_data _ _ _ _ _ _ H) as E. apply set_data_ok in H as [[_ H]|(_ & _ & _ & H & _)].
  - subst w'. rewrite D. apply Hs.
  - rewrite E. exact H.
Qed.

Lemma new_end_pad l x : Forall blk_ok l -> new_end l x =
  (if negb (x_length x =? zlen (given x)) then 168 + sect_size l + 16 + zlen (given x) else pad8 (168 + sect_size l + 16 + x_length x)).
Proof. intro H. unfold new_end. pose proof (sect_size_mod _ H). destruct (x_length x =? zlen (given x)); cbn [negb]; [unfold pad8|]; lia. Qed.

(** the write after the account has its size *)
Lemma save_goes e infos w0 w asset payer sysp x hd l n : open_account (data (w asset)) hd l n -> sized w -> writable infos asset ->
  (data (w asset) <> [] -> acct_owner (w asset) = e_prog e) -> 0 <= x_length x -> zlen (given x) < two32 ->
  goes (save_extension_data e (passed infos) w0 w asset payer sysp x (negb (zlen (data (w asset)) =? 0)) (168 + sect_size l) (given x)) <->
  goes (if zlen (data (w asset)) =? 0 then alloc_create_account e (passed infos) w asset payer sysp (new_end l x)
        else if (zlen (data (w asset)) <? new_end l x) || (negb (x_length x =? zlen (given x)) && (new_end l x <? zlen (data (w asset))))
             then resize e (passed infos) w0 w (new_end l x) asset payer sysp else Ok w).
Proof.
  intros HO Hs Hw Ho Hx Hb. destruct (open_room _ _ _ _ HO) as (Hr & HP & Hn & Hf & Hh).
  pose proof (zlen_nonneg (given x)) as Hb0. unfold save_extension_data. cbv zeta. rewrite (Z.mod_small (zlen (given x))) by (unfold two32 in *; lia). unfold EXT_LEN.
  rewrite (new_end_pad l x Hf). rewrite negb_involutive. rewrite goes_bind.
  set (ext := if negb (x_length x =? zlen (given x)) then 168 + sect_size l + 16 + zlen (given x) else pad8 (168 + sect_size l + 16 + x_length x)).
  split; [intros (w1 & H & _); now exists w1|]. intros [w1 H]. exists w1. split; [exact H|].
  pose proof (sect_size_mod _ Hf) as Hm. pose proof (sect_size_nonneg l) as Hnn. pose proof (pad8_ge (168 + sect_size l + 16 + x_length x)) as Hp8.
  assert (Hext : 168 + sect_size l + 16 + zlen (given x) <= ext) by (unfold ext; destruct (Z.eqb_spec (x_length x) (zlen (given x))); cbn [negb]; lia).
  assert (S : exists m, data (w1 asset) = (hd ++ enc_sect 168 l) ++ zeros m /\ 16 + zlen (given x) <= m /\ ours e infos w1 asset /\ zlen (data (w1 asset)) <= 10485760).
  { destruct (Z.eqb_spec (zlen (data (w asset))) 0) as [Z|Z].
    - apply zlen_0 in Z. unfold alloc_create_account in H. apply bind_ok in H as (p & _ & H). apply require_ok in H as [_ H]. apply bind_ok in H as (s & _ & H). apply require_ok in H as [_ H].
      apply sys_create_world in H as (S1 & S2 & S3 & S4 & _). destruct Hr as [(_ & EP & _)|(Ed & HPl)].
      + exists (ext - 168). assert (E0 : 168 + sect_size l = 168) by (rewrite <- HP, EP; reflexivity). rewrite S1, EP, zeros_app by lia. split; [f_equal; lia|]. split; [lia|].
        split; [split; assumption|]. rewrite zlen_zeros by lia. lia.
      + exfalso. rewrite Z in Ed. apply (f_equal zlen) in Ed. rewrite zlen_app in Ed. change (zlen []) with 0 in Ed. pose proof (zlen_nonneg (zeros n)). lia.
    - destruct Hr as [(Ed & _)|(Ed & HPl)]; [rewrite Ed in Z; now elim Z|].
      assert (NE : data (w asset) <> []) by (intro Q; rewrite Q in Z; now elim Z).
      destruct ((zlen (data (w asset)) <? ext) || _) eqn:C.
      + pose proof H as H'. apply resize_data in H' as (S1 & S2 & S3). exists (ext - zlen (hd ++ enc_sect 168 l)).
        assert (Z1 : zlen (data (w1 asset)) = ext).
        { rewrite S1. apply zlen_realloc. lia. }
        split; [rewrite S1, Ed, realloc_app by lia; rewrite realloc_zeros by lia; reflexivity|]. split; [lia|].
        split; [split; [rewrite S3; now apply Ho|exact Hw]|].
        now apply (resize_max _ _ _ _ _ _ _ _ _ Hs H).
      + apply Ok_inj in H. subst w1. exists n. split; [exact Ed|]. apply orb_false_iff in C as [C1 C2].
        assert (zlen (data (w asset)) = zlen (hd ++ enc_sect 168 l) + n) by (rewrite Ed, zlen_app, zlen_zeros; lia).
        split; [lia|]. split; [split; [now apply Ho|exact Hw]|apply Hs]. }
  destruct S as (m & S1 & S2 & S3 & S4).
  pose proof (write_block (hd ++ enc_sect 168 l) m (ext_code (x_type x)) (x_length x) (pad8 (168 + sect_size l + 16 + x_length x)) (given x)) as WB.
  rewrite <- S1, HP in WB. specialize (WB ltac:(lia) S2). apply bind_ok in WB as (d1 & W1 & W2). rewrite W1. cbn [bind]. unfold EXT_LEN in W2. rewrite W2. cbn [bind].
  apply goes_set; [exact S3|]. apply (f_equal zlen) in S1. rewrite zlen_app, zlen_zeros in S1 by lia. rewrite !zlen_app in *. change (zlen (enc_hdr _ _ _)) with 12. rewrite !zlen_zeros by lia. lia.
Qed.

(** ** Allocate *)
Lemma do_alloc_goes e infos w0 w asset payer sysp x hd l n : open_account (data (w asset)) hd l n -> sized w -> writable infos asset -> ext_arg x ->
  goes (do_allocate e (passed infos) w0 w asset payer sysp x) <->
  signed infos asset /\ (data (w asset) <> [] -> acct_owner (w asset) = e_prog e /\ s_disc (data (w asset)) = x00) /\
  lookup (x_type x) (ext_list l) = None /\ zlen (given x) <= x_length x /\
  goes (if zlen (data (w asset)) =? 0 then alloc_create_account e (passed infos) w asset payer sysp (new_end l x)
        else if (zlen (data (w asset)) <? new_end l x) || (negb (x_length x =? zlen (given x)) && (new_end l x <? zlen (data (w asset))))
             then resize e (passed infos) w0 w (new_end l x) asset payer sysp else Ok w).
Proof.
  intros HO Hs Hw (Ht & Hx & Hg). pose proof (zlen_nonneg (given x)) as Hg0. unfold do_allocate. cbv zeta. rewrite goes_require.
  assert (Eb : (match x_data x with Some bs => require (zlen bs mod two32 <=? x_length x) EExtensionLengthInvalid (Ok bs) | None => Ok [] end) =
     require (zlen (given x) <=? x_length x) EExtensionLengthInvalid (Ok (given x))).
  { unfold given in *. destruct (x_data x) as [bs|]; [rewrite Z.mod_small by (unfold two32; lia); reflexivity|]. cbn [zlen length Z.of_nat]. unfold require. replace (0 <=? x_length x) with true by lia. reflexivity. }
  rewrite Eb. clear Eb.
  assert (Est : forall (k : bool * Z -> res world),
     goes (bind (if zlen (data (w asset)) =? 0 then Ok (false, ASSET_LEN)
           else require (owned_by_prog e w asset) EIllegalOwner
              (require (ASSET_LEN <=? zlen (data (w asset))) EInvalidAccountLength
               (require (beqb (byte_at (data (w asset)) 0) DISC_UNINIT) EAlreadyInitialized
                (c <- asset_contains (x_type x) (data (w asset)) ;;
                 require (negb c) EAlreadyInitialized
                  (l <- last_extension (data (w asset)) ;;
                   match l with
                   | None => Ok (true, ASSET_LEN)
                   | Some (h, off) => require (h_len h + off <=? zlen (data (w asset))) EIncompleteExtensionData (Ok (true, h_bnd h))
                   end))))) k) <->
     (data (w asset) <> [] -> acct_owner (w asset) = e_prog e /\ s_disc (data (w asset)) = x00) /\ lookup (x_type x) (ext_list l) = None /\
     goes (k (negb (zlen (data (w asset)) =? 0), 168 + sect_size l))).
  { intro k. destruct (Z.eqb_spec (zlen (data (w asset))) 0) as [Z|Z].
    - apply zlen_0 in Z. destruct HO as [(_ & _ & -> & _)|[_ HL]].
      + cbn [bind negb]. cbn [ext_list map lookup sect_size]. split; [intro H; split; [intro Q; contradiction|]; split; [reflexivity|exact H]|intros (_ & _ & H); exact H].
      + exfalso. pose proof (layout_len _ _ _ _ HL) as LL. rewrite Z in LL. change (zlen []) with 0 in LL. pose proof (sect_size_nonneg l). pose proof (zlen_nonneg (repeat x00 (Z.to_nat n))). lia.
    - assert (NE : data (w asset) <> []) by (intro Q; rewrite Q in Z; now elim Z).
      pose proof HO as HO'. destruct HO' as [(E1 & _)|[Hn HL]]; [contradiction|]. pose proof (layout_len _ _ _ _ HL) as LL.
      destruct (layout_last_bnd _ _ _ _ HL) as (o & Ho & Eo). rewrite (open_contains _ _ _ _ _ HO) by (auto; lia). rewrite Ho. cbn [bind negb].
      pose proof (sect_size_nonneg l). pose proof (zlen_nonneg (repeat x00 (Z.to_nat n))).
      assert (Q : match o with None => Ok (true, ASSET_LEN) | Some (h, off) => require (h_len h + off <=? zlen (data (w asset))) EIncompleteExtensionData (Ok (true, h_bnd h)) end = Ok (true, 168 + sect_size l)).
      { destruct o as [[h off]|]; [|rewrite <- Eo; reflexivity].
        pose proof (layout_last _ _ _ _ HL) as LLa. rewrite Ho in LLa. apply Ok_inj in LLa.
        assert (B : h_len h + off <= h_bnd h).
        { destruct (last_blk 168 l None) as [[p b]|] eqn:Elb; [|discriminate LLa]. cbn [last_res option_map fst snd] in LLa. apply some_inj in LLa. inversion LLa. subst h off. cbn [blk_hdr h_len h_bnd].
          unfold blk_size. pose proof (zlen_nonneg (bk_pad b)). lia. }
        unfold require. rewrite <- Eo in *. replace (h_len h + off <=? zlen (data (w asset))) with true by lia. reflexivity. }
      rewrite Q. unfold owned_by_prog. rewrite !goes_bind. split.
      + intros (st & H1 & H2). apply require_ok in H1 as [H1 H3]. apply require_ok in H3 as [_ H3]. apply require_ok in H3 as [H4 H3]. apply require_ok in H3 as [H5 H3]. apply Ok_inj in H3. subst st.
        apply pk_eqb_eq in H1. apply beqb_eq in H4. split; [intros _; split; [exact H1|exact H4]|]. split; [|exact H2]. destruct (lookup (x_type x) (ext_list l)); [discriminate H5|reflexivity].
      + intros (H1 & H2 & H3). destruct (H1 NE) as [H4 H5]. eexists. split; [|exact H3]. rewrite H2, H4, pk_eqb_refl. unfold require.
        replace (ASSET_LEN <=? zlen (data (w asset))) with true by (unfold ASSET_LEN; lia).
        change (byte_at (data (w asset)) 0) with (s_disc (data (w asset))). rewrite H5. reflexivity. }
  rewrite Est. clear Est. rewrite <- (signer_spec infos asset). rewrite goes_bind. cbn [fst snd].
  assert (SG : (data (w asset) <> [] -> acct_owner (w asset) = e_prog e /\ s_disc (data (w asset)) = x00) -> _) by
    (intro Q; exact (save_goes e infos w0 w asset payer sysp x hd l n HO Hs Hw (fun N => proj1 (Q N)) (proj1 Hx) Hg)).
  split.
  - intros (H1 & H2 & H3 & bs & H4 & H5). apply require_ok in H4 as [H4 H6]. apply Ok_inj in H6. subst bs. repeat (split; [assumption || lia|]). now apply (SG H2).
  - intros (H1 & H2 & H3 & H4 & H5). repeat (split; [assumption|]). eexists. split; [|apply (SG H2); exact H5]. unfold require. replace (zlen (given x) <=? x_length x) with true by lia. reflexivity.
Qed.

Lemma allocate_goes e infos w asset payer sysp x hd l n : arg infos 0 asset -> optional e infos 1 payer -> optional e infos 2 sysp ->
  open_account (data (w asset)) hd l n -> writable infos asset -> plain_accounts e infos w -> sized w -> lam_ok w -> env_ok e -> e_prog e <> pk_zero -> ext_arg x ->
  (exists w', process e infos w (IAllocate x) = Ok w') <->
  signed infos asset /\ lookup (x_type x) (ext_list l) = None /\ zlen (given x) <= x_length x /\
  (data (w asset) = [] -> can_open e infos w asset payer sysp (new_end l x)) /\
  (data (w asset) <> [] -> acct_owner (w asset) = e_prog e /\ s_disc (data (w asset)) = x00 /\
     (zlen (data (w asset)) < new_end l x \/ (zlen (given x) < x_length x /\ new_end l x < zlen (data (w asset))) -> can_size e infos w asset payer sysp (new_end l x))).
Proof.
  intros A0 O1 O2 HO Hw Hp Hs Hl He Hz Hx.
  assert (G : signed infos asset -> _) by exact (signed_gate e infos w asset (IAllocate x) A0 Hp eq_refl).
  assert (D : dispatch e (passed infos) w (IAllocate x) = do_allocate e (passed infos) w w asset payer sysp x).
  { cbn [dispatch]. unfold process_allocate. rewrite (optional_acct _ _ _ _ O1), (optional_acct _ _ _ _ O2). args. reflexivity. }
  rewrite D in G. pose proof Hx as (Ht & Hx1 & Hx2). pose proof (zlen_nonneg (given x)).
  assert (N0 : 0 < new_end l x). { unfold new_end. pose proof (sect_size_nonneg l). destruct (_ =? _); lia. }
  pose proof (do_alloc_goes e infos w w asset payer sysp x hd l n HO Hs Hw Hx) as DG.
  assert (P : (exists w', process e infos w (IAllocate x) = Ok w') <-> goes (do_allocate e (passed infos) w w asset payer sysp x)).
  { split; intro H0.
    - destruct H0 as [w' H0]. apply process_dispatch in H0. exists w'. rewrite <- D. exact H0.
    - apply G; [|exact H0]. apply DG in H0. tauto. }
  rewrite P, DG. clear P DG G D. split.
  - intros (H1 & H2 & H3 & H4 & H5). split; [assumption|]. split; [assumption|]. split; [assumption|]. split.
    + intro E. rewrite E in H5. cbn [zlen length Z.of_nat Z.eqb] in H5. now apply open_goes in H5.
    + intro E. destruct (H2 E) as [H6 H7]. split; [assumption|]. split; [assumption|]. intro C.
      replace (zlen (data (w asset)) =? 0) with false in H5 by (symmetry; apply Z.eqb_neq; intro Q; apply zlen_0 in Q; contradiction).
      replace ((zlen (data (w asset)) <? new_end l x) || _) with true in H5 by (symmetry; destruct C as [C|[C1 C2]]; lia).
      apply size_goes in H5; auto. split; assumption.
  - intros (H1 & H2 & H3 & H4 & H5). split; [assumption|]. split; [intro E; destruct (H5 E); tauto|]. split; [assumption|]. split; [assumption|].
    destruct (Z.eqb_spec (zlen (data (w asset))) 0) as [Q|Q].
    + apply zlen_0 in Q. apply open_goes; auto.
    + assert (NE : data (w asset) <> []) by (intro E; rewrite E in Q; now elim Q). destruct (H5 NE) as (H6 & H7 & H8).
      destruct ((zlen (data (w asset)) <? new_end l x) || _) eqn:C; [|apply goes_ok].
      apply size_goes; auto; [split; assumption|]. apply H8. apply orb_true_iff in C as [C|C]; lia.
Qed.

(** ** Write *)
Lemma write_goes e infos w a asset payer hd l t len bs : arg infos 0 asset -> arg infos 1 payer -> arg infos 2 pk_zero ->
  partial_account (data (w asset)) hd l t len bs -> zlen bs < len -> w_overwrite a = false -> zlen bs + zlen (w_bytes a) <= len ->
  writable infos asset -> plain_accounts e infos w -> sized w -> lam_ok w -> env_ok e -> e_prog e <> pk_zero ->
  (exists w', process e infos w (IWrite a) = Ok w') <->
  signed infos payer /\ signed infos asset /\ acct_owner (w asset) = e_prog e /\ s_disc (data (w asset)) = x00 /\
  can_grow e infos w asset (Some payer) (Some pk_zero) (part_end l len (zlen bs + zlen (w_bytes a))) /\
  (zlen bs + zlen (w_bytes a) = len -> acceptable t (bs ++ w_bytes a)).
Proof.
  intros A0 A1 A2 HP Hlt Ho Hle Hwr Hp Hs Hl He Hz.
  pose proof (signed_gate e infos w asset (IWrite a) A0 Hp eq_refl) as G.
  assert (D : dispatch e (passed infos) w (IWrite a) = process_write e (passed infos) w a) by reflexivity.
  set (c := w_bytes a) in *. set (p := 168 + sect_size l) in *. set (bnd := pad8 (p + 16 + len)) in *.
  pose proof (partial_len _ _ _ _ _ _ HP) as Hd. pose proof (partial_eq _ _ _ _ _ _ HP) as Ed. fold p bnd in Hd, Ed.
  pose proof HP as (_ & Hh & Hf & Ht & Hb & Hzz). fold p in Hzz.
  assert (Hbnd : p + 16 + len <= bnd < p + 16 + len + 8) by apply pad8_ge.
  pose proof (zlen_nonneg c) as Hc0. pose proof (zlen_nonneg bs) as Hb0.
  pose proof (sect_size_mod l Hf) as Hm. pose proof (sect_size_nonneg l) as Hsn.
  assert (Epe : part_end l len (zlen bs + zlen c) = if zlen (data (w asset)) + zlen c =? p + 16 + len then bnd else zlen (data (w asset)) + zlen c).
  { unfold part_end. fold p. destruct (Z.eqb_spec (zlen bs + zlen c) len); [replace (zlen (data (w asset)) + zlen c =? p + 16 + len) with true by lia; unfold bnd, pad8, p; lia|].
    replace (zlen (data (w asset)) + zlen c =? p + 16 + len) with false by lia. lia. }
  set (size := part_end l len (zlen bs + zlen c)) in *.
  assert (Hsize : zlen (data (w asset)) + zlen c <= size) by (rewrite Epe; destruct (_ =? _) eqn:E; lia).
  assert (K : goes (process_write e (passed infos) w a) <-> signed infos payer /\ signed infos asset /\ acct_owner (w asset) = e_prog e /\ s_disc (data (w asset)) = x00 /\
     can_grow e infos w asset (Some payer) (Some pk_zero) size /\ (zlen bs + zlen c = len -> acceptable t (bs ++ c))).
  { unfold process_write. args. rewrite !goes_require, !signer_spec. cbv zeta. unfold owned_by_prog. rewrite !pk_eqb_eq.
    change (byte_at (data (w asset)) 0) with (s_disc (data (w asset))). rewrite beqb_eq. change DISC_UNINIT with x00.
    rewrite (partial_last _ _ _ _ _ _ HP). cbn [bind h_len h_bnd]. fold p bnd. rewrite goes_require, Ho. unfold EXT_LEN, ASSET_LEN. fold c. rewrite <- Epe.
    assert (E0 : (168 <=? zlen (data (w asset))) = true) by (unfold p in Hd; lia). rewrite E0.
    assert (E1 : (zlen (data (w asset)) <=? p + 16 + len) = true) by lia. rewrite E1.
    assert (REST : acct_owner (w asset) = e_prog e -> forall w1, resize e (passed infos) w w size asset (Some payer) (Some pk_zero) = Ok w1 ->
       goes (d1 <- memcpy_at (data (w1 asset)) (zlen (data (w asset))) c ;; w2 <- set_data e (passed infos) w1 asset d1 ;;
         if zlen d1 <? p + 16 + len then Ok w2 else
                  l2 <- last_extension d1 ;;
                  match l2 with
                  | None => Err EExtensionNotFound
                  | Some (h2, off2) =>
                      t <- ok_or (ext_of_code (h_type h2)) EExtensionDataInvalid ;;
                      b <- slice d1 off2 (off2 + h_len h2) ;;
                      b' <- map_err (on_create t off2 None b) EExtensionDataInvalid ;;
                      set_data e (passed infos) w2 asset (put d1 off2 b')
                  end) <-> (zlen bs + zlen c = len -> acceptable t (bs ++ c))).
    { intros Hown w1 Hr. pose proof (resize_max _ _ _ _ _ _ _ _ _ Hs Hr) as Hmax. apply resize_world in Hr as (R1 & R2 & R3).
      assert (M : memcpy_at (data (w1 asset)) (zlen (data (w asset))) c = Ok (data (w asset) ++ c ++ zeros (size - zlen (data (w asset)) - zlen c))).
      { rewrite R1, realloc_grow by lia. replace (size - zlen (data (w asset))) with (zlen c + (size - zlen (data (w asset)) - zlen c)) at 1 by lia.
        rewrite <- zeros_app by lia. unfold memcpy_at, guard. rewrite !zlen_app, !zlen_zeros by lia.
        replace ((0 <=? zlen (data (w asset))) && _) with true by (pose proof (zlen_nonneg (data (w asset))); lia). replace (zlen (data (w asset)) + zlen c <=? _) with true by lia. rewrite put_mid by (auto; rewrite zlen_zeros; lia). reflexivity. }
      rewrite M. cbn [bind]. set (d1 := data (w asset) ++ c ++ zeros (size - zlen (data (w asset)) - zlen c)).
      assert (Z1 : zlen d1 = size) by (unfold d1; rewrite !zlen_app, zlen_zeros; lia).
      assert (Zm : size <= 10485760). { rewrite R1 in Hmax. rewrite zlen_realloc in Hmax; lia. }
      assert (SD : forall w d, acct_owner (w asset) = e_prog e -> zlen d <= 10485760 -> exists w2, set_data e (passed infos) w asset d = Ok w2 /\ acct_owner (w2 asset) = e_prog e).
      { intros w' d Q1 Q2. destruct (goes_set e infos w' asset d) as [w2 Q]; [split; assumption|assumption|]. exists w2. split; [assumption|]. now apply set_data_world in Q as (_ & _ & ->). }
      destruct (SD w1 d1) as (w2 & Ew2 & Ow2); [rewrite R3; assumption|lia|]. rewrite Ew2. cbn [bind]. rewrite Z1.
      destruct (Z.ltb_spec size (p + 16 + len)) as [C|C].
      - split; [intros _ Q; exfalso|intros _; apply goes_ok]. rewrite Epe in C. replace (zlen (data (w asset)) + zlen c =? p + 16 + len) with true in C by lia. lia.
      - assert (Heq : zlen bs + zlen c = len) by (rewrite Epe in C; destruct (_ =? _) eqn:E in C; lia).
        assert (Esz : size = bnd) by (rewrite Epe; replace (_ =? _) with true by lia; reflexivity).
        assert (E2 : d1 = hd ++ enc_sect 168 l ++ enc_blk p (blk_of t (bs ++ c)) ++ []).
        { unfold d1. rewrite Hd. rewrite Ed. rewrite <- !app_assoc. do 2 f_equal.
          pose proof (full_block p t (bs ++ c) 0) as FB. rewrite zlen_app, Heq in FB.
          fold bnd in FB. change (zeros 0) with (@nil byte) in FB. rewrite <- FB by (unfold p; lia).
          rewrite <- !app_assoc. do 5 f_equal. rewrite Esz.
          unfold bnd. unfold pad8, p. lia. }
        assert (HL0 : layout d1 hd (l ++ [blk_of t (bs ++ c)]) []).
        { split; [rewrite E2, enc_sect_app; cbn [enc_sect]; now rewrite !app_nil_r|].
          split; [assumption|]. split; [apply Forall_app; split; [assumption|]; constructor; [now apply blk_of_ok|constructor]|].
          split; [left; reflexivity|]. rewrite Z1. lia. }
        rewrite (layout_last _ _ _ _ HL0), last_blk_app.
        cbn [bind last_res option_map fst snd blk_hdr h_bnd h_type h_len blk_of bk_type bk_data].
        rewrite ext_of_code_code. cbn [ok_or bind].
        pose proof (layout_slice _ _ _ _ HL0 p l (blk_of t (bs ++ c)) [] eq_refl eq_refl) as Hsl.
        cbn [blk_of bk_data] in Hsl. fold p. rewrite Hsl. cbn [bind]. rewrite goes_bind.
        rewrite <- (on_create_goes t (p + 16) None (bs ++ c)) by (unfold p; lia). split.
        + intros (b' & Hb' & _) _. apply map_err_ok in Hb'. now exists b'.
        + intro Q. destruct (Q Heq) as [b' Hb']. exists b'. split; [rewrite Hb'; reflexivity|].
          apply on_create_fresh in Hb' as (Hlen & _).
          destruct (SD w2 (put d1 (p + 16) b')) as (w3 & E3 & _); [assumption| |now exists w3].
          rewrite zlen_put; [lia|unfold p; lia|]. rewrite Z1. unfold zlen in *. rewrite Hlen, app_length. lia. }
    split.
    - intros (_ & H1 & H2 & H3 & _ & H4 & _ & H5). repeat (split; [assumption|]). apply goes_bind in H5 as (w1 & Hr & H5).
      split; [|now apply (REST H3 w1)]. apply (grow_goes e infos w w asset (Some payer) (Some pk_zero) size); auto; [split; assumption|lia|now exists w1].
    - intros (H1 & H2 & H3 & H4 & H5 & H6). repeat (split; [assumption || reflexivity|]).
      apply (grow_goes e infos w w asset (Some payer) (Some pk_zero) size) in H5 as [w1 Hr]; auto; [|split; assumption|lia].
      apply goes_bind. exists w1. split; [exact Hr|]. now apply (REST H3 w1). }
  rewrite <- K. split; [intros [w' H]; apply process_dispatch in H; exists w'; exact H|].
  intro H. apply G; [|exact H]. apply K in H. tauto.
Qed.

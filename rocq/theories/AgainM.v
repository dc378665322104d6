(** Lemmas: an Update of an extension once more (C84). *)
From Verif Require Import Base State Layout Constr Ext World Proc BaseL Spec SpecB SpecH SpecTake WorldL ProcSteps FrameL LayoutL LayoutE HeadL AuthL ValidL GroupL CreateL UpdateL UpdateM TakeL AgainL.
From Verif Require AuthM VerifyL ViewM AllocC UpdateT.
From Coq Require Import Strings.Byte.

(** ** The payload *)
Lemma with_size_same b : (16 <= length b)%nat -> with_size (gr_size b) b = b.
Proof.
  intro H. unfold with_size, gr_size, sub. change (skipn 0 b) with b.
  assert (L : length (firstn 8 b) = 8%nat) by (rewrite firstn_length; lia). pose proof (le_enc_dec (firstn 8 b)) as E. rewrite L in E. rewrite E. apply firstn_skipn.
Qed.
(** the flags of stored creators depend on their addresses only *)
Definition by_address (b : bytes) : Prop := forall i j, (i < cr_count b)%nat -> (j < cr_count b)%nat -> cr_addr_at b i = cr_addr_at b j -> cr_flag_at b i = cr_flag_at b j.
Lemma flag_by_address b i : by_address b -> (i < cr_count b)%nat -> flag_of (cr_count b) b (cr_addr_at b i) = Some (cr_flag_at b i).
Proof.
  intros H Hi. destruct (ViewM.flag_of_some (cr_count b) b i Hi) as (f & E). rewrite E. destruct (VerifyL.flag_of_some _ _ _ _ E) as (j & Hj & A & F). rewrite <- F. f_equal. now apply H.
Qed.
Lemma stored_by_address auth cur b b' : stored XCreators auth cur b b' -> by_address b'.
Proof.
  intros S i j Hi Hj E. pose proof (stored_len _ _ _ _ _ S) as L. rewrite (VerifyL.count_of _ _ L) in *.
  destruct cur as [c|]; cbn [stored] in S.
  - destruct S as ((_ & _ & _ & _ & P & _) & _). specialize (P eq_refl). pose proof (P i Hi) as (Ai & _ & Fi). pose proof (P j Hj) as (Aj & _ & Fj).
    rewrite <- Ai in Fi. rewrite <- Aj in Fj. rewrite <- E in Fj. destruct (flag_of (cr_count c) c (cr_addr_at b' i)) as [f|]; [congruence|].
    destruct Fi as [F1 F0], Fj as [G1 G0]. destruct (list_eq_dec Byte.byte_eq_dec auth (cr_addr_at b' i)) as [Q|Q].
    + apply F1 in Q as Q1. apply G1 in Q as Q2. congruence.
    + apply F0 in Q as Q1. apply G0 in Q as Q2. congruence.
  - destruct S as (_ & _ & (_ & _ & P) & _). specialize (P eq_refl). pose proof (P i Hi) as (Ai & _ & F1 & F0). pose proof (P j Hj) as (Aj & _ & G1 & G0).
    rewrite <- Ai in F1, F0. rewrite <- Aj in G1, G0. rewrite <- E in G1, G0. destruct (list_eq_dec Byte.byte_eq_dec auth (cr_addr_at b' i)) as [Q|Q].
    + assert (Q' : Some auth = Some (cr_addr_at b' i)) by congruence. apply F1 in Q' as Q1. apply G1 in Q' as Q2. congruence.
    + assert (Q' : Some auth <> Some (cr_addr_at b' i)) by congruence. apply F0 in Q' as Q1. apply G0 in Q' as Q2. congruence.
Qed.
Lemma stored_named auth cur b b' i : stored XCreators auth cur b b' -> (i < cr_count b)%nat -> cr_addr_at b' i = cr_addr_at b i /\ cr_share_at b' i = cr_share_at b i.
Proof.
  intros S Hi. destruct cur as [c|]; cbn [stored] in S.
  - destruct S as ((_ & _ & _ & _ & P & _) & _). destruct (P eq_refl i Hi) as (? & ? & _). auto.
  - destruct S as (_ & _ & (_ & _ & P) & _). destruct (P eq_refl i Hi) as (? & ? & _). auto.
Qed.
Lemma stored_valid t auth cur b b' : stored t auth cur b b' -> valid_payload t b'.
Proof. destruct cur; cbn [stored]; [intros (_ & V & _); exact V|intros (_ & _ & _ & V & _); exact V]. Qed.
Lemma stored_twice t auth cur bs b b2 : stored t auth cur bs b -> stored t auth (Some b) bs b2 -> b2 = b.
Proof.
  intros S S2. pose proof (stored_len _ _ _ _ _ S) as L. pose proof (stored_len _ _ _ _ _ S2) as L2.
  assert (D : t = XCreators \/ t = XGrouping \/ (t <> XCreators /\ t <> XGrouping)) by (destruct t; auto; right; right; split; discriminate).
  destruct D as [->|[->|[N1 N2]]].
  - pose proof (stored_by_address _ _ _ _ S) as B. pose proof (stored_valid _ _ _ _ _ S) as V. pose proof (VerifyL.count_of _ _ L) as C. apply AllocC.creators_ext; [|lia|].
    + cbn [valid_payload] in V. destruct V as [V _]. exact V.
    + intros i Hi. pose proof Hi as Hi'. rewrite C in Hi'. destruct (stored_named _ _ _ _ i S Hi') as [A H]. destruct (stored_named _ _ _ _ i S2 Hi') as [A2 H2].
      destruct S2 as ((_ & _ & _ & _ & P & _) & _). destruct (P eq_refl i Hi') as (_ & _ & F). rewrite <- A in F. rewrite (flag_by_address b i B Hi) in F. repeat split; congruence.
  - cbn [stored] in S2. destruct S2 as ((_ & _ & P & _) & _ & _ & M). destruct (P eq_refl) as [-> _]. specialize (M eq_refl).
    destruct cur as [c|]; cbn [stored] in S.
    + destruct S as ((_ & _ & Q & _) & _). destruct (Q eq_refl) as [-> _]. rewrite L in M. rewrite (proj1 (proj2 (with_size_fields (gr_size c) bs M (AuthM.gr_size_range c)))). reflexivity.
    + destruct S as (_ & _ & (_ & Q & _) & _). rewrite (Q ltac:(discriminate)) in *. now apply with_size_same.
  - destruct S2 as ((_ & Q2 & _) & _). rewrite (Q2 N1 N2). destruct cur as [c|]; cbn [stored] in S; [destruct S as ((_ & Q & _) & _); now rewrite Q|destruct S as (_ & _ & (_ & Q & _) & _); now rewrite Q].
Qed.

(** ** The account *)
Lemma enc_hdr_len a b c : zlen (enc_hdr a b c) = 12. Proof. reflexivity. Qed.
Lemma fld_skip A X o n : zlen A = o -> fld (A ++ X) o n = fld X 0 n.
Proof. intros <-. unfold fld. f_equal. change (Z.to_nat 0) with 0%nat. unfold zlen. rewrite Nat2Z.id, skipn_app, skipn_all, Nat.sub_diag. reflexivity. Qed.
Lemma fld_front X Y : fld (X ++ Y) 0 (zlen X) = X.
Proof. unfold fld, zlen. rewrite Nat2Z.id. change (Z.to_nat 0) with 0%nat. cbn [skipn]. rewrite firstn_app, firstn_all, Nat.sub_diag. cbn [firstn]. apply app_nil_r. Qed.
Lemma block_parts d hd l1 b l2 tl : layout d hd (l1 ++ b :: l2) tl -> let c := 168 + sect_size l1 in
  0 <= c /\ c mod 8 = 0 /\ c + 16 + zlen (bk_data b) <= zlen d /\ fld d c 12 = enc_hdr (ext_code (bk_type b)) (zlen (bk_data b)) (c + blk_size b) /\ fld d (c + 16) (zlen (bk_data b)) = bk_data b.
Proof.
  intros HL c. pose proof (sect_size_nonneg l1). pose proof (layout_len _ _ _ _ HL) as LL. destruct HL as (-> & Hh & HF & _). apply Forall_app in HF as [F1 F2]. inversion F2 as [|? ? Fb F3]. subst.
  destruct Fb as (_ & U & _). split; [unfold c; lia|]. split; [unfold c; pose proof (sect_size_mod l1 F1); lia|].
  assert (EA : hd ++ enc_sect 168 (l1 ++ b :: l2) ++ tl = (hd ++ enc_sect 168 l1) ++ enc_blk c b ++ enc_sect (c + blk_size b) l2 ++ tl).
  { rewrite enc_sect_app. cbn [enc_sect]. rewrite <- !app_assoc. reflexivity. }
  rewrite EA. set (A := hd ++ enc_sect 168 l1). set (R := enc_sect (c + blk_size b) l2 ++ tl).
  assert (HA : zlen A = c) by (unfold A; rewrite zlen_app, zlen_enc_sect by assumption; unfold c; lia).
  assert (U4 : zlen (bk_unused b) = 4) by (unfold zlen; lia).
  split; [|split].
  - rewrite !zlen_app, HA. unfold enc_blk. rewrite !zlen_app, U4. change (zlen (le_enc 4 _)) with 4. pose proof (zlen_nonneg (bk_pad b)). pose proof (zlen_nonneg R). change (zlen (le_enc 4 (zlen (bk_data b)))) with 4. change (zlen (le_enc 4 (c + blk_size b))) with 4. lia.
  - rewrite (fld_skip A _ _ _ HA). unfold enc_blk.
    replace ((le_enc 4 (ext_code (bk_type b)) ++ le_enc 4 (zlen (bk_data b)) ++ le_enc 4 (c + blk_size b) ++ bk_unused b ++ bk_data b ++ bk_pad b) ++ R)
      with (enc_hdr (ext_code (bk_type b)) (zlen (bk_data b)) (c + blk_size b) ++ (bk_unused b ++ bk_data b ++ bk_pad b) ++ R) by (unfold enc_hdr; rewrite <- !app_assoc; reflexivity).
    change 12 with (zlen (enc_hdr (ext_code (bk_type b)) (zlen (bk_data b)) (c + blk_size b))). apply fld_front.
  - assert (E2 : A ++ enc_blk c b ++ R = (A ++ enc_hdr (ext_code (bk_type b)) (zlen (bk_data b)) (c + blk_size b) ++ bk_unused b) ++ bk_data b ++ bk_pad b ++ R)
      by (unfold enc_blk, enc_hdr; rewrite <- !app_assoc; reflexivity).
    rewrite E2, fld_skip by (rewrite !zlen_app, enc_hdr_len; lia). apply fld_front.
Qed.
Lemma upd_head_done a d0 d : 168 <= zlen d -> header_updated a d0 d -> upd_head a d = d.
Proof.
  intros L (_ & _ & _ & M & _ & _ & _ & _ & _ & N). unfold upd_head. cbv zeta.
  assert (E : match u_name a with Some n => put d 133 (pod_str35 n) | None => d end = d).
  { destruct (u_name a) as [n|]; [|reflexivity]. apply put_noop; rewrite ?zlen_pod; [lia|lia|]. rewrite pod_name, <- N. unfold s_name. change 133 with (Z.of_nat 133). change 35 with (Z.of_nat 35). now rewrite <- sub_fld. }
  rewrite E. destruct (u_mutable a) as [m|]; [|reflexivity]. apply put_byte; [lia|]. exact M.
Qed.
Lemma loc_here t b l2 : bk_type b = t -> forall l1 cur, Forall (fun k => bk_type k <> t) l1 -> loc t cur (l1 ++ b :: l2) = Some (cur + sect_size l1, b).
Proof.
  intros E l1. induction l1 as [|y l1 IH]; intros cur HF; cbn [app loc sect_size].
  - rewrite E, ext_type_eqb_refl. do 2 f_equal. lia.
  - inversion HF as [|? ? N F]. subst. destruct (ext_type_eqb (bk_type y) (bk_type b)) eqn:Q; [apply ext_type_eqb_eq in Q; contradiction|]. rewrite IH by assumption. do 2 f_equal. lia.
Qed.
Lemma update_same e infos w0 w asset auth payer sysp x w' hd l1 b l2 tl :
  layout (data (w asset)) hd (l1 ++ b :: l2) tl -> bk_type b = x_type x -> Forall (fun k => bk_type k <> x_type x) l1 -> x_type x <> XNone -> x_length x = zlen (bk_data b) ->
  (forall bs b2, x_data x = Some bs -> stored (x_type x) (pk_bytes auth) (Some (bk_data b)) bs b2 -> b2 = bk_data b) ->
  update_ext e infos w0 w asset auth None payer sysp (Some x) = Ok w' -> unchanged w w'.
Proof.
  intros HL Eb HF Ht Hlen Hst H. unfold update_ext in H. apply bind_ok in H as (t & T & H). cbn [update_type] in T. apply Ok_inj in T. subst t.
  apply bind_ok in H as (f & Hf & H). destruct (update_find_layout _ _ _ _ _ _ HL Ht Hf) as [Er _]. clear Hf.
  assert (LC : loc (x_type x) 168 (l1 ++ b :: l2) = Some (168 + sect_size l1, b)) by (now apply loc_here).
  rewrite LC in Er. subst f. destruct (block_parts _ _ _ _ _ _ HL) as (C0 & C8 & CL & FH & FD). set (c := 168 + sect_size l1) in *.
  assert (Bok : blk_ok b) by (destruct HL as (_ & _ & Q & _); apply Forall_app in Q as [_ Q]; now inversion Q).
  apply bind_ok in H as (s & Hs & H). destruct s as [[n src] w2]. apply bind_ok in H as (w3 & Hr & H).
  assert (S : n = zlen (bk_data b) /\ w2 = w /\ (0 < n -> src = Some (bk_data b))).
  { cbn [update_source] in Hs. apply bind_ok in Hs as ([n0 o0] & Q & Hs).
    destruct (n0 <? x_length x) eqn:E1; [discriminate Hs|]. destruct (x_length x <? n0) eqn:E2; [discriminate Hs|]. apply Ok_inj in Hs. injection Hs as <- <- <-.
    split; [lia|]. split; [reflexivity|]. intro Hn. destruct (x_data x) as [bs|] eqn:Ex; [|apply Ok_inj in Q; injection Q as <- <-; lia].
    cbn [blk_hdr h_len] in Q. apply bind_ok in Q as (cur & Qc & Q). apply bind_ok in Qc as (sl & Qs & Qc). apply Ok_inj in Qc. subst cur.
    apply slice_ok in Qs as (_ & _ & _ & Qs & _). change EXT_LEN with 16 in Qs. replace (c + 16 + zlen (bk_data b) - (c + 16)) with (zlen (bk_data b)) in Qs by lia. rewrite FD in Qs. subst sl.
    apply bind_ok in Q as (bs' & V & Q). apply Ok_inj in Q. injection Q as <- <-. f_equal. apply validate_stored in V. cbn [option_map snd] in V. now apply (Hst bs). }
  destruct S as (-> & -> & Hsrc). unfold update_room in Hr. cbv zeta in Hr. cbn [blk_hdr h_len] in Hr. rewrite Z.eqb_refl in Hr. apply Ok_inj in Hr. subst w3.
  unfold update_finish in H. cbv zeta in H. change EXT_LEN with 16 in H. rewrite (blk_size_pad8 b c Bok C8) in H. cbn [blk_hdr h_bnd] in H. rewrite Z.sub_diag in H. change (to_i32 0) with 0 in H.
  apply bind_ok in H as (d4 & H4 & H). apply bind_ok in H as (d5 & H5 & H). apply bind_ok in H as (d6 & H6 & H).
  unfold set_hdr in H4. apply guard_ok in H4 as [_ H4]. apply Ok_inj in H4. rewrite <- Eb in H4.
  pose proof (zlen_nonneg (bk_data b)). rewrite put_noop in H4 by (rewrite ?enc_hdr_len; try lia; exact FH). subst d4. apply fix_zero in H5. subst d5.
  eapply same_set; [exact H|]. destruct (0 <? zlen (bk_data b)) eqn:E; [|now apply Ok_inj in H6].
  rewrite (Hsrc ltac:(lia)) in H6. apply memcpy_inv in H6 as (_ & _ & ->). apply put_noop; [lia|lia|exact FD].
Qed.
Lemma update_again e infos w w1 k l u x : env_ok e -> e_prog e <> pk_zero -> sized w -> arg infos 0 k -> arg infos 2 (e_prog e) -> well_formed (data (w k)) l -> u_ext u = Some x -> ext_arg x ->
  process e infos w (IUpdate u) = Ok w1 -> settled e infos w1 (IUpdate u).
Proof.
  intros He Hp Hs A B (hd & tl & HL) U (X1 & X2 & X3) H w2 H2.
  destruct (update_effect _ _ _ _ _ _ _ _ _ He Hp Hs A HL ltac:(intros x0 E; rewrite U in E; injection E as <-; auto) H) as (auth & hd' & l' & tl' & A1 & _ & _ & _ & _ & _ & HU & L' & _ & _ & [(Q & _)|(bf & t & b & Bf & Ht & EL & SS)]); [congruence|].
  destruct Bf as [[-> _]|(bk & _ & Bk & N)]; [|elim N; exact (arg_det _ _ _ _ Bk B)]. cbn [source_spec] in SS. destruct SS as (x0 & E0 & -> & Xl & St & Nn & _). rewrite U in E0. injection E0 as <-.
  assert (LK : lookup (x_type x) (ext_list l') = Some b) by (rewrite EL; apply UpdateT.lookup_put_ext).
  rewrite (loc_lookup _ l' 168) in LK. destruct (loc (x_type x) 168 l') as [[c b']|] eqn:LC; [|discriminate LK]. cbn [option_map snd] in LK. injection LK as LK.
  destruct (loc_some _ _ _ _ _ LC) as (l1 & l2 & -> & _ & Tb & HF).
  apply process_dispatch in H2. cbn [dispatch] in H2. unfold process_update, check_authority in H2.
  apply bind_ok in H2 as (a & A2 & Q). apply acct_arg in A2. pose proof (arg_det _ _ _ _ A2 A). subst a.
  apply bind_ok in Q as (s & S & Q). apply acct_arg in S. pose proof (arg_det _ _ _ _ S A1). subst s. apply bind_ok in Q as (bf & Bf & Q). apply (opt_no _ _ _ _ B) in Bf. subst bf.
  apply bind_ok in Q as (? & _ & Q). apply bind_ok in Q as (? & _ & Q). apply bind_ok in Q as (? & _ & Q).
  apply require_ok in Q as [_ Q]. apply require_ok in Q as [_ Q]. cbv zeta in Q. apply require_ok in Q as [_ Q]. apply require_ok in Q as [_ Q]. apply require_ok in Q as [_ Q].
  fold (upd_head u (data (w1 k))) in Q. pose proof (layout_len _ _ _ _ L') as LL. pose proof (sect_size_nonneg (l1 ++ b' :: l2)). pose proof (zlen_nonneg tl').
  assert (L8 : 168 <= zlen (data (w1 k))) by lia. rewrite (upd_head_done u _ _ L8 HU) in Q. apply bind_ok in Q as (v & Hv & Q). pose proof (same_set _ _ _ _ _ _ Hv eq_refl) as V. rewrite U in Q.
  assert (Lv : layout (data (v k)) hd' (l1 ++ b' :: l2) tl') by (rewrite V; exact L').
  assert (R : unchanged v w2).
  { eapply update_same; [exact Lv|exact Tb|exact HF|exact X1|congruence| |exact Q]. intros bs b2 E S2. rewrite LK in *. eapply stored_twice; [apply St; exact E|exact S2]. }
  intro y. rewrite R. apply V.
Qed.

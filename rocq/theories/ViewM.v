(** Lemmas: Update from values to values (C80). *)
From Verif Require Import Base State Layout Constr Ext World Proc Borsh Client Js BaseL Spec SpecB SpecC SpecE SpecF SpecH SpecI SpecJ SpecK SpecJs SpecR SpecS SpecView WorldL ProcSteps FrameL LayoutL LayoutE HeadL CreatorsL AuthL AuthM GroupL ResizeL UpdateL UpdateM StepH CreateL ValidL AcceptL CountL ExactL ExactO ExactP JsL JsM JsN JsO JsP JsQ HelpL ViewL.
From Coq Require Import Strings.Byte.

(** ** Creators *)
Lemma flag_in_snoc l c k : flag_in (l ++ [c]) k = match flag_in l k with Some f => Some f | None => if bytes_eqb (fst (fst c)) k then Some (snd (fst c)) else None end.
Proof. induction l as [|x l IH]; cbn [app flag_in]; [reflexivity|]. destruct (bytes_eqb (fst (fst x)) k); [reflexivity|exact IH]. Qed.
Lemma flag_of_in_values n b k : flag_in (map seen_creator (dec_creators n b)) k = option_map (fun f => beqb f x01) (flag_of n b k).
Proof.
  induction n as [|n IH]; [reflexivity|]. rewrite dec_snoc, map_app. cbn [map]. rewrite flag_in_snoc, IH. cbn [flag_of].
  destruct (flag_of n b k) as [f|]; [reflexivity|]. cbn [option_map seen_creator fst snd cr_addr cr_verified].
  destruct (list_eq_dec _ _ _) as [->|N]; [now rewrite bytes_eqb_refl|]. destruct (bytes_eqb _ k) eqn:E; [apply bytes_eqb_eq in E; contradiction|reflexivity].
Qed.
Lemma in_seen n b k v s : In (k, v, s) (map seen_creator (dec_creators n b)) <->
  exists i, (i < n)%nat /\ k = cr_addr_at b i /\ v = beqb (cr_flag_at b i) x01 /\ s = b2z (cr_share_at b i).
Proof.
  rewrite in_map_iff. split.
  - intros (c & E & H). apply dec_in in H as (i & Hi & ->). cbn [seen_creator cr_addr cr_verified cr_share] in E. injection E as <- <- <-. eauto.
  - intros (i & Hi & -> & -> & ->). exists (mkCreator (cr_addr_at b i) (cr_flag_at b i) (cr_share_at b i)). split; [reflexivity|]. apply dec_in. eauto.
Qed.
Lemma creators_updated auth l c b b' y0 : typed (JCreators l) -> js_payload (JCreators l) = Some b -> zlen b <= u32_max -> shown XCreators c [] y0 ->
  updated_payload XCreators auth c b b' -> exists y, shown XCreators b' [] y /\ updated_value auth (Some y0) (JCreators l) y.
Proof.
  intros T P L [E0 S0] (L1 & _ & _ & _ & F & _). destruct y0 as [?|? ?|l0|?|? ? ? ?|? ? ?|? ?|? ?|? ? ? ?|?|?]; try discriminate E0. clear E0.
  destruct S0 as (c0 & Hc & ->). specialize (F eq_refl).
  pose proof (payload_read _ b T P L) as S. cbn [says] in S. destruct (from_bytes_ok _ _ S) as (B1 & B2 & _ & _). destruct (from_bytes_ok _ _ Hc) as (_ & C2 & _ & _).
  assert (PK : length b' = (34 * cr_count b')%nat) by (rewrite (cr_count_len _ _ L1), L1; exact B1).
  destruct (proj2 (creators_goes b') PK) as [l' Hl']. destruct (from_bytes_ok _ _ Hl') as (_ & E' & _ & _). rewrite (cr_count_len _ _ L1) in E'.
  set (f := fun x => mkCreator (cr_addr x) (match flag_of (cr_count c) c (cr_addr x) with Some g => g | None => if bytes_eqb (cr_addr x) auth then x01 else x00 end) (cr_share x)).
  assert (E2 : l' = map f (map as_creator l)).
  { rewrite E', B2. apply dec_map_at. intros i Hi. destruct (F i Hi) as (G1 & G2 & G3). unfold f. cbn [cr_addr cr_share]. rewrite G1, G2. f_equal.
    destruct (flag_of _ _ _) as [g|]; [exact G3|]. destruct G3 as [G3 G4].
    destruct (bytes_eqb (cr_addr_at b i) auth) eqn:Eb; [apply bytes_eqb_eq in Eb; apply G3; now rewrite Eb|]. apply G4. intro Q. subst auth. rewrite bytes_eqb_refl in Eb. discriminate Eb. }
  eexists. split; [|reflexivity]. split; [reflexivity|]. exists l'. split; [exact Hl'|]. rewrite E2, !map_map. apply map_ext_in. intros [[a v] sh] Hi.
  apply (payload_wr (JCreators l) T) in P as [R _]. cbn [in_range] in R. rewrite Forall_forall in R. specialize (R _ Hi). unfold is_u8 in R. cbn [snd] in R.
  unfold seen_creator at 2, f, as_creator. cbn [fst snd cr_addr cr_verified cr_share]. rewrite b2z_z2b, Z.mod_small by exact R. rewrite C2, flag_of_in_values.
  destruct (flag_of (cr_count c) c a); cbn [option_map]; [reflexivity|]. destruct (bytes_eqb a auth); reflexivity.
Qed.
Lemma grouping_updated auth size max del c b b' y0 : typed (JGrouping size max del) -> js_payload (JGrouping size max del) = Some b -> zlen b <= u32_max -> shown XGrouping c [] y0 ->
  updated_payload XGrouping auth c b b' -> exists y, shown XGrouping b' [] y /\ updated_value auth (Some y0) (JGrouping size max del) y.
Proof.
  intros T P L [E0 S0] (L1 & _ & G & _). destruct y0 as [?|? ?|?|?|? ? ? ?|n0 m0 d0|? ?|? ?|? ? ? ?|?|?]; try discriminate E0. clear E0.
  destruct S0 as (k0 & _ & Hc & _). destruct (G eq_refl) as [-> _].
  pose proof (payload_read _ b T P L) as S. cbn [says] in S. destruct (grouping_ok _ _ _ S) as (B1 & B2 & _). destruct (grouping_ok _ _ _ Hc) as (_ & C2 & _). injection C2 as -> -> ->. injection B2 as -> -> B3.
  assert (B48 : zlen b = 48).
  { apply (payload_wr _ T) in P as [R ->]. cbn [typed] in T. pose proof (opt_key_len del T) as K. cbn [jbytes]. unfold zlen in *. rewrite !app_length, !le_enc_length. lia. }
  destruct (with_size_fields (gr_size c) b ltac:(lia) (gr_size_range c)) as (_ & W1 & W2 & W3).
  eexists. split; [|reflexivity]. split; [reflexivity|]. exists (gr_delegate b). split; [unfold zlen in *; rewrite L1; exact B48|].
  split; [|rewrite <- B3; symmetry; apply seen_zero_or].
  destruct (proj2 (AcceptL.grouping_goes 0 (with_size (gr_size c) b) eq_refl)) as [g Hg]; [rewrite L1; exact B1|]. rewrite Hg. destruct (grouping_ok _ _ _ Hg) as (_ & -> & _).
  now rewrite W1, W2, W3.
Qed.

(** ** What is shown of what an Update stores *)
Definition blk1 (t : ext_type) (b : bytes) : blk := mkBlk t b (repeat x00 4) [].
Lemma stored_shown auth cur y0 x b b' : typed x -> js_payload x = Some b -> zlen b <= u32_max ->
  match cur, y0 with Some c, Some y => shown (jext_type x) c [] y | None, None => True | _, _ => False end ->
  stored (jext_type x) auth cur b b' -> exists y, shown (jext_type x) b' [] y /\ updated_value auth y0 x y.
Proof.
  intros T P L S0 H. destruct cur as [c|], y0 as [y0|]; try contradiction; cbn [stored] in H.
  - destruct H as (U & _). destruct (ty_dec (jext_type x) XCreators) as [E|NC].
    { destruct x; try discriminate E. cbn [jext_type] in *. eapply creators_updated; eauto. }
    destruct (ty_dec (jext_type x) XGrouping) as [E|NG].
    { destruct x; try discriminate E. cbn [jext_type] in *. eapply grouping_updated; eauto. }
    destruct U as (_ & U & _). rewrite (U NC NG) in *.
    destruct (minted_shown auth x b (blk1 (jext_type x) b) T P L eq_refl) as (_ & y & Y1 & Y2); [split; [reflexivity|]; split; [reflexivity|congruence]|].
    exists y. split; [exact Y1|]. destruct x; try (now elim NC); try (now elim NG); (destruct y0; exact Y2).
  - destruct H as (_ & _ & F & _).
    destruct (minted_shown auth x b (blk1 (jext_type x) b') T P L eq_refl F) as (_ & y & Y1 & Y2).
    exists y. split; [exact Y1|]. destruct x; exact Y2.
Qed.

(** ** Which values an Update takes *)
Lemma proxy_same c b p s n a y0 : typed (JProxy p s n a) -> js_payload (JProxy p s n a) = Some b -> zlen b <= u32_max -> shown XProxy c [] y0 ->
  (sub b 0 65 = sub c 0 65 <-> may_follow (Some y0) (JProxy p s n a)).
Proof.
  intros T P L [E0 S0]. destruct y0 as [?|? ?|?|?|? ? ? ?|? ? ?|? ?|? ?|p0 s0 n0 a0|?|?]; try discriminate E0. destruct S0 as (m & k & Hc & -> & ->).
  pose proof (payload_read _ b T P L) as S. cbn [says] in S. destruct (proxy_len _ _ S) as [Lb E1]. destruct (proxy_len _ _ Hc) as [Lc E2].
  injection E1 as -> -> E1 _. injection E2 as -> -> -> ->. cbn [may_follow].
  apply (payload_wr _ T) in P as [[_ R] _]. unfold is_u8 in R.
  assert (Q : n = b2z (nth 64 b x00)) by (rewrite <- E1, b2z_z2b, Z.mod_small by exact R; reflexivity).
  split.
  - intro H. destruct (sub65_inv _ _ H) as (Q1 & Q2 & Q3). repeat split; congruence.
  - intros (Q1 & Q2 & Q3). apply sub65; auto. rewrite Q in Q3. apply b2z_inj. exact Q3.
Qed.
Lemma flag_of_some n b i : (i < n)%nat -> exists f, flag_of n b (cr_addr_at b i) = Some f.
Proof.
  induction n as [|n IH]; intro H; [lia|]. cbn [flag_of]. destruct (flag_of n b (cr_addr_at b i)) as [f|] eqn:E; [eauto|].
  destruct (list_eq_dec _ _ _) as [_|N]; [eauto|]. destruct (Nat.eq_dec i n) as [->|]; [now elim N|]. destruct IH as [f Q]; [lia|]. congruence.
Qed.
Lemma follow_iff c y0 x b : typed x -> js_payload x = Some b -> zlen b <= u32_max ->
  match c, y0 with Some c, Some y => legible (jext_type x, c) /\ shown (jext_type x) c [] y | None, None => True | _, _ => False end ->
  (SpecF.fits (jext_type x) c b <-> may_follow y0 x).
Proof.
  intros T P L S0. pose proof (sensible_iff x b T P L) as SE. pose proof (payload_read x b T P L) as S. pose proof (says_parses _ _ S) as PB.
  destruct c as [c|], y0 as [y0|]; try contradiction; cbn [SpecF.fits].
  - destruct S0 as [[PC FC] S0]. cbn [fst snd] in PC, FC. unfold replaceable.
    destruct x as [l|ct dat|l|l|s d u i|size max del|bp cc|addr roles|prog seeds bump auth0|l|dat]; cbn [jext_type] in *;
      (destruct y0; try (exfalso; destruct S0 as [Q _]; discriminate Q)); cbn [may_follow].
    all: try (split; [intros _; exact I|intros _; split; [right; right; exact PC|]; split; [exact PB|]; repeat split; discriminate]).
    + (* creators *)
      destruct S0 as [_ (c0 & Hc & ->)]. destruct (from_bytes_ok _ _ Hc) as (_ & -> & _ & _). cbn [says] in S. destruct (from_bytes_ok _ _ S) as (_ & B2 & _ & _).
      unfold acceptable, sensible, share_sum in SE.
      assert (K : forall k, (exists j, (j < cr_count b)%nat /\ cr_addr_at b j = k) <-> In k (map (fun c1 => fst (fst c1)) l)).
      { intro k. assert (Em : map (fun c1 : bytes * bool * Z => fst (fst c1)) l = map cr_addr (map as_creator l)) by (rewrite map_map; reflexivity).
        rewrite Em, B2, in_map_iff. split.
        - intros (j & Hj & Q). eexists. split; [|apply dec_in; exists j; split; [exact Hj|reflexivity]]. exact Q.
        - intros (c1 & Q & Hc1). apply dec_in in Hc1 as (j & Hj & ->). exists j. auto. }
      split.
      * intros (_ & _ & H & _). destruct (H eq_refl) as [H1 H2]. split; [apply SE; split; [exact PB|]; split; [auto|]; split; discriminate|].
        intros k s Hin. apply in_seen in Hin as (i & Hi & -> & Ev & _). symmetry in Ev. apply beqb_eq in Ev.
        destruct (H2 i Hi) as [Q1 Q2]; [rewrite Ev; discriminate|]. split; [now apply K|]. rewrite flag_of_in_values.
        destruct (flag_of_some _ c i Hi) as [f Ef]. rewrite Ef in *.
        destruct (flag_of_in _ _ _ _ Ef) as (j & Hj & Ej). destruct (FC eq_refl j Hj) as [Q|Q]; rewrite Ej in Q; rewrite Q in Q2 |- *; [now elim Q2|reflexivity].
      * intros [H1 H2]. split; [right; right; exact PC|]. split; [exact PB|]. split; [|split; [discriminate|split; discriminate]]. intros _.
        split; [apply SE in H1; now apply (proj1 (proj2 H1))|]. intros i Hi Nf.
        destruct (FC eq_refl i Hi) as [Q|Q]; [contradiction|].
        destruct (H2 (cr_addr_at c i) (b2z (cr_share_at c i))) as [Q1 Q2]; [apply in_seen; exists i; rewrite Q; auto|].
        split; [now apply K|]. rewrite flag_of_in_values in Q2. intro Q3. rewrite Q3 in Q2. discriminate Q2.
    + (* grouping *)
      destruct S0 as [_ (k0 & _ & Hc & _)]. cbn [says] in S. destruct (grouping_ok _ _ _ S) as (_ & B2 & _). destruct (grouping_ok _ _ _ Hc) as (_ & C2 & _).
      injection C2 as -> -> _. injection B2 as -> -> _. split; [intros (_ & _ & _ & H & _); now apply H|].
      intro H. split; [right; right; exact PC|]. split; [exact PB|]. split; [discriminate|]. split; [auto|split; discriminate].
    + (* royalties *)
      cbn [says] in S. destruct S as (r & S & _). destruct (royalties_ok _ _ _ S) as [_ E]. cbn [fst] in E. subst bp.
      split; [intros (_ & _ & _ & _ & H & _); now apply H|].
      intro H. split; [right; right; exact PC|]. split; [exact PB|]. split; [discriminate|]. split; [discriminate|split; [auto|discriminate]].
    + (* proxy *)
      pose proof (proxy_same c b prog seeds bump auth0 _ T P L S0) as Q. cbn [may_follow] in Q. rewrite <- Q.
      split; [intros (_ & _ & _ & _ & _ & H); now apply H|].
      intro H. split; [right; right; exact PC|]. split; [exact PB|]. split; [discriminate|]. split; [discriminate|split; [discriminate|auto]].
  - destruct x as [l|ct dat|l|l|s d u i|size max del|bp cc|addr roles|prog seeds bump auth0|l|dat]; cbn [jext_type may_follow sensible] in *; unfold share_sum in SE.
    all: try (rewrite SE; split; [intros (_ & _ & _ & H); exact H|intro H; split; [discriminate|]; split; [discriminate|]; split; [discriminate|exact H]]).
    all: split; [intros (_ & H1 & H2 & _); congruence|contradiction].
Qed.

(** ** The lists of extensions *)
Definition pair_shown (p : ext_type * bytes) (x : jext) : Prop := shown (fst p) (snd p) [] x.
Lemma get_pairs t L xs : Forall2 pair_shown L xs ->
  match lookup t L, js_get t xs with Some c, Some y => shown t c [] y | None, None => True | _, _ => False end.
Proof.
  induction 1 as [|[u b] x L xs H _ IH]; [exact I|]. cbn [lookup js_get find]. unfold pair_shown in H. cbn [fst snd] in H.
  pose proof H as [E _]. rewrite <- E. destruct (ext_type_eqb u t) eqn:Q; [apply ext_type_eqb_eq in Q; rewrite <- Q; exact H|exact IH].
Qed.
Lemma put_pairs t b y L xs : Forall2 pair_shown L xs -> shown t b [] y -> Forall2 pair_shown (put_ext t b L) (put_value t y xs).
Proof.
  intros H Y. unfold put_ext. assert (K : forall c, lookup t L = Some c -> Forall2 pair_shown (replaced t b L) (put_value t y xs)).
  { induction H as [|[u b0] x L xs H HL IH]; [discriminate|]. cbn [lookup replaced put_value]. pose proof H as [E _]. cbn [fst] in E. rewrite <- E.
    destruct (ext_type_eqb u t) eqn:Q.
    - apply ext_type_eqb_eq in Q. rewrite Q. intros _ _. constructor; [exact Y|exact HL].
    - intros c Hc. constructor; [exact H|]. eapply IH; eauto. }
  destruct (lookup t L) as [c|] eqn:E; [eapply K; eauto|]. clear K.
  induction H as [|[u b0] x L xs H HL IH]; cbn [app put_value]; [constructor; [exact Y|constructor]|].
  cbn [lookup] in E. pose proof H as [E0 _]. cbn [fst] in E0. rewrite <- E0. destruct (ext_type_eqb u t); [discriminate|]. constructor; [exact H|now apply IH].
Qed.

(** ** The account *)
Lemma pairs_of L xs : Forall complete (ext_list L) -> (Forall2 (fun k x => shown (bk_type k) (bk_data k) (bk_pad k) x) L xs <-> Forall2 pair_shown (ext_list L) xs).
Proof.
  revert xs. induction L as [|x L IH]; intros xs C; cbn [ext_list map] in *; [split; intro H; inversion H; constructor|].
  apply Forall_cons_iff in C as [[_ Q] C]. cbn [fst snd] in Q. unfold pair_shown in *.
  split; intro H; inversion H as [|a y b ys' H1 H2]; subst; (constructor; [|now apply IH]); cbn [fst snd] in *; [apply (shown_pad _ _ (bk_pad x)) in H1|apply (shown_pad _ _ (bk_pad x))]; assumption.
Qed.
Lemma put_forall (P : ext_type * bytes -> Prop) t b L : P (t, b) -> Forall P L -> Forall P (put_ext t b L).
Proof.
  intros Hb H. unfold put_ext. assert (K : Forall P (replaced t b L)).
  { induction H as [|[t' b'] L H HL IH]; cbn [replaced]; [constructor|]. destruct (ext_type_eqb t' t) eqn:E; constructor; auto. apply ext_type_eqb_eq in E. now subst t'. }
  destruct (lookup t L); [exact K|]. apply Forall_app. split; [assumption|]. constructor; [assumption|constructor].
Qed.
Lemma shown_complete t b y : shown t b [] y -> complete (t, b).
Proof.
  intros [E H]. split; cbn [fst snd]; intro Q; destruct y; cbn [jext_type] in E; try congruence.
  - destruct H as (k & Z & _). exact Z.
  - destruct H as (s0 & d0 & u0 & i0 & bs & bd & bu & bi & junk & H1 & H2 & H3 & H4 & E2 & _). rewrite app_nil_r in E2. exists s0, d0, u0, i0, bs, bd, bu, bi, junk. auto.
Qed.
Lemma readable_of l : Forall legible (ext_list l) -> SpecJ.readable l.
Proof. intro H. induction l as [|x l IH]; [constructor|]. cbn [ext_list map] in H. apply Forall_cons_iff in H as [[P _] H]. constructor; [exact P|now apply IH]. Qed.
Lemma update_changes e infos w q w' a hd l tl x b s : env_ok e -> e_prog e <> pk_zero -> sized w -> arg infos 0 a -> arg infos 2 (e_prog e) ->
  layout (data (w a)) hd l tl -> valid_header (data (w a)) -> Forall legible (ext_list l) -> Forall complete (ext_list l) -> js_asset (data (w a)) = JDone s ->
  typed x -> js_payload x = Some b -> zlen b <= 2000000000 -> u_ext q = Some (mkExtInput (jext_type x) (zlen b) (Some b)) ->
  process e infos w (IUpdate q) = Ok w' ->
  exists auth s', arg infos 1 auth /\ js_asset (data (w' a)) = JDone s' /\ changed (pk_bytes auth) (u_name q) (u_mutable q) x s s'.
Proof.
  intros He Hp Hs A0 A2 HL V LG C J T P Lb Ex H. pose proof (readable_of l LG) as RD.
  assert (Lb2 : zlen b <= u32_max) by (unfold u32_max; lia).
  apply (account_shown _ _ _ _ _ HL V RD) in J as (EO & SH & SX). apply pairs_of in SX; [|assumption].
  assert (Nt : jext_type x <> XNone) by (destruct x; discriminate).
  destruct (update_fits e infos w q w' _ b a hd l tl H Ex eq_refl Nt A0 HL) as [F _]. cbn [x_type] in F.
  destruct (update_effect e infos w q w' a hd l tl He Hp Hs A0 HL) as (au & hd' & l' & tl' & A1 & Sg & O1 & I1 & Au & M & HU & HL' & Tl & Ow & HX); [|exact H|].
  { intros x0 E0. rewrite Ex in E0. injection E0 as <-. cbn [x_type x_length]. split; [exact Nt|]. pose proof (zlen_nonneg b). lia. }
  destruct HX as [(Q & _)|(bu & t & b' & B2 & _ & EL & Src)]; [congruence|].
  destruct B2 as [[-> _]|(bk & -> & B2 & Nb)]; [|elim Nb; eapply arg_det; eauto].
  destruct Src as (x0 & E0 & -> & _ & Sx & _). rewrite Ex in E0. injection E0 as <-. cbn [x_type x_data] in *. specialize (Sx b eq_refl).
  pose proof (get_pairs (jext_type x) _ _ SX) as G.
  destruct (stored_shown (pk_bytes au) _ (js_get (jext_type x) (ja_exts s)) x b b' T P Lb2 G Sx) as (y & Y1 & Y2).
  pose proof (put_pairs _ _ _ _ _ SX Y1) as SX'. rewrite <- EL in SX'.
  assert (LG' : Forall legible (ext_list l')).
  { rewrite EL. apply put_legible; [|assumption]. eapply stored_legible; [exact Nt| |exact F|exact Sx]. intros c Hc. eapply lookup_legible; eauto. }
  assert (C' : Forall complete (ext_list l')) by (rewrite EL; apply put_forall; [eapply shown_complete; exact Y1|assumption]).
  destruct HU as (U1 & U2 & U3 & U4 & U5 & U6 & U7 & U8 & U9 & U10).
  assert (V' : valid_header (data (w' a))).
  { destruct V as (V1 & V2 & V3). split; [|split; congruence]. split; [pose proof (layout_zlen_ge _ _ _ _ HL') as Z'; unfold zlen in Z'; lia|destruct I1; congruence]. }
  destruct SH as (S1 & S2 & S3 & S4 & S5 & S6 & S7 & S8).
  exists au, (mkJasset (ja_state s) (ja_standard s) (match u_mutable q with Some m => m | None => ja_mutable s end) (ja_owner s) (ja_group s) (ja_authority s) (ja_delegate s)
    (match u_name q with Some n => seen_text (firstn 35 n) | None => ja_name s end) (put_value (jext_type x) y (ja_exts s))).
  split; [assumption|]. split.
  - apply (account_shown _ _ _ _ _ HL' V' (readable_of _ LG')). split; [destruct Tl as [-> | ->]; [now left|assumption]|]. split.
    + unfold shown_header. cbn [ja_state ja_standard ja_mutable ja_owner ja_group ja_authority ja_delegate ja_name].
      rewrite U2, U3, U4, U5, U6, U7, U8, U9, U10. repeat (split; [first [assumption|destruct (u_mutable q) as [[]|]; [reflexivity|reflexivity|assumption]]|]).
      destruct (u_name q); [symmetry; apply seen_name|assumption].
    + apply pairs_of; [assumption|]. exact SX'.
  - unfold changed. cbn [ja_state ja_standard ja_mutable ja_owner ja_group ja_authority ja_delegate ja_name ja_exts]. split; [eauto|]. repeat split.
Qed.

(** ** The client's Update in one instruction *)
Lemma js_update_values e c buffer a b ixs w hd l s : 
  let infos := js_update_metas (e_prog e) c (ju_asset a) (ju_auth a) None (ju_group a) (ju_payer a) None in
  let d := data (w (ju_asset a)) in let x := ju_ext a in let auth := jor (ju_auth a) (jc_identity c) in
  let size := updated_size d l (jext_type x) (zlen b) in
  ready e infos w (ju_asset a) -> ju_group a <> Some (e_prog e) -> ju_payer a <> Some (e_prog e) ->
  layout d hd l [] -> lam_ok w -> env_ok e -> e_prog e <> pk_zero -> e_heap_al e mod 8 = 0 -> (length l < e_fuel e)%nat ->
  good_head d -> Forall legible (ext_list l) -> Forall complete (ext_list l) -> js_asset d = JDone s ->
  typed x -> js_payload x = Some b -> zlen b <= 2000000000 -> (length b <= js_default DEFAULT_CHUNK_SIZE (ju_chunk a))%nat ->
  opt_valid utf8_text (ju_name a) -> js_update_with_buffer e c buffer a = Some ixs ->
  ((exists w', run_ixs e ixs w = Ok w') <->
     gate infos w (ju_asset a) /\ ja_authority s = pk_bytes auth /\ ja_mutable s = true /\ may_follow (js_get (jext_type x) (ja_exts s)) x /\
     (size <> zlen d -> can_size e infos w (ju_asset a) (ju_payer a) (match ju_payer a with Some _ => Some pk_zero | None => None end) size)) /\
  (forall w', run_ixs e ixs w = Ok w' -> exists s', js_asset (data (w' (ju_asset a))) = JDone s' /\ changed (pk_bytes auth) (ju_name a) (ju_mutable a) x s s').
Proof.
  intros infos d x auth size Rd Ng Npy HL HM He Hp Ha Hf GH LG C J T P Lb Lc U HU.
  pose proof (js_update_inline e c buffer a b ixs w P Lc U HU) as Run. fold infos in Run.
  assert (A1 : arg infos 1 auth) by (eexists; split; reflexivity).
  assert (A2 : optional e infos 2 None) by (eexists; split; reflexivity).
  assert (A3 : optional e infos 3 (ju_group a)).
  { unfold optional, infos. destruct (ju_group a) as [g|]; [split; [eexists; split; reflexivity|congruence]|eexists; split; reflexivity]. }
  assert (A4 : optional e infos 4 (ju_payer a)).
  { unfold optional, infos. destruct (ju_payer a) as [g|]; [split; [eexists; split; reflexivity|congruence]|eexists; split; reflexivity]. }
  assert (A5 : optional e infos 5 (match ju_payer a with Some _ => Some pk_zero | None => None end)).
  { unfold optional, infos. destruct (ju_payer a) as [g|]; [split; [eexists; split; reflexivity|congruence]|eexists; split; reflexivity]. }
  assert (Nt : jext_type x <> XNone) by (destruct x; discriminate).
  fold x in Run. set (q := mkUpdInput (ju_name a) (ju_mutable a) (Some (mkExtInput (jext_type x) (zlen b) (Some b)))) in *.
  assert (I1 : initialized d) by apply Rd.
  assert (V : valid_header d).
  { split; [assumption|]. destruct GH as (_ & G2 & G3 & _). split; [destruct G2 as [-> | ->]; reflexivity|destruct G3 as [-> |[-> |[-> | ->]]]; reflexivity]. }
  pose proof (readable_of l LG) as RD. pose proof J as J'.
  apply (account_shown _ _ _ _ _ HL V RD) in J' as (_ & SH & SX). apply pairs_of in SX; [|assumption].
  assert (Lb2 : zlen b <= u32_max) by (unfold u32_max; lia). pose proof (zlen_nonneg b) as Zb.
  assert (FI : SpecF.fits (jext_type x) (lookup (jext_type x) (ext_list l)) b <-> may_follow (js_get (jext_type x) (ja_exts s)) x).
  { apply follow_iff; auto. pose proof (get_pairs (jext_type x) _ _ SX) as G.
    destruct (lookup (jext_type x) (ext_list l)) as [c0|] eqn:El, (js_get (jext_type x) (ja_exts s)); auto. split; [eapply lookup_legible; eauto|exact G]. }
  assert (SG : signed infos auth) by (eexists; split; [right; left; reflexivity|]; split; reflexivity).
  destruct SH as (_ & _ & S3 & _ & _ & S6 & _).
  assert (MU : ja_mutable s = true <-> mutable d).
  { rewrite S3. unfold mutable. destruct GH as (_ & _ & _ & [-> | ->]); cbn; split; congruence. }
  split.
  - rewrite Run. assert (Zl : 0 <= x_length (mkExtInput (jext_type x) (zlen b) (Some b)) <= 2000000000) by (cbn [x_length]; lia).
    etransitivity; [exact (update_exact e infos w (ju_asset a) auth None (ju_group a) (ju_payer a) _ hd l q Rd A1 A2 A3 A4 A5 HL HM He Hp Ha Hf _ eq_refl eq_refl Nt Zl)|].
    cbn [x_data x_type x_length]. unfold in_charge. fold d. rewrite S6, MU, FI. fold d size. split.
    + intros (Q1 & (_ & Q3 & Q4) & (_ & Q5) & Q6). auto 10.
    + intros (Q1 & Q3 & Q4 & Q5 & Q6). auto 10.
  - intros w' HR. rewrite Run in HR.
    destruct (update_changes e infos w q w' (ju_asset a) hd l [] x b s He Hp (proj2 (proj2 (proj2 (proj2 (proj2 Rd))))) (proj1 Rd) A2 HL V LG C J T P Lb eq_refl HR) as (au & s' & B1 & B2 & B3).
    rewrite (arg_det _ _ _ _ B1 A1) in B3. exists s'. auto.
Qed.

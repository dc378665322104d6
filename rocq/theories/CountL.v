(** Counting the members of a group along histories (C28, C29, C30). *)
From Verif Require Import Base State Layout Constr Ext World Proc BaseL Spec SpecB SpecH SpecG WorldL ProcSteps FrameL LayoutL LayoutE HeadL CreatorsL AuthL AuthM GroupL ResizeL UpdateL UpdateM AllocL AllocM AllocC CreateL BuildL RemoveL StepL StepH BornL TheftL.
From Coq Require Import Strings.Byte.

(** ** Lookups depend on the bytes only *)
Lemma lookup_has_ext d hd l tl t b : layout d hd l tl -> lookup t (ext_list l) = Some b -> exists off, has_ext d t off b.
Proof.
  intros HL H. 
  assert (X : forall l, lookup t (ext_list l) = Some b -> exists l1 k l2, l = l1 ++ k :: l2 /\ bk_type k = t /\ bk_data k = b /\ Forall (fun x => bk_type x <> t) l1).
  { clear. induction l as [|x l IH]; cbn [ext_list map lookup]; [discriminate|].
    destruct (ext_type_eqb (bk_type x) t) eqn:E.
    - intro H. apply ext_type_eqb_eq in E. exists [], x, l. cbn [app]. repeat split; auto; congruence.
    - intro H. destruct (IH H) as (l1 & k & l2 & -> & A & B & C). exists (x :: l1), k, l2. repeat split; auto. constructor; [|assumption].
      intro Q. rewrite Q, ext_type_eqb_refl in E. discriminate. }
  destruct (X l H) as (l1 & k & l2 & -> & <- & <- & Hf). eexists. eapply block_has_ext; eauto.
Qed.
Lemma lookup_det d hd l tl hd2 l2 tl2 t : layout d hd l tl -> layout d hd2 l2 tl2 -> t <> XNone -> lookup t (ext_list l) = lookup t (ext_list l2).
Proof.
  intros H1 H2 Ht. destruct (lookup t (ext_list l)) as [b|] eqn:E1.
  - destruct (lookup_has_ext _ _ _ _ _ _ H1 E1) as [off HE]. symmetry. eapply has_ext_lookup; eauto.
  - destruct (lookup t (ext_list l2)) as [b|] eqn:E2; [|reflexivity].
    destruct (lookup_has_ext _ _ _ _ _ _ H2 E2) as [off HE]. rewrite (has_ext_lookup _ _ _ _ _ _ _ H1 Ht HE) in E1. discriminate.
Qed.
Lemma tidy_lookup d l l2 t : tidy d l -> tidy d l2 -> t <> XNone -> lookup t (ext_list l) = lookup t (ext_list l2).
Proof. intros (h1 & n1 & H1) (h2 & n2 & H2) Ht. eapply lookup_det; eauto. Qed.
Lemma size_det d l l2 : tidy d l -> tidy d l2 -> size_in l = size_in l2.
Proof. intros H1 H2. unfold size_in. now rewrite (tidy_lookup _ _ _ XGrouping H1 H2). Qed.

Lemma lookup_replaced_same t b L b0 : lookup t L = Some b0 -> lookup t (replaced t b L) = Some b.
Proof. induction L as [|[t0 x] L IH]; cbn [lookup replaced]; [discriminate|]. destruct (ext_type_eqb t0 t) eqn:E; cbn [lookup]; rewrite E; auto. Qed.
Lemma lookup_replaced_other t u b L : t <> u -> lookup u (replaced t b L) = lookup u L.
Proof.
  intro N. induction L as [|[t0 x] L IH]; cbn [lookup replaced]; [reflexivity|]. destruct (ext_type_eqb t0 t) eqn:E; cbn [lookup].
  - apply ext_type_eqb_eq in E. subst t0. destruct (ext_type_eqb t u) eqn:Q; [apply ext_type_eqb_eq in Q; contradiction|reflexivity].
  - destruct (ext_type_eqb t0 u); auto.
Qed.
Lemma lookup_app_none t L x : fst x <> t -> lookup t (L ++ [x]) = lookup t L.
Proof.
  intro N. induction L as [|[t0 y] L IH]; cbn [lookup app].
  - destruct x as [tx bx]. cbn [fst] in N. destruct (ext_type_eqb tx t) eqn:E; [apply ext_type_eqb_eq in E; contradiction|reflexivity].
  - destruct (ext_type_eqb t0 t); auto.
Qed.
Lemma lookup_app_last t L b : lookup t L = None -> lookup t (L ++ [(t, b)]) = Some b.
Proof. intro H. induction L as [|[t0 y] L IH]; cbn [lookup app] in *; [now rewrite ext_type_eqb_refl|]. destruct (ext_type_eqb t0 t); [discriminate|auto]. Qed.

Lemma gr_size_range b : 0 <= gr_size b < two64.
Proof.
  unfold gr_size. pose proof (le_dec_range (sub b 0 8)) as H. split; [apply H|].
  assert (zlen (sub b 0 8) <= 8) by (unfold zlen, sub; rewrite firstn_length; lia).
  assert (256 ^ zlen (sub b 0 8) <= 256 ^ 8) by (apply Z.pow_le_mono_r; lia). change (256 ^ 8) with two64 in *. lia.
Qed.
Lemma gr_max_range b : 0 <= gr_max b < two64.
Proof.
  unfold gr_max. pose proof (le_dec_range (sub b 8 8)) as H. split; [apply H|].
  assert (zlen (sub b 8 8) <= 8) by (unfold zlen, sub; rewrite firstn_length; lia).
  assert (256 ^ zlen (sub b 8 8) <= 256 ^ 8) by (apply Z.pow_le_mono_r; lia). change (256 ^ 8) with two64 in *. lia.
Qed.

(** ** The recorded size over one instruction *)
Definition the_grouping (l : list blk) : option bytes := lookup XGrouping (ext_list l).
Lemma grouping_step e w w' i k infos l l' : proper e infos w i -> ext_step e w w' i k infos (ext_list l) (ext_list l') ->
  (size_in l' = size_in l /\ (max_in l' = max_in l \/ max_in l' = 0 \/ size_in l' <= max_in l')) \/
  (exists b n, the_grouping l = Some b /\ (16 <= length b <= 48)%nat /\ size_cause infos i k b n /\ size_in l' = n mod two64 /\ max_in l' = gr_max b).
Proof.
  unfold size_in, max_in, the_grouping. intros HP [K|[(_ & a & auth & bf & t & b & -> & _ & _ & _ & Hbf & Ht & EL & Src)|(_ & x & EL & -> & Hno & _ & _ & Hz)]].
  - destruct K as [->|b n HC Hk Hb ->|v cr b b' _ _ _ _ Hk _ ->]; [left; auto| |].
    + right. exists b, n. split; [assumption|]. split; [assumption|]. split; [assumption|].
      rewrite (lookup_replaced_same _ _ _ _ Hk).
      assert (E : with_size n b = with_size (n mod two64) b).
      { unfold with_size. f_equal. symmetry. exact (le_enc_mod 8 n). }
      rewrite E. destruct (with_size_fields (n mod two64) b ltac:(lia) ltac:(apply Z.mod_pos_bound; reflexivity)) as (_ & W1 & W2 & _). auto.
    + left. rewrite lookup_replaced_other by discriminate. auto.
  - left. rewrite EL. destruct (ext_type_eqb XGrouping t) eqn:Q.
    + apply ext_type_eqb_eq in Q. subst t. rewrite lookup_put_same. cbn [proper] in HP. destruct HP as [A2 HP].
      destruct Hbf as [[-> _]|(bk & _ & A2' & N)]; [|elim N; exact (arg_det _ _ _ _ A2' A2)].
      cbn [source_spec] in Src. destruct Src as (x0 & Ex & Et & _ & S1 & _). destruct (HP x0 Ex) as [_ Hd].
      destruct (x_data x0) as [bs|]; [|congruence]. specialize (S1 bs eq_refl).
      destruct (lookup XGrouping (ext_list l)) as [c|]; cbn [stored] in S1.
      * destruct S1 as ((S1 & _ & S2 & _) & S3 & _). destruct (S2 eq_refl) as [-> S4]. cbn [valid_payload] in S3.
        destruct (with_size_fields (gr_size c) bs ltac:(lia) (gr_size_range c)) as (_ & W1 & W2 & _). rewrite W1, W2. split; [reflexivity|]. destruct S4; auto.
      * destruct S1 as (_ & _ & _ & _ & S1). rewrite (S1 eq_refl). split; [reflexivity|]. right. right. apply gr_max_range.
    + rewrite lookup_put_other; [auto|]. intros <-. rewrite ext_type_eqb_refl in Q. discriminate.
  - left. destruct (ext_type_eqb XGrouping (fst x)) eqn:Q.
    + apply ext_type_eqb_eq in Q. rewrite <- Q in Hno. rewrite Hno, EL. destruct x as [tx bx]. cbn [fst snd] in *. subst tx. rewrite (lookup_app_last _ _ _ Hno).
      rewrite (Hz eq_refl). auto.
    + rewrite EL, lookup_app_none; [auto|]. intros Q'. rewrite Q' in Q. discriminate.
Qed.

(** rewriting the counter *)
Lemma tidy_put d l off b n : tidy d l -> has_ext d XGrouping off b -> (16 <= length b)%nat -> 0 <= n < two64 ->
  size_in l = gr_size b /\ max_in l = gr_max b /\ exists l', tidy (put d off (le_enc 8 n)) l' /\ size_in l' = n /\ max_in l' = gr_max b.
Proof.
  intros (hd & m & HL) HE Hb Hn. destruct (layout_size _ _ _ _ _ _ n HL HE Hb) as (l' & L' & _ & Hk & El).
  unfold size_in, max_in. rewrite Hk. split; [reflexivity|]. split; [reflexivity|]. exists l'. split; [exists hd, m; exact L'|].
  rewrite El, (lookup_replaced_same _ _ _ _ Hk). destruct (with_size_fields n b Hb Hn) as (_ & W1 & W2 & _). auto.
Qed.

(** ** Counting *)
Lemma counts_same p w w' g n : (forall k, member p w' g k <-> member p w g k) -> counts p w g n -> counts p w' g n.
Proof. intros H (ks & N & L & I). exists ks. split; [assumption|]. split; [assumption|]. intro k. now rewrite H. Qed.
Lemma counts_add p w w' g n a : (forall k, member p w' g k <-> member p w g k \/ k = a) -> ~ member p w g a -> counts p w g n -> counts p w' g (n + 1).
Proof.
  intros H Na (ks & N & L & I). exists (a :: ks). split; [constructor; [now rewrite I|assumption]|].
  split; [cbn [length]; lia|]. intro k. cbn [In]. rewrite H, I. split; intros [Q|Q]; auto.
Qed.
Lemma counts_remove p w w' g n a : (forall k, member p w' g k <-> member p w g k /\ k <> a) -> member p w g a -> counts p w g n -> counts p w' g (n - 1).
Proof.
  intros H Na (ks & N & L & I). assert (Ia : In a ks) by now apply I.
  apply in_split in Ia as (k1 & k2 & ->). exists (k1 ++ k2). apply NoDup_remove in N as [N1 N2].
  split; [assumption|]. split; [rewrite app_length in *; cbn [length] in *; lia|].
  intro k. rewrite H, <- I, !in_app_iff in *. cbn [In]. split.
  - intro Q. split; [tauto|]. intros ->. apply N2. tauto.
  - intros [[Q|[Q|Q]] Nk]; auto. congruence.
Qed.
Lemma counts_pos p w g n a : counts p w g n -> member p w g a -> 1 <= n.
Proof. intros (ks & _ & <- & I) M. apply I in M. destruct ks; [destruct M|]. cbn [length]. lia. Qed.
Lemma counts_zero p w g : (forall k, ~ member p w g k) -> counts p w g 0.
Proof. intro H. exists []. split; [constructor|]. split; [reflexivity|]. intro k. split; [intros []|intro M; elim (H k M)]. Qed.
Lemma counts_zero_inv p w g : counts p w g 0 -> forall k, ~ member p w g k.
Proof. intros C k M. apply counts_pos with (a := k) in C; [lia|assumption]. Qed.


Lemma asset_dec p w k : asset_of p w k \/ ~ asset_of p w k.
Proof.
  destruct (pk_dec (acct_owner (w k)) p) as [O|N]; [|right; intros [Q _]; contradiction].
  destruct (le_lt_dec 168 (length (data (w k)))) as [L|L]; [|right; intros [_ [Q _]]; lia].
  destruct (Byte.byte_eq_dec (s_disc (data (w k))) x01) as [E|E]; [left; split; [assumption|split; assumption]|right; intros [_ [_ Q]]; contradiction].
Qed.

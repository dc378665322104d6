(** Header and extensions of one asset across one instruction, and across
    histories (C12-C14). *)
From Verif Require Import Base State Layout Constr Ext World Proc BaseL Spec SpecB SpecH WorldL ProcSteps FrameL LayoutL LayoutE HeadL CreatorsL AuthL AuthM AllocL GroupL CreateL ResizeL UpdateL UpdateM RemoveL StepL.
From Coq Require Import Strings.Byte.

(** ** Header fields depend on the first 168 bytes *)
Lemma nth_firstn_lt {A} (d : list A) x : forall n i, (i < n)%nat -> nth i (firstn n d) x = nth i d x.
Proof.
  induction d as [|a d IH]; intros n i H; [now rewrite firstn_nil|].
  destruct n; [lia|]. destruct i; [reflexivity|]. cbn [firstn nth]. apply IH. lia.
Qed.
Lemma sub_firstn d n o m : (o + m <= n)%nat -> sub (firstn n d) o m = sub d o m.
Proof.
  intro H. unfold sub. rewrite skipn_firstn_comm, firstn_firstn. f_equal. lia.
Qed.
Definition head_eq (d d' : bytes) : Prop := firstn 168 d' = firstn 168 d.
Lemma head_eq_fields d d' : head_eq d d' ->
  s_disc d' = s_disc d /\ s_state d' = s_state d /\ s_standard d' = s_standard d /\ s_mutable d' = s_mutable d /\
  s_owner d' = s_owner d /\ s_group d' = s_group d /\ s_authority d' = s_authority d /\ s_delegate d' = s_delegate d /\
  s_roles d' = s_roles d /\ s_name d' = s_name d.
Proof.
  intro H. unfold head_eq in H.
  assert (N : forall i, (i < 168)%nat -> nth i d' x00 = nth i d x00).
  { intros i Hi. rewrite <- (nth_firstn_lt d' x00 168) by assumption. rewrite H. now apply nth_firstn_lt. }
  assert (S : forall o n, (o + n <= 168)%nat -> sub d' o n = sub d o n).
  { intros o n Hi. rewrite <- (sub_firstn d' 168) by assumption. rewrite H. now apply sub_firstn. }
  unfold s_disc, s_state, s_standard, s_mutable, s_owner, s_group, s_authority, s_delegate, s_roles, s_name.
  rewrite !N, !S by lia. repeat split.
Qed.
Lemma head_firstn (hd X : bytes) : zlen hd = 168 -> firstn 168 (hd ++ X) = hd.
Proof.
  intro H. assert (L : length hd = 168%nat) by (unfold zlen in H; lia).
  rewrite <- L at 1. rewrite firstn_app, Nat.sub_diag, firstn_all. cbn [firstn]. apply app_nil_r.
Qed.
Lemma head_eq_app hd X Y : zlen hd = 168 -> head_eq (hd ++ X) (hd ++ Y).
Proof. intro H. unfold head_eq. now rewrite !head_firstn. Qed.
Lemma head_eq_layout d hd l tl d' l' tl' : layout d hd l tl -> layout d' hd l' tl' -> head_eq d d'.
Proof. intros (-> & H & _) (-> & _). now apply head_eq_app. Qed.
Lemma layout_zlen_ge d hd l tl : layout d hd l tl -> 168 <= zlen d.
Proof. intro HL. pose proof (layout_len _ _ _ _ HL). pose proof (sect_size_nonneg l). pose proof (zlen_nonneg tl). lia. Qed.

(** ** [kept] *)
Lemma kept_refl x : kept x x.
Proof. unfold kept. repeat split. Qed.
Lemma kept_trans x y z : kept x y -> kept y z -> kept x z.
Proof.
  intros (A1 & A2 & A3 & A4 & A5) (B1 & B2 & B3 & B4 & B5). unfold kept. rewrite A1 in *.
  split; [congruence|]. split; [congruence|]. split; [intros; rewrite B3, A3 by assumption; reflexivity|].
  split; [intros; rewrite B4, A4 by assumption; reflexivity|].
  intros E i Hi. destruct (A5 E i Hi) as [<- <-]. apply B5; [assumption|]. unfold cr_count in *. now rewrite A2.
Qed.
Lemma Forall2_same {A} (R : A -> A -> Prop) : (forall x, R x x) -> forall l, Forall2 R l l.
Proof. intros H l. induction l; constructor; auto. Qed.
Lemma Forall2_chain {A} (R : A -> A -> Prop) : (forall x y z, R x y -> R y z -> R x z) -> forall l1 l2 l3, Forall2 R l1 l2 -> Forall2 R l2 l3 -> Forall2 R l1 l3.
Proof.
  intros H l1 l2 l3 H1. revert l3. induction H1; intros l3 H2; inversion H2; subst; constructor; eauto.
Qed.
Lemma kept_replaced t b b' L : lookup t L = Some b -> kept (t, b) (t, b') -> Forall2 kept L (replaced t b' L).
Proof.
  intros H K. induction L as [|[t0 b0] L IH]; cbn [lookup replaced] in *; [discriminate|].
  destruct (ext_type_eqb t0 t) eqn:E.
  - apply ext_type_eqb_eq in E. subst t0. injection H as ->. constructor; [exact K|]. apply Forall2_same, kept_refl.
  - constructor; [apply kept_refl|auto].
Qed.
Lemma kept_size n b : (16 <= length b)%nat -> kept (XGrouping, b) (XGrouping, with_size n b).
Proof.
  intro H. unfold kept. cbn [fst snd]. split; [reflexivity|].
  assert (L : length (le_enc 8 n) = 8%nat) by apply le_enc_length.
  split; [unfold with_size; rewrite app_length, L, skipn_length; lia|]. split; [congruence|]. split; [|discriminate].
  intros _. unfold with_size. rewrite <- L at 1. rewrite skipn_app, Nat.sub_diag, skipn_all. reflexivity.
Qed.
Lemma kept_flags v cr b b' : set_flags v cr b b' -> kept (XCreators, b) (XCreators, b').
Proof.
  intros (H1 & H2 & _ & H3). unfold kept. cbn [fst snd]. split; [reflexivity|]. split; [assumption|]. split; [congruence|]. split; [discriminate|].
  intros _ i Hi. destruct (H3 i Hi) as (E1 & E2 & _). auto.
Qed.

(** writing a whole payload *)
Lemma layout_payload d hd l tl t off b b' : layout d hd l tl -> t <> XNone -> has_ext d t off b -> length b' = length b ->
  exists l', layout (put d off b') hd l' tl /\ map bk_type l' = map bk_type l /\
    lookup t (ext_list l) = Some b /\ ext_list l' = replaced t b' (ext_list l).
Proof.
  intros HL Ht HE Hb. destruct (has_ext_block _ _ _ _ _ _ _ HL Ht HE) as (l1 & k & l2 & -> & Hk & <- & -> & Hf).
  pose proof (layout_put _ _ _ _ _ _ 0 b' HL ltac:(lia) ltac:(unfold zlen in *; lia)) as L.
  rewrite Z.add_0_r in L.
  assert (E : put (bk_data k) 0 b' = b').
  { unfold put. cbn [Z.to_nat firstn app Nat.add]. rewrite Hb, skipn_all. apply app_nil_r. }
  rewrite E in L. exists (l1 ++ with_data k b' :: l2). rewrite <- Hk in Hf |- *.
  split; [exact L|]. split; [now rewrite !map_app|]. split; [now apply lookup_block|]. now apply replaced_block.
Qed.

(** how the extension list can change other than by the authority *)
Definition size_cause (infos : list ainfo) (i : instr) (k : pubkey) (b : bytes) (n : Z) : Prop :=
  (i = IGroup /\ arg infos 1 k /\ n = (gr_size b + 1) mod two64 /\ (gr_max b = 0 \/ gr_size b < gr_max b)) \/
  (exists m, i = ICreate m /\ arg infos 3 k /\ n = (gr_size b + 1) mod two64 /\ (gr_max b = 0 \/ gr_size b < gr_max b)) \/
  (i = IUngroup /\ arg infos 1 k /\ n = (gr_size b - 1) mod two64) \/
  (i = IBurn /\ arg infos 3 k /\ n = gr_size b - 1 /\ 1 <= gr_size b).
Inductive kept_how (infos : list ainfo) (i : instr) (k : pubkey) (L L' : list (ext_type * bytes)) : Prop :=
| kh_same : L' = L -> kept_how infos i k L L'
| kh_size b n : size_cause infos i k b n -> lookup XGrouping L = Some b -> (16 <= length b <= 48)%nat ->
    L' = replaced XGrouping (with_size n b) L -> kept_how infos i k L L'
| kh_flags (v : bool) cr b b' : i = (if v then IVerify else IUnverify) -> arg infos 0 k -> arg infos 1 cr -> signed infos cr ->
    lookup XCreators L = Some b -> set_flags v (pk_bytes cr) b b' -> L' = replaced XCreators b' L -> kept_how infos i k L L'.
Lemma kept_how_kept infos i k L L' : kept_how infos i k L L' -> Forall2 kept L L'.
Proof.
  destruct 1 as [->|b n _ H Hb ->|v cr b b' _ _ _ _ H Hf ->].
  - apply Forall2_same, kept_refl.
  - eapply kept_replaced; [exact H|]. apply kept_size. lia.
  - eapply kept_replaced; [exact H|]. eapply kept_flags; eauto.
Qed.

(** ** One instruction *)
Section Step.
Variables (e : env) (infos : list ainfo) (w w' : world) (k : pubkey) (i : instr).
Variables (hd : bytes) (l : list blk) (tl : bytes).
Hypothesis (HL : layout (data (w k)) hd l tl).

(** other than an edit by the authority: the extensions stay *)
Lemma step_layout : change e infos w w' i k ->
  (exists hd' l', layout (data (w' k)) hd' l' tl /\ kept_how infos i k (ext_list l) (ext_list l')) \/
  (arg infos 0 k /\ by_authority infos w k /\ ((exists x, i = IUpdate x) \/ (exists t, i = IRemove t) \/ (exists s, i = IResize s))).
Proof.
  pose proof (kh_same infos i k (ext_list l) (ext_list l) eq_refl) as KR.
  assert (HD : forall o bs, 0 <= o -> o + zlen bs <= 168 -> data (w' k) = put (data (w k)) o bs ->
    exists hd' l', layout (data (w' k)) hd' l' tl /\ kept_how infos i k (ext_list l) (ext_list l')).
  { intros o bs Ho Hb E. rewrite E. exists (put hd o bs), l. split; [|exact KR]. now apply layout_head. }
  destruct 1 as [E|r Ei A0 A2 E|o bs Ei A0 Ho Hb E|st Ei A0 E|a n Ei A0 Sa Sn Ha Hm E|g Ei A0 A1 N G E|g Ei A0 A1 N G E|off b n Ei HE Hb E|v cr off b b' Ei A0 A1 Sc HE Hf E|a Ei A0 A1 Sa Ha Hm].
  - left. exists hd, l. rewrite E. auto.
  - left. rewrite E. unfold clear_delegate. exists (put (put hd 4 (pk_bytes r)) 100 (zeros 33)), l. split; [|exact KR].
    apply layout_head; [apply layout_head; [exact HL|lia|rewrite pk_zlen; lia]|lia|]. change (zlen (zeros 33)) with 33. lia.
  - left. eapply HD; [| |exact E]; lia.
  - left. eapply HD; [| |exact E]; [lia|]. change (zlen [st]) with 1. lia.
  - left. eapply HD; [| |exact E]; rewrite ?pk_zlen; lia.
  - left. eapply HD; [| |exact E]; rewrite ?pk_zlen; lia.
  - left. eapply HD; [| |exact E]; [lia|]. change (zlen no_key) with 32. lia.
  - left. destruct (layout_size _ _ _ _ _ _ n HL HE ltac:(lia)) as (l' & L' & _ & Hlk & El). rewrite E. exists hd, l'. split; [assumption|].
    now apply (kh_size _ _ _ _ _ b n).
  - left. destruct (layout_payload _ _ _ _ XCreators off b b' HL ltac:(discriminate) HE ltac:(apply Hf)) as (l' & L' & _ & Hlk & El). rewrite E. exists hd, l'. split; [assumption|].
    now apply (kh_flags _ _ _ _ _ v cr b b').
  - right. split; [assumption|]. split; [exists a; auto|assumption].
Qed.

Definition header_step : Prop :=
  let d := data (w k) in let d' := data (w' k) in
  s_disc d' = s_disc d /\ s_standard d' = s_standard d /\
  (s_state d' = s_state d \/ (arg infos 0 k /\ (i = ILock \/ i = IUnlock))) /\
  (s_owner d' = s_owner d \/ (arg infos 0 k /\ i = ITransfer)) /\
  ((s_delegate d' = s_delegate d /\ s_roles d' = s_roles d) \/
   (arg infos 0 k /\ (i = ITransfer \/ exists a, i = IApprove a \/ i = IRevoke a))) /\
  (s_authority d' = s_authority d \/
   (arg infos 0 k /\ i = IHandover /\ exists a n, signed infos a /\ signed infos n /\ s_authority d = pk_bytes a /\ mutable d /\ s_authority d' = pk_bytes n)) /\
  (s_group d' = s_group d \/
   (arg infos 0 k /\ exists g, arg infos 1 g /\ g <> k /\
     ((i = IGroup /\ s_group d = no_key /\ s_group d' = pk_bytes g) \/ (i = IUngroup /\ s_group d = pk_bytes g /\ s_group d' = no_key)))) /\
  ((s_name d' = s_name d /\ s_mutable d' = s_mutable d) \/
   (arg infos 0 k /\ by_authority infos w k /\ exists a, i = IUpdate a /\ s_name d' = match u_name a with Some n => name_field n | None => s_name d end /\
      s_mutable d' = match u_mutable a with Some m => bool_byte m | None => s_mutable d end)).

Lemma header_same : head_eq (data (w k)) (data (w' k)) -> header_step.
Proof.
  intro H. apply head_eq_fields in H as (H1 & H2 & H3 & H4 & H5 & H6 & H7 & H8 & H9 & H10).
  unfold header_step. cbv zeta. repeat split; auto.
Qed.

Ltac hfields N S := unfold header_step; cbv zeta;
  unfold s_disc, s_state, s_standard, s_mutable, s_owner, s_group, s_authority, s_delegate, s_roles, s_name;
  refine (conj _ (conj _ (conj _ (conj _ (conj _ (conj _ (conj _ _)))))));
  try first [apply N; lia | left; apply N; lia | left; apply S; lia | left; split; first [apply N; lia | apply S; lia]].

Lemma step_header : env_ok e -> e_prog e <> pk_zero -> sized w -> lam_ok w -> (by_authority infos w k -> plain_request i) -> process e infos w i = Ok w' ->
  change e infos w w' i k -> header_step.
Proof.
  intros He Hp Hs Hl Hr H. pose proof (layout_zlen_ge _ _ _ _ HL) as Hz.
  assert (P : forall d o bs, 168 <= zlen d -> 0 <= o -> o + zlen bs <= 168 ->
    (forall j, Z.of_nat j < o \/ o + zlen bs <= Z.of_nat j -> nth j (put d o bs) x00 = nth j d x00) /\
    (forall j n, Z.of_nat j + Z.of_nat n <= o \/ o + zlen bs <= Z.of_nat j -> sub (put d o bs) j n = sub d j n)).
  { intros d o bs Z1 Z2 Z3. split; intros; [now apply nth_put_other|now apply sub_put_other]. }
  destruct 1 as [E|r Ei A0 A2 E|o bs Ei A0 Ho Hb E|st Ei A0 E|a n Ei A0 Sa Sn Ha Hm E|g Ei A0 A1 N G E|g Ei A0 A1 N G E|off b n Ei HE Hb E|v cr off b b' Ei A0 A1 Sc HE Hf E|a Ei A0 A1 Sa Ha Hm].
  - apply header_same. unfold head_eq. now rewrite E.
  - assert (Z1 : zlen (put (data (w k)) 4 (pk_bytes r)) = zlen (data (w k))) by (apply zlen_put; rewrite ?pk_zlen; lia).
    assert (Z33 : zlen (zeros 33) = 33) by reflexivity. pose proof (pk_zlen r) as Z32. unfold clear_delegate in E.
    destruct (P (put (data (w k)) 4 (pk_bytes r)) 100 (zeros 33) ltac:(lia) ltac:(lia) ltac:(lia)) as [N1 S1].
    destruct (P (data (w k)) 4 (pk_bytes r) ltac:(lia) ltac:(lia) ltac:(lia)) as [N2 S2]. rewrite <- E in N1, S1. rewrite Z33 in *. rewrite Z32 in *.
    assert (N : forall j, (j < 4 \/ 36 <= j < 100 \/ 133 <= j)%nat -> nth j (data (w' k)) x00 = nth j (data (w k)) x00) by (intros; rewrite N1, N2 by lia; reflexivity).
    assert (S : forall j n, (j + n <= 4 \/ 36 <= j /\ j + n <= 100 \/ 133 <= j)%nat -> sub (data (w' k)) j n = sub (data (w k)) j n) by (intros; rewrite S1, S2 by lia; reflexivity).
    hfields N S; right; auto.
  - destruct (P (data (w k)) o bs ltac:(lia) ltac:(lia) ltac:(lia)) as [N S]. rewrite <- E in N, S. pose proof (zlen_nonneg bs). hfields N S; right; auto.
  - assert (Z1 : zlen [st] = 1) by reflexivity. destruct (P (data (w k)) 1 [st] ltac:(lia) ltac:(lia) ltac:(lia)) as [N S]. rewrite <- E in N, S. rewrite Z1 in *. hfields N S; right; auto.
  - pose proof (pk_zlen n) as Z32. destruct (P (data (w k)) 68 (pk_bytes n) ltac:(lia) ltac:(lia) ltac:(lia)) as [N S]. rewrite <- E in N, S. rewrite Z32 in *. hfields N S.
    right. split; [assumption|]. split; [assumption|]. exists a, n. repeat (split; [assumption|]). rewrite E.
    pose proof (sub_put_same (data (w k)) Hz 68 (pk_bytes n) ltac:(lia) ltac:(lia)) as Q. rewrite pk_length in Q. exact Q.
  - pose proof (pk_zlen g) as Z32. destruct (P (data (w k)) 36 (pk_bytes g) ltac:(lia) ltac:(lia) ltac:(lia)) as [N' S]. rewrite <- E in N', S. rewrite Z32 in *. hfields N' S.
    right. split; [assumption|]. exists g. split; [assumption|]. split; [assumption|]. left. split; [assumption|]. split; [assumption|]. rewrite E.
    pose proof (sub_put_same (data (w k)) Hz 36 (pk_bytes g) ltac:(lia) ltac:(lia)) as Q. rewrite pk_length in Q. exact Q.
  - assert (Z32 : zlen no_key = 32) by reflexivity. destruct (P (data (w k)) 36 no_key ltac:(lia) ltac:(lia) ltac:(lia)) as [N' S]. rewrite <- E in N', S. rewrite Z32 in *. hfields N' S.
    right. split; [assumption|]. exists g. split; [assumption|]. split; [assumption|]. right. split; [assumption|]. split; [assumption|]. rewrite E.
    exact (sub_put_same (data (w k)) Hz 36 no_key ltac:(lia) ltac:(lia)).
  - apply header_same. destruct (layout_size _ _ _ _ _ _ n HL HE ltac:(lia)) as (l' & L' & _). rewrite <- E in L'. eapply head_eq_layout; eauto.
  - apply header_same. destruct (layout_payload _ _ _ _ XCreators off b b' HL ltac:(discriminate) HE ltac:(apply Hf)) as (l' & L' & _). rewrite <- E in L'. eapply head_eq_layout; eauto.
  - assert (Hr' : plain_request i) by (apply Hr; exists a; auto). clear Hr. rename Hr' into Hr.
    destruct Ei as [[x ->]|[[t ->]|[[|v] ->]]]; cbn [plain_request] in Hr.
    + destruct (update_effect _ _ _ _ _ _ _ _ _ He Hp Hs A0 HL ltac:(intros y Hy; destruct (Hr y Hy) as (R1 & R2 & _); split; assumption) H)
        as (a' & hd' & l' & tl' & _ & _ & _ & _ & _ & _ & (U1 & U2 & U3 & U4 & U5 & U6 & U7 & U8 & U9 & U10) & _).
      unfold header_step. cbv zeta. repeat (split; [auto; fail|]). right. split; [assumption|]. split; [exists a; auto|]. exists x. auto.
    + destruct (remove_effect _ _ _ _ _ _ _ _ _ A0 HL Hr H) as (a' & l1 & b & l2 & _ & _ & _ & _ & _ & _ & _ & _ & _ & _ & D & _).
      apply header_same. rewrite D. destruct HL as (-> & Hh & _). now apply head_eq_app.
    + destruct (ResizeL.trim_effect _ _ _ _ _ _ _ _ A0 HL H) as (_ & _ & L' & _). apply header_same. eapply head_eq_layout; eauto.
    + apply header_same. rewrite (ResizeL.extend_bytes _ _ _ _ _ _ A0 (proj1 Hr) H). destruct HL as (-> & Hh & _). rewrite <- app_assoc. now apply head_eq_app.
Qed.
End Step.

Lemma kept_layout_ext l l' : Forall2 kept l l' -> map fst l' = map fst l.
Proof. induction 1 as [|x y L L' (H & _) _ IH]; [reflexivity|]. cbn [map]. now rewrite H, IH. Qed.

Lemma sized_preserved e infos w i w' : env_ok e -> e_prog e <> pk_zero -> lam_ok w -> sized w -> process e infos w i = Ok w' -> sized w'.
Proof. intros He Hp Hl Hs H. apply process_psteps in H; try assumption. eapply psteps_sized; eauto. Qed.

(** what single instructions do to a well-formed asset *)
Lemma header_changes e infos w i w' k l : env_ok e -> e_prog e <> pk_zero -> sized w -> lam_ok w -> plain_request i ->
  acct_owner (w k) = e_prog e -> initialized (data (w k)) -> well_formed (data (w k)) l -> process e infos w i = Ok w' ->
  (burns infos i k /\ w' k = mkAcct 0 pk_zero []) \/ (acct_owner (w' k) = e_prog e /\ header_step infos w w' k i).
Proof.
  intros He Hp Hs Hl Hr Ho Hi (hd & tl & HL) H.
  destruct (changes e infos w w' k He Hp Hs Hl Ho Hi i H) as [(Ei & A0 & Hg)|[Ho' Hc]]; [left; split; [split|]; assumption|].
  right. split; [assumption|]. eapply step_header; eauto.
Qed.

Section Immutable.
Variables (p : pubkey) (k : pubkey).
Hypothesis (Hp : p <> pk_zero).

Definition frozen_as (w w' : world) (L : list (ext_type * bytes)) : Prop :=
  acct_owner (w' k) = p /\ initialized (data (w' k)) /\
  s_name (data (w' k)) = s_name (data (w k)) /\ s_standard (data (w' k)) = s_standard (data (w k)) /\
  s_authority (data (w' k)) = s_authority (data (w k)) /\ s_mutable (data (w' k)) = s_mutable (data (w k)) /\
  (s_standard (data (w k)) = x02 -> s_owner (data (w' k)) = s_owner (data (w k))) /\
  exists l', well_formed (data (w' k)) l' /\ Forall2 kept L (ext_list l').

Lemma frozen_step e infos w i w' l : e_prog e = p -> env_ok e -> sized w -> lam_ok w -> acct_owner (w k) = p ->
  initialized (data (w k)) -> s_mutable (data (w k)) = x00 -> well_formed (data (w k)) l -> process e infos w i = Ok w' ->
  (i = IBurn /\ arg infos 0 k) \/ frozen_as w w' (ext_list l).
Proof.
  intros E He Hs Hl Ho Hi Hm (hd & tl & HL) H. rewrite <- E in Ho, Hp.
  destruct (changes e infos w w' k He Hp Hs Hl Ho Hi i H) as [(Ei & A0 & Hg)|[Ho' Hc]]; [left; split; assumption|]. right.
  destruct (step_layout e infos w w' k i hd l tl HL Hc) as [(hd' & l' & L' & K)|(_ & (a & _ & _ & Hmu) & _)]; [apply kept_how_kept in K|contradiction].
  assert (HH : header_step infos w w' k i).
  { eapply step_header; eauto. intros (a & _ & _ & Hmu). contradiction. }
  destruct HH as (H1 & H2 & _ & H0 & _ & H3 & _ & H4).
  destruct Hi as [Hi1 Hi2]. pose proof (layout_zlen_ge _ _ _ _ L') as Z'. unfold zlen in Z'.
  split; [congruence|]. split; [split; [lia|congruence]|].
  destruct H4 as [[H4 H5]|(_ & (a & _ & _ & Hmu) & _)]; [|contradiction].
  destruct H3 as [H3|(_ & _ & a & n & _ & _ & _ & Hmu & _)]; [|contradiction].
  repeat (split; [assumption|]). split; [|exists l'; split; [exists hd', tl; exact L'|assumption]].
  intro Es. destruct H0 as [H0|[A0 ->]]; [assumption|]. exfalso. eapply soulbound_stays; eauto.
Qed.

Lemma frozen_history w w' l : history p w w' -> sized w -> lam_ok w -> acct_owner (w k) = p -> initialized (data (w k)) ->
  s_mutable (data (w k)) = x00 -> well_formed (data (w k)) l ->
  (sized w' /\ lam_ok w') /\ (burned_in p w w' k \/ frozen_as w w' (ext_list l)).
Proof.
  intros H Hs Hl Ho Hi Hm HL. induction H as [w|w w1 e infos i w2 H IH E He HI|w w1 w2 H IH HO].
  - split; [auto|]. right. split; [assumption|]. split; [assumption|]. do 5 (split; [reflexivity|]). exists l. split; [assumption|apply Forall2_same, kept_refl].
  - destruct (IH Hs Hl Ho Hi Hm HL) as [[Hs1 Hl1] IH']. clear IH. assert (Hp' : e_prog e <> pk_zero) by congruence.
    split; [split; [eapply sized_preserved; eauto|eapply lam_ok_preserved; eauto]|].
    destruct IH' as [(wa & ea & ia & wb & B1 & B2 & B3 & B4 & B5 & B6)|(F1 & F2 & F3 & F4 & F5 & F6 & F9 & l1 & F7 & F8)].
    + left. exists wa, ea, ia, wb. repeat (split; [assumption|]). exact (hist_instr _ _ _ _ _ _ _ B6 E He HI).
    + destruct (frozen_step _ _ _ _ _ _ E He Hs1 Hl1 F1 F2 ltac:(congruence) F7 HI) as [[Ei A0]|(G1 & G2 & G3 & G4 & G5 & G6 & G9 & l2 & G7 & G8)].
      * left. subst i. exists w1, e, infos, w2. repeat (split; [assumption|]). apply hist_refl.
      * right. split; [assumption|]. split; [assumption|]. do 4 (split; [congruence|]). split; [intro Es; rewrite G9, F9 by congruence; reflexivity|]. exists l2. split; [assumption|].
        eapply Forall2_chain; [exact kept_trans|exact F8|exact G8].
  - destruct (IH Hs Hl Ho Hi Hm HL) as [[Hs1 Hl1] IH']. clear IH. destruct HO as (O1 & O2 & O3 & O4).
    split; [auto|]. destruct IH' as [(wa & ea & ia & wb & B1 & B2 & B3 & B4 & B5 & B6)|(F1 & F2 & F3 & F4 & F5 & F6 & F9 & l1 & F7 & F8)].
    + left. exists wa, ea, ia, wb. repeat (split; [assumption|]). eapply hist_outside; [eassumption|]. repeat split; auto; apply O1; assumption.
    + right. destruct (O1 k F1) as [P1 P2]. unfold frozen_as. rewrite P2. repeat (split; [assumption|]). exists l1. auto.
Qed.
End Immutable.

(** ** Mutable assets: careful histories *)
Lemma tidy_wf d l : tidy d l -> well_formed d l.
Proof. intros (hd & n & H). exists hd, (repeat x00 n). exact H. Qed.

Lemma lookup_none_types t l : Forall (fun x => bk_type x <> t) l -> lookup t (ext_list l) = None.
Proof.
  induction 1 as [|x l H _ IH]; [reflexivity|]. cbn [ext_list map lookup].
  destruct (ext_type_eqb (bk_type x) t) eqn:E; [apply ext_type_eqb_eq in E; contradiction|exact IH].
Qed.
(** how the extension list can change *)
Definition ext_step (e : env) (w w' : world) (i : instr) (k : pubkey) (infos : list ainfo) (L L' : list (ext_type * bytes)) : Prop :=
  kept_how infos i k L L' \/
  (arg infos 0 k /\ exists a auth buffer t b, i = IUpdate a /\ signed infos auth /\ s_authority (data (w k)) = pk_bytes auth /\ mutable (data (w k)) /\
     (buffer = None /\ arg infos 2 (e_prog e) \/ exists bk, buffer = Some bk /\ arg infos 2 bk /\ bk <> e_prog e) /\
     t <> XNone /\ L' = put_ext t b L /\ source_spec e w k auth buffer (u_ext a) t (lookup t L) b w') \/
  (arg infos 0 k /\ exists x, L = L' ++ [x] /\ i = IRemove (fst x) /\ lookup (fst x) L' = None /\ fst x <> XManager /\ fst x <> XProxy /\ (fst x = XGrouping -> gr_size (snd x) = 0)).

Lemma tidy_step e infos w i w' k l : env_ok e -> e_prog e <> pk_zero -> sized w -> lam_ok w -> careful k e infos w i ->
  acct_owner (w k) = e_prog e -> initialized (data (w k)) -> tidy (data (w k)) l -> process e infos w i = Ok w' ->
  (burns infos i k /\ w' k = mkAcct 0 pk_zero []) \/
  (acct_owner (w' k) = e_prog e /\ initialized (data (w' k)) /\ header_step infos w w' k i /\
   exists l', tidy (data (w' k)) l' /\ ext_step e w w' i k infos (ext_list l) (ext_list l')).
Proof.
  intros He Hp Hs Hl [Hr Hc] Ho Hi HT H. pose proof HT as (hd & n & HL). pose proof (sized_preserved _ _ _ _ _ He Hp Hl Hs H) as Hs'.
  destruct (changes e infos w w' k He Hp Hs Hl Ho Hi i H) as [(Ei & A0 & Hg)|[Ho' Hch]]; [left; split; [split|]; assumption|]. right.
  assert (HH : header_step infos w w' k i) by (eapply step_header; eauto).
  pose proof (kh_same infos i k (ext_list l) (ext_list l) eq_refl) as KR.
  assert (HX : exists l', tidy (data (w' k)) l' /\ ext_step e w w' i k infos (ext_list l) (ext_list l')).
  { unfold ext_step. destruct (step_layout e infos w w' k i _ _ _ HL Hch) as [(hd' & l' & L' & K)|(A0 & _ & [[x ->]|[[t ->]|[[|v] ->]]])]; cbn [plain_request] in Hr.
    - exists l'. split; [exists hd', n; exact L'|auto].
    - destruct (update_effect _ _ _ _ _ _ _ _ _ He Hp Hs A0 HL ltac:(intros y Hy; destruct (Hr y Hy) as (R1 & R2 & _); split; assumption) H)
        as (a' & hd' & l' & tl' & _ & Sg & _ & _ & Au & Mu & _ & L' & Htl & _ & U). exists l'. split.
      + destruct Htl as [-> | ->]; exists hd'; [exists 0%nat|exists n]; exact L'.
      + destruct U as [(_ & _ & -> & _)|(bf & t & b & Hbf & Ht & EL & Src)]; [auto|]. right. left. split; [assumption|]. exists x, a', bf, t, b. repeat (split; [assumption || reflexivity|]). exact Src.
    - destruct (Hc t l eq_refl A0 (tidy_wf _ _ HT)) as (l1 & b & -> & Eb & Hf). exists l1. split; [exists hd, n; eapply remove_last; eauto|].
      right. right. split; [assumption|]. exists (bk_type b, bk_data b). split; [unfold ext_list; now rewrite map_app|]. cbn [fst snd]. rewrite Eb. split; [reflexivity|].
      split; [now apply lookup_none_types|].
      destruct (remove_effect _ _ _ _ _ _ _ _ _ A0 HL Hr H) as (_ & m1 & b0 & m2 & _ & _ & _ & _ & R1 & R2 & R3 & R4 & R5 & R6 & _).
      split; [assumption|]. split; [assumption|]. intro Et. rewrite <- (R3 Et). f_equal.
      assert (Q1 : lookup t (ext_list (l1 ++ [b])) = Some (bk_data b)) by (rewrite <- Eb; apply lookup_block; now rewrite Eb).
      assert (Q2 : lookup t (ext_list (l1 ++ [b])) = Some (bk_data b0)) by (rewrite R4, <- R5; apply lookup_block; now rewrite R5). congruence.
    - destruct (ResizeL.trim_effect _ _ _ _ _ _ _ _ A0 HL H) as (_ & _ & L' & _). exists l. split; [exists hd, 0%nat; exact L'|auto].
    - rewrite <- (Nat2Z.id n) in HL. destruct (ResizeL.extend_effect _ _ _ _ _ _ _ _ _ A0 (Zle_0_nat n) Hr Hs' HL H) as (_ & _ & L' & _). exists l. split; [exists hd; eexists; exact L'|auto]. }
  split; [assumption|]. split; [|split; assumption].
  destruct HX as (l' & (hd' & n' & L') & _). pose proof (layout_zlen_ge _ _ _ _ L') as Z'. destruct HH as (H1 & _). destruct Hi as [_ Hi].
  unfold zlen in Z'. split; [lia|congruence].
Qed.

Section Careful.
Variables (p k : pubkey).
Hypothesis (Hp : p <> pk_zero).

(** if every instruction is careful with [k], does not burn it and keeps the
    observation [f], the whole history does *)
Lemma careful_history {A} (f : bytes -> A) (P : env -> list ainfo -> world -> instr -> Prop) w w' l :
  (forall e infos w i w', P e infos w i -> header_step infos w w' k i -> f (data (w' k)) = f (data (w k))) ->
  (forall e infos w i, P e infos w i -> ~ burns infos i k /\ careful k e infos w i) ->
  history_of P p w w' -> sized w -> lam_ok w -> acct_owner (w k) = p -> initialized (data (w k)) -> tidy (data (w k)) l ->
  (sized w' /\ lam_ok w') /\ acct_owner (w' k) = p /\ initialized (data (w' k)) /\ f (data (w' k)) = f (data (w k)) /\ exists l', tidy (data (w' k)) l'.
Proof.
  intros Hf HP H Hs Hl Ho Hi HT. induction H as [w|w w1 e infos i w2 H IH E He HPi HI|w w1 w2 H IH HO].
  - split; [auto|]. split; [assumption|]. split; [assumption|]. split; [reflexivity|]. eauto.
  - destruct (IH Hs Hl Ho Hi HT) as ([Hs1 Hl1] & F1 & F2 & F3 & l1 & F4). clear IH. destruct (HP _ _ _ _ HPi) as [Hb Hc].
    assert (Hp' : e_prog e <> pk_zero) by congruence.
    split; [split; [eapply sized_preserved; eauto|eapply lam_ok_preserved; eauto]|]. rewrite <- E in F1.
    destruct (tidy_step _ _ _ _ _ _ _ He Hp' Hs1 Hl1 Hc F1 F2 F4 HI) as [[B _]|(G1 & G2 & G3 & l2 & G4 & _)]; [contradiction|].
    split; [congruence|]. split; [assumption|]. split; [rewrite (Hf _ _ _ _ _ HPi G3); assumption|eauto].
  - destruct (IH Hs Hl Ho Hi HT) as ([Hs1 Hl1] & F1 & F2 & F3 & l1 & F4). destruct HO as (O1 & O2 & O3 & O4). destruct (O1 k F1) as [P1 P2]. rewrite P2.
    split; [auto|]. split; [assumption|]. split; [assumption|]. split; [assumption|]. eauto.
Qed.
End Careful.

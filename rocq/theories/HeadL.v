(** Header fields: reading and writing. *)
From Verif Require Import Base State Layout Constr Ext World Proc BaseL Spec WorldL LayoutL.
From Coq Require Import Strings.Byte.

Lemma is_asset_spec d : is_asset d = true <-> initialized d.
Proof.
  unfold is_asset, initialized, ASSET_LEN, s_disc, byte_at, DISC_ASSET. rewrite andb_true_iff, beqb_eq.
  cbn [Z.to_nat Pos.to_nat]. unfold zlen. split; intros [H1 H2]; (split; [lia|assumption]).
Qed.
Lemma key_is_spec b k : key_is b k = true <-> b = pk_bytes k.
Proof. apply bytes_eqb_eq. Qed.
Lemma key_is_false b k : key_is b k = false <-> b <> pk_bytes k.
Proof. apply bytes_eqb_neq. Qed.
Lemma f_owner_s d : f_owner d = s_owner d. Proof. reflexivity. Qed.
Lemma f_group_s d : f_group d = s_group d. Proof. reflexivity. Qed.
Lemma f_authority_s d : f_authority d = s_authority d. Proof. reflexivity. Qed.
Lemma f_delegate_s d : f_delegate d = s_delegate d. Proof. reflexivity. Qed.
Lemma zero32_no_key : zero32 = no_key. Proof. reflexivity. Qed.
Lemma pk_zero_bytes : pk_bytes pk_zero = no_key. Proof. reflexivity. Qed.

Lemma nullable_none b : nullable b = None <-> b = no_key.
Proof. unfold nullable. destruct (bytes_eqb b zero32) eqn:E; bnorm; split; intro; try easy; congruence. Qed.
Lemma nullable_some b k : nullable b = Some k <-> b = k /\ b <> no_key.
Proof.
  unfold nullable. destruct (bytes_eqb b zero32) eqn:E; bnorm; split.
  - discriminate.
  - intros [_ H]. now subst.
  - intro H. inv H. auto.
  - intros [-> _]. reflexivity.
Qed.

(** nth of put *)
Lemma nth_put d o bs i : 0 <= o -> o + zlen bs <= zlen d ->
  nth i (put d o bs) x00 =
  if Nat.leb (Z.to_nat o) i && Nat.ltb i (Z.to_nat o + length bs) then nth (i - Z.to_nat o) bs x00
  else nth i d x00.
Proof.
  intros Ho H. unfold put.
  assert (Hl : length (firstn (Z.to_nat o) d) = Z.to_nat o) by len.
  destruct (Nat.leb_spec (Z.to_nat o) i) as [H1|H1]; cbn [andb].
  - rewrite app_nth2 by lia. rewrite Hl.
    destruct (Nat.ltb_spec i (Z.to_nat o + length bs)) as [H2|H2].
    + rewrite app_nth1 by lia. reflexivity.
    + rewrite app_nth2 by lia.
      rewrite <- (firstn_skipn (Z.to_nat o + length bs) d) at 2.
      rewrite (app_nth2 (firstn (Z.to_nat o + length bs) d)) by len. f_equal. len.
  - rewrite app_nth1 by lia.
    rewrite <- (firstn_skipn (Z.to_nat o) d) at 2. rewrite app_nth1 by lia. reflexivity.
Qed.
Lemma put_same_except d o bs : 0 <= o -> o + zlen bs <= zlen d ->
  same_except d (put d o bs) (Z.to_nat o) (length bs).
Proof.
  intros Ho H. split.
  - pose proof (zlen_put d o bs Ho H). unfold zlen in *. lia.
  - intros i Hi. rewrite nth_put by assumption.
    destruct (Nat.leb_spec (Z.to_nat o) i); cbn [andb]; [|reflexivity].
    destruct (Nat.ltb_spec i (Z.to_nat o + length bs)); [lia|reflexivity].
Qed.
Lemma same_except_refl d o n : same_except d d o n.
Proof. split; auto. Qed.
Lemma same_except_sub d d' o n o' n' : same_except d d' o n -> (o' + n' <= o \/ o + n <= o')%nat ->
  sub d' o' n' = sub d o' n'.
Proof.
  intros [Hl Hn] Hd. apply list_eq_nth; unfold sub.
  - rewrite !firstn_length, !skipn_length. lia.
  - intros i Hi. rewrite !firstn_length, !skipn_length in Hi.
    rewrite <- (firstn_skipn n' (skipn o' d')) in *.
    assert (F : forall x, (i < n')%nat -> nth i (firstn n' (skipn o' x)) x00 = nth (o' + i) x x00).
    { intros x Hx. rewrite <- (firstn_skipn o' x) at 2.
      destruct (Nat.le_gt_cases (length x) o') as [Hle|Hgt].
      - rewrite (skipn_all2 x) by assumption. rewrite firstn_nil, app_nil_r.
        rewrite (nth_overflow (firstn o' x)) by (rewrite firstn_length; lia). destruct i; reflexivity.
      - rewrite app_nth2 by (rewrite firstn_length; lia).
        replace (o' + i - length (firstn o' x))%nat with i by (rewrite firstn_length; lia).
        destruct (Nat.le_gt_cases (length (skipn o' x)) i) as [Hle2|Hgt2].
        + rewrite !nth_overflow; auto. rewrite firstn_length. lia.
        + rewrite <- (firstn_skipn n' (skipn o' x)) at 2. rewrite app_nth1; [reflexivity|].
          rewrite firstn_length. lia. }
    rewrite (firstn_skipn n' (skipn o' d')). rewrite !F by lia. apply Hn. lia.
Qed.

(** reading a header after writing a field *)
Section HeadPut.
Variables (d : bytes).
Hypothesis Hd : 168 <= zlen d.
Ltac solve_other := intros; rewrite !sub_fld; apply fld_put_other; rewrite ?zlen_cons in *; unfold zlen in *; cbn [length] in *; rewrite ?pk_length in *; lia.
Lemma sub_put_other o bs o' n' : 0 <= o -> o + zlen bs <= 168 ->
  Z.of_nat o' + Z.of_nat n' <= o \/ o + zlen bs <= Z.of_nat o' -> sub (put d o bs) o' n' = sub d o' n'.
Proof. intros. rewrite !sub_fld. apply fld_put_other; lia. Qed.
Lemma sub_put_same o bs : 0 <= o -> o + zlen bs <= 168 -> sub (put d o bs) (Z.to_nat o) (length bs) = bs.
Proof.
  intros. rewrite sub_fld. rewrite Z2Nat.id by assumption. change (Z.of_nat (length bs)) with (zlen bs).
  apply fld_put_same; lia.
Qed.
Lemma nth_put_other o bs i : 0 <= o -> o + zlen bs <= 168 ->
  Z.of_nat i < o \/ o + zlen bs <= Z.of_nat i -> nth i (put d o bs) x00 = nth i d x00.
Proof. intros. rewrite nth_put by lia.
  destruct (Nat.leb_spec (Z.to_nat o) i); cbn [andb]; [|reflexivity].
  destruct (Nat.ltb_spec i (Z.to_nat o + length bs)); [unfold zlen in *; lia|reflexivity].
Qed.
End HeadPut.

Lemma layout_head d hd l tl o bs : layout d hd l tl -> 0 <= o -> o + zlen bs <= 168 ->
  layout (put d o bs) (put hd o bs) l tl.
Proof.
  intros (-> & H1 & H2 & H3 & H4) Ho Hb. unfold layout.
  assert (Hl : zlen (put hd o bs) = 168) by (rewrite zlen_put; lia).
  repeat split; auto.
  - rewrite (put_as hd) by lia. rewrite put_as by (rewrite ?zlen_app; pose proof (zlen_nonneg (enc_sect 168 l)); pose proof (zlen_nonneg tl); lia).
    rewrite <- !app_assoc. rewrite firstn_app.
    replace (Z.to_nat o - length hd)%nat with 0%nat by len. cbn [firstn]. rewrite app_nil_r.
    do 2 f_equal. rewrite skipn_app.
    replace (Z.to_nat (o + zlen bs) - length hd)%nat with 0%nat by (unfold zlen in *; lia). reflexivity.
  - rewrite zlen_put; [assumption|assumption|].
    rewrite !zlen_app. pose proof (zlen_nonneg (enc_sect 168 l)); pose proof (zlen_nonneg tl); lia.
Qed.

(** roles *)
Lemma is_active_spec a m r : is_active (mkDelegate a m) r = true <-> has_role m r.
Proof.
  unfold is_active, has_role, del_roles.
  destruct r; cbn [role_bit role_mask].
  - rewrite Z.land_0_r. split; [discriminate|tauto].
  - destruct m; vm_compute; tauto.
  - destruct m; vm_compute; tauto.
  - destruct m; vm_compute; tauto.
Qed.

Lemma asset_delegate_some d dl : asset_delegate d = Some dl <->
  s_delegate d <> no_key /\ dl = mkDelegate (s_delegate d) (s_roles d).
Proof.
  unfold asset_delegate. change (f_delegate d) with (s_delegate d). change (byte_at d 132) with (s_roles d).
  destruct (nullable (s_delegate d)) eqn:E.
  - apply nullable_some in E as [<- E]. split; [intro H; inv H; auto|intros [_ ->]; reflexivity].
  - apply nullable_none in E. split; [discriminate|tauto].
Qed.
Lemma asset_delegate_none d : asset_delegate d = None <-> s_delegate d = no_key.
Proof.
  unfold asset_delegate. change (f_delegate d) with (s_delegate d).
  destruct (nullable (s_delegate d)) eqn:E.
  - apply nullable_some in E as [<- E]. split; [discriminate|tauto].
  - apply nullable_none in E. tauto.
Qed.

(** manager *)
Lemma manager_some d dl : 168 <= zlen d < two64 -> manager_delegate d = Ok (Some dl) ->
  exists off b, has_ext d XManager off b /\ (33 <= length b)%nat /\ dl = mkDelegate (sub b 0 32) (nth 32 b x00).
Proof.
  intros Hd H. unfold manager_delegate in H. rinv H. destruct x as [[off b]|]; rinv H.
  apply sect_get_some in Hx as [Hx _]; [|assumption].
  unfold manager_from_bytes, load_delegate in Hx0. rinv Hx0.
  exists (168 + off), b. split; [assumption|]. split; [unfold zlen in *; lia|]. reflexivity.
Qed.
Lemma manager_layout d l : well_formed d l ->
  manager_delegate d = match lookup XManager (ext_list l) with
                       | None => Ok None
                       | Some b => dl <- load_delegate b ;; Ok (Some dl)
                       end.
Proof.
  intros (hd & tl & HL). unfold manager_delegate.
  rewrite (layout_sect _ _ _ _ HL XManager) by discriminate. cbn [bind].
  rewrite (loc_lookup XManager l 168). now destruct (loc XManager 168 l) as [[c b]|].
Qed.

(** the authority rule of assert_delegate *)
Lemma assert_two a m k r : is_ok (assert_delegate [a; m] (pk_bytes k) r) = true <->
  match m with
  | Some x => key_with_role (del_addr x) (del_roles x) k r
  | None => match a with
            | Some x => key_with_role (del_addr x) (del_roles x) k r
            | None => False
            end
  end.
Proof.
  assert (H : forall x (y : res unit), is_ok (if negb (bytes_eqb (del_addr x) (pk_bytes k)) then Err EInvalidDelegate
     else if negb (is_active x r) then Err EDelegateRoleNotActive else Ok tt) = true <->
     key_with_role (del_addr x) (del_roles x) k r).
  { intros [xa xm] _. cbn [del_addr del_roles]. unfold key_with_role. rewrite <- (is_active_spec xa).
    destruct (bytes_eqb xa (pk_bytes k)) eqn:E; bnorm; cbn [negb].
    - destruct (is_active _ r); cbn; intuition congruence.
    - cbn. intuition congruence. }
  unfold assert_delegate. cbn [fold_left].
  destruct m as [x|]; [apply (H x (Ok tt))|]. destruct a as [x|]; [apply (H x (Ok tt))|].
  cbn. intuition congruence.
Qed.
Lemma assert_one m k r : is_ok (assert_delegate [m] (pk_bytes k) r) = true <->
  match m with
  | Some x => key_with_role (del_addr x) (del_roles x) k r
  | None => False
  end.
Proof.
  rewrite <- (assert_two m None k r). unfold assert_delegate. cbn [fold_left]. reflexivity.
Qed.
Lemma is_ok_tt (m : res unit) : is_ok m = true <-> m = Ok tt.
Proof. destruct m as [[]| | | |]; cbn; intuition congruence. Qed.

(** account arguments *)
Lemma acct_arg infos i k : acct (passed infos) i = Ok k <-> arg infos i k.
Proof.
  unfold acct, arg. destruct (nth_error (passed infos) i) as [a|]; split; intro H.
  - inv H. eauto.
  - destruct H as (a' & H1 & H2). inv H1. reflexivity.
  - discriminate.
  - destruct H as (a' & H1 & H2). discriminate.
Qed.
Lemma arg_det infos i k k' : arg infos i k -> arg infos i k' -> k = k'.
Proof. intros (a & H1 & <-) (b & H2 & <-). congruence. Qed.
Lemma opt_acct_some e infos i k : opt_acct e (passed infos) i = Ok (Some k) <-> arg infos i k /\ k <> e_prog e.
Proof.
  unfold opt_acct. split; intro H.
  - rinv H. destruct (pk_eqb x (e_prog e)) eqn:E; inv H. bnorm. rewrite <- acct_arg. auto.
  - destruct H as [H1 H2]. apply acct_arg in H1. rewrite H1. cbn. apply pk_eqb_neq in H2. now rewrite H2.
Qed.
Lemma opt_acct_none e infos i : opt_acct e (passed infos) i = Ok None <-> arg infos i (e_prog e).
Proof.
  unfold opt_acct. split; intro H.
  - rinv H. destruct (pk_eqb x (e_prog e)) eqn:E; inv H. bnorm. rewrite <- acct_arg. congruence.
  - apply acct_arg in H. rewrite H. cbn. now rewrite pk_eqb_refl.
Qed.

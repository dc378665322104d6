(** The JavaScript client: when accounts can be shown, values read back, searching. *)
From Verif Require Import Base State Layout Constr Ext ExtLen World Proc Borsh Client Js BaseL Spec SpecB SpecC SpecI SpecF SpecJ WorldL LayoutL LayoutE HeadL AuthL CreatorsL ConstrL ReadsL CodecL BorshL ExactL AcceptL JsL JsM JsN.
From Coq Require Import Strings.Byte.

Lemma shown_exists k : blk_ok k -> parses (bk_type k) (bk_data k) ->
  ((exists x, shown (bk_type k) (bk_data k) (bk_pad k) x) <-> showable k).
Proof.
  intros (N & _) P. destruct k as [t b un pad]. cbn [bk_type bk_data bk_pad] in *. unfold showable. cbn [bk_type bk_data bk_pad]. split.
  - intros (x & -> & S). destruct x; cbn [jext_type]; (split; intro Q; try discriminate Q).
    + destruct S as (s' & d' & u' & i' & bs & bd & bu & bi & junk & H1 & H2 & H3 & H4 & H5 & _). exists s', d', u', i', bs, bd, bu, bi, junk. auto.
    + destruct S as (kk & L & _). exact L.
  - intros [G M]. destruct t; cbn [parses] in P.
    + now elim N.
    + destruct (proj2 (pairs_goes b) P) as (l & E). exists (JAttributes (map seen_pair l)). split; [reflexivity|]. exists l. auto.
    + destruct (proj2 (blob_goes b) P) as ([s dat] & E). exists (JBlob (seen_text s) dat). split; [reflexivity|]. exists s. auto.
    + destruct (proj2 (creators_goes b) P) as (l & E). exists (JCreators (map seen_creator l)). split; [reflexivity|]. exists l. auto.
    + destruct (proj2 (pairs_goes b) P) as (l & E). exists (JLinks (map seen_pair l)). split; [reflexivity|]. exists l. auto.
    + destruct (M eq_refl) as (s' & d' & u' & i' & bs & bd & bu & bi & junk & H1 & H2 & H3 & H4 & H5).
      exists (JMetadata (seen_text s') (seen_text d') (seen_text u') (seen_text i')). split; [reflexivity|]. exists s', d', u', i', bs, bd, bu, bi, junk. auto 10.
    + destruct (proj2 (AcceptL.grouping_goes 0 b eq_refl) P) as ([s m kk] & E). exists (JGrouping s m (seen_key kk)). split; [reflexivity|]. exists kk. auto.
    + destruct (proj2 (royalties_goes 0 b eq_refl) P) as ([bp c] & E). pose proof E as R'. unfold royalties_from_bytes in R'. apply guard_ok in R' as [L8 R']. apply guard_ok in R' as [_ R'].
      apply bind_ok in R' as (c' & Hc & R'). apply Ok_inj in R'. apply pair_equal_spec in R' as [Eb Ec]. subst c'. apply from_bytes_reads in Hc.
      destruct (proj1 reads_js _ _ _ Hc (constr_fuel (skipn 8 b))) as (jc & J1 & J2); [unfold constr_fuel; lia|]. exists (JRoyalties bp jc). split; [reflexivity|]. exists c. auto.
    + destruct (proj2 (manager_goes b) P) as ([kk m] & E). exists (JManager (seen_key kk) (seen_roles m)). split; [reflexivity|]. exists kk, m. auto.
    + destruct (proj2 (proxy_goes b) P) as ([p s n a] & E). exists (JProxy p s (b2z n) (seen_key a)). split; [reflexivity|]. exists n, a. auto.
    + destruct (proj2 (props_goes b) P) as (l & E). exists (JProperties (map (fun p => (seen_text (fst p), seen_value (snd p))) l)). split; [reflexivity|]. exists l. auto.
    + exists (JBucket b). split; reflexivity.
Qed.
Lemma account_showable d hd l tl : layout d hd l tl -> valid_header d -> readable l ->
  ((exists a, js_asset d = JDone a) <-> end_ok tl /\ Forall showable l).
Proof.
  intros Y V R. pose proof Y as (_ & _ & K & _). split.
  - intros (a & H). apply (account_shown _ _ _ _ a Y V R) in H as (E & _ & F). split; [exact E|]. clear - K R F. induction F as [|k x l xs H _ IH]; constructor;
      apply Forall_cons_iff in R as [Rk Rl]; apply Forall_cons_iff in K as [Kk Kl]; [apply shown_exists; [assumption|assumption|now exists x]|auto].
  - intros [E S]. assert (exists xs, Forall2 (fun k x => shown (bk_type k) (bk_data k) (bk_pad k) x) l xs) as (xs & F).
    { clear - K R S. induction S as [|k l H _ IH]; [exists []; constructor|]. apply Forall_cons_iff in R as [Rk Rl]; apply Forall_cons_iff in K as [Kk Kl].
      destruct (IH Rl Kl) as (xs & F). apply (shown_exists k Kk Rk) in H as (x & H). exists (x :: xs). now constructor. }
    exists (mkJasset (b2z (s_state d)) (b2z (s_standard d)) (beqb (s_mutable d) x01) (s_owner d) (seen_key (s_group d)) (s_authority d)
                 (match seen_key (s_delegate d) with Some k => Some (k, seen_roles (s_roles d)) | None => None end) (seen_text (s_name d)) xs).
    apply (account_shown _ _ _ _ _ Y V R). split; [exact E|]. split; [|exact F]. unfold shown_header. cbn [ja_state ja_standard ja_mutable ja_owner ja_group ja_authority ja_delegate ja_name]. auto 10.
Qed.
Lemma account_never_hangs d hd l tl : layout d hd l tl -> valid_header d -> js_asset d <> JHang.
Proof. intros Y V. exact (proj2 (asset_read d hd l tl (mkJasset 0 0 true [] None [] None [] []) Y V)). Qed.

(** ** Reading back what was written *)
Lemma says_parses x b : says x b -> parses (jext_type x) b.
Proof.
  destruct x; cbn [says jext_type parses]; intro H.
  - apply pairs_goes. now exists l.
  - apply blob_goes. now exists (ct, dat).
  - apply creators_goes. now exists (map as_creator l).
  - apply pairs_goes. now exists l.
  - apply metadata_goes. now exists (s, d, u, i).
  - apply (AcceptL.grouping_goes 0); [reflexivity|]. eexists. exact H.
  - destruct H as (r & H & _). apply (royalties_goes 0); [reflexivity|]. now exists (bp, r).
  - destruct H as (m & H & _). apply manager_goes. eexists. exact H.
  - apply proxy_goes. eexists. exact H.
  - apply props_goes. eexists. exact H.
  - exact I.
Qed.
Lemma seen_zero_or o : seen_key (key_or_zero o) = seen_opt o.
Proof. destruct o; reflexivity. Qed.
Lemma seen_roles_same m l : grants m l -> same_roles l (seen_roles m).
Proof.
  intros G r Hr. rewrite <- (G r Hr). unfold seen_roles, has_role. destruct (beqb m x00) eqn:E.
  - apply beqb_eq in E as ->. destruct r; cbn; split; intro H; try tauto; try congruence; destruct H as [H|[]]; congruence.
  - rewrite filter_In. destruct r; [now elim Hr| | |]; cbn [role_bit]; split; [intro H; split; [cbn; auto|exact H]|intros [_ H]; exact H|intro H; split; [cbn; auto|exact H]|intros [_ H]; exact H|intro H; split; [cbn; auto|exact H]|intros [_ H]; exact H].
Qed.
Lemma read_back x b : typed x -> js_payload x = Some b -> zlen b <= u32_max -> exists y r, js_read (jext_type x) b = Some (y, r) /\ same_value x y.
Proof.
  intros T H L. apply payload_wr in H as [R E]; [|assumption]. subst b. pose proof (payload_says x T R L) as S.
  assert (G : forall y, shown (jext_type x) (jbytes x) [] y -> exists r, js_read (jext_type x) (jbytes x) = Some (y, r)).
  { intros y Y. apply read_shown in Y; [|now apply says_parses]. destruct Y as (r & Y). exists r. destruct x; try exact Y. cbn [jext_type whole] in Y. rewrite app_nil_r in Y. exact Y. }
  assert (G' : forall y, shown (jext_type x) (jbytes x) [] y -> same_value x y -> exists y r, js_read (jext_type x) (jbytes x) = Some (y, r) /\ same_value x y).
  { intros y Y1 Y2. destruct (G y Y1) as (r & Y3). exists y, r. auto. }
  clear G. destruct x as [l|ct dat|l|l|s d u i|size max del|bp c|addr roles|prog seeds bump auth|l|dat]; cbn [says same_value jext_type typed in_range] in *.
  - eapply G'; [|reflexivity]. split; [reflexivity|]. exists l. auto.
  - eapply G'; [|reflexivity]. split; [reflexivity|]. exists ct. auto.
  - eapply G'; [|reflexivity]. split; [reflexivity|]. exists (map as_creator l). split; [exact S|]. rewrite map_map. rewrite <- (map_id l) at 1. apply map_ext_in. intros [[k v] sh] Hc.
    rewrite Forall_forall in R. specialize (R _ Hc). cbn in R. unfold seen_creator, as_creator. cbn [fst snd cr_addr cr_verified cr_share]. unfold is_u8 in R. rewrite b2z_z2b, Z.mod_small by exact R. now destruct v.
  - eapply G'; [|reflexivity]. split; [reflexivity|]. exists l. auto.
  - destruct R as (R1 & R2 & R3 & R4). eapply G'; [|reflexivity]. split; [reflexivity|]. exists s, d, u, i, (enc_pstr s), (enc_pstr d), (enc_pstr u), (enc_pstr i), [].
    repeat (split; [split; [assumption|reflexivity]|]). split; [rewrite !app_nil_r; reflexivity|]. auto.
  - eapply G'; [|reflexivity]. split; [reflexivity|]. exists (key_or_zero del). split; [cbn [jbytes]; rewrite !zlen_app, !le_enc_zlen, opt_key_len by assumption; reflexivity|]. split; [exact S|]. symmetry. apply seen_zero_or.
  - destruct S as (r & S1 & S2). eapply G'; [|reflexivity]. split; [reflexivity|]. exists r. auto.
  - destruct S as (m & S1 & S2). apply (G' (JManager (seen_opt addr) (seen_roles m))).
    + split; [reflexivity|]. exists (key_or_zero addr), m. split; [exact S1|]. split; [symmetry; apply seen_zero_or|reflexivity].
    + exists (seen_roles m). split; [reflexivity|]. now apply seen_roles_same.
  - eapply G'; [|reflexivity]. split; [reflexivity|]. exists (z2b bump), (key_or_zero auth). split; [exact S|]. destruct R as [_ R]. unfold is_u8 in R. rewrite b2z_z2b, Z.mod_small by exact R. split; [reflexivity|]. symmetry. apply seen_zero_or.
  - eapply G'; [|reflexivity]. split; [reflexivity|]. eexists. split; [exact S|]. rewrite map_map. apply map_ext_in. intros [n v] Hp. cbn [fst snd]. f_equal.
    rewrite Forall_forall in R. destruct (R _ Hp) as [_ Rv]. cbn [snd] in Rv. destruct v as [t|z|y]; cbn [seen_jval as_value seen_value value_fits] in *; [reflexivity| |now destruct y].
    now rewrite le_dec_enc8 by exact Rv.
  - eapply G'; [|reflexivity]. split; reflexivity.
Qed.

(** ** Searching *)
Lemma sub_one d o : (o < length d)%nat -> sub d o 1 = [nth o d x00].
Proof.
  unfold sub. revert o. induction d as [|x d IH]; intros [|o] H; cbn [length] in H; try lia; [reflexivity|]. cbn [skipn nth]. apply IH. lia.
Qed.
Lemma one_eq (x y : byte) : [x] = [y] <-> x = y.
Proof. split; congruence. Qed.
Lemma byte_is x z : 0 <= z < 256 -> (x = z2b z <-> b2z x = z).
Proof. intro H. split; [intros ->; rewrite b2z_z2b, Z.mod_small; lia|intros <-; symmetry; apply z2b_b2z]. Qed.
Lemma grants_mask m l : ~ In RNone l -> (grants m l /\ b2z m < 8 <-> m = z2b (roles_of (DSome l))).
Proof.
  intro N. set (v := roles_of (DSome l)). pose proof (roles_of_range (DSome l)) as V. fold v in V. split.
  - intros [G L]. assert (B : b2z m = v).
    { assert (Q : forall n, Z.testbit (b2z m) n = Z.testbit v n -> True) by auto. clear Q. pose proof (b2z_range m).
      assert (T : forall r n, role_n r = Some n -> Z.testbit (b2z m) n = Z.testbit v n).
      { intros r n Hr. assert (r <> RNone) by (intros ->; discriminate Hr). pose proof (G r ltac:(assumption)) as G1. rewrite has_role_bit, Hr in G1. pose proof (roles_of_bits (DSome l) r) as G2. rewrite Hr in G2. cbn [requested] in G2. fold v in G2.
        destruct (Z.testbit (b2z m) n), (Z.testbit v n); try reflexivity; [symmetry; apply G2|apply G1, G2; reflexivity]. split; [now apply G1|assumption]. }
      pose proof (T RTransfer 0 eq_refl) as T0. pose proof (T RLock 1 eq_refl) as T1. pose proof (T RBurn 2 eq_refl) as T2. clear - T0 T1 T2 V L H. revert T0 T1 T2. generalize dependent (b2z m). intros z L Hz. generalize dependent v. intros y Hy.
      assert (z = 0 \/ z = 1 \/ z = 2 \/ z = 3 \/ z = 4 \/ z = 5 \/ z = 6 \/ z = 7) as Ez by lia. assert (y = 0 \/ y = 1 \/ y = 2 \/ y = 3 \/ y = 4 \/ y = 5 \/ y = 6 \/ y = 7) as Ey by lia.
      repeat (destruct Ez as [Ez|Ez]); repeat (destruct Ey as [Ey|Ey]); subst; cbn; intros; congruence. }
    rewrite <- B. symmetry. apply z2b_b2z.
  - intros ->. split; [|rewrite b2z_z2b, Z.mod_small; lia]. intros r Hr. unfold v. rewrite granted_roles. cbn [requested]. tauto.
Qed.
Lemma filter_selects f p d : (168 <= length d)%nat -> filter_typed f -> js_filter f = Some p -> (matches d p <-> selects f d).
Proof.
  intros L T H. unfold matches. destruct f as [k|k|k|k|l|s|z|st|m|z]; cbn [js_filter filter_typed selects] in *.
  - apply Some_inj in H as <-. cbn [fst snd]. now rewrite T.
  - apply Some_inj in H as <-. cbn [fst snd]. change (match k with Some k => k | None => zero32 end) with (key_or_zero k). pose proof (opt_key_len k T) as Q. unfold zlen in Q. replace (length (key_or_zero k)) with 32%nat by lia. reflexivity.
  - apply Some_inj in H as <-. cbn [fst snd]. now rewrite T.
  - apply Some_inj in H as <-. cbn [fst snd]. change (match k with Some k => k | None => zero32 end) with (key_or_zero k). pose proof (opt_key_len k T) as Q. unfold zlen in Q. replace (length (key_or_zero k)) with 32%nat by lia. reflexivity.
  - destruct (jroles l) as [b|] eqn:E; [|discriminate]. apply Some_inj in H as <-. apply wr_roles in E as [N ->]. cbn [fst snd length]. rewrite sub_one by lia. rewrite one_eq. fold (s_roles d). symmetry. now apply grants_mask.
  - apply Some_inj in H as <-. cbn [fst snd]. unfold jstr_fixed. rewrite firstn_length, app_length, repeat_length. replace (Nat.min 35 (length s + 35)) with 35%nat by lia. reflexivity.
  - destruct (Z.ltb_spec z 2); [|discriminate]. destruct (ju 1 z) as [b|] eqn:E; [|discriminate]. apply Some_inj in H as <-. apply wr_ju in E as [E ->]. change (256 ^ Z.of_nat 1) with 256 in E. cbn [fst snd le_enc length]. rewrite sub_one by lia. rewrite one_eq. now apply byte_is.
  - destruct (ju 1 (js_standard_code st)) as [b|] eqn:E; [|discriminate]. apply Some_inj in H as <-. apply wr_standard in E as [_ ->]. cbn [fst snd length]. rewrite sub_one by lia. apply one_eq.
  - apply Some_inj in H as <-. cbn [fst snd length]. rewrite sub_one by lia. rewrite one_eq. destruct m; reflexivity.
  - destruct (Z.ltb_spec z 2); [|discriminate]. destruct (ju 1 z) as [b|] eqn:E; [|discriminate]. apply Some_inj in H as <-. apply wr_ju in E as [E ->]. change (256 ^ Z.of_nat 1) with 256 in E. cbn [fst snd le_enc length]. rewrite sub_one by lia. rewrite one_eq. now apply byte_is.
Qed.
Lemma payload_exists x : typed x -> ((exists b, js_payload x = Some b) <-> in_range x).
Proof.
  intro T. split; [intros [b H]; now apply (payload_wr x T) in H|]. intro R. exists (jbytes x). now apply (payload_wr x T).
Qed.
Lemma payload_read x b : typed x -> js_payload x = Some b -> zlen b <= u32_max -> says x b.
Proof. intros T H L. apply (payload_wr x T) in H as [R ->]. now apply payload_says. Qed.

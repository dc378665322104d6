(** The constraint format of SpecC is unambiguous. *)
From Verif Require Import Base State Constr World BaseL Spec SpecC ConstrL.
From Coq Require Import Strings.Byte.

Scheme reads_min := Minimality for reads Sort Prop
  with reads_list_min := Minimality for reads_list Sort Prop.
Combined Scheme reads_mut from reads_min, reads_list_min.

Lemma app_inj_len {A} (a b c d : list A) : length a = length c -> a ++ b = c ++ d -> a = c /\ b = d.
Proof.
  revert c. induction a as [|x a IH]; intros [|y c] L H; try discriminate L; [auto|]. cbn [app] in H.
  assert (x = y /\ a ++ b = c ++ d) as [-> H'] by (split; congruence). cbn [length] in L. destruct (IH c ltac:(lia) H') as [-> ->]. auto.
Qed.
Lemma le4_inj x y : 0 <= x < 4294967296 -> 0 <= y < 4294967296 -> le_enc 4 x = le_enc 4 y -> x = y.
Proof. intros Hx Hy H. apply (f_equal le_dec) in H. rewrite !le_dec_enc4 in H by (unfold u32_max, two32 in *; lia). exact H. Qed.
Lemma operator_det ty ty' body body' rest rest' b : 0 <= ty <= 5 -> 0 <= ty' <= 5 ->
  operator ty body rest b -> operator ty' body' rest' b -> ty = ty' /\ body = body' /\ rest = rest'.
Proof.
  intros T T' (L & ->) (L' & E). pose proof (zlen_nonneg body). pose proof (zlen_nonneg body').
  apply app_inj_len in E as [E1 E]; [|now rewrite !le_enc_length]. apply le4_inj in E1; [|lia|lia].
  apply app_inj_len in E as [E2 E]; [|now rewrite !le_enc_length]. apply le4_inj in E2; [|lia|lia].
  apply app_inj_len in E as [E3 E]; [|unfold zlen in E2; lia]. auto.
Qed.
Lemma keys_det ks : forall ks', Forall (fun k : bytes => length k = 32%nat) ks -> Forall (fun k : bytes => length k = 32%nat) ks' ->
  concat ks = concat ks' -> ks = ks'.
Proof.
  induction ks as [|k ks IH]; intros [|k' ks'] H H' E; [reflexivity| | |].
  - apply (f_equal (@length byte)) in E. apply Forall_cons_iff in H' as [H' _]. cbn [concat] in E. rewrite app_length in E. cbn [length] in E. lia.
  - apply (f_equal (@length byte)) in E. apply Forall_cons_iff in H as [H _]. cbn [concat] in E. rewrite app_length in E. cbn [length] in E. lia.
  - apply Forall_cons_iff in H as [H1 H]. apply Forall_cons_iff in H' as [H1' H']. cbn [concat] in E.
    apply app_inj_len in E as [-> E]; [|congruence]. f_equal. now apply IH.
Qed.
Lemma key_list_det who who' ks ks' body : key_list who ks body -> key_list who' ks' body -> who = who' /\ ks = ks'.
Proof.
  intros (W & F & ->) (W' & F' & E). apply app_inj_len in E as [E1 E]; [|now rewrite !le_enc_length].
  split; [|now apply keys_det]. apply (f_equal le_dec) in E1. rewrite !le_dec_enc8 in E1 by (unfold two64; lia). exact E1.
Qed.
Ltac od O O' := let E := fresh in let E2 := fresh in let E3 := fresh in edestruct operator_det as (E & E2 & E3); [| |exact O|exact O'|]; [lia|lia|]; try discriminate E; subst.
Lemma reads_det_both : (forall b r rest, reads b r rest -> forall r' rest', reads b r' rest' -> r = r' /\ rest = rest') /\
  (forall b l, reads_list b l -> forall l', reads_list b l' -> l = l').
Proof.
  apply reads_mut.
  - intros b body rest l O _ IH r' rest' H. inversion H as [? ? ? ? O' R|? ? ? ? ? O' R|? ? ? ? O' R|? ? ? ? ? O' R|? ? ? ? ? O' R|? ? ? O']; subst; od O O'.
    split; [f_equal; now apply IH|reflexivity].
  - intros b body rest r junk O _ IH r' rest' H. inversion H as [? ? ? ? O' R|? ? ? ? ? O' R|? ? ? ? O' R|? ? ? ? ? O' R|? ? ? ? ? O' R|? ? ? O']; subst; od O O'.
    destruct (IH _ _ R) as [-> _]. auto.
  - intros b body rest l O _ IH r' rest' H. inversion H as [? ? ? ? O' R|? ? ? ? ? O' R|? ? ? ? O' R|? ? ? ? ? O' R|? ? ? ? ? O' R|? ? ? O']; subst; od O O'.
    split; [f_equal; now apply IH|reflexivity].
  - intros b body rest who ks O K r' rest' H. inversion H as [? ? ? ? O' R|? ? ? ? ? O' R|? ? ? ? O' R|? ? ? ? ? O' R|? ? ? ? ? O' R|? ? ? O']; subst; od O O'.
    destruct (key_list_det _ _ _ _ _ K R) as [-> ->]. auto.
  - intros b body rest who ks O K r' rest' H. inversion H as [? ? ? ? O' R|? ? ? ? ? O' R|? ? ? ? O' R|? ? ? ? ? O' R|? ? ? ? ? O' R|? ? ? O']; subst; od O O'.
    destruct (key_list_det _ _ _ _ _ K R) as [-> ->]. auto.
  - intros b body rest O r' rest' H. inversion H as [? ? ? ? O' R|? ? ? ? ? O' R|? ? ? ? O' R|? ? ? ? ? O' R|? ? ? ? ? O' R|? ? ? O']; subst; od O O'. auto.
  - intros l' H. inversion H as [|? ? ? ? R]; subst; [reflexivity|].
    exfalso. inversion R as [? ? ? ? O' _|? ? ? ? ? O' _|? ? ? ? O' _|? ? ? ? ? O' _|? ? ? ? ? O' _|? ? ? O']; destruct O' as [_ Q]; discriminate Q.
  - intros b r rest l R1 IH1 R2 IH2 l' H. inversion H as [|? r2 rest2 l2 R R3]; subst.
    + exfalso. inversion R1 as [? ? ? ? O' _|? ? ? ? ? O' _|? ? ? ? O' _|? ? ? ? ? O' _|? ? ? ? ? O' _|? ? ? O']; destruct O' as [_ Q]; discriminate Q.
    + destruct (IH1 _ _ R) as [-> ->]. f_equal. now apply IH2.
Qed.
Lemma reads_det b r rest r' rest' : reads b r rest -> reads b r' rest' -> r = r' /\ rest = rest'.
Proof. intros H H'. exact (proj1 reads_det_both b r rest H r' rest' H'). Qed.
Lemma build_reads f rest : zlen (build f) <= u32_max -> reads (build f ++ rest) (wanted f) rest.
Proof.
  intro H. destruct (build_round_trip f 0 rest eq_refl H) as (c & P & E & S & _). apply from_bytes_reads in P. rewrite E, S in P.
  rewrite skipn_app in P. replace (Z.to_nat (zlen (build f))) with (length (build f)) in P by (unfold zlen; lia).
  rewrite skipn_all2, Nat.sub_diag in P by lia. exact P.
Qed.
Lemma built_permits e w asset signer recipient bp f rest : zlen (build f) <= u32_max ->
  (permits e w asset signer recipient (le_enc 8 bp ++ build f ++ rest) <->
   wallets e w signer recipient \/ holds (wanted f) (view_of w asset signer recipient)).
Proof.
  intro H. unfold permits. rewrite skipn_app, skipn_all2 by (rewrite le_enc_length; lia). rewrite le_enc_length.
  change (skipn (8 - 8) (build f ++ rest)) with (build f ++ rest). cbn [app].
  pose proof (build_reads f rest H) as R. split.
  - intros [W|(r & rest' & R' & V)]; [now left|right]. destruct (reads_det _ _ _ _ _ R R') as [-> _]. exact V.
  - intros [W|V]; [now left|right]. eauto.
Qed.

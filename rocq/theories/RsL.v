(** Lemmas: the Rust client's builders and reader. *)
From Verif Require Import Base State Layout Constr Ext World Proc Borsh Client Js Rs BaseL Spec SpecB SpecD SpecH SpecG SpecI SpecR WorldL HeadL BorshL.
From Coq Require Import Strings.Byte.

Ltac conform := unfold conforms, fits_decl; repeat (constructor; cbn; [first [right; split; reflexivity | right; split; [reflexivity|exact I] | left; split; reflexivity]|]); try constructor.
Lemma rs_conforms prog x : conforms prog (rs_instr x) (rs_metas prog x).
Proof.
  destruct x; repeat match goal with o : option pubkey |- _ => destruct o end; conform.
Qed.

(** ** The JavaScript client's lists *)
Lemma js_conforms prog c :
  (forall m asset auth owner group gauth payer sysp, conforms prog (ICreate m) (js_create_metas prog c asset auth owner group gauth payer sysp)) /\
  (forall x asset payer sysp, conforms prog (IAllocate x) (js_allocate_metas prog asset payer sysp)) /\
  (forall x asset payer sysp, conforms prog (IWrite x) (js_write_metas prog c asset payer sysp)) /\
  (forall u asset auth buffer group payer sysp, conforms prog (IUpdate u) (js_update_metas prog c asset auth buffer group payer sysp)) /\
  (forall buffer recipient, conforms prog IClose (js_close_metas prog buffer recipient)) /\
  (forall asset signer recipient group, conforms prog IBurn (js_burn_metas prog asset signer recipient group)) /\
  (forall asset signer recipient group, conforms prog ITransfer (js_transfer_metas prog c asset signer recipient group)) /\
  (forall d asset owner delegate, conforms prog (IApprove d) (js_approve_metas prog c asset owner delegate)) /\
  (forall d asset signer, conforms prog ILock (js_signer_metas prog c asset signer) /\ conforms prog IUnlock (js_signer_metas prog c asset signer) /\ conforms prog (IRevoke d) (js_signer_metas prog c asset signer)) /\
  (forall asset creator, conforms prog IVerify (js_verify_metas prog asset creator) /\ conforms prog IUnverify (js_verify_metas prog asset creator)) /\
  (forall asset group auth, conforms prog IGroup (js_group_metas prog c asset group auth) /\ conforms prog IUngroup (js_group_metas prog c asset group auth)) /\
  (forall asset auth next, conforms prog IHandover (js_handover_metas prog c asset auth next)) /\
  (forall t asset auth group recipient, conforms prog (IRemove t) (js_remove_metas prog c asset auth group recipient)) /\
  (forall s asset auth payer sysp, conforms prog (IResize s) (js_resize_metas prog c asset auth payer sysp)).
Proof.
  repeat match goal with |- _ /\ _ => split end; intros;
  repeat match goal with o : option _ |- _ => destruct o end; repeat match goal with j : jkey |- _ => destruct j end; repeat match goal with |- _ /\ _ => split end; conform.
Qed.

(** ** Reading *)
Lemma read_u8_at d o : read_u8 (skipn o d) = if Nat.ltb o (length d) then Some (nth o d x00, skipn (S o) d) else None.
Proof.
  revert o. induction d as [|x d IH]; intro o.
  - rewrite skipn_nil. destruct o; reflexivity.
  - destruct o as [|o]; [reflexivity|]. cbn [skipn length nth]. rewrite IH. reflexivity.
Qed.
Lemma skipn_add {A} (d : list A) n : forall o, skipn n (skipn o d) = skipn (o + n) d.
Proof. induction d as [|x d IH]; intro o; [now rewrite !skipn_nil|]. destruct o; [reflexivity|]. cbn [skipn plus]. apply IH. Qed.
Lemma rs_array_at d o n : rs_array n (skipn o d) = if Nat.leb n (length d - o) then Some (sub d o n, skipn (o + n) d) else None.
Proof. unfold rs_array. rewrite skipn_length, skipn_add. reflexivity. Qed.

Definition std_of (b : byte) : option standard :=
  if b2z b =? 0 then Some NonFungible else if b2z b =? 1 then Some Managed else if b2z b =? 2 then Some Soulbound else if b2z b =? 3 then Some Proxied else None.
Lemma read_standard_at b r : read_standard (b :: r) = option_map (fun s => (s, r)) (std_of b).
Proof. unfold read_standard, rbind, read_u8, std_of, rret, rfail. repeat match goal with |- context [if ?c then _ else _] => destruct c end; reflexivity. Qed.
Lemma std_of_spec b s : std_of b = Some s <-> std_byte s = b.
Proof. split; [|intros <-; destruct s; reflexivity]. destruct b; intro H; vm_compute in H; try discriminate; injection H as <-; reflexivity. Qed.

Lemma long_form (d : bytes) : (168 <= length d)%nat ->
  d = s_disc d :: s_state d :: s_standard d :: s_mutable d :: skipn 4 d.
Proof. intro H. do 4 (destruct d as [|? d]; [cbn in H; lia|]). reflexivity. Qed.

Lemma rs_reader_long d : (168 <= length d)%nat ->
  rs_reader d = if (b2z (s_disc d) <? 2) && (b2z (s_state d) <? 2) then
    match std_of (s_standard d), (if b2z (s_mutable d) =? 0 then Some false else if b2z (s_mutable d) =? 1 then Some true else None) with
    | Some sd, Some mu => Some (mkRsAsset (s_disc d) (s_state d) sd mu (s_owner d) (s_group d) (s_authority d) (s_delegate d) (s_roles d) (s_name d), skipn 168 d)
    | _, _ => None
    end else None.
Proof.
  intro H. unfold rs_reader. rewrite (long_form d H) at 1.
  unfold rs_variant at 1. unfold rbind at 2. unfold rbind at 1. cbn [read_u8]. destruct (b2z (s_disc d) <? 2); [|reflexivity]. cbn [rret andb].
  unfold rs_variant at 1. unfold rbind at 2. unfold rbind at 1. cbn [read_u8]. destruct (b2z (s_state d) <? 2); [|reflexivity]. cbn [rret].
  unfold rbind at 1. rewrite read_standard_at. destruct (std_of (s_standard d)) as [sd|]; [|reflexivity]. cbn [option_map].
  assert (T : forall mu, rbind (rs_array 32) (fun ow => rbind (rs_array 32) (fun gr => rbind (rs_array 32) (fun au => rbind (rs_array 32) (fun de =>
      rbind read_u8 (fun ro => rbind (rs_array 35) (fun na => rret (mkRsAsset (s_disc d) (s_state d) sd mu ow gr au de ro na))))))) (skipn 4 d) =
      Some (mkRsAsset (s_disc d) (s_state d) sd mu (s_owner d) (s_group d) (s_authority d) (s_delegate d) (s_roles d) (s_name d), skipn 168 d)).
  { intro mu. unfold rbind.
    rewrite rs_array_at. replace (Nat.leb 32 (length d - 4)) with true by (symmetry; apply Nat.leb_le; lia).
    rewrite rs_array_at. replace (Nat.leb 32 (length d - (4 + 32))) with true by (symmetry; apply Nat.leb_le; lia).
    rewrite rs_array_at. replace (Nat.leb 32 (length d - (4 + 32 + 32))) with true by (symmetry; apply Nat.leb_le; lia).
    rewrite rs_array_at. replace (Nat.leb 32 (length d - (4 + 32 + 32 + 32))) with true by (symmetry; apply Nat.leb_le; lia).
    rewrite read_u8_at. replace (Nat.ltb (4 + 32 + 32 + 32 + 32) (length d)) with true by (symmetry; apply Nat.ltb_lt; lia).
    rewrite rs_array_at. replace (Nat.leb 35 (length d - S (4 + 32 + 32 + 32 + 32))) with true by (symmetry; apply Nat.leb_le; lia).
    reflexivity. }
  unfold rbind at 1. unfold read_bool at 1. unfold rbind at 1. cbn [read_u8].
  destruct (b2z (s_mutable d) =? 0); [apply T|]. destruct (b2z (s_mutable d) =? 1); [apply T|reflexivity].
Qed.

(** what is read was there *)
Lemma reads_at_most {A} (p : reader A) f (v : A -> Prop) : codec p f v -> forall b a r, p b = Some (a, r) -> length b = (length (f a) + length r)%nat.
Proof. intros [_ P] b a r H. apply P in H as [_ ->]. rewrite app_length. reflexivity. Qed.
Lemma rs_array_len n b a r : rs_array n b = Some (a, r) -> length b = (n + length r)%nat.
Proof.
  unfold rs_array. destruct (Nat.leb_spec n (length b)) as [L|L]; [|discriminate]. intro H. apply Some_inj in H.
  pose proof (f_equal snd H) as Hr. cbn [snd] in Hr. rewrite <- Hr, skipn_length. lia.
Qed.
Lemma rs_variant_len n b a r : rs_variant n b = Some (a, r) -> length b = (1 + length r)%nat.
Proof.
  unfold rs_variant. intro H. apply rbind_some in H as (x & r1 & H1 & H2). apply (reads_at_most _ _ _ codec_u8) in H1. cbn [length] in H1.
  destruct (b2z x <? n); [|discriminate]. apply Some_inj in H2. pose proof (f_equal snd H2) as Q. cbn [snd] in Q. now rewrite <- Q.
Qed.
Lemma rs_reader_len d a r : rs_reader d = Some (a, r) -> (168 <= length d)%nat.
Proof.
  unfold rs_reader. intro H.
  apply rbind_some in H as (x0 & r0 & H0 & H). apply rs_variant_len in H0.
  apply rbind_some in H as (x1 & r1 & H1 & H). apply rs_variant_len in H1.
  apply rbind_some in H as (x2 & r2 & H2 & H). apply (reads_at_most _ _ _ codec_standard) in H2. cbn [length] in H2.
  apply rbind_some in H as (x3 & r3 & H3 & H). apply (reads_at_most _ _ _ codec_bool) in H3. cbn [length] in H3.
  apply rbind_some in H as (x4 & r4 & H4 & H). apply rs_array_len in H4.
  apply rbind_some in H as (x5 & r5 & H5 & H). apply rs_array_len in H5.
  apply rbind_some in H as (x6 & r6 & H6 & H). apply rs_array_len in H6.
  apply rbind_some in H as (x7 & r7 & H7 & H). apply rs_array_len in H7.
  apply rbind_some in H as (x8 & r8 & H8 & H). apply (reads_at_most _ _ _ codec_u8) in H8. cbn [length] in H8.
  apply rbind_some in H as (x9 & r9 & H9 & H). apply rs_array_len in H9.
  lia.
Qed.

Lemma small_byte b : (b2z b <? 2) = true <-> b = x00 \/ b = x01.
Proof. destruct b; vm_compute; intuition discriminate. Qed.
Lemma bool_reads b m : (if b2z b =? 0 then Some false else if b2z b =? 1 then Some true else None) = Some m <-> (b = x00 \/ b = x01) /\ (m = true <-> b <> x00).
Proof. destruct m; destruct b; vm_compute; intuition (try discriminate; try congruence). Qed.

Lemma rs_read_exact d a : rs_read d = Some a <-> (168 <= length d)%nat /\ good_head d /\ shows d a.
Proof.
  unfold rs_read. split.
  - intro H. destruct (rs_reader d) as [[a' r]|] eqn:E; [|discriminate]. cbn [option_map fst] in H. apply Some_inj in H. subst a'.
    pose proof (rs_reader_len _ _ _ E) as L. split; [assumption|]. rewrite (rs_reader_long d L) in E.
    destruct (b2z (s_disc d) <? 2) eqn:E1; [|discriminate]. destruct (b2z (s_state d) <? 2) eqn:E2; [|discriminate]. cbn [andb] in E.
    destruct (std_of (s_standard d)) as [sd|] eqn:E3; [|discriminate].
    match type of E with match ?X with _ => _ end = _ => destruct X as [mu|] eqn:E4; [|discriminate] end.
    apply Some_inj in E. pose proof (f_equal fst E) as Q. cbn [fst] in Q. subst a. clear E.
    apply small_byte in E1, E2. apply std_of_spec in E3. apply bool_reads in E4 as [E4 E5].
    split.
    + split; [assumption|]. split; [assumption|]. split; [|assumption]. rewrite <- E3. destruct sd; cbn; auto.
    + unfold shows. cbn [ra_disc ra_state ra_standard ra_mutable ra_owner ra_group ra_authority ra_delegate ra_roles ra_name]. unfold mutable. repeat (split; [reflexivity || assumption|]). reflexivity.
  - intros (L & (G1 & G2 & G3 & G4) & (S1 & S2 & S3 & S4 & S5 & S6 & S7 & S8 & S9 & S10)). rewrite (rs_reader_long d L).
    apply small_byte in G1, G2. rewrite G1, G2. cbn [andb]. apply std_of_spec in S3. rewrite S3.
    rewrite (proj2 (bool_reads _ (ra_mutable a)) (conj G4 S4)). cbn [option_map fst]. f_equal. rewrite <- S1, <- S2, <- S5, <- S6, <- S7, <- S8, <- S9, <- S10. destruct a; reflexivity.
Qed.
Lemma readable d : (168 <= length d)%nat -> good_head d -> exists a, rs_read d = Some a.
Proof.
  intros L G. pose proof G as (G1 & G2 & G3 & G4).
  exists (mkRsAsset (s_disc d) (s_state d) (match std_of (s_standard d) with Some s => s | None => NonFungible end) (negb (b2z (s_mutable d) =? 0))
    (s_owner d) (s_group d) (s_authority d) (s_delegate d) (s_roles d) (s_name d)).
  apply rs_read_exact. split; [assumption|]. split; [assumption|]. unfold shows, mutable.
  cbn [ra_disc ra_state ra_standard ra_mutable ra_owner ra_group ra_authority ra_delegate ra_roles ra_name].
  split; [reflexivity|]. split; [reflexivity|]. split; [destruct G3 as [G3|[G3|[G3|G3]]]; rewrite G3; reflexivity|].
  split; [destruct G4 as [G4|G4]; rewrite G4; vm_compute; intuition discriminate|]. auto 10.
Qed.

(** ** What the builders send is what the program reads *)
Lemma rs_entry e x w : instr_ok (rs_instr x) -> entry e (rs_metas (e_prog e) x) w (snd (rs_build (e_prog e) x)) = process e (rs_metas (e_prog e) x) w (rs_instr x).
Proof. intro H. unfold entry, rs_build. cbn [snd]. now rewrite (instr_round _ H). Qed.

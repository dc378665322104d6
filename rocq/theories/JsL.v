(** What the JavaScript client writes. *)
From Verif Require Import Base State Layout Constr Ext ExtLen World Proc Borsh Client Js BaseL Spec SpecB SpecC SpecI SpecJ WorldL LayoutL HeadL CreatorsL ConstrL CodecL BorshL.
From Coq Require Import Strings.Byte.

(** ** Sequences: [wr o v g] — the writer [o] succeeds exactly on [v], with bytes [g] *)
Definition wr (o : option bytes) (v : Prop) (g : bytes) : Prop := forall b, o = Some b <-> v /\ b = g.
Lemma wr_ext o v g v' g' : wr o v g -> (v <-> v') -> (v' -> g = g') -> wr o v' g'.
Proof. intros W V G b. rewrite (W b), V. split; intros [H ->]; (split; [assumption|]); [|symmetry]; auto. Qed.
Lemma wr_const x : wr (Some x) True x.
Proof. intro b. split; [intro H; apply Some_inj in H; auto|intros [_ ->]; reflexivity]. Qed.
Lemma wr_nil : wr (jseq []) True [].
Proof. exact (wr_const []). Qed.
Lemma wr_cons o v g l w h : wr o v g -> wr (jseq l) w h -> wr (jseq (o :: l)) (v /\ w) (g ++ h).
Proof.
  intros O L b. cbn [jseq]. split.
  - destruct o as [x|]; [|discriminate]. destruct (jseq l) as [y|]; [|discriminate]. intro H. apply Some_inj in H as <-.
    destruct (proj1 (O x) eq_refl) as [V ->]. destruct (proj1 (L y) eq_refl) as [W ->]. auto.
  - intros [[V W] ->]. now rewrite (proj2 (O g) (conj V eq_refl)), (proj2 (L h) (conj W eq_refl)).
Qed.
Lemma wr_map {A} (f : A -> option bytes) (g : A -> bytes) (v : A -> Prop) :
  forall l, (forall a, In a l -> wr (f a) (v a) (g a)) -> wr (jseq (map f l)) (Forall v l) (concat (map g l)).
Proof.
  induction l as [|a l IH]; intro F; cbn [map concat].
  - eapply wr_ext; [apply wr_nil| |reflexivity]. split; [constructor|auto].
  - eapply wr_ext; [apply wr_cons; [apply F; now left|apply IH; intros x Hx; apply F; now right]| |reflexivity]. symmetry. apply Forall_cons_iff.
Qed.
Lemma wr_ju n z : wr (ju n z) (0 <= z < 256 ^ Z.of_nat n) (le_enc n z).
Proof.
  intro b. unfold ju. destruct ((0 <=? z) && (z <? 256 ^ Z.of_nat n)) eqn:E; split; intro H; [split; [lia|congruence]|destruct H as [_ ->]; reflexivity|discriminate|lia].
Qed.
Lemma wr_byte z x : 0 <= z < 256 -> x = z2b z -> wr (ju 1 z) True [x].
Proof. intros Hz ->. eapply wr_ext; [apply wr_ju| |reflexivity]. change (256 ^ Z.of_nat 1) with 256. tauto. Qed.
Lemma wr_bool x : wr (jbool x) True [bool_byte x].
Proof. apply wr_const. Qed.

(** ** Instruction data *)
Lemma wr_str32 s : wr (jstr32 s) (fits s) (write_bytes s).
Proof.
  eapply wr_ext; [apply wr_cons; [apply wr_ju|apply wr_cons; [apply wr_const|apply wr_nil]]| |].
  - split; [intros [H _]; unfold fits; cbn in H; lia|]. intro F. split; [now apply fits_u32|auto].
  - intros _. unfold write_bytes. now rewrite app_nil_r.
Qed.
Lemma wr_option {A} (f : A -> option bytes) g v o : (forall a, wr (f a) (v a) (g a)) -> wr (joption f o) (opt_valid v o) (write_option g o).
Proof.
  intros F. destruct o as [a|]; cbn [joption opt_valid write_option]; [|apply wr_const].
  eapply wr_ext; [apply wr_cons; [apply wr_const|apply wr_cons; [apply F|apply wr_nil]]|tauto|]. intros _. now rewrite app_nil_r.
Qed.
Lemma wr_array {A} (f : A -> option bytes) g v l : (forall a, wr (f a) (v a) (g a)) -> wr (jarray f l) (fits l /\ Forall v l) (write_vec g l).
Proof.
  intros F. eapply wr_ext; [apply wr_cons; [apply wr_ju|apply wr_cons; [apply wr_map; intros a _; apply F|apply wr_nil]]| |].
  - split; [intros [H [W _]]; split; [unfold fits; cbn in H; lia|exact W]|]. intros [H W]. split; [now apply fits_u32|auto].
  - intros _. unfold write_vec. now rewrite app_nil_r.
Qed.
Lemma jext_code t : js_ext_code t = ext_code t.
Proof. now destruct t. Qed.
Lemma wr_type t : wr (ju 1 (js_ext_code t)) True (write_ext_type t).
Proof. rewrite jext_code. apply wr_byte; [destruct t; cbn; lia|reflexivity]. Qed.
Lemma wr_ext_input x : wr (js_ext_input x) (ext_ok x) (write_ext_input x).
Proof.
  eapply wr_ext; [apply wr_cons; [apply wr_type|apply wr_cons; [apply wr_ju|apply wr_cons; [apply wr_option; apply wr_str32|apply wr_nil]]]| |].
  - unfold ext_ok, u32. change (256 ^ Z.of_nat 4) with 4294967296. split; intros; intuition lia.
  - intros _. unfold write_ext_input. now rewrite app_nil_r.
Qed.
Lemma wr_role r : wr (ju 1 (js_role_code r)) True (write_role r).
Proof. destruct r; apply wr_byte; try reflexivity; cbn; lia. Qed.
Lemma wr_delegate d : wr (js_delegate_input d) (roles_ok d) (write_delegate_input d).
Proof.
  destruct d as [|l]; cbn [js_delegate_input roles_ok write_delegate_input].
  - apply wr_byte; [lia|reflexivity].
  - eapply wr_ext; [apply wr_cons; [apply (wr_byte 1 x01); [lia|reflexivity]|apply wr_cons; [apply wr_array; apply wr_role|apply wr_nil]]| |].
    + split; [tauto|]. intro F. split; [exact I|]. split; [split; [exact F|]|exact I]. apply Forall_forall. auto.
    + intros _. now rewrite app_nil_r.
Qed.
Lemma wr_strategy s : wr (js_strategy s) (strat_ok s) (write_strategy s).
Proof.
  destruct s as [|v]; cbn [js_strategy strat_ok write_strategy].
  - apply wr_byte; [lia|reflexivity].
  - eapply wr_ext; [apply wr_cons; [apply (wr_byte 1 x01); [lia|reflexivity]|apply wr_cons; [apply wr_ju|apply wr_nil]]| |].
    + change (256 ^ Z.of_nat 2) with 65536. tauto.
    + intros _. now rewrite app_nil_r.
Qed.
Lemma wr_standard s : wr (ju 1 (js_standard_code s)) True [standard_code s].
Proof. destruct s; apply wr_byte; try reflexivity; cbn; lia. Qed.
Lemma opt_and {A} (P Q : A -> Prop) o : opt_valid (fun a => P a /\ Q a) o <-> opt_valid P o /\ opt_valid Q o.
Proof. destruct o; cbn [opt_valid]; tauto. Qed.
Ltac wrs := first [apply wr_nil | apply wr_cons; [|wrs]].
Lemma js_instr_wr i : named i -> wr (js_instr i) (instr_ok i) (write_instr i).
Proof.
  intro N. destruct i as [| |m|d|x| |d| | | |u| |d| | | |t|s]; cbn [js_instr instr_ok write_instr named] in *;
    try (apply wr_byte; [lia|reflexivity]).
  - eapply wr_ext; [apply wr_cons; [apply (wr_byte 2 x02); [lia|reflexivity]|apply wr_cons; [apply wr_str32|apply wr_cons; [apply wr_standard|apply wr_cons; [apply wr_bool|
      apply wr_cons; [apply wr_option; intro; apply wr_array; apply wr_ext_input|apply wr_nil]]]]]| |].
    + unfold meta_ok, text_ok. tauto.
    + intros _. unfold write_metadata_input. now rewrite app_nil_r.
  - eapply wr_ext; [apply wr_cons; [apply (wr_byte 3 x03); [lia|reflexivity]|apply wr_cons; [apply wr_delegate|apply wr_nil]]|tauto|intros _; now rewrite app_nil_r].
  - eapply wr_ext; [apply wr_cons; [apply (wr_byte 4 x04); [lia|reflexivity]|apply wr_cons; [apply wr_ext_input|apply wr_nil]]|tauto|intros _; now rewrite app_nil_r].
  - eapply wr_ext; [apply wr_cons; [apply (wr_byte 6 x06); [lia|reflexivity]|apply wr_cons; [apply wr_delegate|apply wr_nil]]|tauto|intros _; now rewrite app_nil_r].
  - eapply wr_ext; [apply wr_cons; [apply (wr_byte 10 x0a); [lia|reflexivity]|apply wr_cons; [apply wr_option; apply wr_str32|
      apply wr_cons; [apply wr_option; apply wr_bool|apply wr_cons; [apply wr_option; apply wr_ext_input|apply wr_nil]]]]| |].
    + unfold upd_ok. change text_ok with (fun s => fits s /\ utf8_text s). rewrite opt_and. assert (opt_valid (fun _ : bool => True) (u_mutable u)) by (destruct (u_mutable u); exact I). tauto.
    + intros _. unfold write_update_input. now rewrite app_nil_r.
  - eapply wr_ext; [apply wr_cons; [apply (wr_byte 12 x0c); [lia|reflexivity]|apply wr_cons; [apply wr_bool|apply wr_cons; [apply wr_str32|apply wr_nil]]]|tauto|].
    intros _. unfold write_data_input. now rewrite app_nil_r.
  - eapply wr_ext; [apply wr_cons; [apply (wr_byte 16 x10); [lia|reflexivity]|apply wr_cons; [apply wr_type|apply wr_nil]]|tauto|intros _; now rewrite app_nil_r].
  - eapply wr_ext; [apply wr_cons; [apply (wr_byte 17 x11); [lia|reflexivity]|apply wr_cons; [apply wr_strategy|apply wr_nil]]|tauto|intros _; now rewrite app_nil_r].
Qed.
Lemma js_instr_iff i b : named i -> (js_instr i = Some b <-> instr_ok i /\ b = write_instr i).
Proof. intro N. exact (js_instr_wr i N b). Qed.
Lemma js_instr_runs e infos w i b : named i -> js_instr i = Some b -> Borsh.entry e infos w b = process e infos w i.
Proof. intros N H. apply js_instr_iff in H as [K ->]; [|assumption]. now apply entry_written. Qed.

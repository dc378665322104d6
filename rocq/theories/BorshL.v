(** Reading what was written; nothing else is read. *)
From Verif Require Import Base State Layout Constr Ext World Proc Borsh BaseL Spec SpecI.
From Coq Require Import Strings.Byte.

(** [codec p f v]: on values satisfying [v], [p] reads exactly what [f] writes. *)
Definition codec {A} (p : reader A) (f : A -> bytes) (v : A -> Prop) : Prop :=
  (forall a r, v a -> p (f a ++ r) = Some (a, r)) /\ (forall b a r, p b = Some (a, r) -> v a /\ b = f a ++ r).

Lemma Some_inj {A} (a b : A) : Some a = Some b -> a = b.
Proof. congruence. Qed.
Lemma rbind_some {A B} (p : reader A) (k : A -> reader B) b x r : rbind p k b = Some (x, r) ->
  exists a r1, p b = Some (a, r1) /\ k a r1 = Some (x, r).
Proof. unfold rbind. destruct (p b) as [[a r1]|]; [|discriminate]. intro H. eauto. Qed.
Lemma rbind_run {A B} (p : reader A) (k : A -> reader B) b a r1 : p b = Some (a, r1) -> rbind p k b = k a r1.
Proof. unfold rbind. now intros ->. Qed.
Lemma rret_some {A} (a x : A) b r : rret a b = Some (x, r) -> a = x /\ b = r.
Proof. unfold rret. intro H. split; congruence. Qed.

Lemma codec_u8 : codec read_u8 (fun x => [x]) (fun _ => True).
Proof.
  split; [reflexivity|]. intros b a r H. unfold read_u8 in H. destruct b; [discriminate|].
  split; [exact I|]. cbn [app]. congruence.
Qed.
Lemma codec_uint n : codec (read_uint n) (le_enc n) (fun z => 0 <= z < 256 ^ Z.of_nat n).
Proof.
  split.
  - intros z r Hz. unfold read_uint. rewrite zlen_app, le_enc_zlen. pose proof (zlen_nonneg r).
    replace (Z.of_nat n <=? Z.of_nat n + zlen r) with true by lia. f_equal. f_equal.
    + rewrite firstn_app, le_enc_length, Nat.sub_diag, firstn_all2 by (rewrite le_enc_length; lia). cbn [firstn]. rewrite app_nil_r. now apply le_dec_enc_small.
    + rewrite skipn_app, le_enc_length, Nat.sub_diag, skipn_all2 by (rewrite le_enc_length; lia). reflexivity.
  - intros b z r H. unfold read_uint in H. destruct (Z.of_nat n <=? zlen b) eqn:E; [|discriminate].
    apply Some_inj in H. assert (L : length (firstn n b) = n) by (rewrite firstn_length; unfold zlen in E; lia).
    assert (Hz : z = le_dec (firstn n b)) by congruence. assert (Hr : r = skipn n b) by congruence. subst z r.
    split.
    + pose proof (le_dec_range (firstn n b)) as R. unfold zlen in R. now rewrite L in R.
    + rewrite <- L at 1. rewrite le_enc_dec. now rewrite firstn_skipn.
Qed.
Lemma codec_bool : codec read_bool (fun b => [bool_byte b]) (fun _ => True).
Proof.
  split; [intros [|] r _; reflexivity|]. intros b a r H. apply rbind_some in H as (x & r1 & H1 & H2).
  apply codec_u8 in H1 as [_ ->]. split; [exact I|].
  destruct (b2z x =? 0) eqn:Q0; [|destruct (b2z x =? 1) eqn:Q1; [|discriminate]]; apply rret_some in H2 as [<- <-];
    (rewrite <- (z2b_b2z x)); [replace (b2z x) with 0 by lia|replace (b2z x) with 1 by lia]; reflexivity.
Qed.
Lemma codec_option {A} (p : reader A) f v : codec p f v -> codec (read_option p) (write_option f) (opt_valid v).
Proof.
  intros [P1 P2]. split.
  - intros [a|] r Ha; [|reflexivity]. cbn [write_option opt_valid] in *. unfold read_option.
    rewrite (rbind_run _ _ _ x01 (f a ++ r)) by reflexivity. change (b2z x01 =? 0) with false. change (b2z x01 =? 1) with true. cbv iota.
    now rewrite (rbind_run _ _ _ a r) by now apply P1.
  - intros b o r H. apply rbind_some in H as (x & r1 & H1 & H2). apply codec_u8 in H1 as [_ ->].
    destruct (b2z x =? 0) eqn:Q0; [|destruct (b2z x =? 1) eqn:Q1; [|discriminate]].
    + apply rret_some in H2 as [<- <-]. split; [exact I|]. rewrite <- (z2b_b2z x). replace (b2z x) with 0 by lia. reflexivity.
    + apply rbind_some in H2 as (a & r2 & H3 & H4). apply rret_some in H4 as [<- <-]. apply P2 in H3 as [Hv ->]. split; [exact Hv|].
      rewrite <- (z2b_b2z x). replace (b2z x) with 1 by lia. reflexivity.
Qed.
Lemma fits_u32 {A} (l : list A) : fits l -> 0 <= zlen l < 256 ^ Z.of_nat 4.
Proof. unfold fits. pose proof (zlen_nonneg l). cbn. lia. Qed.
Lemma codec_bytes : codec read_bytes write_bytes (@fits byte).
Proof.
  split.
  - intros s r Hs. unfold read_bytes, write_bytes. rewrite <- app_assoc.
    rewrite (rbind_run _ _ _ (zlen s) (s ++ r)) by (apply (proj1 (codec_uint 4)); now apply fits_u32).
    rewrite zlen_app. pose proof (zlen_nonneg r). replace (zlen s <=? zlen s + zlen r) with true by lia.
    unfold zlen. rewrite Nat2Z.id, firstn_app, firstn_all, skipn_app, skipn_all, Nat.sub_diag. cbn [firstn skipn app]. now rewrite app_nil_r.
  - intros b s r H. apply rbind_some in H as (n & r1 & H1 & H2). apply (proj2 (codec_uint 4)) in H1 as [Hn ->].
    destruct (n <=? zlen r1) eqn:E; [|discriminate].
    assert (Hs : s = firstn (Z.to_nat n) r1) by congruence. assert (Hr : r = skipn (Z.to_nat n) r1) by congruence. subst s r.
    assert (L : zlen (firstn (Z.to_nat n) r1) = n) by (unfold zlen in *; rewrite firstn_length; lia).
    split; [unfold fits; change (256 ^ Z.of_nat 4) with 4294967296 in Hn; lia|].
    unfold write_bytes. rewrite L, <- app_assoc. now rewrite firstn_skipn.
Qed.
Lemma codec_string : codec read_string write_bytes (fun s => fits s /\ utf8 s = true).
Proof.
  destruct codec_bytes as [P1 P2]. split.
  - intros s r [H1 H2]. unfold read_string. rewrite (rbind_run _ _ _ s r) by now apply P1. now rewrite H2.
  - intros b s r H. apply rbind_some in H as (s' & r1 & H1 & H2). destruct (utf8 s') eqn:E; [|discriminate].
    apply rret_some in H2 as [<- <-]. apply P2 in H1 as [H3 ->]. auto.
Qed.
(** ** UTF-8 *)
Lemma byte_z z : 0 <= z < 256 -> b2z (z2b z) = z.
Proof. intro H. rewrite b2z_z2b. now apply Z.mod_small. Qed.
Lemma within_z lo hi z : 0 <= z < 256 -> within lo hi (z2b z) = (lo <=? z) && (z <=? hi).
Proof. intro H. unfold within. now rewrite byte_z by exact H. Qed.
Lemma utf8_one c r : scalar c -> utf8 (utf8_char c ++ r) = utf8 r.
Proof.
  intro S. unfold scalar in S. unfold utf8_char.
  destruct (c <? 128) eqn:Q1; [|destruct (c <? 2048) eqn:Q2; [|destruct (c <? 65536) eqn:Q3]]; cbn [app utf8].
  - rewrite byte_z by lia. now replace (c <=? 127) with true by lia.
  - rewrite byte_z by lia. replace (192 + c / 64 <=? 127) with false by lia. unfold cont. rewrite !within_z by lia.
    replace (194 <=? 192 + c / 64) with true by lia. replace (192 + c / 64 <=? 223) with true by lia.
    replace (128 <=? 128 + c mod 64) with true by lia. now replace (128 + c mod 64 <=? 191) with true by lia.
  - rewrite byte_z by lia. replace (224 + c / 4096 <=? 127) with false by lia. unfold second3, cont. rewrite !within_z by lia.
    replace (224 + c / 4096 <=? 223) with false by lia. rewrite andb_false_r.
    replace (224 <=? 224 + c / 4096) with true by lia. replace (224 + c / 4096 <=? 239) with true by lia. cbn [andb].
    rewrite byte_z by lia. replace (128 <=? 128 + c mod 64) with true by lia. replace (128 + c mod 64 <=? 191) with true by lia. cbn [andb].
    replace (128 <=? 128 + (c / 64) mod 64) with true by lia. replace (128 + (c / 64) mod 64 <=? 191) with true by lia.
    destruct (224 + c / 4096 =? 224) eqn:A1; [replace (160 <=? 128 + (c / 64) mod 64) with true by lia; reflexivity|].
    destruct (224 + c / 4096 =? 237) eqn:A2; [replace (128 + (c / 64) mod 64 <=? 159) with true by lia; reflexivity|]. reflexivity.
  - rewrite byte_z by lia. replace (240 + c / 262144 <=? 127) with false by lia. unfold second4, cont. rewrite !within_z by lia.
    replace (240 + c / 262144 <=? 223) with false by lia. replace (240 + c / 262144 <=? 239) with false by lia. rewrite !andb_false_r.
    replace (240 <=? 240 + c / 262144) with true by lia. replace (240 + c / 262144 <=? 244) with true by lia. cbn [andb].
    rewrite byte_z by lia. replace (128 <=? 128 + c mod 64) with true by lia. replace (128 + c mod 64 <=? 191) with true by lia. cbn [andb].
    replace (128 <=? 128 + (c / 64) mod 64) with true by lia. replace (128 + (c / 64) mod 64 <=? 191) with true by lia. cbn [andb].
    replace (128 <=? 128 + (c / 4096) mod 64) with true by lia. replace (128 + (c / 4096) mod 64 <=? 191) with true by lia.
    destruct (240 + c / 262144 =? 240) eqn:A1; [replace (144 <=? 128 + (c / 4096) mod 64) with true by lia; reflexivity|].
    destruct (240 + c / 262144 =? 244) eqn:A2; [replace (128 + (c / 4096) mod 64 <=? 143) with true by lia; reflexivity|]. reflexivity.
Qed.
Lemma utf8_first b : utf8 b = true -> b = [] \/ exists c r, scalar c /\ b = utf8_char c ++ r /\ utf8 r = true.
Proof.
  destruct b as [|a r]; [auto|]. intro H. right. cbn [utf8] in H. pose proof (b2z_range a) as Ba.
  destruct (b2z a <=? 127) eqn:Q1.
  { exists (b2z a), r. split; [left; lia|]. split; [|assumption]. unfold utf8_char. replace (b2z a <? 128) with true by lia.
    now rewrite z2b_b2z. }
  destruct r as [|c r1]; [discriminate|]. pose proof (b2z_range c) as Bc. destruct (within 194 223 a) eqn:Q2.
  { apply andb_true_iff in H as [Hc H]. unfold cont, within in *. exists ((b2z a - 192) * 64 + (b2z c - 128)), r1.
    split; [left; lia|]. split; [|assumption]. unfold utf8_char.
    replace ((b2z a - 192) * 64 + (b2z c - 128) <? 128) with false by lia. replace ((b2z a - 192) * 64 + (b2z c - 128) <? 2048) with true by lia.
    cbn [app]. f_equal; [rewrite <- (z2b_b2z a) at 1; f_equal; lia|]. f_equal. rewrite <- (z2b_b2z c) at 1. f_equal. lia. }
  destruct r1 as [|d r2]; [discriminate|]. pose proof (b2z_range d) as Bd. destruct (within 224 239 a) eqn:Q3.
  { apply andb_true_iff in H as [H' H]. apply andb_true_iff in H' as [Hc Hd].
    set (k := (b2z a - 224) * 4096 + (b2z c - 128) * 64 + (b2z d - 128)).
    assert (K : 128 <= b2z c <= 191 /\ (b2z a = 224 -> 160 <= b2z c) /\ (b2z a = 237 -> b2z c <= 159)).
    { unfold second3, cont, within in Hc. destruct (b2z a =? 224) eqn:E1; [|destruct (b2z a =? 237) eqn:E2]; lia. }
    unfold cont, within in *. exists k, r2. split; [unfold k, scalar; lia|]. split; [|assumption]. unfold utf8_char.
    replace (k <? 128) with false by lia. replace (k <? 2048) with false by lia. replace (k <? 65536) with true by lia. cbn [app].
    f_equal; [rewrite <- (z2b_b2z a) at 1; f_equal; lia|]. f_equal; [rewrite <- (z2b_b2z c) at 1; f_equal; lia|].
    f_equal. rewrite <- (z2b_b2z d) at 1. f_equal. lia. }
  destruct r2 as [|e r3]; [discriminate|]. pose proof (b2z_range e) as Be.
  apply andb_true_iff in H as [H' H]. apply andb_true_iff in H' as [H' He]. apply andb_true_iff in H' as [H' Hd]. apply andb_true_iff in H' as [Ha Hc].
  set (k := (b2z a - 240) * 262144 + (b2z c - 128) * 4096 + (b2z d - 128) * 64 + (b2z e - 128)).
  assert (K : 128 <= b2z c <= 191 /\ (b2z a = 240 -> 144 <= b2z c) /\ (b2z a = 244 -> b2z c <= 143)).
  { unfold second4, cont, within in Hc. destruct (b2z a =? 240) eqn:E1; [|destruct (b2z a =? 244) eqn:E2]; lia. }
  unfold cont, within in *. exists k, r3. split; [unfold k, scalar; lia|]. split; [|assumption]. unfold utf8_char.
  replace (k <? 128) with false by lia. replace (k <? 2048) with false by lia. replace (k <? 65536) with false by lia. cbn [app].
  f_equal; [rewrite <- (z2b_b2z a) at 1; f_equal; lia|]. f_equal; [rewrite <- (z2b_b2z c) at 1; f_equal; lia|].
  f_equal; [rewrite <- (z2b_b2z d) at 1; f_equal; lia|]. f_equal. rewrite <- (z2b_b2z e) at 1. f_equal. lia.
Qed.
Lemma utf8_char_pos c : (0 < length (utf8_char c))%nat.
Proof. unfold utf8_char. repeat match goal with |- context [if ?q then _ else _] => destruct q end; cbn [length]; lia. Qed.
Lemma utf8_iff s : utf8 s = true <-> utf8_text s.
Proof.
  split.
  - assert (G : forall n b, (length b <= n)%nat -> utf8 b = true -> utf8_text b).
    { induction n as [|n IH]; intros b L H.
      - destruct b; [|cbn [length] in L; lia]. exists []. split; [constructor|reflexivity].
      - apply utf8_first in H as [->|(c & r & Hc & -> & Hr)]; [exists []; split; [constructor|reflexivity]|].
        pose proof (utf8_char_pos c). rewrite app_length in L. destruct (IH r ltac:(lia) Hr) as (cs & Hcs & ->).
        exists (c :: cs). split; [now constructor|reflexivity]. }
    exact (G (length s) s (Nat.le_refl _)).
  - intros (cs & Hcs & ->). induction cs as [|c cs IH]; [reflexivity|]. apply Forall_cons_iff in Hcs as [Hc Hcs].
    cbn [map concat]. rewrite utf8_one by assumption. now apply IH.
Qed.
Lemma codec_text : codec read_string write_bytes text_ok.
Proof.
  destruct codec_string as [P1 P2]. split.
  - intros s r [H1 H2]. apply P1. split; [assumption|now apply utf8_iff].
  - intros b s r H. apply P2 in H as [[H1 H2] ->]. split; [split; [assumption|now apply utf8_iff]|reflexivity].
Qed.
Lemma read_many_run {A} (p : reader A) f (v : A -> Prop) : codec p f v -> (forall a, f a <> []) ->
  forall l r fuel, Forall v l -> (length (concat (map f l)) < fuel)%nat ->
  read_many fuel p (zlen l) (concat (map f l) ++ r) = Some (l, r).
Proof.
  intros [P1 _] Hne. induction l as [|a l IH]; intros r fuel Hl F; (destruct fuel as [|fuel]; [lia|]); [reflexivity|].
  apply Forall_cons_iff in Hl as [Ha Hl]. cbn [map concat] in *. rewrite app_length in F.
  assert (0 < length (f a))%nat by (pose proof (Hne a); destruct (f a); [congruence|cbn [length]; lia]).
  cbn [read_many]. rewrite zlen_cons. pose proof (zlen_nonneg l). replace (1 + zlen l =? 0) with false by lia. rewrite <- app_assoc.
  rewrite (rbind_run _ _ _ a (concat (map f l) ++ r)) by now apply P1.
  replace (1 + zlen l - 1) with (zlen l) by lia. rewrite (rbind_run _ _ _ l r); [reflexivity|]. apply IH; [assumption|lia].
Qed.
Lemma read_many_only {A} (p : reader A) f (v : A -> Prop) : codec p f v ->
  forall fuel n b l r, 0 <= n -> read_many fuel p n b = Some (l, r) -> Forall v l /\ zlen l = n /\ b = concat (map f l) ++ r.
Proof.
  intros [_ P2]. induction fuel as [|fuel IH]; intros n b l r Hn H; [discriminate|]. cbn [read_many] in H.
  destruct (n =? 0) eqn:E.
  - apply Some_inj in H. assert (l = []) by congruence. assert (b = r) by congruence. subst. split; [constructor|]. split; [cbn; lia|reflexivity].
  - apply rbind_some in H as (a & r1 & H1 & H). apply rbind_some in H as (l1 & r2 & H2 & H). apply rret_some in H as [<- <-].
    apply P2 in H1 as [Ha ->]. apply IH in H2 as (Hl & L & ->); [|lia]. split; [now constructor|]. split; [rewrite zlen_cons; lia|].
    cbn [map concat]. now rewrite app_assoc.
Qed.
Lemma codec_vec {A} (p : reader A) f (v : A -> Prop) : codec p f v -> (forall a, f a <> []) ->
  codec (read_vec p) (write_vec f) (fun l => fits l /\ Forall v l).
Proof.
  intros P Hne. split.
  - intros l r [H1 H2]. unfold read_vec, write_vec. rewrite <- app_assoc.
    rewrite (rbind_run _ _ _ (zlen l) (concat (map f l) ++ r)) by (apply (proj1 (codec_uint 4)); now apply fits_u32).
    apply (read_many_run p f v P Hne); [assumption|]. rewrite app_length. lia.
  - intros b l r H. apply rbind_some in H as (n & r1 & H1 & H2). apply (proj2 (codec_uint 4)) in H1 as [Hn ->].
    apply (read_many_only p f v P) in H2 as (H3 & H4 & ->); [|lia]. split; [split; [|assumption]|].
    + unfold fits. change (256 ^ Z.of_nat 4) with 4294967296 in Hn. lia.
    + unfold write_vec. rewrite H4. now rewrite <- app_assoc.
Qed.

(** a one-byte enumeration *)
Ltac tag_inv H := let x := fresh "x" in let r1 := fresh "r" in let H1 := fresh "H" in let H2 := fresh "H" in
  apply rbind_some in H as (x & r1 & H1 & H2); apply codec_u8 in H1 as [_ ->];
  rewrite <- (z2b_b2z x); pose proof (b2z_range x).
Lemma codec_standard : codec read_standard (fun s => [standard_code s]) (fun _ => True).
Proof.
  split; [intros [| | |] r _; reflexivity|]. intros b a r H. split; [exact I|].
  apply rbind_some in H as (x & r1 & H1 & H2). apply codec_u8 in H1 as [_ ->]. rewrite <- (z2b_b2z x).
  repeat match type of H2 with (if ?q then _ else _) _ = _ => let Q := fresh "Q" in destruct q eqn:Q;
    [apply Z.eqb_eq in Q; rewrite Q; apply rret_some in H2 as [<- <-]; reflexivity|] end. discriminate.
Qed.
Lemma codec_role : codec read_role write_role (fun _ => True).
Proof.
  split; [intros [| | |] r _; reflexivity|]. intros b a r H. split; [exact I|].
  apply rbind_some in H as (x & r1 & H1 & H2). apply codec_u8 in H1 as [_ ->]. rewrite <- (z2b_b2z x).
  repeat match type of H2 with (if ?q then _ else _) _ = _ => let Q := fresh "Q" in destruct q eqn:Q;
    [apply Z.eqb_eq in Q; rewrite Q; apply rret_some in H2 as [<- <-]; reflexivity|] end. discriminate.
Qed.
Lemma codec_ext_type : codec read_ext_type write_ext_type (fun _ => True).
Proof.
  split; [intros [| | | | | | | | | | |] r _; reflexivity|]. intros b a r H. split; [exact I|].
  apply rbind_some in H as (x & r1 & H1 & H2). apply codec_u8 in H1 as [_ ->]. rewrite <- (z2b_b2z x).
  unfold ext_of_code in H2.
  repeat match type of H2 with match (if ?q then _ else _) with _ => _ end _ = _ => let Q := fresh "Q" in destruct q eqn:Q;
    [apply Z.eqb_eq in Q; rewrite Q; apply rret_some in H2 as [<- <-]; reflexivity|] end. discriminate.
Qed.

Lemma u32_pow z : u32 z <-> 0 <= z < 256 ^ Z.of_nat 4.
Proof. reflexivity. Qed.
Lemma codec_ext_input : codec read_ext_input write_ext_input ext_ok.
Proof.
  pose proof codec_ext_type as [T1 T2]. pose proof (codec_uint 4) as [U1 U2]. pose proof (codec_option _ _ _ codec_bytes) as [O1 O2]. split.
  - intros [t n d] r [Hn Hd]. cbn [x_length x_data] in *. unfold read_ext_input, write_ext_input. cbn [x_type x_length x_data]. rewrite <- !app_assoc.
    rewrite (rbind_run _ _ _ _ _ (T1 t _ I)). rewrite (rbind_run _ _ _ _ _ (U1 n _ Hn)). rewrite (rbind_run _ _ _ _ _ (O1 d _ Hd)). reflexivity.
  - intros b [t n d] r H. apply rbind_some in H as (t' & r1 & H1 & H). apply rbind_some in H as (n' & r2 & H2 & H).
    apply rbind_some in H as (d' & r3 & H3 & H). apply rret_some in H as [H <-]. assert (t' = t) by congruence. assert (n' = n) by congruence. assert (d' = d) by congruence. subst.
    apply T2 in H1 as [_ ->]. apply U2 in H2 as [Hn ->]. apply O2 in H3 as [Hd ->]. split; [split; assumption|].
    unfold write_ext_input. cbn [x_type x_length x_data]. now rewrite <- !app_assoc.
Qed.
Lemma codec_delegate_input : codec read_delegate_input write_delegate_input roles_ok.
Proof.
  assert (V : codec (read_vec read_role) (write_vec write_role) (fun l => fits l /\ Forall (fun _ => True) l))
    by (apply codec_vec; [apply codec_role|intros []; discriminate]). destruct V as [V1 V2]. split.
  - intros [|l] r H; [reflexivity|]. cbn [write_delegate_input app]. unfold read_delegate_input.
    rewrite (rbind_run _ _ _ x01 (write_vec write_role l ++ r)) by reflexivity. change (b2z x01 =? 0) with false. change (b2z x01 =? 1) with true. cbv iota.
    rewrite (rbind_run _ _ _ l r); [reflexivity|]. apply V1. split; [exact H|]. now apply Forall_forall.
  - intros b a r H. apply rbind_some in H as (x & r1 & H1 & H2). apply codec_u8 in H1 as [_ ->]. rewrite <- (z2b_b2z x).
    destruct (b2z x =? 0) eqn:Q0; [|destruct (b2z x =? 1) eqn:Q1; [|discriminate]].
    + apply Z.eqb_eq in Q0. rewrite Q0. apply rret_some in H2 as [<- <-]. split; [exact I|reflexivity].
    + apply Z.eqb_eq in Q1. rewrite Q1. apply rbind_some in H2 as (l & r2 & H3 & H4). apply rret_some in H4 as [<- <-]. apply V2 in H3 as [[Hl _] ->].
      split; [exact Hl|reflexivity].
Qed.
Lemma codec_data_input : codec read_data_input write_data_input (fun d => fits (w_bytes d)).
Proof.
  pose proof codec_bool as [T1 T2]. pose proof codec_bytes as [U1 U2]. split.
  - intros [o s] r H. cbn [w_bytes] in H. unfold read_data_input, write_data_input. cbn [w_overwrite w_bytes].
    change ((bool_byte o :: write_bytes s) ++ r) with ([bool_byte o] ++ write_bytes s ++ r).
    rewrite (rbind_run _ _ _ _ _ (T1 o _ I)). rewrite (rbind_run _ _ _ _ _ (U1 s _ H)). reflexivity.
  - intros b [o s] r H. apply rbind_some in H as (o' & r1 & H1 & H). apply rbind_some in H as (s' & r2 & H2 & H). apply rret_some in H as [H <-].
    assert (o' = o) by congruence. assert (s' = s) by congruence. subst. apply T2 in H1 as [_ ->]. apply U2 in H2 as [Hs ->]. split; [exact Hs|reflexivity].
Qed.
Lemma codec_metadata_input : codec read_metadata_input write_metadata_input meta_ok.
Proof.
  pose proof codec_text as [S1 S2]. pose proof codec_standard as [D1 D2]. pose proof codec_bool as [B1 B2].
  assert (V : codec (read_option (read_vec read_ext_input)) (write_option (write_vec write_ext_input)) (opt_valid (fun l => fits l /\ Forall ext_ok l))).
  { apply codec_option, codec_vec; [apply codec_ext_input|]. intros [t n d] Q. discriminate Q. } destruct V as [V1 V2]. split.
  - intros [n s m x] r [Hn Hx]. cbn [m_name m_exts] in *. unfold read_metadata_input, write_metadata_input. cbn [m_name m_standard m_mutable m_exts].
    rewrite <- !app_assoc. rewrite (rbind_run _ _ _ _ _ (S1 n _ Hn)). rewrite (rbind_run _ _ _ _ _ (D1 s _ I)).
    rewrite (rbind_run _ _ _ _ _ (B1 m _ I)). rewrite (rbind_run _ _ _ _ _ (V1 x _ Hx)). reflexivity.
  - intros b [n s m x] r H. apply rbind_some in H as (n' & r1 & H1 & H). apply rbind_some in H as (s' & r2 & H2 & H).
    apply rbind_some in H as (m' & r3 & H3 & H). apply rbind_some in H as (x' & r4 & H4 & H). apply rret_some in H as [H <-].
    assert (n' = n) by congruence. assert (s' = s) by congruence. assert (m' = m) by congruence. assert (x' = x) by congruence. subst.
    apply S2 in H1 as [Hn ->]. apply D2 in H2 as [_ ->]. apply B2 in H3 as [_ ->]. apply V2 in H4 as [Hx ->]. split; [split; assumption|].
    unfold write_metadata_input. cbn [m_name m_standard m_mutable m_exts]. now rewrite <- !app_assoc.
Qed.
Lemma codec_update_input : codec read_update_input write_update_input upd_ok.
Proof.
  pose proof (codec_option _ _ _ codec_text) as [S1 S2]. pose proof (codec_option _ _ _ codec_bool) as [B1 B2].
  pose proof (codec_option _ _ _ codec_ext_input) as [V1 V2]. split.
  - intros [n m x] r [Hn Hx]. cbn [u_name u_ext] in *. unfold read_update_input, write_update_input. cbn [u_name u_mutable u_ext].
    rewrite <- !app_assoc. rewrite (rbind_run _ _ _ _ _ (S1 n _ Hn)).
    assert (M : opt_valid (fun _ : bool => True) m) by (destruct m; exact I). rewrite (rbind_run _ _ _ _ _ (B1 m _ M)).
    rewrite (rbind_run _ _ _ _ _ (V1 x _ Hx)). reflexivity.
  - intros b [n m x] r H. apply rbind_some in H as (n' & r1 & H1 & H). apply rbind_some in H as (m' & r3 & H3 & H).
    apply rbind_some in H as (x' & r4 & H4 & H). apply rret_some in H as [H <-].
    assert (n' = n) by congruence. assert (m' = m) by congruence. assert (x' = x) by congruence. subst.
    apply S2 in H1 as [Hn ->]. apply B2 in H3 as [_ ->]. apply V2 in H4 as [Hx ->]. split; [split; assumption|].
    unfold write_update_input. cbn [u_name u_mutable u_ext]. now rewrite <- !app_assoc.
Qed.
Lemma codec_strategy : codec read_strategy write_strategy strat_ok.
Proof.
  pose proof (codec_uint 2) as [U1 U2]. split.
  - intros [|v] r H; [reflexivity|]. cbn [write_strategy app]. unfold read_strategy.
    rewrite (rbind_run _ _ _ x01 (le_enc 2 v ++ r)) by reflexivity. change (b2z x01 =? 0) with false. change (b2z x01 =? 1) with true. cbv iota.
    now rewrite (rbind_run _ _ _ _ _ (U1 v _ H)).
  - intros b a r H. apply rbind_some in H as (x & r1 & H1 & H2). apply codec_u8 in H1 as [_ ->]. rewrite <- (z2b_b2z x).
    destruct (b2z x =? 0) eqn:Q0; [|destruct (b2z x =? 1) eqn:Q1; [|discriminate]].
    + apply Z.eqb_eq in Q0. rewrite Q0. apply rret_some in H2 as [<- <-]. split; [exact I|reflexivity].
    + apply Z.eqb_eq in Q1. rewrite Q1. apply rbind_some in H2 as (v & r2 & H3 & H4). apply rret_some in H4 as [<- <-]. apply U2 in H3 as [Hv ->].
      split; [exact Hv|reflexivity].
Qed.

Lemma codec_instr : codec read_instr write_instr instr_ok.
Proof.
  pose proof codec_metadata_input as [M1 M2]. pose proof codec_delegate_input as [D1 D2]. pose proof codec_ext_input as [X1 X2].
  pose proof codec_update_input as [U1 U2]. pose proof codec_data_input as [W1 W2]. pose proof codec_ext_type as [T1 T2]. pose proof codec_strategy as [S1 S2].
  split.
  - intros i r H. destruct i; cbn [instr_ok] in H; try reflexivity; cbn [write_instr app]; unfold read_instr;
      match goal with |- rbind _ _ (?t :: ?rest) = _ => rewrite (rbind_run _ _ _ t rest) by reflexivity end.
    + change (b2z x02) with 2. cbv iota. now rewrite (rbind_run _ _ _ _ _ (M1 _ _ H)).
    + change (b2z x03) with 3. cbv iota. now rewrite (rbind_run _ _ _ _ _ (D1 _ _ H)).
    + change (b2z x04) with 4. cbv iota. now rewrite (rbind_run _ _ _ _ _ (X1 _ _ H)).
    + change (b2z x06) with 6. cbv iota. now rewrite (rbind_run _ _ _ _ _ (D1 _ _ H)).
    + change (b2z x0a) with 10. cbv iota. now rewrite (rbind_run _ _ _ _ _ (U1 _ _ H)).
    + change (b2z x0c) with 12. cbv iota. now rewrite (rbind_run _ _ _ _ _ (W1 _ _ H)).
    + change (b2z x10) with 16. cbv iota. now rewrite (rbind_run _ _ _ _ _ (T1 _ _ I)).
    + change (b2z x11) with 17. cbv iota. now rewrite (rbind_run _ _ _ _ _ (S1 _ _ H)).
  - intros b i r H. apply rbind_some in H as (x & r1 & H1 & H2). apply codec_u8 in H1 as [_ ->].
    assert (R : b2z x < 18 \/ 18 <= b2z x) by lia. pose proof (b2z_range x) as B. rewrite <- (z2b_b2z x). destruct R as [R|R].
    + assert (C : In (b2z x) [0;1;2;3;4;5;6;7;8;9;10;11;12;13;14;15;16;17]) by (cbn [In]; lia).
      cbn [In] in C. repeat (destruct C as [C|C]; [rewrite <- C in H2 |- *; cbv iota in H2;
        first [ apply rret_some in H2 as [<- <-]; split; [exact I|reflexivity]
              | apply rbind_some in H2 as (a & r2 & H3 & H4); apply rret_some in H4 as [<- <-];
                first [apply M2 in H3 as [Ha ->] | apply D2 in H3 as [Ha ->] | apply X2 in H3 as [Ha ->] | apply U2 in H3 as [Ha ->]
                      | apply W2 in H3 as [Ha ->] | apply T2 in H3 as [Ha ->] | apply S2 in H3 as [Ha ->]]; split; [exact Ha|reflexivity] ]|]).
      destruct C.
    + exfalso. destruct (b2z x) as [|p|p]; [lia| |lia]. do 5 (destruct p as [p|p|]; try discriminate H2; try lia).
Qed.
Lemma instr_round i : instr_ok i -> try_from_slice (write_instr i) = Some i.
Proof. intro H. unfold try_from_slice. rewrite <- (app_nil_r (write_instr i)). now rewrite (proj1 codec_instr). Qed.
Lemma instr_only b i : try_from_slice b = Some i -> instr_ok i /\ b = write_instr i.
Proof.
  unfold try_from_slice. destruct (read_instr b) as [[j [|c r]]|] eqn:E; try discriminate. intro H. assert (j = i) by congruence. subst j.
  apply (proj2 codec_instr) in E as [H1 ->]. split; [assumption|apply app_nil_r].
Qed.
Lemma instr_exact b i : try_from_slice b = Some i <-> instr_ok i /\ b = write_instr i.
Proof. split; [apply instr_only|]. intros [H ->]. now apply instr_round. Qed.
Lemma instr_unambiguous i j : instr_ok i -> instr_ok j -> write_instr i = write_instr j -> i = j.
Proof. intros Hi Hj E. apply instr_round in Hi. apply instr_round in Hj. congruence. Qed.
Lemma instr_prefix i j r : instr_ok i -> instr_ok j -> write_instr i ++ r = write_instr j -> i = j /\ r = [].
Proof.
  intros Hi Hj E. pose proof (proj1 codec_instr i r Hi) as Q. rewrite E in Q.
  rewrite <- (app_nil_r (write_instr j)) in Q. rewrite (proj1 codec_instr j [] Hj) in Q. split; congruence.
Qed.
Lemma entry_written e infos w i : instr_ok i -> entry e infos w (write_instr i) = process e infos w i.
Proof. intro H. unfold entry. now rewrite instr_round. Qed.
Lemma entry_only e infos w b w' : entry e infos w b = Ok w' -> exists i, instr_ok i /\ b = write_instr i /\ process e infos w i = Ok w'.
Proof.
  unfold entry. destruct (try_from_slice b) as [i|] eqn:E; [|discriminate]. intro H. apply instr_only in E as [H1 H2]. eauto.
Qed.
Lemma entry_refused e infos w b : (forall i, instr_ok i -> b <> write_instr i) -> entry e infos w b = Err EInvalidInstructionData.
Proof.
  intro H. unfold entry. destruct (try_from_slice b) as [i|] eqn:E; [|reflexivity]. apply instr_only in E as [H1 H2]. now destruct (H i H1).
Qed.

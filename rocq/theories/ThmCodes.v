(** Property theorems: error codes (C76). *)
From Verif Require Import Base Codes.
From Coq Require Import Strings.String.
Open Scope string_scope.
Open Scope Z_scope.

(** the name the program gives to a code *)
Definition named (c : Z) : option string := nth_error (map snd asset_errors) (Z.to_nat c).

(** An error has one code, and what the clients build from it bears the program's name. *)
Theorem C76_codes : forall er c, custom_code er = Some c ->
  0 <= c < 22 /\ (forall er', custom_code er' = Some c -> er' = er) /\
  exists n, named c = Some n /\ js_from_code c = Some (n, c) /\ js_from_name n = Some (n, c) /\ rust_from_code c = Some n.
Proof.
  intros er c H. destruct er; vm_compute in H; try discriminate; (assert (E := f_equal (fun o => match o with Some z => z | None => 0 end) H); cbn in E; rewrite <- E; clear E H);
    (split; [lia|split; [intros er' H; destruct er'; vm_compute in H; first [reflexivity|discriminate]|eexists; split; [vm_compute; reflexivity|vm_compute; auto]]]).
Qed.
Print Assumptions C76_codes.
(** Codes that are no error of the program name none at the clients. *)
Theorem C76_no_code : forall c, c < 0 \/ 22 <= c -> js_from_code c = None /\ rust_from_code c = None.
Proof.
  intros c H. unfold js_from_code, rust_from_code. cbn [js_codes rust_errors map fst snd get_z].
  repeat (match goal with |- context [?k =? c] => replace (k =? c) with false by lia end). auto.
Qed.
Print Assumptions C76_no_code.
Example C76_codes_case : custom_code ELockedAsset = Some 12 /\ custom_code EMissingRequiredSignature = None /\ js_from_code 12 = Some ("LockedAsset", 12) /\
  js_from_code 22 = None.
Proof. vm_compute. auto. Qed.
Example js_keys : NoDup (map fst js_codes) /\ NoDup (map fst js_names) /\ NoDup (map fst js_classes) /\ NoDup (map snd rust_errors).
Proof. cbn [map fst snd js_codes js_names js_classes rust_errors]. repeat split; repeat (apply NoDup_cons; [cbn [In]; intuition discriminate|]); apply NoDup_nil. Qed.

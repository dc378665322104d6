(** Role masks as sets (C08). *)
From Verif Require Import Base State Proc BaseL Spec HeadL AuthL.
From Coq Require Import Strings.Byte.

Lemma decode_spec m r : In r (decode_roles m) /\ r <> RNone <-> has_role m r.
Proof.
  unfold has_role. destruct r; destruct m; vm_compute;
    (split; [intros [H1 H2]; repeat destruct H1 as [H1|H1]; try discriminate; try tauto; congruence
            |intro H; try discriminate H; try contradiction; intuition congruence]).
Qed.
Lemma decode_none m : In RNone (decode_roles m) <-> m = x00.
Proof.
  destruct m; vm_compute; (split; [intro H; repeat destruct H as [H|H]; try discriminate; tauto || reflexivity
    |intro H; try discriminate H; tauto]).
Qed.
Lemma decode_nodup m : NoDup (decode_roles m).
Proof.
  destruct m; vm_compute; repeat constructor; cbn; intuition congruence.
Qed.
Lemma enable_spec m x r : has_role (enable_roles m x) r <-> has_role m r \/ (r = x /\ r <> RNone).
Proof.
  unfold has_role, enable_roles. destruct x, r; cbn [role_bit role_mask]; destruct m; vm_compute; intuition congruence.
Qed.

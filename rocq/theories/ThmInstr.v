(** Property theorems: instruction data (C41). *)
From Verif Require Import Base State Layout Constr Ext World Proc Borsh BaseL Spec SpecI BorshL Sample.
From Coq Require Import Strings.Byte.

(** C41: decoding what was encoded gives the instruction back ... *)
Theorem C41_round : forall i, instr_ok i -> try_from_slice (write_instr i) = Some i.
Proof. exact instr_round. Qed.
Print Assumptions C41_round.
(** ... nothing but an encoding is decoded (in particular nothing with bytes left over,
    a flag other than 0 or 1, an unknown tag, a count beyond the data, or a name that is
    not text) ... *)
Theorem C41_exact : forall b i, try_from_slice b = Some i <-> instr_ok i /\ b = write_instr i.
Proof. exact instr_exact. Qed.
Print Assumptions C41_exact.
(** ... and no encoding is that of another instruction, nor begins with one. *)
Theorem C41_unambiguous : forall i j, instr_ok i -> instr_ok j -> write_instr i = write_instr j -> i = j.
Proof. exact instr_unambiguous. Qed.
Print Assumptions C41_unambiguous.
Theorem C41_prefix : forall i j r, instr_ok i -> instr_ok j -> write_instr i ++ r = write_instr j -> i = j /\ r = [].
Proof. exact instr_prefix. Qed.
Print Assumptions C41_prefix.
(** The decoder's check of names is the Unicode definition. *)
Theorem C41_text : forall s, utf8 s = true <-> utf8_text s.
Proof. exact utf8_iff. Qed.
Print Assumptions C41_text.
(** The program run on bytes is the program run on the instruction they encode;
    every other input is refused. *)
Theorem C41_entry : forall e infos w i, instr_ok i -> entry e infos w (write_instr i) = process e infos w i.
Proof. exact entry_written. Qed.
Print Assumptions C41_entry.
Theorem C41_entry_only : forall e infos w b, (forall i, instr_ok i -> b <> write_instr i) ->
  entry e infos w b = Err EInvalidInstructionData.
Proof. exact entry_refused. Qed.
Print Assumptions C41_entry_only.
Theorem C41_entry_ok : forall e infos w b w', entry e infos w b = Ok w' ->
  exists i, instr_ok i /\ b = write_instr i /\ process e infos w i = Ok w'.
Proof. exact entry_only. Qed.
Print Assumptions C41_entry_ok.

(** an update with a name of two characters ("é" and the smiling face, 6 bytes), and an
    extension *)
Definition smile : bytes := [xc3; xa9; xf0; x9f; x98; x80].
Definition upd_case : instr :=
  IUpdate (mkUpdInput (Some smile) (Some false) (Some (mkExtInput XBlob 3 (Some [x01; x02; x03])))).
Example C41_case : instr_ok upd_case /\
  write_instr upd_case = [x0a; x01; x06; x00; x00; x00; xc3; xa9; xf0; x9f; x98; x80; x01; x00; x01; x02; x03; x00; x00; x00;
    x01; x03; x00; x00; x00; x01; x02; x03] /\
  try_from_slice (write_instr upd_case) = Some upd_case /\
  try_from_slice (write_instr upd_case ++ [x00]) = None /\ try_from_slice [x12] = None /\ try_from_slice [] = None /\
  try_from_slice [x0a; x01; x01; x00; x00; x00; xc3; x00; x00] = None /\
  try_from_slice [x0c; x02; x00; x00; x00; x00] = None.
Proof.
  split; [|vm_compute; auto 10]. split; [|split; [split; [discriminate|reflexivity]|reflexivity]].
  split; [vm_compute; reflexivity|]. apply utf8_iff. vm_compute. reflexivity.
Qed.
Definition rolls : instr := IApprove (DSome [RLock; RNone; RBurn]).
Example C41_roles_case : write_instr rolls = [x03; x01; x03; x00; x00; x00; x02; x00; x03] /\ try_from_slice (write_instr rolls) = Some rolls.
Proof. vm_compute. auto. Qed.

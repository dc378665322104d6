(** Specification: instructions that exist as Rust values. *)
From Verif Require Import Base State Layout Constr Ext World Proc.
From Coq Require Import Strings.Byte.

(** UTF-8: text is a list of Unicode scalar values, each written in one to four bytes. *)
Definition scalar (c : Z) : Prop := 0 <= c < 55296 \/ 57344 <= c < 1114112.
Definition utf8_char (c : Z) : bytes :=
  if c <? 128 then [z2b c]
  else if c <? 2048 then [z2b (192 + c / 64); z2b (128 + c mod 64)]
  else if c <? 65536 then [z2b (224 + c / 4096); z2b (128 + (c / 64) mod 64); z2b (128 + c mod 64)]
  else [z2b (240 + c / 262144); z2b (128 + (c / 4096) mod 64); z2b (128 + (c / 64) mod 64); z2b (128 + c mod 64)].
Definition utf8_text (s : bytes) : Prop := exists cs, Forall scalar cs /\ s = concat (map utf8_char cs).

(** Values that exist in Rust and can be written: numbers in range, names text,
    no list of 2^32 items or more. *)
Definition opt_valid {A} (v : A -> Prop) (o : option A) : Prop := match o with Some a => v a | None => True end.
Definition fits {A} (l : list A) : Prop := zlen l < 4294967296.
Definition u32 (z : Z) : Prop := 0 <= z < 4294967296.
Definition text_ok (s : bytes) : Prop := fits s /\ utf8_text s.
Definition ext_ok (x : ext_input) : Prop := u32 (x_length x) /\ opt_valid (@fits byte) (x_data x).
Definition roles_ok (d : delegate_input) : Prop := match d with DAll => True | DSome l => fits l end.
Definition meta_ok (m : metadata_input) : Prop :=
  text_ok (m_name m) /\ opt_valid (fun l => fits l /\ Forall ext_ok l) (m_exts m).
Definition upd_ok (u : update_input) : Prop := opt_valid text_ok (u_name u) /\ opt_valid ext_ok (u_ext u).
Definition strat_ok (s : strategy) : Prop := match s with Trim => True | Extend v => 0 <= v < 65536 end.
Definition instr_ok (i : instr) : Prop :=
  match i with
  | ICreate m => meta_ok m
  | IApprove d | IRevoke d => roles_ok d
  | IAllocate x => ext_ok x
  | IUpdate u => upd_ok u
  | IWrite d => fits (w_bytes d)
  | IResize s => strat_ok s
  | _ => True
  end.

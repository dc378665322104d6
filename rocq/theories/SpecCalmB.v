(** Specification vocabulary for requests that get an answer: payloads that fit. *)
From Verif Require Import Base State Layout Constr Ext World Proc Spec SpecB SpecF SpecH SpecG SpecJ SpecCalm.
From Coq Require Import Strings.Byte.

(** What a request must bring to get an answer. Create: an account without data or with
    complete readable extensions, and complete readable payloads. Allocate: such an
    account, readable or not. Write: no more than announced, and readable when complete.
    Update: a readable payload in the instruction and an asset without surplus bytes. *)
Definition fitting (e : env) (infos : list ainfo) (w : world) (i : instr) : Prop :=
  match i with
  | ICreate m => (forall k, arg infos 0 k -> exists hd l n, open_account (data (w k)) hd l n /\ readable l) /\
      Forall (fun x => ext_arg x /\ x_length x = zlen (given x) /\ parses (x_type x) (given x)) (inline m)
  | IAllocate x => (forall k, arg infos 0 k -> exists hd l n, open_account (data (w k)) hd l n) /\
      x_type x <> XNone /\ 0 <= x_length x /\ zlen (given x) < 4294967296
  | IWrite a => forall k, arg infos 0 k -> exists hd l t len bs, partial_account (data (w k)) hd l t len bs /\
      let p := if w_overwrite a then w_bytes a else bs ++ w_bytes a in zlen p <= len /\ (zlen p = len -> parses t p)
  | IUpdate a => arg infos 2 (e_prog e) /\ e_heap_al e mod 8 = 0 /\
      (forall x, u_ext a = Some x -> x_type x <> XNone /\ x_length x <= 2000000000 /\ (x_data x <> None -> parses (x_type x) (given x))) /\
      forall k, arg infos 0 k -> asset_of (e_prog e) w k -> exists hd l, layout (data (w k)) hd l [] /\ (length l < e_fuel e)%nat
  | IRemove t => t <> XNone
  | _ => True
  end.

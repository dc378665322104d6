(** Specification vocabulary for executions that stay inside their data and end. *)
From Verif Require Import Base State Layout Constr Ext World Proc Spec SpecF.
From Coq Require Import Strings.Byte.

(** a result, an error or a panic (an abort of the transaction); not an access outside
    the data or an invalid value, and not a loop without end *)
Definition contained {A} (r : res A) : Prop := match r with UB | Diverge => False | _ => True end.

(** the extension headers of [d] from [cur] lead forward: each ends past its own header,
    until one of type None or the end of the data *)
Inductive ahead (d : bytes) : Z -> Prop :=
| ahead_end cur : zlen d < cur + 16 -> ahead d cur
| ahead_none cur : le32 d cur = 0 -> ahead d cur
| ahead_next cur : cur + 16 <= le32 d (cur + 8) -> ahead d (le32 d (cur + 8)) -> ahead d cur.

(** ... and the royalties, if there are any, can be read *)
Definition settled (d : bytes) : Prop :=
  ahead d 168 /\ forall off b, has_ext d XRoyalties off b -> parses XRoyalties b.
Definition all_settled (infos : list ainfo) (w : world) : Prop :=
  forall a, In a (passed infos) -> settled (data (w (ai_key a))).

(** the requests that neither fill nor move an extension *)
Definition steady (i : instr) : Prop :=
  match i with
  | ICreate _ | IUpdate _ | IWrite _ | IRemove _ => False
  | IAllocate x => 0 <= x_length x /\ zlen (given x) < 4294967296
  | _ => True
  end.
(** no royalties are brought in, or ones that can be read *)
Definition royal_ok (t : ext_type) (b : bytes) : Prop := t = XRoyalties -> parses XRoyalties b.

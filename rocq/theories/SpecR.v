(** Specification for the Rust client's account reader: which headers can be read
    and as what. *)
From Verif Require Import Base State World Proc Spec Rs.
From Coq Require Import Strings.Byte.

(** the byte of each enumeration is one of its values *)
Definition good_head (d : bytes) : Prop :=
  (s_disc d = x00 \/ s_disc d = x01) /\ (s_state d = x00 \/ s_state d = x01) /\
  (s_standard d = x00 \/ s_standard d = x01 \/ s_standard d = x02 \/ s_standard d = x03) /\ (s_mutable d = x00 \/ s_mutable d = x01).
(** the standard a byte stands for *)
Definition std_byte (s : standard) : byte := match s with NonFungible => x00 | Managed => x01 | Soulbound => x02 | Proxied => x03 end.
(** the value read has the fields of the account *)
Definition shows (d : bytes) (a : rs_asset) : Prop :=
  ra_disc a = s_disc d /\ ra_state a = s_state d /\ std_byte (ra_standard a) = s_standard d /\ (ra_mutable a = true <-> mutable d) /\
  ra_owner a = s_owner d /\ ra_group a = s_group d /\ ra_authority a = s_authority d /\ ra_delegate a = s_delegate d /\ ra_roles a = s_roles d /\ ra_name a = s_name d.

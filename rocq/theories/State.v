(** The asset account header and the extension headers:
    programs/asset/types/src/state/{mod,asset,delegate}.rs and
    programs/asset/types/src/extensions/mod.rs. *)
From Verif Require Import Base.
From Coq Require Import Strings.Byte.

(** ** Header layout — state/asset.rs:35-74, [repr(C)], LEN = 168.
    disc@0 state@1 standard@2 mutable@3 owner@4 group@36 authority@68
    delegate@100 (address 32 + roles 1) name@133 (35). *)
Definition ASSET_LEN : Z := 168.
Definition EXT_LEN : Z := 16.

Definition f_disc (d : bytes) : bytes := fld d 0 1.
Definition f_state (d : bytes) : bytes := fld d 1 1.
Definition f_standard (d : bytes) : bytes := fld d 2 1.
Definition f_mutable (d : bytes) : bytes := fld d 3 1.
Definition f_owner (d : bytes) : bytes := fld d 4 32.
Definition f_group (d : bytes) : bytes := fld d 36 32.
Definition f_authority (d : bytes) : bytes := fld d 68 32.
Definition f_delegate (d : bytes) : bytes := fld d 100 32.
Definition f_roles (d : bytes) : bytes := fld d 132 1.
Definition f_name (d : bytes) : bytes := fld d 133 35.

Definition byte_at (d : bytes) (i : Z) : byte := nth (Z.to_nat i) d x00.

(** discriminator / state / standard codes — state/mod.rs:14-39, 45-87, 93-118 *)
Definition DISC_UNINIT : byte := x00.
Definition DISC_ASSET : byte := x01.
Definition ST_UNLOCKED : byte := x00.
Definition ST_LOCKED : byte := x01.

Inductive standard : Set := NonFungible | Managed | Soulbound | Proxied.
Definition standard_code (s : standard) : byte :=
  match s with NonFungible => x00 | Managed => x01 | Soulbound => x02 | Proxied => x03 end.

(** PodBool (podded): [true] iff non-zero; written as 0/1. *)
Definition pod_true (b : byte) : bool := negb (beqb b x00).
Definition bool_byte (b : bool) : byte := if b then x01 else x00.

(** [data.len() >= Asset::LEN && data[0] == Discriminator::Asset] *)
Definition is_asset (d : bytes) : bool :=
  (ASSET_LEN <=? zlen d) && beqb (byte_at d 0) DISC_ASSET.

(** NullablePubkey / PodOption — state/mod.rs:124-156: none iff all-zero *)
Definition nullable (k : bytes) : option bytes :=
  if bytes_eqb k zero32 then None else Some k.

(** PodStr<35>::from(String) (podded): copy at most 35 bytes, zero-fill. *)
Definition pod_str35 (s : bytes) : bytes :=
  firstn 35 s ++ repeat x00 (35 - length (firstn 35 s)).

(** ** Delegates — state/delegate.rs:14-106 *)
Inductive role : Set := RNone | RTransfer | RLock | RBurn.

(** DelegateRole::mask, delegate.rs:100-105 *)
Definition role_mask (r : role) : Z :=
  match r with RNone => 0 | RTransfer => 1 | RLock => 2 | RBurn => 4 end.

Definition ALL_ROLES_MASK : Z := 7. (* delegate.rs:22 *)

(** Delegate as stored: address (32 bytes) and roles byte. *)
Record delegate := mkDelegate { del_addr : bytes; del_roles : byte }.

Definition is_active (dl : delegate) (r : role) : bool :=   (* delegate.rs:24-26 *)
  0 <? Z.land (b2z (del_roles dl)) (role_mask r).
Definition enable_roles (roles : byte) (r : role) : byte := (* delegate.rs:28-30 *)
  z2b (Z.lor (b2z roles) (role_mask r)).
Definition disable_role (roles : byte) (r : role) : byte := (* delegate.rs:32-34 *)
  z2b (Z.land (b2z roles) (255 - role_mask r)).
Definition has_active_roles (roles : byte) : bool :=        (* delegate.rs:36-38 *)
  0 <? b2z roles.
(** Delegate::decode_roles, delegate.rs:40-52 *)
Definition decode_roles (roles : byte) : list role :=
  if b2z roles =? 0 then [RNone]
  else (if 0 <? Z.land (b2z roles) 1 then [RTransfer] else [])
    ++ (if 0 <? Z.land (b2z roles) 2 then [RLock] else [])
    ++ (if 0 <? Z.land (b2z roles) 4 then [RBurn] else []).

(** Delegate::load: the first 33 bytes (panics when shorter). *)
Definition load_delegate (b : bytes) : res delegate :=
  guard (33 <=? zlen b) (Ok (mkDelegate (fld b 0 32) (byte_at b 32))).

(** asset.delegate.value() — PodOption over Delegate, delegate.rs:55-63 *)
Definition asset_delegate (d : bytes) : option delegate :=
  match nullable (f_delegate d) with
  | None => None
  | Some a => Some (mkDelegate a (byte_at d 132))
  end.

(** ** Extension types — extensions/mod.rs:200-255 *)
Inductive ext_type : Set :=
| XNone | XAttributes | XBlob | XCreators | XLinks | XMetadata | XGrouping
| XRoyalties | XManager | XProxy | XProperties | XBucket.

Definition ext_code (t : ext_type) : Z :=
  match t with
  | XNone => 0 | XAttributes => 1 | XBlob => 2 | XCreators => 3 | XLinks => 4
  | XMetadata => 5 | XGrouping => 6 | XRoyalties => 7 | XManager => 8
  | XProxy => 9 | XProperties => 10 | XBucket => 11
  end.
Definition ext_of_code (z : Z) : option ext_type :=
  if z =? 0 then Some XNone else if z =? 1 then Some XAttributes
  else if z =? 2 then Some XBlob else if z =? 3 then Some XCreators
  else if z =? 4 then Some XLinks else if z =? 5 then Some XMetadata
  else if z =? 6 then Some XGrouping else if z =? 7 then Some XRoyalties
  else if z =? 8 then Some XManager else if z =? 9 then Some XProxy
  else if z =? 10 then Some XProperties else if z =? 11 then Some XBucket
  else None.
Definition ext_type_eqb (a b : ext_type) : bool := ext_code a =? ext_code b.

(** Extension header — extensions/mod.rs:55-118: [u32;4] = type, length,
    boundary, unused. *)
Record hdr := mkHdr { h_type : Z; h_len : Z; h_bnd : Z }.

(** Extension::load(&data[cur..cur+16]): panics when out of range and (bytemuck)
    when the address is not 4-byte aligned.  Account data start 8-aligned. *)
Definition load_hdr (d : bytes) (cur : Z) : res hdr :=
  guard ((0 <=? cur) && (cur + EXT_LEN <=? zlen d) && (cur mod 4 =? 0))
    (Ok (mkHdr (le_dec (fld d cur 4)) (le_dec (fld d (cur + 4) 4))
               (le_dec (fld d (cur + 8) 4)))).

(** set_extension_type / set_length / set_boundary; the unused word is kept. *)
Definition enc_hdr (ty len bnd : Z) : bytes :=
  le_enc 4 ty ++ le_enc 4 len ++ le_enc 4 bnd.
Definition set_hdr (d : bytes) (cur ty len bnd : Z) : res bytes :=
  guard ((0 <=? cur) && (cur + EXT_LEN <=? zlen d) && (cur mod 4 =? 0))
    (Ok (put d cur (enc_hdr ty len bnd))).

(** Sample data for the proxy program's theorems. *)
From Verif Require Import Base State Layout Constr Ext World Proc Borsh Proxy BaseL Spec SpecB SpecH SpecI SpecP Sample.
From Coq Require Import Strings.Byte.

Definition kMe : pubkey := key x77.
Definition kStub : pubkey := key x78.
(** the asset address is derived from the stub with bump 255 *)
Definition envP : env :=
  mkEnv kProg (fun n => Z.max 0 (128 + n))
    (fun s b p => if bytes_eqb s (pk_bytes kStub) && bytes_eqb p (pk_bytes kMe) && beqb b xff then Some kAsset else None) false 0 100.
Definition pe0 : penv := mkPenv 1700000000 (fun _ => [x07; x80; xff]) [x3c] [x3e].
Definition wP : world := table [(kPayer, mkAcct 100000 pk_zero []); (kHolder, mkAcct 5 pk_zero [])].
Definition ip_create : list ainfo :=
  [mkInfo kAsset false true; mkInfo kStub true false; mkInfo kHolder false false; mkInfo kAuth true false;
   mkInfo kPayer true true; mkInfo kSys false false; mkInfo kProg false false].
Definition ok_or_same (r : res world) (w : world) : world := match r with Ok w' => w' | _ => w end.
(** the world right after the proxy program's Create, as a table *)
Definition w_born : world := ok_or_same (proxy_entry pe0 envP kMe ip_create wP (write_proxy [x41])) wP.
Definition prox_blks : list blk :=
  [blk_of XAttributes (counter_payload 0); blk_of XProperties (stamp_payload pe0);
   blk_of XProxy (build_proxy kMe (pk_bytes kStub) xff (Some kAuth)); blk_of XBlob (image_payload pe0 NO_COLOUR)].
Definition hd_prox : bytes :=
  [x01; x00; x03; x01] ++ pk_bytes kHolder ++ zeros 32 ++ pk_bytes kAsset ++ zeros 33 ++ x41 :: zeros 34.
Definition born_data : bytes := mk hd_prox prox_blks.
Example born_is : data (w_born kAsset) = born_data.
Proof. vm_compute. reflexivity. Qed.
Definition w_prox : world := table [(kAsset, mkAcct 552 kProg born_data); (kHolder, mkAcct 5 pk_zero [])].
Definition ip_transfer : list ainfo :=
  [mkInfo kAsset false true; mkInfo kHolder true false; mkInfo kTo false false; mkInfo kProg false false; mkInfo kProg false false].
Definition ip_update : list ainfo :=
  [mkInfo kAsset false true; mkInfo kAuth true false; mkInfo kProg false false; mkInfo kProg false false; mkInfo kProg false false;
   mkInfo kProg false false; mkInfo kProg false false].
Definition ip_remove : list ainfo :=
  [mkInfo kAsset false true; mkInfo kAsset false true; mkInfo kProg false false; mkInfo kOther false true].
Definition ip_lock : list ainfo := [mkInfo kAsset false true; mkInfo kHolder true false; mkInfo kProg false false].
Definition ip_resize : list ainfo :=
  [mkInfo kAsset false true; mkInfo kAsset false false; mkInfo kPayer true true; mkInfo kSys false false].
(** the same asset as a member of a group without royalties *)
Definition w_member : world :=
  table [(kAsset, mkAcct 552 kProg (put born_data 36 (pk_bytes kGroup))); (kHolder, mkAcct 5 pk_zero []);
         (kGroup, mkAcct 500 kProg (x01 :: zeros 167))].
Definition ip_grouped : list ainfo :=
  [mkInfo kAsset false true; mkInfo kHolder true false; mkInfo kTo false false; mkInfo kGroup false false; mkInfo kProg false false].

Lemma envP_ok : env_ok envP.
Proof. intros n. cbn [e_rent envP]. lia. Qed.

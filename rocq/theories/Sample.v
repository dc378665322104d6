(** Concrete accounts used by the examples beside the theorems. *)
From Verif Require Import Base State Layout Constr Ext World Proc BaseL Spec WorldL.
From Coq Require Import Strings.Byte.

(** keys: 32 times the same byte *)
Definition key (b : byte) : pubkey := mkPk (repeat b 32) eq_refl.
Definition kProg := key xaa.
Definition kAsset := key x10.
Definition kHolder := key x11.
Definition kDeleg := key x12.
Definition kTo := key x13.
Definition kMan := key x14.
Definition kGroup := key x15.
Definition kAuth := key x16.
Definition kBuf := key x17.
Definition kPayer := key x18.
Definition kOther := key x19.
Definition kSys := pk_zero.

Definition env0 : env := mkEnv kProg (fun n => Z.max 0 (128 + n)) (fun _ _ _ => None) false 0 100.
Lemma env0_ok : env_ok env0.
Proof. intro n. cbn. lia. Qed.

(** worlds given by a table *)
Definition table (l : list (pubkey * account)) : world :=
  fun k => match find (fun p => pk_eqb k (fst p)) l with
           | Some p => snd p
           | None => mkAcct 0 pk_zero []
           end.
Lemma table_sized l : forallb (fun p => zlen (data (snd p)) <=? 10485760) l = true -> sized (table l).
Proof.
  intros H k. unfold table. destruct (find _ l) as [p|] eqn:E; [|cbn; lia].
  apply find_some in E as [E _]. rewrite forallb_forall in H. specialize (H p E). lia.
Qed.
Lemma table_lam_ok l : forallb (fun p => 0 <=? lamports (snd p)) l = true -> lam_ok (table l).
Proof.
  intros H k. unfold table. destruct (find _ l) as [p|] eqn:E; [|cbn; lia].
  apply find_some in E as [E _]. rewrite forallb_forall in H. specialize (H p E). lia.
Qed.

Definition header (disc st std mut : byte) (owner group auth del : pubkey) (roles : byte) : bytes :=
  [disc; st; std; mut] ++ pk_bytes owner ++ pk_bytes group ++ pk_bytes auth ++ pk_bytes del ++
  [roles] ++ repeat x41 35.
Definition mk (hd : bytes) (l : list blk) : bytes := hd ++ enc_sect 168 l.

Definition blkb (b : blk) : bool :=
  negb (ext_type_eqb (bk_type b) XNone) && Nat.eqb (length (bk_unused b)) 4
  && (zlen (bk_pad b) <? 8) && ((zlen (bk_data b) + zlen (bk_pad b)) mod 8 =? 0).
Lemma blkb_ok b : blkb b = true -> blk_ok b.
Proof.
  unfold blkb, blk_ok. intro H. bnorm.
  repeat split; try lia.
  intro E. rewrite E in *. discriminate.
Qed.
Lemma mk_layout hd l tl :
  (zlen hd =? 168) && forallb blkb l && ((zlen tl <? 16) || (le32 tl 0 =? 0))
  && (zlen (hd ++ enc_sect 168 l ++ tl) <? 2147483648) = true ->
  layout (hd ++ enc_sect 168 l ++ tl) hd l tl.
Proof.
  intro H. bnorm. unfold layout. repeat split; try lia.
  - apply Forall_forall. intros b Hb. apply blkb_ok.
    match goal with H : forallb _ _ = true |- _ => rewrite forallb_forall in H; now apply H end.
  - unfold tail_ok. match goal with H : _ || _ = true |- _ => apply orb_true_iff in H as [H|H] end; [left|right]; lia.
Qed.
Lemma mk_wf hd l :
  (zlen hd =? 168) && forallb blkb l && (zlen (mk hd l) <? 2147483648) = true ->
  well_formed (mk hd l) l /\ tight (mk hd l) l.
Proof.
  intro H. bnorm. assert (L : layout (mk hd l) hd l []).
  { unfold mk in *. pose proof (mk_layout hd l []) as L. rewrite app_nil_r in L. apply L.
    repeat (apply andb_true_iff; split); auto; lia. }
  split; [exists hd, []|exists hd]; exact L.
Qed.

(** results *)
Definition okb {A} (m : res A) : bool := match m with Ok _ => true | _ => false end.
Definition run (w : world) (m : res world) : world := match m with Ok w' => w' | _ => w end.
Lemma run_ok w m : okb m = true -> m = Ok (run w m).
Proof. destruct m; cbn; congruence. Qed.

(** a managed asset: manager with all roles, and metadata-like payload of 5 bytes *)
Definition man_payload : bytes := pk_bytes kMan ++ [x07].
Definition man_exts : list blk := [blk_of XBlob [x01; x02; x03; x04; x05]; blk_of XManager man_payload].
Definition man_data : bytes :=
  mk (header x01 x00 x01 x01 kHolder pk_zero kAuth kDeleg x07) man_exts.
Lemma man_wf : well_formed man_data man_exts.
Proof. apply mk_wf. vm_compute. reflexivity. Qed.
(** a plain asset with a delegate holding all roles *)
Definition plain_exts : list blk := [blk_of XBlob [x01; x02; x03; x04; x05]].
Definition plain_data : bytes :=
  mk (header x01 x00 x00 x01 kHolder pk_zero kAuth kDeleg x07) plain_exts.
Lemma plain_wf : well_formed plain_data plain_exts.
Proof. apply mk_wf. vm_compute. reflexivity. Qed.
Definition locked_data : bytes :=
  mk (header x01 x01 x00 x01 kHolder pk_zero kAuth kDeleg x07) plain_exts.
Definition soul_data : bytes :=
  mk (header x01 x00 x02 x01 kHolder pk_zero kAuth pk_zero x00) [].
Definition proxied_data : bytes :=
  mk (header x01 x00 x03 x01 kHolder pk_zero kAuth pk_zero x00) [].
(** a group with two members out of at most three, and a member *)
Definition grp_payload (size max : Z) : bytes := le_enc 8 size ++ le_enc 8 max ++ pk_bytes kDeleg.
Definition grp_exts (size max : Z) : list blk := [blk_of XBlob [x01]; blk_of XGrouping (grp_payload size max)].
Definition grp_data (size max : Z) : bytes :=
  mk (header x01 x00 x00 x01 kHolder pk_zero kAuth pk_zero x00) (grp_exts size max).
Definition member_data : bytes :=
  mk (header x01 x00 x00 x01 kHolder kGroup kAuth pk_zero x00) plain_exts.

Definition acc (d : bytes) : account := mkAcct 5000 kProg d.
Definition wal (n : Z) : account := mkAcct n pk_zero [].
Definition w_man : world := table [(kAsset, acc man_data); (kHolder, wal 700); (kTo, wal 5)].
Definition w_plain : world := table [(kAsset, acc plain_data); (kHolder, wal 700); (kTo, wal 5)].
Definition w_grp : world :=
  table [(kAsset, acc member_data); (kGroup, acc (grp_data 2 3)); (kHolder, wal 700); (kTo, wal 5)].

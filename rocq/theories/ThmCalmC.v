(** Property theorems: Update gets an answer (C90). *)
From Verif Require Import Base State Layout Constr Ext World Proc BaseL Spec SpecB SpecC SpecF SpecH SpecG SpecJ SpecCalm WorldL FrameL LayoutL HeadL AcceptL CalmQ Sample SampleE ThmExactB ThmView ThmUpdate.
From Coq Require Import Strings.Byte.

(** Update of an asset with readable extensions, the new payload (if any) brought along
    and readable, the memory it is decoded to aligned *)
Theorem C90_update : forall e infos w a asset hd l, sound_accounts e infos w -> arg infos 0 asset -> arg infos 2 (e_prog e) -> layout (data (w asset)) hd l [] -> readable l ->
  (length l < e_fuel e)%nat -> sized w -> e_heap_al e mod 8 = 0 ->
  (forall x, u_ext a = Some x -> x_type x <> XNone /\ x_length x <= 2000000000 /\ (x_data x <> None -> parses (x_type x) (given x))) ->
  answered (process e infos w (IUpdate a)).
Proof. exact update_p. Qed.
Print Assumptions C90_update.
Definition calm_exts : list blk := [blk_of XCreators cur_creators; blk_of XGrouping (grp_payload 2 3)].
Definition w_calm : world := table [(kAsset, acc (mk up_head calm_exts)); (kPayer, wal 10000)].
Lemma calm_layout : layout (mk up_head calm_exts) up_head calm_exts [].
Proof. unfold mk. rewrite <- (app_nil_r (enc_sect 168 _)). apply mk_layout. vm_compute. reflexivity. Qed.
Lemma calm_readable : readable calm_exts.
Proof. constructor; [vm_compute; reflexivity|]. constructor; [vm_compute; lia|constructor]. Qed.
Lemma calm_sound : sound_accounts env0 (ThmUpdate.i_up kProg) w_calm.
Proof.
  split.
  - intros a [<-|[<-|[<-|[<-|[<-|[<-|[]]]]]]] O; try (apply (f_equal pk_bytes) in O; vm_compute in O; discriminate O).
    split; [intros _; vm_compute; lia|]. intros _. exists calm_exts. split; [eexists _, _; exact calm_layout|exact calm_readable].
  - intros a g [<-|[<-|[<-|[<-|[<-|[<-|[]]]]]]] I2 O _ G N; try (apply (f_equal pk_bytes) in O; vm_compute in O; discriminate O).
    exfalso. destruct I2 as [<-|[<-|[<-|[<-|[<-|[<-|[]]]]]]]; try (vm_compute in G; discriminate G); apply N; reflexivity.
Qed.
Example C90_update_case : let x b := ThmUpdate.up (mkExtInput XCreators 102 (Some b)) in
  sound_accounts env0 (ThmUpdate.i_up kProg) w_calm /\ arg (ThmUpdate.i_up kProg) 0 kAsset /\ arg (ThmUpdate.i_up kProg) 2 kProg /\
  layout (data (w_calm kAsset)) up_head calm_exts [] /\ readable calm_exts /\ (length calm_exts < e_fuel env0)%nat /\ sized w_calm /\ e_heap_al env0 mod 8 = 0 /\
  parses XCreators new_creators /\ okb (process env0 (ThmUpdate.i_up kProg) w_calm (x new_creators)) = true /\
  process env0 (ThmUpdate.i_up kProg) w_calm (x (zeros 102)) = Err EExtensionDataInvalid.
Proof.
  intro x. split; [exact calm_sound|]. split; [ok_arg|]. split; [ok_arg|]. split; [exact calm_layout|]. split; [exact calm_readable|]. split; [vm_compute; lia|].
  split; [ok_sized|]. split; [reflexivity|]. split; [vm_compute; reflexivity|]. split; vm_compute; reflexivity.
Qed.
(** A payload that cannot be read aborts the Update. *)
Theorem C90_update_refuted : exists e infos w asset hd l x, sound_accounts e infos w /\ arg infos 0 asset /\ arg infos 2 (e_prog e) /\ layout (data (w asset)) hd l [] /\ readable l /\
  sized w /\ e_heap_al e mod 8 = 0 /\ x_length x = zlen (given x) /\ process e infos w (IUpdate (mkUpdInput None None (Some x))) = Panic.
Proof.
  exists env0, (ThmUpdate.i_up kProg), w_calm, kAsset, up_head, calm_exts, (mkExtInput XCreators 33 (Some (zeros 33))).
  destruct C90_update_case as (H1 & H2 & H3 & H4 & H5 & _ & H7 & H8 & _). do 7 (split; [assumption|]). split; [reflexivity|vm_compute; reflexivity].
Qed.
Print Assumptions C90_update_refuted.

(** Property theorems: when the instructions that build and change extensions go
    through (C58), and which payloads are taken (C59). *)
From Verif Require Import Base State Layout Constr Ext World Proc BaseL Spec SpecB SpecC SpecE SpecF WorldL LayoutL ConstrL ExactL ExactM AcceptL ExactN ExactO ExactP Sample SampleE.
From Coq Require Import Strings.Byte.

(** Allocate: the account signs, the type is not there yet, no more bytes than
    announced, and the account can be opened or brought to the size needed *)
Theorem C58_allocate : forall e infos w asset payer sysp x hd l n,
  arg infos 0 asset -> optional e infos 1 payer -> optional e infos 2 sysp ->
  open_account (data (w asset)) hd l n -> writable infos asset -> plain_accounts e infos w -> sized w -> lam_ok w ->
  env_ok e -> e_prog e <> pk_zero -> ext_arg x ->
  (exists w', process e infos w (IAllocate x) = Ok w') <->
  signed infos asset /\ lookup (x_type x) (ext_list l) = None /\ zlen (given x) <= x_length x /\
  (data (w asset) = [] -> can_open e infos w asset payer sysp (new_end l x)) /\
  (data (w asset) <> [] -> acct_owner (w asset) = e_prog e /\ s_disc (data (w asset)) = x00 /\
     (zlen (data (w asset)) < new_end l x \/ zlen (given x) < x_length x /\ new_end l x < zlen (data (w asset)) ->
        can_size e infos w asset payer sysp (new_end l x))).
Proof. exact allocate_goes. Qed.
Print Assumptions C58_allocate.
Definition i_al (s : bool) : list ainfo := [mkInfo kAsset s true; mkInfo kPayer true true; mkInfo kSys false false].
Definition w_al (d : bytes) (pay : Z) : world := table [(kAsset, if zlen d =? 0 then wal 0 else acc d); (kPayer, wal pay)].
Definition x_al (t : ext_type) (n : Z) (b : bytes) : ext_input := mkExtInput t n (Some b).
Definition raw_data : bytes := mk (repeat x00 168) plain_exts.
Lemma raw_layout : layout raw_data (repeat x00 168) plain_exts (repeat x00 (Z.to_nat 0)).
Proof. unfold raw_data, mk. rewrite <- (app_nil_r (enc_sect 168 plain_exts)). apply mk_layout. vm_compute. reflexivity. Qed.
Ltac ok_opt := split; [ok_arg|let E := fresh in intro E; apply (f_equal pk_bytes) in E; vm_compute in E; discriminate E].
Ltac ok_lam := apply table_lam_ok; vm_compute; reflexivity.
Ltac ok_sized := apply table_sized; vm_compute; reflexivity.
Ltac ok_plain := apply plain_table; vm_compute; reflexivity.
Example C58_allocate_case : arg (i_al true) 0 kAsset /\ optional env0 (i_al true) 1 (Some kPayer) /\ optional env0 (i_al true) 2 (Some kSys) /\
  open_account (data (w_al raw_data 9000 kAsset)) (repeat x00 168) plain_exts 0 /\ open_account (data (w_al [] 9000 kAsset)) (repeat x00 168) [] 0 /\
  writable (i_al true) kAsset /\ plain_accounts env0 (i_al true) (w_al raw_data 9000) /\ sized (w_al raw_data 9000) /\ lam_ok (w_al raw_data 9000) /\
  ext_arg (x_al XLinks 3 [x01; x41; x00]) /\
  okb (process env0 (i_al true) (w_al raw_data 9000) (IAllocate (x_al XLinks 3 [x01; x41; x00]))) = true /\
  okb (process env0 (i_al true) (w_al [] 9000) (IAllocate (x_al XLinks 30 [x01; x41; x00]))) = true /\
  okb (process env0 (i_al true) (w_al [] 90) (IAllocate (x_al XLinks 30 [x01; x41; x00]))) = false /\
  okb (process env0 (i_al false) (w_al raw_data 9000) (IAllocate (x_al XLinks 3 [x01; x41; x00]))) = false /\
  okb (process env0 (i_al true) (w_al raw_data 9000) (IAllocate (x_al XBlob 3 [x01; x41; x00]))) = false /\
  okb (process env0 (i_al true) (w_al raw_data 9000) (IAllocate (x_al XLinks 2 [x01; x41; x00]))) = false.
Proof.
  split; [ok_arg|]. split; [ok_opt|]. split; [ok_opt|].
  split. { right. split; [lia|]. exact raw_layout. }
  split; [left; repeat split|]. split; [ok_wr|]. split; [ok_plain|]. split; [ok_sized|]. split; [ok_lam|].
  split; [split; [discriminate|split; vm_compute; intuition discriminate]|]. vm_compute. auto 10.
Qed.

(** Write: the account and the payer sign, the account can grow, and a payload
    that becomes complete is acceptable *)
Theorem C58_write : forall e infos w a asset payer hd l t len bs,
  arg infos 0 asset -> arg infos 1 payer -> arg infos 2 pk_zero ->
  partial_account (data (w asset)) hd l t len bs -> zlen bs < len -> w_overwrite a = false -> zlen bs + zlen (w_bytes a) <= len ->
  writable infos asset -> plain_accounts e infos w -> sized w -> lam_ok w -> env_ok e -> e_prog e <> pk_zero ->
  (exists w', process e infos w (IWrite a) = Ok w') <->
  signed infos payer /\ signed infos asset /\ acct_owner (w asset) = e_prog e /\ s_disc (data (w asset)) = x00 /\
  can_grow e infos w asset (Some payer) (Some pk_zero) (part_end l len (zlen bs + zlen (w_bytes a))) /\
  (zlen bs + zlen (w_bytes a) = len -> acceptable t (bs ++ w_bytes a)).
Proof. exact write_goes. Qed.
Print Assumptions C58_write.
Definition part_data : bytes := repeat x00 168 ++ enc_sect 168 plain_exts ++ le_enc 4 (ext_code XLinks) ++ le_enc 4 5 ++
  le_enc 4 (168 + sect_size plain_exts + 16 + (5 + 7) / 8 * 8) ++ repeat x00 4 ++ [x01; x41].
Example C58_write_case : arg (i_al true) 0 kAsset /\ arg (i_al true) 1 kPayer /\ arg (i_al true) 2 pk_zero /\
  partial_account (data (w_al part_data 9000 kAsset)) (repeat x00 168) plain_exts XLinks 5 [x01; x41] /\
  writable (i_al true) kAsset /\ plain_accounts env0 (i_al true) (w_al part_data 9000) /\ sized (w_al part_data 9000) /\ lam_ok (w_al part_data 9000) /\
  okb (process env0 (i_al true) (w_al part_data 9000) (IWrite (mkDataInput false [x02; x42; x43]))) = true /\
  okb (process env0 (i_al true) (w_al part_data 9000) (IWrite (mkDataInput false [x02; x42]))) = true /\
  okb (process env0 (i_al true) (w_al part_data 9000) (IWrite (mkDataInput false [x03; x42; x43]))) = false /\
  okb (process env0 (i_al false) (w_al part_data 9000) (IWrite (mkDataInput false [x02; x42; x43]))) = false.
Proof.
  split; [ok_arg|]. split; [ok_arg|]. split; [ok_arg|].
  split. { split; [reflexivity|]. split; [reflexivity|]. split; [constructor; [apply blkb_ok; vm_compute; reflexivity|constructor]|]. split; [discriminate|]. vm_compute. intuition discriminate. }
  split; [ok_wr|]. split; [ok_plain|]. split; [ok_sized|]. split; [ok_lam|]. vm_compute. auto 10.
Qed.

(** Create: the account signs and can be opened, or is the program's and not yet an
    asset; the inline extensions are complete, of types not yet there and
    different from each other; every payload is acceptable; the extensions suit
    the standard; and the asset may join the group passed.  Not for an account that
    exists and has to grow for inline extensions. *)
Theorem C58_create : forall e infos w m asset auth owner og oga payer sysp hd l n lg,
  arg infos 0 asset -> arg infos 1 auth -> arg infos 2 owner ->
  optional e infos 3 og -> optional e infos 4 oga -> optional e infos 5 payer -> optional e infos 6 sysp ->
  open_account (data (w asset)) hd l n -> Forall ext_arg (inline m) ->
  data (w asset) = [] \/ sect_size (inline_blks (inline m)) <= n ->
  (forall g, og = Some g -> writable infos g /\
     (acct_owner (w g) = e_prog e -> initialized (data (w g)) -> well_formed (data (w g)) lg /\ grouping_sane lg)) ->
  writable infos asset -> plain_accounts e infos w -> sized w -> env_ok e -> e_prog e <> pk_zero ->
  (exists w', process e infos w (ICreate m) = Ok w') <->
  signed infos asset /\
  (data (w asset) = [] -> can_open e infos w asset payer sysp (168 + sect_size (inline_blks (inline m)))) /\
  (data (w asset) <> [] -> acct_owner (w asset) = e_prog e /\ s_disc (data (w asset)) = x00) /\
  Forall (fun x => zlen (given x) = x_length x) (inline m) /\
  Forall (fun x => lookup (x_type x) (ext_list l) = None) (inline m) /\
  NoDup (map x_type (inline m)) /\
  Forall (fun b => acceptable (bk_type b) (bk_data b)) (l ++ inline_blks (inline m)) /\
  standard_ok e (m_standard m) asset (l ++ inline_blks (inline m)) /\
  (forall g, og = Some g -> may_join e infos w asset g (match oga with Some a => a | None => auth end) lg (s_group hd) (pk_bytes auth)).
Proof. exact create_goes. Qed.
Print Assumptions C58_create.
Definition i_cr (g ga : ainfo) : list ainfo :=
  [mkInfo kAsset true true; mkInfo kAuth false false; mkInfo kHolder false false; g; ga; mkInfo kPayer true true; mkInfo kSys false false].
Definition no_info : ainfo := mkInfo kProg false false.
Definition to_grp : ainfo := mkInfo kGroup false true.
Definition w_cr (d : bytes) (pay : Z) : world :=
  table [(kAsset, if zlen d =? 0 then wal 0 else acc d); (kPayer, wal pay); (kGroup, acc (grp_data 2 3))].
Definition m_cr (st : standard) (xs : list ext_input) : metadata_input := mkMetaInput [x41; x42] st true (Some xs).
Definition x_link : ext_input := x_al XLinks 5 [x01; x41; x02; x42; x43].
Definition x_mgr : ext_input := x_al XManager 33 man_payload.
Example C58_create_case : arg (i_cr to_grp (mkInfo kDeleg true false)) 0 kAsset /\ optional env0 (i_cr to_grp (mkInfo kDeleg true false)) 3 (Some kGroup) /\
  optional env0 (i_cr to_grp (mkInfo kDeleg true false)) 4 (Some kDeleg) /\
  open_account (data (w_cr raw_data 9000 kAsset)) (repeat x00 168) plain_exts 0 /\ Forall ext_arg (inline (m_cr Managed [x_link; x_mgr])) /\
  writable (i_cr to_grp (mkInfo kDeleg true false)) kGroup /\ well_formed (data (w_cr [] 9000 kGroup)) (grp_exts 2 3) /\ grouping_sane (grp_exts 2 3) /\
  plain_accounts env0 (i_cr to_grp (mkInfo kDeleg true false)) (w_cr [] 9000) /\ sized (w_cr [] 9000) /\
  okb (process env0 (i_cr no_info no_info) (w_cr [] 9000) (ICreate (m_cr Managed [x_link; x_mgr]))) = true /\
  okb (process env0 (i_cr to_grp (mkInfo kDeleg true false)) (w_cr [] 9000) (ICreate (m_cr NonFungible [x_link]))) = true /\
  okb (process env0 (i_cr to_grp (mkInfo kDeleg true false)) (w_cr raw_data 9000) (ICreate (m_cr NonFungible []))) = true /\
  okb (process env0 (i_cr no_info no_info) (w_cr [] 90) (ICreate (m_cr Managed [x_link; x_mgr]))) = false /\
  okb (process env0 (i_cr no_info no_info) (w_cr [] 9000) (ICreate (m_cr NonFungible [x_link; x_mgr]))) = false /\
  okb (process env0 (i_cr no_info no_info) (w_cr [] 9000) (ICreate (m_cr NonFungible [x_link; x_link]))) = false /\
  okb (process env0 (i_cr to_grp (mkInfo kOther true false)) (w_cr [] 9000) (ICreate (m_cr NonFungible [x_link]))) = false /\
  okb (process env0 (i_cr to_grp no_info) (w_cr [] 9000) (ICreate (m_cr NonFungible [x_link]))) = false.
Proof.
  split; [ok_arg|]. split; [ok_opt|]. split; [ok_opt|]. split. { right. split; [lia|]. exact raw_layout. }
  split; [repeat constructor; solve [discriminate|vm_compute; intuition discriminate]|].
  split; [ok_wr|]. split; [apply mk_wf; vm_compute; reflexivity|]. split; [intros b H; found H; vm_compute; lia|].
  split; [ok_plain|]. split; [ok_sized|]. vm_compute. auto 20.
Qed.

(** Update of name and mutability: the authority of a mutable asset signs *)
Theorem C58_update_head : forall e infos w asset auth ob og payer sysp hd l a, ready e infos w asset -> arg infos 1 auth ->
  optional e infos 2 ob -> optional e infos 3 og -> optional e infos 4 payer -> optional e infos 5 sysp ->
  layout (data (w asset)) hd l [] -> (length l < e_fuel e)%nat -> u_ext a = None -> ob = None ->
  (exists w', process e infos w (IUpdate a) = Ok w') <-> gate infos w asset /\ in_charge infos w asset auth.
Proof. exact update_head_exact. Qed.
Print Assumptions C58_update_head.

(** Update of an extension with bytes passed along: they are as many as announced and
    may replace what is there, and the account can be brought to the size needed *)
Theorem C58_update : forall e infos w asset auth ob og payer sysp hd l a, ready e infos w asset -> arg infos 1 auth ->
  optional e infos 2 ob -> optional e infos 3 og -> optional e infos 4 payer -> optional e infos 5 sysp ->
  layout (data (w asset)) hd l [] -> lam_ok w -> env_ok e -> e_prog e <> pk_zero -> e_heap_al e mod 8 = 0 -> (length l < e_fuel e)%nat ->
  forall x, u_ext a = Some x -> ob = None -> x_type x <> XNone -> 0 <= x_length x <= 2000000000 ->
  (exists w', process e infos w (IUpdate a) = Ok w') <->
  gate infos w asset /\ in_charge infos w asset auth /\
  match x_data x with
  | Some bs => zlen bs = x_length x /\ fits (x_type x) (lookup (x_type x) (ext_list l)) bs
  | None => x_length x = 0
  end /\
  (updated_size (data (w asset)) l (x_type x) (x_length x) <> zlen (data (w asset)) ->
   can_size e infos w asset payer sysp (updated_size (data (w asset)) l (x_type x) (x_length x))).
Proof. exact update_exact. Qed.
Print Assumptions C58_update.

(** bytes and a buffer at once are refused *)
Theorem C58_update_both : forall e infos w asset auth ob og payer sysp hd l a, ready e infos w asset -> arg infos 1 auth ->
  optional e infos 2 ob -> optional e infos 3 og -> optional e infos 4 payer -> optional e infos 5 sysp ->
  layout (data (w asset)) hd l [] -> (length l < e_fuel e)%nat ->
  forall x bk, u_ext a = Some x -> ob = Some bk -> ~ (exists w', process e infos w (IUpdate a) = Ok w').
Proof. exact update_both_refused. Qed.
Print Assumptions C58_update_both.

(** Update from a buffer: the buffer is the program's and not an asset; what must be
    a fitting payload are the bytes at offset 168, which are the buffer's extension header
    and the start of its payload, not the payload *)
Theorem C58_update_buffer : forall e infos w asset auth ob og payer sysp hd l a, ready e infos w asset -> arg infos 1 auth ->
  optional e infos 2 ob -> optional e infos 3 og -> optional e infos 4 payer -> optional e infos 5 sysp ->
  layout (data (w asset)) hd l [] -> lam_ok w -> env_ok e -> e_prog e <> pk_zero -> (length l < e_fuel e)%nat ->
  forall bk hb bb lb tb, u_ext a = None -> ob = Some bk -> bk <> asset -> writable infos bk ->
  layout (data (w bk)) hb (bb :: lb) tb ->
  (exists w', process e infos w (IUpdate a) = Ok w') <->
  gate infos w asset /\ in_charge infos w asset auth /\ acct_owner (w bk) = e_prog e /\ s_disc (data (w bk)) = x00 /\
  fits (bk_type bb) (lookup (bk_type bb) (ext_list l)) (sub (data (w bk)) 168 (length (bk_data bb))) /\
  (updated_size (data (w asset)) l (bk_type bb) (zlen (bk_data bb)) <> zlen (data (w asset)) ->
   can_size e infos w asset payer sysp (updated_size (data (w asset)) l (bk_type bb) (zlen (bk_data bb)))).
Proof. exact update_buffer_exact. Qed.
Print Assumptions C58_update_buffer.
Definition i_up (s b : pubkey) : list ainfo :=
  [mkInfo kAsset false true; mkInfo s true false; mkInfo b false true; mkInfo kProg false false; mkInfo kPayer true true; mkInfo kSys false false].
Definition w_up (pay : Z) : world := table [(kAsset, acc plain_data); (kPayer, wal pay); (kBuf, acc raw_data); (kOther, acc (mk (repeat x00 168) [blk_of XBlob [x00]]))].
Definition u_up (x : ext_input) : update_input := mkUpdInput (Some [x51]) None (Some x).
Definition u_hd : update_input := mkUpdInput (Some [x51]) None None.
Example C58_update_case : ready env0 (i_up kAuth kProg) (w_up 9000) kAsset /\ arg (i_up kAuth kProg) 1 kAuth /\ optional env0 (i_up kAuth kProg) 2 None /\
  optional env0 (i_up kAuth kProg) 3 None /\ optional env0 (i_up kAuth kProg) 4 (Some kPayer) /\ optional env0 (i_up kAuth kProg) 5 (Some kSys) /\
  layout (data (w_up 9000 kAsset)) (header x01 x00 x00 x01 kHolder pk_zero kAuth kDeleg x07) plain_exts [] /\ lam_ok (w_up 9000) /\
  (length plain_exts < e_fuel env0)%nat /\
  okb (process env0 (i_up kAuth kProg) (w_up 9000) (IUpdate u_hd)) = true /\
  okb (process env0 (i_up kHolder kProg) (w_up 9000) (IUpdate u_hd)) = false /\
  okb (process env0 (i_up kAuth kProg) (w_up 9000) (IUpdate (u_up x_link))) = true /\
  okb (process env0 (i_up kAuth kProg) (w_up 9000) (IUpdate (u_up (x_al XBlob 2 [x01; x41])))) = true /\
  okb (process env0 (i_up kAuth kProg) (w_up 9000) (IUpdate (u_up (x_al XBlob 2 [x02; x41])))) = false /\
  okb (process env0 (i_up kAuth kProg) (w_up 9000) (IUpdate (u_up x_mgr))) = false /\
  okb (process env0 (i_up kAuth kProg) (w_up 9000) (IUpdate (u_up (mkExtInput XLinks 0 None)))) = true.
Proof.
  split; [ok_ready|]. split; [ok_arg|]. split; [ok_arg|]. split; [ok_arg|]. split; [ok_opt|]. split; [ok_opt|].
  split. { change (data (w_up 9000 kAsset)) with plain_data. unfold plain_data, mk. rewrite <- (app_nil_r (enc_sect 168 plain_exts)). apply mk_layout. vm_compute. reflexivity. }
  split; [ok_lam|]. split; [vm_compute; lia|]. vm_compute. auto 20.
Qed.
Example C58_update_buffer_case : ready env0 (i_up kAuth kBuf) (w_up 9000) kAsset /\ optional env0 (i_up kAuth kBuf) 2 (Some kBuf) /\ writable (i_up kAuth kBuf) kBuf /\
  layout (data (w_up 9000 kBuf)) (repeat x00 168) [blk_of XBlob [x01; x02; x03; x04; x05]] [] /\
  sub (data (w_up 9000 kBuf)) 168 5 = [x02; x00; x00; x00; x05] /\
  okb (process env0 (i_up kAuth kBuf) (w_up 9000) (IUpdate u_hd)) = true /\
  okb (process env0 (i_up kAuth kOther) (w_up 9000) (IUpdate u_hd)) = false /\
  okb (process env0 (i_up kAuth kProg) (w_up 9000) (IUpdate (u_up (x_al XBlob 1 [x00])))) = true /\
  okb (process env0 (i_up kAuth kBuf) (w_up 9000) (IUpdate (u_up x_link))) = false.
Proof.
  split; [ok_ready|]. split; [ok_opt|]. split; [ok_wr|]. split; [exact raw_layout|]. vm_compute. auto 20.
Qed.

(** C59.  Payloads a new extension may have, and payloads that may replace another, at
    the addresses the program keeps them at (multiples of 8) *)
Theorem C59_create : forall t al auth b, al mod 8 = 0 -> (exists b', on_create t al auth b = Ok b') <-> acceptable t b.
Proof. exact on_create_goes. Qed.
Print Assumptions C59_create.
Theorem C59_update : forall t al1 cur al b auth, al1 mod 8 = 0 -> al mod 8 = 0 ->
  (exists b', on_update t al1 cur al b auth = Ok b') <-> replaceable t cur b.
Proof. exact on_update_goes. Qed.
Print Assumptions C59_update.
Definition cr1 (k : pubkey) (f s : byte) : bytes := pk_bytes k ++ [f; s].
Ltac taken := apply (proj1 (C59_create _ 0 None _ eq_refl)); eexists; vm_compute; reflexivity.
Ltac untaken := let H := fresh in intro H; apply (proj2 (C59_create _ 0 None _ eq_refl)) in H as [? H]; vm_compute in H; discriminate H.
Ltac swapped := apply (proj1 (C59_update _ 0 _ 0 _ None eq_refl eq_refl)); eexists; vm_compute; reflexivity.
Ltac unswapped := let H := fresh in intro H; apply (proj2 (C59_update _ 0 _ 0 _ None eq_refl eq_refl)) in H as [? H]; vm_compute in H; discriminate H.
Example C59_create_case :
  acceptable XLinks [x01; x41; x02; x42; x43] /\ ~ acceptable XLinks [x01; x41; x03; x42; x43] /\
  acceptable XProperties [x01; x41; x02; x01] /\ ~ acceptable XProperties [x01; x41; x03; x01] /\
  acceptable XMetadata [x01; x41; x00; x01; x42] /\ ~ acceptable XMetadata [x01; x41; x00] /\
  acceptable XCreators (cr1 kHolder x00 x3c ++ cr1 kOther x01 x28) /\ ~ acceptable XCreators (cr1 kHolder x00 x3c) /\
  acceptable XRoyalties (build_royalties 500 FEmpty) /\ ~ acceptable XRoyalties (build_royalties 10001 FEmpty) /\
  acceptable XGrouping (grp_payload 0 3) /\ ~ acceptable XGrouping (grp_payload 1 3).
Proof.
  split; [taken|]. split; [untaken|]. split; [taken|]. split; [untaken|]. split; [taken|]. split; [untaken|].
  split; [taken|]. split; [untaken|]. split; [taken|]. split; [untaken|]. split; [taken|untaken].
Qed.
Example C59_update_case :
  replaceable XGrouping (grp_payload 2 0) (grp_payload 9 2) /\ ~ replaceable XGrouping (grp_payload 2 0) (grp_payload 0 1) /\
  replaceable XCreators (cr1 kHolder x01 x64) (cr1 kOther x00 x32 ++ cr1 kHolder x00 x32) /\
  ~ replaceable XCreators (cr1 kHolder x01 x64) (cr1 kOther x00 x64).
Proof. split; [swapped|]. split; [unswapped|]. split; [swapped|unswapped]. Qed.
(** ... and directly from the formats *)
Example C59_format : acceptable XLinks [x01; x41; x02; x42; x43].
Proof.
  split; [|repeat split; discriminate].
  change (pairs_in ([x01; x41] ++ [x02; x42; x43] ++ [])). apply (pairs_cons [x41] [x42; x43]); [split; [vm_compute; discriminate|reflexivity]| |constructor].
  split; [vm_compute; discriminate|reflexivity].
Qed.

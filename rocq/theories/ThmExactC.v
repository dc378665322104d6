(** Property theorems: the remaining cases of C58: Create on an account that has to grow,
    Write over what was written, Update on an account with bytes after its
    extensions. *)
From Verif Require Import Base State Layout Constr Ext World Proc BaseL Spec SpecB SpecC SpecE SpecF SpecH SpecL SpecW WorldL LayoutL ConstrL ExactL ExactM AcceptL ExactN ExactO ExactP GrowL OverL TailL Sample SampleE ThmExactB ThmLive.
From Coq Require Import Strings.Byte.

(** Create: as [C58_create], also when the account exists and has to grow; that it can
    grow by all the inline extensions at once is then asked for too *)
Theorem C58_create_grow : forall e infos w m asset auth owner og oga payer sysp hd l n lg,
  arg infos 0 asset -> arg infos 1 auth -> arg infos 2 owner ->
  optional e infos 3 og -> optional e infos 4 oga -> optional e infos 5 payer -> optional e infos 6 sysp ->
  open_account (data (w asset)) hd l n -> Forall ext_arg (inline m) ->
  (forall g, og = Some g -> writable infos g /\
     (acct_owner (w g) = e_prog e -> initialized (data (w g)) -> well_formed (data (w g)) lg /\ grouping_sane lg)) ->
  writable infos asset -> plain_accounts e infos w -> sized w -> env_ok e -> rent_mono e -> e_prog e <> pk_zero ->
  (exists w', process e infos w (ICreate m) = Ok w') <->
  signed infos asset /\
  (data (w asset) = [] -> can_open e infos w asset payer sysp (168 + sect_size (inline_blks (inline m)))) /\
  (data (w asset) <> [] -> acct_owner (w asset) = e_prog e /\ s_disc (data (w asset)) = x00) /\
  (data (w asset) <> [] -> zlen (data (w asset)) < 168 + sect_size l + sect_size (inline_blks (inline m)) ->
     can_grow e infos w asset payer sysp (168 + sect_size l + sect_size (inline_blks (inline m)))) /\
  Forall (fun x => zlen (given x) = x_length x) (inline m) /\
  Forall (fun x => lookup (x_type x) (ext_list l) = None) (inline m) /\
  NoDup (map x_type (inline m)) /\
  Forall (fun b => acceptable (bk_type b) (bk_data b)) (l ++ inline_blks (inline m)) /\
  standard_ok e (m_standard m) asset (l ++ inline_blks (inline m)) /\
  (forall g, og = Some g -> may_join e infos w asset g (match oga with Some a => a | None => auth end) lg (s_group hd) (pk_bytes auth)).
Proof. exact create_grow. Qed.
Print Assumptions C58_create_grow.
Example C58_create_grow_case : arg (i_cr no_info no_info) 0 kAsset /\ open_account (data (w_cr raw_data 9000 kAsset)) (repeat x00 168) plain_exts 0 /\
  Forall ext_arg (inline (m_cr Managed [x_link; x_mgr])) /\ plain_accounts env0 (i_cr no_info no_info) (w_cr raw_data 9000) /\ sized (w_cr raw_data 9000) /\ rent_mono env0 /\
  zlen (data (w_cr raw_data 9000 kAsset)) < 168 + sect_size plain_exts + sect_size (inline_blks (inline (m_cr Managed [x_link; x_mgr]))) /\
  okb (process env0 (i_cr no_info no_info) (w_cr raw_data 9000) (ICreate (m_cr Managed [x_link; x_mgr]))) = true /\
  okb (process env0 (i_cr no_info no_info) (w_cr raw_data 9000) (ICreate (m_cr Managed [x_link; x_al XBlob 1 [x00]; x_mgr]))) = false /\
  okb (process env0 (i_cr no_info no_info) (table [(kAsset, mkAcct 10 (e_prog env0) raw_data); (kPayer, wal 90)]) (ICreate (m_cr Managed [x_link; x_mgr]))) = false.
Proof.
  split; [ok_arg|]. split. { right. split; [lia|]. exact raw_layout. }
  split; [repeat constructor; solve [discriminate|vm_compute; intuition discriminate]|].
  split; [ok_plain|]. split; [ok_sized|]. split; [exact env0_mono|]. vm_compute. auto 20.
Qed.

(** Write with the overwrite flag, at most as many bytes as announced: the account is
    brought to the size the payload then has, without padding *)
Theorem C58_overwrite : forall e infos w a asset payer hd l t len bs,
  arg infos 0 asset -> arg infos 1 payer -> arg infos 2 pk_zero ->
  partial_account (data (w asset)) hd l t len bs -> w_overwrite a = true -> zlen (w_bytes a) <= len ->
  writable infos asset -> plain_accounts e infos w -> sized w -> lam_ok w -> env_ok e -> e_prog e <> pk_zero ->
  (exists w', process e infos w (IWrite a) = Ok w') <->
  signed infos payer /\ signed infos asset /\ acct_owner (w asset) = e_prog e /\ s_disc (data (w asset)) = x00 /\
  can_size e infos w asset (Some payer) (Some pk_zero) (168 + sect_size l + 16 + zlen (w_bytes a)) /\
  (zlen (w_bytes a) = len -> acceptable t (w_bytes a)).
Proof. exact over_goes. Qed.
Print Assumptions C58_overwrite.
(** what it leaves: the bytes given in place of those there, checked and with the
    flags cleared once they are complete *)
Theorem C58_overwrite_effect : forall e infos w a w' asset hd l t len bs,
  arg infos 0 asset -> partial_account (data (w asset)) hd l t len bs -> w_overwrite a = true -> zlen (w_bytes a) <= len ->
  process e infos w (IWrite a) = Ok w' ->
  signed infos asset /\ acct_owner (w asset) = e_prog e /\
  (exists b', partial_account (data (w' asset)) hd l t len b' /\
     (zlen (w_bytes a) < len -> b' = w_bytes a) /\
     (zlen (w_bytes a) = len -> fresh_payload t None (w_bytes a) b' /\ acceptable t (w_bytes a))) /\
  (forall k, k <> asset -> data (w' k) = data (w k)) /\ (forall k, acct_owner (w' k) = acct_owner (w k)).
Proof. exact over_effect. Qed.
Print Assumptions C58_overwrite_effect.
(** A payload completed that way and not a multiple of eight bytes long lacks its
    padding, and Create without inline extensions refuses the account *)
Theorem C58_unpadded_stuck : forall e infos w m asset hd l t len bs,
  arg infos 0 asset -> partial_account (data (w asset)) hd l t len bs -> zlen bs = len -> len mod 8 <> 0 -> inline m = [] ->
  ~ exists w', process e infos w (ICreate m) = Ok w'.
Proof. exact unpadded_stuck. Qed.
Print Assumptions C58_unpadded_stuck.
Definition full_data : bytes := repeat x00 168 ++ enc_sect 168 plain_exts ++ le_enc 4 (ext_code XLinks) ++ le_enc 4 5 ++
  le_enc 4 (168 + sect_size plain_exts + 16 + (5 + 7) / 8 * 8) ++ repeat x00 4 ++ [x01; x41; x02; x42; x43].
Definition after (r : res world) (k : pubkey) : bytes := match r with Ok w => data (w k) | _ => [] end.
Example C58_overwrite_case : arg (i_al true) 0 kAsset /\ arg (i_al true) 1 kPayer /\ arg (i_al true) 2 pk_zero /\
  partial_account (data (w_al part_data 9000 kAsset)) (repeat x00 168) plain_exts XLinks 5 [x01; x41] /\
  partial_account (data (w_al full_data 9000 kAsset)) (repeat x00 168) plain_exts XLinks 5 [x01; x41; x02; x42; x43] /\
  writable (i_al true) kAsset /\ plain_accounts env0 (i_al true) (w_al part_data 9000) /\ sized (w_al part_data 9000) /\ lam_ok (w_al part_data 9000) /\
  after (process env0 (i_al true) (w_al part_data 9000) (IWrite (mkDataInput true [x01; x41; x02; x42; x43]))) kAsset = full_data /\
  after (process env0 (i_al true) (w_al full_data 9000) (IWrite (mkDataInput true [x01; x41]))) kAsset = part_data /\
  okb (process env0 (i_al true) (w_al part_data 9000) (IWrite (mkDataInput true [x01; x41; x03; x42; x43]))) = false /\
  okb (process env0 (i_al false) (w_al part_data 9000) (IWrite (mkDataInput true [x01]))) = false /\
  okb (process env0 (i_cr no_info no_info) (w_cr full_data 9000) (ICreate (m_cr NonFungible []))) = false /\
  okb (process env0 (i_cr no_info no_info) (w_cr (full_data ++ [x00; x00; x00]) 9000) (ICreate (m_cr NonFungible []))) = true.
Proof.
  split; [ok_arg|]. split; [ok_arg|]. split; [ok_arg|].
  split. { split; [reflexivity|]. split; [reflexivity|]. split; [constructor; [apply blkb_ok; vm_compute; reflexivity|constructor]|]. split; [discriminate|]. vm_compute. intuition discriminate. }
  split. { split; [reflexivity|]. split; [reflexivity|]. split; [constructor; [apply blkb_ok; vm_compute; reflexivity|constructor]|]. split; [discriminate|]. vm_compute. intuition discriminate. }
  split; [ok_wr|]. split; [ok_plain|]. split; [ok_sized|]. split; [ok_lam|]. vm_compute. auto 10.
Qed.

(** Update, whatever comes after the extensions *)
Theorem C58_update_any : forall e infos w asset auth ob og payer sysp hd l tl a, ready e infos w asset -> arg infos 1 auth ->
  optional e infos 2 ob -> optional e infos 3 og -> optional e infos 4 payer -> optional e infos 5 sysp ->
  layout (data (w asset)) hd l tl -> lam_ok w -> env_ok e -> e_prog e <> pk_zero -> e_heap_al e mod 8 = 0 -> (length l < e_fuel e)%nat ->
  forall x, u_ext a = Some x -> ob = None -> x_type x <> XNone -> 0 <= x_length x <= 2000000000 ->
  (exists w', process e infos w (IUpdate a) = Ok w') <->
  gate infos w asset /\ in_charge infos w asset auth /\
  match x_data x with
  | None => x_length x = 0
  | Some bs => zlen bs = x_length x /\ fits (x_type x) (lookup (x_type x) (ext_list l)) bs
  end /\
  room_ok e infos w asset payer sysp a l tl (x_type x) (x_length x).
Proof. exact update_any. Qed.
Print Assumptions C58_update_any.
Theorem C58_update_head_any : forall e infos w asset auth ob og payer sysp hd l tl a, ready e infos w asset -> arg infos 1 auth ->
  optional e infos 2 ob -> optional e infos 3 og -> optional e infos 4 payer -> optional e infos 5 sysp ->
  layout (data (w asset)) hd l tl -> (length l < e_fuel e)%nat -> u_ext a = None -> ob = None ->
  (exists w', process e infos w (IUpdate a) = Ok w') <-> gate infos w asset /\ in_charge infos w asset auth.
Proof. exact update_head_t. Qed.
Print Assumptions C58_update_head_any.
Theorem C58_update_both_any : forall e infos w asset auth ob og payer sysp hd l tl a, ready e infos w asset -> arg infos 1 auth ->
  optional e infos 2 ob -> optional e infos 3 og -> optional e infos 4 payer -> optional e infos 5 sysp ->
  layout (data (w asset)) hd l tl -> (length l < e_fuel e)%nat ->
  forall x bk, u_ext a = Some x -> ob = Some bk -> ~ (exists w', process e infos w (IUpdate a) = Ok w').
Proof. exact update_both_t. Qed.
Print Assumptions C58_update_both_any.
Theorem C58_update_buffer_any : forall e infos w asset auth ob og payer sysp hd l tl a, ready e infos w asset -> arg infos 1 auth ->
  optional e infos 2 ob -> optional e infos 3 og -> optional e infos 4 payer -> optional e infos 5 sysp ->
  layout (data (w asset)) hd l tl -> lam_ok w -> env_ok e -> e_prog e <> pk_zero -> (length l < e_fuel e)%nat ->
  forall bk hb bb lb tb, u_ext a = None -> ob = Some bk -> bk <> asset -> writable infos bk ->
  layout (data (w bk)) hb (bb :: lb) tb ->
  (exists w', process e infos w (IUpdate a) = Ok w') <->
  gate infos w asset /\ in_charge infos w asset auth /\ acct_owner (w bk) = e_prog e /\ s_disc (data (w bk)) = x00 /\
  fits (bk_type bb) (lookup (bk_type bb) (ext_list l)) (sub (data (w bk)) 168 (length (bk_data bb))) /\
  room_ok e infos w asset payer sysp a l tl (bk_type bb) (zlen (bk_data bb)).
Proof. exact update_buffer_any. Qed.
Print Assumptions C58_update_buffer_any.
(** One to fifteen bytes after the extensions: no extension can be added, nor replaced by
    one that takes as much room *)
Theorem C58_short_tail : forall e infos w asset auth ob og payer sysp hd l tl a, ready e infos w asset -> arg infos 1 auth ->
  optional e infos 2 ob -> optional e infos 3 og -> optional e infos 4 payer -> optional e infos 5 sysp ->
  layout (data (w asset)) hd l tl -> lam_ok w -> env_ok e -> e_prog e <> pk_zero -> e_heap_al e mod 8 = 0 -> (length l < e_fuel e)%nat ->
  forall x, u_ext a = Some x -> ob = None -> x_type x <> XNone -> 0 <= x_length x <= 2000000000 -> 0 < zlen tl < 16 ->
  (forall cur, lookup (x_type x) (ext_list l) = Some cur -> room_for (zlen cur) = room_for (x_length x)) ->
  ~ exists w', process e infos w (IUpdate a) = Ok w'.
Proof. exact short_tail_stuck. Qed.
Print Assumptions C58_short_tail.
(** Sixteen or more, with a zero boundary word as Resize makes them: the update of an
    extension that takes the same room depends on the owner's key, because the
    walk over the boundaries goes on at the start of the account.  If bytes 4 to 7 of
    the key are zero it never ends, whatever the budget; if as a number they are
    no less than the account's size, it ends. *)
Theorem C58_zero_tail_stuck : forall e infos w asset auth ob og payer sysp hd l tl a, ready e infos w asset -> arg infos 1 auth ->
  optional e infos 2 ob -> optional e infos 3 og -> optional e infos 4 payer -> optional e infos 5 sysp ->
  layout (data (w asset)) hd l tl -> lam_ok w -> env_ok e -> e_prog e <> pk_zero -> e_heap_al e mod 8 = 0 -> (length l < e_fuel e)%nat ->
  forall x cur, u_ext a = Some x -> ob = None -> x_type x <> XNone -> 0 <= x_length x <= 2000000000 -> 16 <= zlen tl -> le32 tl 8 = 0 ->
  lookup (x_type x) (ext_list l) = Some cur -> room_for (zlen cur) = room_for (x_length x) -> owner_word (data (w asset)) = 0 ->
  ~ exists w', process e infos w (IUpdate a) = Ok w'.
Proof. exact zero_tail_stuck. Qed.
Print Assumptions C58_zero_tail_stuck.
Theorem C58_zero_tail_fine : forall e infos w asset auth ob og payer sysp hd l tl a, ready e infos w asset -> arg infos 1 auth ->
  optional e infos 2 ob -> optional e infos 3 og -> optional e infos 4 payer -> optional e infos 5 sysp ->
  layout (data (w asset)) hd l tl -> lam_ok w -> env_ok e -> e_prog e <> pk_zero -> e_heap_al e mod 8 = 0 -> (length l < e_fuel e)%nat ->
  forall x cur, u_ext a = Some x -> ob = None -> x_type x <> XNone -> 0 <= x_length x <= 2000000000 -> 16 <= zlen tl -> le32 tl 8 = 0 ->
  lookup (x_type x) (ext_list l) = Some cur -> room_for (zlen cur) = room_for (x_length x) ->
  zlen (data (w asset)) <= owner_word (data (w asset)) -> (length l + 2 < e_fuel e)%nat ->
  (exists w', process e infos w (IUpdate a) = Ok w') <->
  gate infos w asset /\ in_charge infos w asset auth /\
  match x_data x with
  | None => x_length x = 0
  | Some bs => zlen bs = x_length x /\ fits (x_type x) (Some cur) bs
  end.
Proof. exact zero_tail_fine. Qed.
Print Assumptions C58_zero_tail_fine.
(** the holder [kZ] has four zero bytes in their key *)
Definition kZ : pubkey := mkPk (repeat x33 4 ++ repeat x00 4 ++ repeat x33 24) eq_refl.
Definition w_tl (k : pubkey) (n : nat) : world :=
  table [(kAsset, acc (header x01 x00 x00 x01 k pk_zero kAuth kDeleg x07 ++ enc_sect 168 plain_exts ++ repeat x00 n)); (kPayer, wal 9000);
         (kBuf, acc raw_data)].
Definition u_tl (t : ext_type) (b : bytes) : update_input := mkUpdInput (Some [x51]) (Some true) (Some (x_al t (zlen b) b)).
Definition sz (r : res world) : option Z := match r with Ok w => Some (zlen (data (w kAsset))) | _ => None end.
Example C58_tail_case : ready env0 (i_up kAuth kProg) (w_tl kZ 24) kAsset /\ lam_ok (w_tl kZ 24) /\
  layout (data (w_tl kZ 24 kAsset)) (header x01 x00 x00 x01 kZ pk_zero kAuth kDeleg x07) plain_exts (repeat x00 24) /\
  layout (data (w_tl kHolder 5 kAsset)) (header x01 x00 x00 x01 kHolder pk_zero kAuth kDeleg x07) plain_exts (repeat x00 5) /\
  owner_word (data (w_tl kZ 24 kAsset)) = 0 /\ zlen (data (w_tl kHolder 24 kAsset)) <= owner_word (data (w_tl kHolder 24 kAsset)) /\
  sz (process env0 (i_up kAuth kProg) (w_tl kHolder 24) (IUpdate (u_tl XBlob [x00; x02]))) = Some 216 /\
  sz (process env0 (i_up kAuth kProg) (w_tl kZ 24) (IUpdate (u_tl XBlob [x00; x02]))) = None /\
  sz (process env0 (i_up kAuth kProg) (w_tl kZ 24) (IUpdate (u_tl XBlob (repeat x00 12)))) = Some 200 /\
  sz (process env0 (i_up kAuth kProg) (w_tl kZ 24) (IUpdate (u_tl XLinks [x01; x41; x01; x42]))) = Some 216 /\
  sz (process env0 (i_up kAuth kProg) (w_tl kHolder 5) (IUpdate (u_tl XBlob [x00; x02]))) = None /\
  sz (process env0 (i_up kAuth kProg) (w_tl kHolder 5) (IUpdate (u_tl XLinks [x01; x41; x01; x42]))) = None /\
  sz (process env0 (i_up kAuth kProg) (w_tl kHolder 5) (IUpdate (u_tl XBlob (repeat x00 12)))) = Some 200 /\
  sz (process env0 (i_up kAuth kBuf) (w_tl kHolder 24) (IUpdate u_hd)) = Some 216.
Proof.
  split; [ok_ready|]. split; [ok_lam|]. split; [apply mk_layout; vm_compute; reflexivity|]. split; [apply mk_layout; vm_compute; reflexivity|].
  vm_compute. intuition discriminate.
Qed.

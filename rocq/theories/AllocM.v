(** Allocate and Write: what the account holds afterwards. *)
From Verif Require Import Base State Layout Constr Ext World Proc BaseL Spec WorldL ProcSteps LayoutL LayoutE HeadL CreatorsL AuthL AllocL.
From Coq Require Import Strings.Byte.

Lemma bnd_pad8 l len : Forall blk_ok l -> 168 + sect_size l + 16 + (len + 7) / 8 * 8 = pad8 (168 + sect_size l + 16 + len).
Proof. intro H. pose proof (sect_size_mod l H). unfold pad8. lia. Qed.

Lemma open_contains d hd l n t : open_account d hd l n -> zlen d <> 0 -> t <> XNone ->
  asset_contains t d = Ok (match lookup t (ext_list l) with Some _ => true | None => false end).
Proof.
  intros [(-> & _)|[Hn HL]] Hz Ht; [elim Hz; reflexivity|]. exact (layout_contains _ _ _ _ HL t Ht).
Qed.
Lemma open_room d hd l n : open_account d hd l n ->
  room d (hd ++ enc_sect 168 l) n /\ zlen (hd ++ enc_sect 168 l) = 168 + sect_size l /\ 0 <= n /\
  Forall blk_ok l /\ zlen hd = 168.
Proof.
  intros [(-> & -> & -> & ->)|[Hn HL]].
  - cbn [enc_sect sect_size]. rewrite app_nil_r. split; [left; auto|]. repeat split; auto; lia.
  - destruct (layout_prefix _ _ _ _ HL) as [E1 E2]. split; [right; split; [exact E1|]|].
    + rewrite E2. pose proof (sect_size_nonneg l). lia.
    + destruct HL as (_ & ? & ? & _). auto.
Qed.

Lemma do_allocate_effect e infos w0 w asset payer sysp x w' hd l n :
  open_account (data (w asset)) hd l n -> zlen (data (w asset)) <= 10485760 -> x_type x <> XNone ->
  0 <= x_length x <= u32_max -> zlen (given x) < two32 ->
  do_allocate e infos w0 w asset payer sysp x = Ok w' ->
  is_signer infos asset = true /\
  lookup (x_type x) (ext_list l) = None /\ zlen (given x) <= x_length x /\
  (x_length x = zlen (given x) ->
     data (w' asset) = hd ++ enc_sect 168 l ++ enc_blk (168 + sect_size l) (blk_of (x_type x) (given x)) ++
        zeros (n - blk_size (blk_of (x_type x) (given x))) /\
     open_account (data (w' asset)) hd (l ++ [blk_of (x_type x) (given x)])
       (Z.max 0 (n - blk_size (blk_of (x_type x) (given x)))) /\
     zlen (data (w' asset)) <= zlen (data (w asset)) + 10240) /\
  (zlen (given x) < x_length x ->
     data (w' asset) = hd ++ enc_sect 168 l ++ enc_hdr (ext_code (x_type x)) (x_length x) (pad8 (168 + sect_size l + 16 + x_length x)) ++
       zeros 4 ++ given x) /\
  (forall k, k <> asset -> data (w' k) = data (w k) /\ acct_owner (w' k) = acct_owner (w k)) /\
  (data (w asset) = [] -> acct_owner (w' asset) = e_prog e) /\
  (data (w asset) <> [] -> acct_owner (w' asset) = e_prog e /\ acct_owner (w asset) = e_prog e /\ s_disc hd = x00).
Proof.
  intros HO Hs Ht Hx Hbs H. destruct (open_room _ _ _ _ HO) as (Hr & HP & Hn & Hf & Hh).
  unfold do_allocate in H. apply require_ok in H as [Hsg H]. cbv zeta in H.
  apply bind_ok in H as (st & Hst & H). apply bind_ok in H as (bs & Hb & H).
  assert (Ebs : bs = given x /\ zlen (given x) <= x_length x).
  { unfold given in *. destruct (x_data x) as [b|]; rinv Hb; [|cbn; split; [reflexivity|lia]].
    split; [reflexivity|]. rewrite Z.mod_small in Hc by (pose proof (zlen_nonneg bs); unfold two32 in *; lia). lia. }
  destruct Ebs as [-> Hle]. clear Hb.
  assert (Est : st = (negb (zlen (data (w asset)) =? 0), 168 + sect_size l) /\ lookup (x_type x) (ext_list l) = None /\
     (data (w asset) <> [] -> acct_owner (w asset) = e_prog e /\ s_disc hd = x00)).
  { destruct (zlen (data (w asset)) =? 0) eqn:E.
    - inv Hst. apply Z.eqb_eq, zlen_0 in E.
      destruct HO as [(E1 & -> & -> & ->)|[_ HL]]; [repeat split; auto; contradiction|].
      pose proof (layout_len _ _ _ _ HL). rewrite E in *. change (zlen []) with 0 in *.
      pose proof (sect_size_nonneg l). pose proof (zlen_nonneg (repeat x00 (Z.to_nat n))). lia.
    - rinv Hst. rewrite (open_contains _ _ _ _ _ HO) in Hx0 by (auto; lia). inv Hx0.
      assert (El : lookup (x_type x) (ext_list l) = None) by (destruct (lookup (x_type x) (ext_list l)); [discriminate Hc2|reflexivity]).
      destruct HO as [(E1 & _)|[_ HL]]; [rewrite E1 in E; discriminate E|].
      destruct (layout_last_bnd _ _ _ _ HL) as (o & Ho & Eo). rewrite Ho in Hx1. inv Hx1.
      cbn [negb].
      split; [|split; [assumption|intros _; split; [unfold owned_by_prog in Hc; now bnorm|]]].
      + destruct x1 as [[h off]|]; [apply require_ok in Hst as [_ Hst]|]; injection Hst as <-; rewrite <- Eo; reflexivity.
      + apply beqb_eq in Hc1. unfold s_disc. rewrite <- Hc1 at 2.
        destruct HL as (-> & _). unfold byte_at. rewrite app_nth1 by (unfold zlen in Hh; lia). reflexivity. }
  destruct Est as (-> & El & Hown). cbn [fst snd] in H.
  rewrite <- HP in H. eapply save_ext_effect in H; [|exact Hr|reflexivity|lia| |lia|assumption].
  2:{ rewrite HP. pose proof (sect_size_mod l Hf). lia. }
  destruct H as (S1 & S2 & S3 & S4). rewrite HP in *.
  split; [assumption|]. split; [assumption|]. split; [assumption|].
  pose proof (sect_size_mod l Hf) as Hmod. pose proof (sect_size_nonneg l) as Hnn.
  pose proof (pad8_ge (16 + zlen (given x))) as Hp8. pose proof (zlen_nonneg (given x)) as Hg0.
  split; [|split; [|split; [|split]]].
  - intro Q. replace (x_length x =? zlen (given x)) with true in S1 by lia. rewrite Q in S1.
    assert (E : data (w' asset) = hd ++ enc_sect 168 l ++ enc_blk (168 + sect_size l) (blk_of (x_type x) (given x)) ++
        zeros (n - blk_size (blk_of (x_type x) (given x)))).
    { rewrite S1, blk_of_size. rewrite <- app_assoc.
      assert (EZ : forall z, zeros z = zeros (Z.max 0 z)) by (intro z; unfold zeros; f_equal; lia).
      rewrite (EZ (n - _)). rewrite <- full_block by lia.
      replace (Z.max n (pad8 (16 + zlen (given x))) - 16 - zlen (given x)) with
        (pad8 (16 + zlen (given x)) - 16 - zlen (given x) + Z.max 0 (n - pad8 (16 + zlen (given x)))) by lia.
      reflexivity. }
    split; [exact E|].
    assert (Hlen : zlen (data (w' asset)) <= zlen (data (w asset)) + 10240).
    { specialize (S4 Q). rewrite S1. rewrite !zlen_app. rewrite zlen_enc_sect by assumption.
      change (zlen (enc_hdr _ _ _)) with 12. rewrite !zlen_zeros by lia.
      destruct Hr as [(E1 & _ & En)|(E1 & _)]; rewrite E1 in *.
      - change (zlen []) with 0 in *. unfold pad8 in *. lia.
      - rewrite !zlen_app in *. rewrite zlen_enc_sect in * by assumption. rewrite zlen_zeros in * by lia. unfold pad8 in *. lia. }
    split; [|exact Hlen]. right. split; [lia|].
    assert (HH : zlen (data (w' asset)) < 2147483648) by lia.
    replace (repeat x00 (Z.to_nat (Z.max 0 (n - blk_size (blk_of (x_type x) (given x))))))
      with (zeros (n - blk_size (blk_of (x_type x) (given x)))) by (unfold zeros; f_equal; lia).
    split.
    + rewrite E. rewrite enc_sect_app. cbn [enc_sect]. now rewrite app_nil_r, <- !app_assoc.
    + split; [assumption|]. split; [apply Forall_app; split; [assumption|]; constructor; [now apply blk_of_ok|constructor]|].
      split; [apply tail_zeros|assumption].
  - intro Q. rewrite S1. replace (x_length x =? zlen (given x)) with false by lia.
    cbn [zeros repeat Z.to_nat]. now rewrite app_nil_r, <- !app_assoc.
  - assumption.
  - intro E. rewrite E in *. exact S3.
  - intro E. destruct (Hown E) as [O1 O2]. rewrite S3. replace (zlen (data (w asset)) =? 0) with false; [auto|].
    symmetry. apply Z.eqb_neq. intro Q. apply zlen_0 in Q. contradiction.
Qed.

(** ** Loops over a section followed by anything *)
Lemma last_loop_skip : forall l A f acc R, zlen A mod 8 = 0 -> Forall blk_ok l -> zlen A + sect_size l <= u32_max ->
  last_loop (length l + f) (A ++ enc_sect (zlen A) l ++ R) (zlen A) (last_res acc) =
  last_loop f (A ++ enc_sect (zlen A) l ++ R) (zlen A + sect_size l) (last_res (last_blk (zlen A) l acc)).
Proof.
  induction l as [|b l IH]; intros A f acc R Hm Hl Hs.
  - cbn [length Nat.add sect_size last_blk]. now rewrite Z.add_0_r.
  - inv Hl. cbn [length sect_size] in *.
    cbn [enc_sect last_loop last_blk Nat.add]. rewrite <- app_assoc.
    pose proof (sect_size_nonneg l). pose proof (blk_size_mod b H1). pose proof (blk_size_pos b).
    pose proof (zlen_nonneg R).
    rewrite load_hdr_blk by (auto; lia).
    replace (zlen A + EXT_LEN <=? zlen (A ++ enc_blk (zlen A) b ++ enc_sect (zlen A + blk_size b) l ++ R)) with true
      by (rewrite !zlen_app, zlen_enc_blk, zlen_enc_sect by assumption; unfold EXT_LEN; lia).
    cbn [bind h_type h_bnd]. rewrite ext_of_code_code.
    assert (HA : zlen (A ++ enc_blk (zlen A) b) = zlen A + blk_size b)
      by (rewrite zlen_app, zlen_enc_blk by assumption; reflexivity).
    specialize (IH (A ++ enc_blk (zlen A) b) f (Some (zlen A, b)) R). rewrite HA in IH.
    rewrite <- app_assoc in IH. rewrite Z.add_assoc.
    change (last_res (Some (zlen A, b))) with (Some (blk_hdr (zlen A) b, zlen A + EXT_LEN)) in IH.
    unfold blk_hdr at 1 in IH. cbn [h_bnd] in IH.
    destruct H1 as [H1 H1']. destruct (bk_type b) eqn:Et; try (apply IH; auto; lia). contradiction.
Qed.

Lemma load_hdr_raw P R ty len bnd : zlen P mod 8 = 0 -> 0 <= ty <= u32_max -> 0 <= len <= u32_max -> 0 <= bnd <= u32_max -> 4 <= zlen R ->
  load_hdr (P ++ enc_hdr ty len bnd ++ R) (zlen P) = Ok (mkHdr ty len bnd).
Proof.
  intros HP H1 H2 H3 HR. pose proof (zlen_nonneg P) as HP0. unfold load_hdr, guard, enc_hdr.
  replace ((0 <=? zlen P) && (zlen P + EXT_LEN <=? zlen (P ++ (le_enc 4 ty ++ le_enc 4 len ++ le_enc 4 bnd) ++ R)) && (zlen P mod 4 =? 0)) with true
    by (rewrite !zlen_app, !le_enc_zlen; unfold EXT_LEN; lia).
  rewrite <- !app_assoc. f_equal. f_equal.
  - rewrite (fld_mid P) by (auto; now rewrite le_enc_zlen). now apply le_dec_enc4.
  - rewrite (app_assoc P). rewrite fld_mid by (rewrite ?zlen_app, ?le_enc_zlen; lia). now apply le_dec_enc4.
  - rewrite (app_assoc P), (app_assoc (P ++ _)). rewrite fld_mid by (rewrite ?zlen_app, ?le_enc_zlen; lia). now apply le_dec_enc4.
Qed.
Lemma partial_eq d hd l t len bs : partial_account d hd l t len bs ->
  d = (hd ++ enc_sect 168 l) ++ enc_hdr (ext_code t) len (pad8 (168 + sect_size l + 16 + len)) ++ zeros 4 ++ bs.
Proof.
  intros (-> & Hh & Hf & _). rewrite bnd_pad8 by assumption. unfold enc_hdr. now rewrite <- !app_assoc.
Qed.
Lemma partial_len d hd l t len bs : partial_account d hd l t len bs -> zlen d = 168 + sect_size l + 16 + zlen bs.
Proof.
  intro H. rewrite (partial_eq _ _ _ _ _ _ H). destruct H as (_ & Hh & Hf & _).
  rewrite !zlen_app, zlen_enc_sect by assumption. change (zlen (enc_hdr _ _ _)) with 12. rewrite zlen_zeros by lia. lia.
Qed.
Lemma partial_last d hd l t len bs : partial_account d hd l t len bs ->
  last_extension d = Ok (Some (mkHdr (ext_code t) len (pad8 (168 + sect_size l + 16 + len)), 168 + sect_size l + 16)).
Proof.
  intro H. pose proof (partial_eq _ _ _ _ _ _ H) as E. pose proof (partial_len _ _ _ _ _ _ H) as Hlen.
  destruct H as (_ & Hh & Hf & Ht & Hb & Hz).
  pose proof (sect_size_mod l Hf) as Hm. pose proof (sect_size_nonneg l) as Hs. pose proof (zlen_nonneg bs) as Hb0.
  set (bnd := pad8 (168 + sect_size l + 16 + len)) in *.
  assert (Hbnd : 168 + sect_size l + 16 + len <= bnd < 168 + sect_size l + 16 + len + 8) by apply pad8_ge.
  unfold last_extension, ASSET_LEN.
  pose proof (sect_size_length l) as Hsl.
  set (f := (walk_fuel d - length l - 2)%nat).
  assert (Ef : walk_fuel d = (length l + S (S f))%nat) by (unfold f, walk_fuel, zlen in *; lia).
  rewrite Ef. rewrite E. rewrite <- app_assoc.
  change (@None (hdr * Z)) with (last_res None).
  pose proof (last_loop_skip l hd (S (S f)) None (enc_hdr (ext_code t) len bnd ++ zeros 4 ++ bs)) as L.
  rewrite Hh in L. rewrite L by (auto; unfold u32_max; lia). clear L.
  set (X := last_res _). clearbody X.
  assert (HP : zlen (hd ++ enc_sect 168 l) = 168 + sect_size l) by (rewrite zlen_app, zlen_enc_sect by assumption; lia).
  cbn [last_loop]. rewrite app_assoc. rewrite <- E, Hlen.
  replace (168 + sect_size l + EXT_LEN <=? 168 + sect_size l + 16 + zlen bs) with true by (unfold EXT_LEN; lia).
  pose proof (ext_code_range t) as Hc.
  assert (HL : load_hdr d (168 + sect_size l) = Ok (mkHdr (ext_code t) len bnd)).
  { rewrite E, <- HP. apply load_hdr_raw; try (unfold u32_max in *; lia). rewrite zlen_app, zlen_zeros by lia. lia. }
  rewrite HL. cbn [bind h_type h_bnd]. rewrite ext_of_code_code.
  replace (bnd + EXT_LEN <=? 168 + sect_size l + 16 + zlen bs) with false by (unfold EXT_LEN; lia).
  destruct t; try reflexivity. contradiction.
Qed.

(** ** Validation hooks *)
Lemma on_create_fresh t al auth b b' : on_create t al auth b = Ok b' -> fresh_payload t auth b b'.
Proof.
  intro H. destruct t; cbn [on_create] in H;
    try (unfold fresh_payload; rinv H; split; [reflexivity|]; split; [auto|intro Q; discriminate Q]).
  - apply bind_ok in H as (l & Hl & H). apply bind_ok in H as (l' & Hl' & H). injection H as <-.
    unfold creators_on_create in Hl'. cbv zeta in Hl'.
    match type of Hl' with (if ?c then _ else _) = _ => destruct c; [|discriminate Hl'] end. injection Hl' as <-.
    destruct (reflag_bytes (fun c => initial_verified auth (cr_addr c)) b l Hl) as (R1 & R2 & R3). unfold reflag in *.
    split; [exact R1|]. split; [intro Q; now elim Q|]. intros _ i Hi. destruct (R2 i Hi) as (A & B & C).
    split; [exact A|]. split; [exact B|]. rewrite C. cbn [cr_addr]. unfold initial_verified.
    destruct auth as [k|].
    + destruct (bytes_eqb k (cr_addr_at b i)) eqn:E.
      * apply bytes_eqb_eq in E. subst k. cbn [bool_byte]. split; split; intro Q; try discriminate Q; auto. now elim Q.
      * apply bytes_eqb_neq in E. cbn [bool_byte]. split; split; intro Q; try discriminate Q; try congruence; reflexivity.
    + split; split; intro Q; try discriminate Q; auto; discriminate.
  - apply bind_ok in H as (g & _ & H). destruct (_ <? _); [discriminate H|]. injection H as <-. split; [reflexivity|]. split; [auto|intro Q; discriminate Q].
  - apply bind_ok in H as (g & _ & H). destruct (_ <? _); [discriminate H|]. injection H as <-. split; [reflexivity|]. split; [auto|intro Q; discriminate Q].
Qed.

(** ** Write *)
Lemma with_blk_of t b b' : length b' = length b -> with_data (blk_of t b) b' = blk_of t b'.
Proof. intro H. unfold with_data, blk_of. cbn [bk_type bk_data bk_unused bk_pad]. unfold zlen. now rewrite H. Qed.
Lemma blk_of_size_len t b b' : length b' = length b -> blk_size (blk_of t b') = blk_size (blk_of t b).
Proof. intro H. rewrite !blk_of_size. unfold zlen. now rewrite H. Qed.

Lemma write_effect e infos w a w' asset hd l t len bs :
  arg infos 0 asset -> partial_account (data (w asset)) hd l t len bs -> zlen bs < len ->
  w_overwrite a = false -> zlen bs + zlen (w_bytes a) <= len ->
  process e infos w (IWrite a) = Ok w' ->
  signed infos asset /\ acct_owner (w asset) = e_prog e /\
  (zlen bs + zlen (w_bytes a) < len -> partial_account (data (w' asset)) hd l t len (bs ++ w_bytes a)) /\
  (zlen bs + zlen (w_bytes a) = len -> exists b',
      fresh_payload t None (bs ++ w_bytes a) b' /\ (exists al, on_create t al None (bs ++ w_bytes a) = Ok b') /\
      data (w' asset) = hd ++ enc_sect 168 l ++ enc_blk (168 + sect_size l) (blk_of t b') /\
      layout (data (w' asset)) hd (l ++ [blk_of t b']) []) /\
  (forall k, k <> asset -> data (w' k) = data (w k)) /\ (forall k, acct_owner (w' k) = acct_owner (w k)).
Proof.
  intros A0 HP Hlt Ho Hle H. apply process_dispatch in H. cbn [dispatch] in H. unfold process_write in H.
  apply bind_ok in H as (asset' & B0 & H). apply acct_arg in B0. rewrite <- (arg_det _ _ _ _ A0 B0) in *. clear asset' B0.
  apply bind_ok in H as (payer & B1 & H). apply bind_ok in H as (sysp & B2 & H).
  apply require_ok in H as [C1 H]. apply require_ok in H as [C2 H]. apply require_ok in H as [C3 H].
  apply require_ok in H as [C4 H]. cbv zeta in H. apply require_ok in H as [C5 H]. apply require_ok in H as [C6 H].
  rewrite (partial_last _ _ _ _ _ _ HP) in H. cbn [bind h_len h_bnd] in H.
  apply require_ok in H as [C7 H]. rewrite Ho in H.
  set (c := w_bytes a) in *. set (p := 168 + sect_size l) in *. set (bnd := pad8 (p + 16 + len)) in *.
  pose proof (partial_len _ _ _ _ _ _ HP) as Hd. pose proof (partial_eq _ _ _ _ _ _ HP) as Ed. fold p bnd in Hd, Ed.
  destruct HP as (_ & Hh & Hf & Ht & Hb & Hz). fold p in Hz.
  assert (Hbnd : p + 16 + len <= bnd < p + 16 + len + 8) by apply pad8_ge.
  pose proof (zlen_nonneg c) as Hc0. pose proof (zlen_nonneg bs) as Hb0.
  pose proof (sect_size_mod l Hf) as Hm. pose proof (sect_size_nonneg l) as Hs.
  assert (HPl : zlen (hd ++ enc_sect 168 l) = p) by (rewrite zlen_app, zlen_enc_sect by assumption; unfold p; lia).
  split; [now apply signed_acct|]. split; [unfold owned_by_prog in C4; now bnorm|].
  apply bind_ok in H as (w1 & Hr & H). apply bind_ok in H as (d1 & Hd1 & H). apply bind_ok in H as (w2 & Hw2 & H).
  apply resize_world in Hr as (R1 & R2 & R3).
  assert (Hsz : forall s, s = zlen (data (w asset)) + zlen c + s - (zlen (data (w asset)) + zlen c)) by (intro; lia). clear Hsz.
  set (size := if zlen (data (w asset)) + zlen c =? p + 16 + len then bnd else zlen (data (w asset)) + zlen c) in *.
  assert (Hsize : zlen (data (w asset)) + zlen c <= size) by (unfold size; destruct (_ =? _) eqn:E; lia).
  assert (E1 : d1 = data (w asset) ++ c ++ zeros (size - zlen (data (w asset)) - zlen c)).
  { unfold memcpy_at in Hd1. apply guard_ok in Hd1 as [_ Hd1]. rewrite R1 in Hd1. rewrite realloc_grow in Hd1 by lia.
    replace (size - zlen (data (w asset))) with (zlen c + (size - zlen (data (w asset)) - zlen c)) in Hd1 by lia.
    rewrite <- zeros_app in Hd1 by lia.
    match type of Hd1 with (if ?q then _ else _) = _ => destruct q; [|discriminate Hd1] end. injection Hd1 as <-.
    rewrite put_mid by (auto; rewrite zlen_zeros; lia). reflexivity. }
  destruct (set_data_world _ _ _ _ _ _ Hw2) as (S1 & S2 & S3).
  assert (Hfr : forall k, k <> asset -> data (w2 k) = data (w k)) by (intros k Hk; rewrite S2, R2; auto).
  assert (Hfo : forall k, acct_owner (w2 k) = acct_owner (w k)) by (intros k; rewrite S3, R3; auto).
  destruct (zlen d1 <? p + 16 + len) eqn:El.
  - injection H as <-. rewrite E1 in El. rewrite !zlen_app, zlen_zeros in El by lia.
    assert (Hlt2 : zlen bs + zlen c < len) by lia.
    split; [|split; [lia|split; assumption]]. intros _. rewrite S1, E1.
    replace (size - zlen (data (w asset)) - zlen c) with 0 by (unfold size; destruct (_ =? _) eqn:E; lia).
    change (zeros 0) with (@nil byte). rewrite app_nil_r. split.
    + rewrite Ed. rewrite bnd_pad8 by assumption. fold p bnd. unfold enc_hdr. now rewrite <- !app_assoc.
    + rewrite zlen_app. repeat split; auto; lia.
  - rewrite E1 in El. rewrite !zlen_app, zlen_zeros in El by lia.
    assert (Heq : zlen bs + zlen c = len).
    { unfold size in El. destruct (_ =? _) eqn:E in El; lia. }
    assert (Esz : size = bnd) by (unfold size; replace (_ =? _) with true by lia; reflexivity).
    assert (E2 : d1 = hd ++ enc_sect 168 l ++ enc_blk p (blk_of t (bs ++ c)) ++ []).
    { rewrite E1, Hd. rewrite Ed. rewrite <- !app_assoc. do 2 f_equal.
      pose proof (full_block p t (bs ++ c) 0) as FB. rewrite zlen_app, Heq in FB.
      fold bnd in FB. change (zeros 0) with (@nil byte) in FB. rewrite <- FB by (unfold p; lia).
      rewrite <- !app_assoc. do 5 f_equal. rewrite Esz.
      unfold bnd. unfold pad8, p. lia. }
    assert (HL0 : layout d1 hd (l ++ [blk_of t (bs ++ c)]) []).
    { split; [rewrite E2, enc_sect_app; cbn [enc_sect]; now rewrite !app_nil_r|].
      split; [assumption|]. split; [apply Forall_app; split; [assumption|]; constructor; [now apply blk_of_ok|constructor]|].
      split; [left; reflexivity|]. rewrite E2, !zlen_app, zlen_enc_sect, zlen_enc_blk, blk_of_size by (auto using blk_of_ok).
      pose proof (pad8_ge (16 + zlen (bs ++ c))). rewrite zlen_app in *. change (zlen []) with 0. unfold p in *. lia. }
    rewrite (layout_last _ _ _ _ HL0), last_blk_app in H.
    cbn [bind last_res option_map fst snd blk_hdr h_bnd h_type h_len blk_of bk_type bk_data] in H.
    rewrite ext_of_code_code in H. cbn [ok_or bind] in H.
    pose proof (layout_slice _ _ _ _ HL0 p l (blk_of t (bs ++ c)) [] eq_refl eq_refl) as Hsl.
    cbn [blk_of bk_data] in Hsl. fold p in H. unfold EXT_LEN in H. rewrite Hsl in H. cbn [bind] in H.
    apply bind_ok in H as (b' & Hb' & H). apply map_err_ok in Hb'. pose proof Hb' as Hoc. apply on_create_fresh in Hb'.
    destruct (set_data_world _ _ _ _ _ _ H) as (T1 & T2 & T3).
    split; [lia|]. split; [|split; [intros k Hk; rewrite T2; auto|intro k; rewrite T3; auto]].
    intros _. exists b'. split; [exact Hb'|]. split; [eauto|]. destruct Hb' as (Hlen & _).
    pose proof (layout_put _ _ l (blk_of t (bs ++ c)) [] [] 0 b' HL0) as LP. cbn [blk_of bk_data] in LP.
    fold p in LP. rewrite Z.add_0_r in LP.
    assert (Hzl : zlen b' = zlen (bs ++ c)) by (unfold zlen; now rewrite Hlen).
    specialize (LP ltac:(lia) ltac:(lia)). rewrite put_whole in LP by assumption.
    fold (blk_of t (bs ++ c)) in LP. rewrite with_blk_of in LP by assumption. rewrite T1.
    split; [|exact LP]. destruct LP as (-> & _). rewrite enc_sect_app. cbn [enc_sect]. now rewrite !app_nil_r.
Qed.

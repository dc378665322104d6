(** Allocate and Write get an answer (C90). *)
From Verif Require Import Base State Layout Constr Ext World Proc BaseL Spec SpecB SpecF SpecE SpecH SpecJ SpecSafe SpecCalm WorldL ProcSteps LayoutL LayoutE ConstrL HeadL AcceptL AllocL AllocM AuthL UpdateL TopL RemoveL GroupL OverL ExactP ResizeL CreateL SafeL SafeM SafeN CalmL.
From Coq Require Import Strings.Byte.

Lemma p_process e infos w i : sound_accounts e infos w -> answered (dispatch e (passed infos) w i) -> answered (process e infos w i).
Proof.
  intros HS D. unfold process. cbv zeta. apply p_bind; [now apply access_p|]. intros lk _.
  destruct lk as [k|]; [|exact D]. destruct (blocked_when_locked _); [exact I|exact D].
Qed.
Lemma p_newacc e infos w a p s n : answered (alloc_create_account e infos w a p s n).
Proof. unfold alloc_create_account, sys_create. pf. apply p_sys. Qed.
Lemma do_alloc_p e infos w0 v asset payer sysp x hd l n : open_account (data (v asset)) hd l n -> x_type x <> XNone -> 0 <= x_length x -> zlen (given x) < 4294967296 ->
  answered (do_allocate e infos w0 v asset payer sysp x).
Proof.
  intros OA Ht Hx Hg. unfold do_allocate. pf.
  assert (ST : answered (if zlen (data (v asset)) =? 0 then Ok (false, ASSET_LEN) else
     require (owned_by_prog e v asset) EIllegalOwner (require (ASSET_LEN <=? zlen (data (v asset))) EInvalidAccountLength
       (require (beqb (byte_at (data (v asset)) 0) DISC_UNINIT) EAlreadyInitialized
         (c <- asset_contains (x_type x) (data (v asset)) ;; require (negb c) EAlreadyInitialized
           (l <- last_extension (data (v asset)) ;; match l with None => Ok (true, ASSET_LEN) | Some (h, off) => require (h_len h + off <=? zlen (data (v asset))) EIncompleteExtensionData (Ok (true, h_bnd h)) end)))))).
  { destruct (zlen (data (v asset)) =? 0) eqn:E0; [exact I|]. destruct OA as [(Q & _)|(_ & HL)]; [rewrite Q in E0; discriminate E0|]. pf.
    rewrite (layout_contains _ _ _ _ HL _ Ht). cbn [bind]. pf. rewrite (layout_last _ _ _ _ HL). cbn [bind]. destruct (last_res _) as [[h o]|]; pf. }
  apply p_bind; [exact ST|]. intros [ex off] E. cbn [fst snd].
  assert (H0 : 0 <= off /\ off mod 8 = 0 /\ (ex = true -> zlen (data (v asset)) <> 0)).
  { destruct (zlen (data (v asset)) =? 0) eqn:E0; [inversion E; subst; unfold ASSET_LEN; split; [lia|]; split; [reflexivity|discriminate]|].
    destruct OA as [(Q & _)|(_ & HL)]; [rewrite Q in E0; discriminate E0|]. rinv E.
    destruct (layout_last_bnd _ _ _ _ HL) as (o & Eo & Bo). destruct HL as (_ & _ & HF & _). pose proof (sect_size_mod _ HF). pose proof (sect_size_nonneg l).
    match goal with Q : last_extension _ = Ok ?y |- _ => rewrite Eo in Q; apply Ok_inj in Q; subst o; destruct y as [[h o]|] end.
    - rinv E. split; [lia|]. split; [lia|lia].
    - inversion E; subst. unfold ASSET_LEN. split; [lia|]. split; [reflexivity|lia]. }
  clear ST. apply p_bind. { destruct (x_data x); [|exact I]. pf. }
  intros bs BS. assert (EB : bs = given x) by (unfold given; destruct (x_data x); rinv BS; reflexivity). subst bs.
  unfold save_extension_data. cbv zeta. pose proof (zlen_nonneg (given x)) as Hn.
  set (bnd := pad8 (off + EXT_LEN + x_length x)). set (par := negb (x_length x =? zlen (given x) mod two32)).
  pose proof (pad8_up (off + EXT_LEN + x_length x)) as PU. fold bnd in PU.
  set (ext := if par then off + EXT_LEN + zlen (given x) else bnd).
  assert (HX : off + EXT_LEN + zlen (given x) <= ext).
  { unfold ext. destruct par eqn:P; [lia|]. unfold par in P. rewrite Z.mod_small in P by (unfold two32; lia). lia. }
  assert (HE : 0 <= ext) by (unfold EXT_LEN in *; lia).
  apply p_bind. { destruct (negb ex); [apply p_newacc|]. destruct (_ || _); [apply p_resize|exact I]. }
  intros w1 W1. assert (HZ : ext <= zlen (data (w1 asset))).
  { destruct (negb ex) eqn:X.
    - unfold alloc_create_account in W1. rinv W1. apply sys_create_world in W1. destruct W1 as (A & _). rewrite A. rewrite zlen_zeros; lia.
    - destruct ((zlen (data (v asset)) <? ext) || (par && (ext <? zlen (data (v asset))))) eqn:Q.
      + apply resize_data in W1 as (D & _). rewrite D, zlen_realloc by lia. lia.
      + inversion W1; subst. lia. }
  apply p_bind. { unfold set_hdr. apply p_guard; [unfold EXT_LEN in *; lia|exact I]. }
  intros d1 D1. unfold set_hdr in D1. rinv D1.
  pose proof (zlen_put_ge (data (w1 asset)) off (enc_hdr (ext_code (x_type x)) (x_length x) bnd)) as PG.
  apply p_bind.
  { destruct (given x) as [|b0 r0] eqn:G; [exact I|]. rewrite <- G in *. unfold memcpy_at. apply p_guard; [unfold EXT_LEN in *; lia|].
    replace (off + EXT_LEN + zlen (given x) <=? zlen _) with true; [exact I|]. symmetry. unfold EXT_LEN in *. lia. }
  intros. pf.
Qed.
Lemma allocate_p e infos w x asset hd l n : sound_accounts e infos w -> arg infos 0 asset -> open_account (data (w asset)) hd l n ->
  x_type x <> XNone -> 0 <= x_length x -> zlen (given x) < 4294967296 -> answered (process e infos w (IAllocate x)).
Proof.
  intros HS A0 OA Ht Hx Hg. apply p_process; [exact HS|]. cbn [dispatch]. unfold process_allocate. pf.
  apply acct_arg in K. rewrite (arg_det _ _ _ _ K A0) in *. eapply do_alloc_p; eauto.
Qed.
Lemma p_map {A} (m : res A) er : answered m -> answered (map_err m er).
Proof. destruct m; cbn; auto. Qed.
Lemma p_parse {A B} (m : res A) (k : A -> res B) : (exists a, m = Ok a) -> (forall a, answered (k a)) -> answered (bind m k).
Proof. intros [a ->] H. apply H. Qed.
Lemma p_oncreate t al auth b : al mod 8 = 0 -> parses t b -> answered (on_create t al auth b).
Proof.
  intros Ha P. destruct t; cbn [on_create]; try exact I.
  - apply p_parse; [exact (proj2 (pairs_goes b) P)|]. intro. exact I.
  - apply p_parse; [exact (proj2 (blob_goes b) P)|]. intro. exact I.
  - apply p_parse; [exact (proj2 (creators_goes b) P)|]. intro y. apply p_bind; [|intros; exact I]. unfold creators_on_create. cbv zeta. destruct (_ =? 100); exact I.
  - apply p_parse; [exact (proj2 (pairs_goes b) P)|]. intro. exact I.
  - apply p_parse; [exact (proj2 (metadata_goes b) P)|]. intro. exact I.
  - apply p_parse; [exact (proj2 (grouping_goes al b Ha) P)|]. intro y. destruct (0 <? _); exact I.
  - apply p_parse; [exact (proj2 (royalties_goes al b Ha) P)|]. intro y. destruct (10000 <? _); exact I.
  - apply p_parse; [exact (proj2 (manager_goes b) P)|]. intro. exact I.
  - apply p_parse; [exact (proj2 (proxy_goes b) P)|]. intro. exact I.
  - apply p_parse; [exact (proj2 (props_goes b) P)|]. intro. exact I.
Qed.
Lemma write_p e infos w a asset hd l t len bs : sound_accounts e infos w -> arg infos 0 asset -> partial_account (data (w asset)) hd l t len bs ->
  let p := if w_overwrite a then w_bytes a else bs ++ w_bytes a in
  zlen p <= len -> (zlen p = len -> parses t p) -> answered (process e infos w (IWrite a)).
Proof.
  intros HSA A0 HP p Hle HR. apply p_process; [exact HSA|]. cbn [dispatch]. unfold process_write. pf.
  apply acct_arg in K. rewrite (arg_det _ _ _ _ K A0) in *.
  rewrite (partial_last _ _ _ _ _ _ HP). cbn [bind h_len h_bnd]. pf.
  set (off := 168 + sect_size l + 16) in *. set (bnd := pad8 (off + len)) in *.
  pose proof (partial_len _ _ _ _ _ _ HP) as Hd. fold off in Hd.
  pose proof (partial_eq _ _ _ _ _ _ HP) as Ed. fold off bnd in Ed. rewrite !app_assoc in Ed. set (Q := ((hd ++ enc_sect 168 l) ++ enc_hdr (ext_code t) len bnd) ++ zeros 4) in *.
  destruct HP as (_ & Hh & Hf & Ht & Hb & Hz). pose proof (zlen_nonneg bs) as Hb0. pose proof (zlen_nonneg (w_bytes a)) as Hc0.
  pose proof (sect_size_mod l Hf) as Hm. pose proof (sect_size_nonneg l) as Hs. pose proof (pad8_ge (off + len)) as HG. fold bnd in HG.
  assert (ZQ : zlen Q = off) by (rewrite Ed, zlen_app in Hd; lia).
  match goal with |- answered (bind (resize _ _ _ _ ?s _ _ _) _) => set (size := s) in * end.
  set (start := if w_overwrite a then off else zlen (data (w asset))).
  apply p_bind; [apply p_resize|]. intros w1 W1. apply resize_world in W1 as (D1 & _).
  assert (SZ : exists k, 0 <= k /\ size = off + zlen p + k /\ (k = 0 \/ zlen p = len /\ k = bnd - off - len)).
  { subst size p. destruct (w_overwrite a); [exists 0; lia|]. rewrite zlen_app. destruct (_ =? off + len) eqn:Q1; [exists (bnd - off - len); lia|exists 0; lia]. }
  destruct SZ as (j & Hj & Es & Hj2). pose proof (zlen_nonneg p) as Hp0.
  assert (Ej0 : w_overwrite a = true -> j = 0) by (intro O; subst size p; rewrite O in Es; lia). clearbody size.
  assert (MC : memcpy_at (data (w1 asset)) start (w_bytes a) = Ok (Q ++ p ++ zeros j)).
  { unfold memcpy_at. rewrite D1, zlen_realloc by lia.
    assert (start + zlen (w_bytes a) <= size) by (subst start p; destruct (w_overwrite a); rewrite ?zlen_app in *; lia).
    assert (0 <= start) by (subst start; destruct (w_overwrite a); lia).
    replace ((0 <=? start) && (start <=? size)) with true by lia. cbn [guard].
    replace (start + zlen (w_bytes a) <=? size) with true by lia. f_equal.
    rewrite Ed. subst start p. destruct (w_overwrite a).
    - rewrite (Ej0 eq_refl) in *. change (zeros 0) with (@nil byte). rewrite app_nil_r. rewrite realloc_app by lia. rewrite <- ZQ. 
      assert (ZZ : zlen (realloc_bytes bs (size - zlen Q)) = zlen (w_bytes a)) by (rewrite zlen_realloc by lia; lia).
      rewrite <- (app_nil_r (realloc_bytes bs (size - zlen Q))). rewrite put_mid by auto. now rewrite app_nil_r.
    - rewrite zlen_app in Es. rewrite realloc_grow by (rewrite zlen_app; lia).
      replace (size - zlen (Q ++ bs)) with (zlen (w_bytes a) + j) by (rewrite zlen_app; lia). rewrite <- zeros_app by lia.
      rewrite put_mid by (rewrite ?zlen_app, ?zlen_zeros; lia). now rewrite <- !app_assoc. }
  fold start. rewrite MC. cbn [bind]. apply p_bind; [apply p_set|]. intros w2 W2.
  destruct (zlen (Q ++ p ++ zeros j) <? off + len) eqn:EZ; [exact I|].
  rewrite !zlen_app, zlen_zeros in EZ by lia. assert (Hp : zlen p = len) by lia.
  assert (HPA : partial_account (Q ++ p) hd l t len p).
  { split; [|repeat split; auto; try lia; subst off; lia]. rewrite bnd_pad8 by assumption. fold off bnd. subst Q. unfold enc_hdr. now rewrite <- !app_assoc. }
  assert (LX : last_extension (Q ++ p ++ zeros j) = Ok (Some (mkHdr (ext_code t) len bnd, off))).
  { destruct Hj2 as [->|[_ Ej]].
    - change (zeros 0) with (@nil byte). rewrite app_nil_r. rewrite (partial_last _ _ _ _ _ _ HPA). reflexivity.
    - assert (HL0 : layout (Q ++ p ++ zeros j) hd (l ++ [blk_of t p]) []).
      { split; [|split; [assumption|split; [apply Forall_app; split; [assumption|]; constructor; [now apply blk_of_ok|constructor]|split; [left; reflexivity|]]]].
        - rewrite enc_sect_app. cbn [enc_sect]. rewrite !app_nil_r. pose proof (full_block (168 + sect_size l) t p 0) as FB. rewrite Hp in FB. fold off in FB. fold bnd in FB.
          change (zeros 0) with (@nil byte) in FB. rewrite app_nil_r in FB. rewrite <- FB by lia. subst Q. rewrite <- !app_assoc. do 5 f_equal. rewrite Ej. subst bnd off. unfold pad8. f_equal. clear - Hm. lia.
        - rewrite !zlen_app, ZQ, zlen_zeros by lia. lia. }
      rewrite (layout_last _ _ _ _ HL0), last_blk_app. cbn [last_res option_map fst snd blk_hdr blk_of bk_type bk_data]. fold off. unfold EXT_LEN. fold off.
      do 3 f_equal. unfold blk_hdr. cbn [blk_of bk_type bk_data]. rewrite Hp. f_equal. rewrite blk_of_size by assumption. rewrite Hp. subst bnd off. unfold pad8. lia. }
  rewrite LX. cbn [bind h_type h_len]. rewrite ext_of_code_code. cbn [ok_or bind].
  assert (SL : slice (Q ++ p ++ zeros j) off (off + len) = Ok p).
  { rewrite slice_in by (rewrite ?zlen_app, ?zlen_zeros; lia). f_equal. replace (off + len - off) with (zlen p) by lia. apply fld_mid; auto. }
  rewrite SL. cbn [bind]. apply p_bind; [apply p_map; apply p_oncreate; [subst off; lia|auto]|]. intros. pf.
Qed.

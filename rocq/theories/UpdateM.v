(** Update: the whole instruction. *)
From Verif Require Import Base State Layout Constr Ext World Proc BaseL Spec SpecB WorldL ProcSteps FrameL LayoutL LayoutM LayoutE HeadL AuthL AllocL AllocM GroupL ValidL CreateL ResizeL UpdateL.
From Coq Require Import Strings.Byte.

Lemma ext_list_app l1 l2 : ext_list (l1 ++ l2) = ext_list l1 ++ ext_list l2.
Proof. apply map_app. Qed.
Lemma replaced_at l1 k k' l2 : Forall (fun x => bk_type x <> bk_type k) l1 -> bk_type k' = bk_type k ->
  ext_list (l1 ++ k' :: l2) = replaced (bk_type k) (bk_data k') (ext_list (l1 ++ k :: l2)).
Proof.
  intros Hf Ht. rewrite <- replaced_block by assumption. rewrite !ext_list_app. f_equal.
  cbn [ext_list map with_data bk_type bk_data]. now rewrite Ht.
Qed.

(** the hook's result *)
Lemma validate_stored t al inp cur auth r : validate t al inp cur auth = Ok r ->
  stored t auth (option_map snd cur) inp r.
Proof.
  unfold validate. intro H. destruct cur as [[a c]|]; cbn [option_map snd stored].
  - apply map_err_ok in H. pose proof (on_update_valid _ _ _ _ _ _ _ H) as [H1 H2]. split; [assumption|]. split; [assumption|].
    split; intros ->; cbn [on_update] in H; apply bind_ok in H as (x & Hx & _); [apply manager_ok in Hx; exact Hx|].
    unfold grouping_from_bytes in Hx. apply guard_ok in Hx as [Hx _]. unfold zlen in Hx. lia.
  - assert (Q : t <> XManager /\ t <> XProxy /\ on_create t al (Some auth) inp = Ok r).
    { destruct t; try discriminate H; apply map_err_ok in H; (split; [discriminate|split; [discriminate|exact H]]). }
    destruct Q as (Q1 & Q2 & Q). split; [assumption|]. split; [assumption|].
    split; [eapply on_create_fresh; eassumption|eapply on_create_valid; eassumption].
Qed.
Lemma stored_len t auth cur b b' : stored t auth cur b b' -> length b' = length b.
Proof. destruct cur; cbn [stored]; [intros [(H & _) _]; exact H|intros (_ & _ & (H & _) & _); exact H]. Qed.

Definition cur_of (off : Z) (found : option (Z * blk)) : option (Z * bytes) :=
  option_map (fun p => (fst p + 16, bk_data (snd p))) found.

(** where the new payload comes from *)
Definition source_spec (e : env) (w : world) (asset auth : pubkey) (buffer : option pubkey) (x : option ext_input)
    (t : ext_type) (cur : option bytes) (b : bytes) (w' : world) : Prop :=
  match buffer with
  | None => exists x0, x = Some x0 /\ t = x_type x0 /\ x_length x0 = zlen b /\
      (forall bs, x_data x0 = Some bs -> stored t (pk_bytes auth) cur bs b) /\ (x_data x0 = None -> b = []) /\
      (forall k, k <> asset -> data (w' k) = data (w k))
  | Some bk => bk <> asset /\ x = None /\ acct_owner (w bk) = e_prog e /\ 184 <= zlen (data (w bk)) /\ s_disc (data (w bk)) = x00 /\
      le32 (data (w bk)) 168 = ext_code t /\
      exists inp', stored t (pk_bytes auth) cur (sub (data (w bk)) 168 (length b)) inp' /\
        zlen b = le32 (data (w bk)) 172 /\
        data (w' bk) = put (data (w bk)) 168 inp' /\ b = sub (data (w' bk)) 184 (length b) /\
        (forall k, k <> asset -> k <> bk -> data (w' k) = data (w k))
  end.

Lemma update_room_frame e infos w0 w asset payer sysp off found n w' k :
  update_room e infos w0 w asset payer sysp off found n = Ok w' -> k <> asset -> data (w' k) = data (w k).
Proof.
  intros H Hk. unfold update_room in H. cbv zeta in H. destruct found as [c|].
  - destruct (h_len c =? n); [apply Ok_inj in H; now subst|]. apply bind_ok in H as (lo & _ & H). destruct lo as [[lh o]|]; [|discriminate].
    apply bind_ok in H as (w1 & H1 & H). apply bind_ok in H as (d1 & _ & H). apply bind_ok in H as (w2 & H2 & H).
    assert (E1 : data (w1 k) = data (w k)).
    { destruct (0 <? _); [apply resize_data in H1 as (_ & F & _); auto|apply Ok_inj in H1; now subst]. }
    apply set_data_world in H2 as (_ & F2 & _).
    assert (E3 : data (w' k) = data (w2 k)).
    { destruct (_ <? 0); [apply resize_data in H as (_ & F & _); auto|apply Ok_inj in H; now subst]. }
    rewrite E3, F2; auto.
  - apply resize_data in H as (_ & F & _); auto.
Qed.
Lemma update_finish_frame e infos w3 asset buffer t off found n src w' k :
  update_finish e infos w3 asset buffer t off found n src = Ok w' -> k <> asset -> data (w' k) = data (w3 k).
Proof.
  intros H Hk. unfold update_finish in H. cbv zeta in H. apply bind_ok in H as (d4 & _ & H). apply bind_ok in H as (d5 & _ & H).
  apply bind_ok in H as (d6 & _ & H). apply set_data_world in H as (_ & F & _). auto.
Qed.
Lemma update_finish_slice e infos w3 asset bk t off found n src w' :
  update_finish e infos w3 asset (Some bk) t off found n src = Ok w' -> 0 < n -> 184 + n <= zlen (data (w3 bk)).
Proof.
  intros H Hn. unfold update_finish in H. cbv zeta in H. apply bind_ok in H as (d4 & _ & H). apply bind_ok in H as (d5 & _ & H).
  apply bind_ok in H as (d6 & H & _). replace (0 <? n) with true in H by lia. apply bind_ok in H as (s & H & _).
  apply slice_ok in H as (_ & _ & H & _). exact H.
Qed.

Lemma update_ext_effect e infos w0 w asset auth buffer payer sysp x w' hd l tl :
  layout (data (w asset)) hd l tl -> sized w' ->
  (forall x0, x = Some x0 -> x_type x0 <> XNone /\ 0 <= x_length x0 <= 2000000000) ->
  (buffer = None \/ x = None) ->
  update_ext e infos w0 w asset auth buffer payer sysp x = Ok w' ->
  exists t b l' tl', t <> XNone /\ layout (data (w' asset)) hd l' tl' /\ (tl' = [] \/ tl' = tl) /\
    ext_list l' = put_ext t b (ext_list l) /\
    source_spec e w asset auth buffer x t (lookup t (ext_list l)) b w' /\
    (forall k, acct_owner (w' k) = acct_owner (w k)).
Proof.
  intros HL Hs' Hx Hbx H. unfold update_ext in H.
  apply bind_ok in H as (t & Ht & H). apply bind_ok in H as (f & Hf & H). destruct f as [off found].
  apply bind_ok in H as (s & Hsrc & H). destruct s as [[n src] w2]. apply bind_ok in H as (w3 & Hroom & Hfin).
  (* the type *)
  assert (Htn : t <> XNone).
  { unfold update_type in Ht. destruct buffer as [bk|].
    - apply require_ok in Ht as [_ Ht]. apply require_ok in Ht as [_ Ht]. cbv zeta in Ht. apply require_ok in Ht as [_ Ht].
      apply require_ok in Ht as [_ Ht]. apply bind_ok in Ht as (fe & Hfe & Ht). destruct fe as [[h o]|]; [|discriminate].
      apply ok_or_ok in Ht. unfold first_extension in Hfe. destruct (_ <=? _); [|discriminate]. apply bind_ok in Hfe as (h' & _ & Hfe).
      destruct (ext_of_code (h_type h')) as [t'|] eqn:Et; [|discriminate]. destruct t'; try discriminate; injection Hfe as <- _;
        rewrite Et in Ht; injection Ht as <-; discriminate.
    - destruct x as [x|]; [|discriminate]. injection Ht as <-. now apply Hx. }
  destruct (update_find_layout _ _ _ _ _ _ HL Htn Hf) as [Er Htl0]. clear Hf.
  pose proof (layout_len _ _ _ _ HL) as Hlen. pose proof HL as (_ & Hh & HF & Htl & Hz).
  (* the source *)
  assert (S : exists b, zlen b = n /\ 0 <= n <= 2000000000 /\ data (w2 asset) = data (w asset) /\
      (0 < n -> match buffer with Some bk => b = fld (data (w2 bk)) 184 n | None => src = Some b end) /\
      (forall k, acct_owner (w2 k) = acct_owner (w k)) /\
      (forall k, k <> asset -> (match buffer with Some bk => k <> bk | None => True end) -> data (w2 k) = data (w k)) /\
      (forall w'', (forall k, k <> asset -> data (w'' k) = data (w2 k)) -> source_spec e w asset auth buffer x t (lookup t (ext_list l)) b w'')).
  { assert (Hcur : forall (q : option (Z * bytes)), (match found with
                     | None => Ok None
                     | Some c => s <- slice (data (w asset)) (off + 16) (off + 16 + h_len c) ;; Ok (Some (off + 16, s))
                     end) = Ok q -> option_map snd q = lookup t (ext_list l)).
    { intros q Hq. rewrite (loc_lookup t l 168). destruct (loc t 168 l) as [[c b0]|] eqn:El; injection Er as -> ->.
      - apply bind_ok in Hq as (s & Hsl & Hq). injection Hq as <-. cbn [option_map snd fst].
        apply loc_some in El as (l1 & l2 & -> & -> & _ & _).
        destruct (layout_at _ _ _ _ HL _ l1 b0 l2 eq_refl eq_refl) as (A & Ed & HA & Hb & _).
        apply slice_ok in Hsl as (_ & _ & _ & -> & _). cbn [blk_hdr h_len].
        match goal with |- Some (fld _ _ ?n) = _ => replace n with (zlen (bk_data b0)) by lia end.
        rewrite Ed. now rewrite fld_blk_data by auto.
      - injection Hq as <-. reflexivity. }
    unfold update_source in Hsrc. change EXT_LEN with 16 in Hsrc. change ASSET_LEN with 168 in Hsrc. cbv zeta in Hsrc.
    unfold update_type in Ht. destruct buffer as [bk|].
    - destruct Hbx as [Q|Hxn]; [discriminate|].
      apply require_ok in Ht as [O1 Ht]. apply require_ok in Ht as [Ne Ht]. cbv zeta in Ht. apply require_ok in Ht as [L1 Ht].
      apply require_ok in Ht as [Di Ht]. clear Ht.
      apply bind_ok in Hsrc as (fe & Hfe & Hsrc). destruct fe as [[h o]|]; [|discriminate].
      apply require_ok in Hsrc as [Ty Hsrc]. apply require_ok in Hsrc as [Bn Hsrc].
      apply bind_ok in Hsrc as (inp & Hinp & Hsrc). apply bind_ok in Hsrc as (cur & Hc & Hsrc). apply bind_ok in Hsrc as (inp' & Hv & Hsrc).
      apply bind_ok in Hsrc as (w2' & Hset & Hsrc). apply Ok_inj in Hsrc. injection Hsrc as <- <- <-.
      apply Hcur in Hc. apply validate_stored in Hv. rewrite Hc in Hv.
      unfold first_extension in Hfe. destruct (ASSET_LEN + EXT_LEN <=? zlen (data (w bk))) eqn:E1; [|discriminate].
      apply bind_ok in Hfe as (h' & Hld & Hfe).
      assert (h' = h) by (destruct (ext_of_code (h_type h')) as [[]|]; try discriminate; now injection Hfe as -> _). subst h'. clear Hfe.
      apply load_hdr_ok in Hld as (_ & _ & _ & ->). cbn [h_type h_len h_bnd] in *. change (ASSET_LEN + 4) with 172 in *.
      unfold owned_by_prog in O1. apply pk_eqb_eq in O1. bnorm. change (ASSET_LEN + EXT_LEN) with 184 in *.
      apply slice_ok in Hinp as (_ & I2 & I3 & Ei & Li).
      apply set_data_world in Hset as (D2 & F2 & O2).
      assert (Hn0 : 0 <= le32 (data (w bk)) 172) by lia.
      assert (Hlen' : zlen inp' = le32 (data (w bk)) 172) by (apply stored_len in Hv; unfold zlen in *; lia).
      assert (Zb : zlen (put (data (w bk)) 168 inp') = zlen (data (w bk))) by (apply zlen_put; lia).
      set (n := le32 (data (w bk)) 172) in *.
      assert (Ne' : bk <> asset) by exact Ne.
      assert (E3 : data (w3 bk) = data (w2' bk)) by (eapply update_room_frame; eassumption).
      assert (E4 : data (w' bk) = data (w3 bk)) by (eapply update_finish_frame; eassumption).
      assert (Zb' : zlen (data (w2' bk)) <= 10485760) by (rewrite <- E3, <- E4; apply Hs').
      assert (Hfit : 0 < n -> 184 + n <= zlen (data (w2' bk))).
      { intro Hn. pose proof (update_finish_slice _ _ _ _ _ _ _ _ _ _ _ Hfin Hn) as Q. now rewrite E3 in Q. }
      set (b := fld (data (w2' bk)) 184 n).
      assert (Hbl : zlen b = n).
      { unfold b. destruct (Z.eq_dec n 0) as [E0|E0]; [rewrite E0; now rewrite fld_n0|]. apply zlen_fld; lia. }
      exists b. split; [assumption|]. split. { destruct (Z.eq_dec n 0); [lia|]. specialize (Hfit ltac:(lia)). lia. }
      split. { apply F2. congruence. } split; [auto|]. split; [assumption|].
      split. { intros k Hk1 Hk2. apply F2. congruence. }
      intros w'' Hw. unfold source_spec. split; [assumption|]. split; [assumption|]. split; [assumption|]. split; [lia|].
      split. { change (byte_at (data (w bk)) 0) with (s_disc (data (w bk))) in Di. exact Di. }
      split; [change ASSET_LEN with 168 in Ty; lia|]. exists inp'.
      assert (Esub : sub (data (w bk)) 168 (length b) = inp).
      { rewrite Ei, sub_fld. f_equal. fold n. unfold zlen in Hbl. lia. }
      rewrite Esub. split; [assumption|]. split; [assumption|]. rewrite (Hw bk) by assumption. split; [assumption|].
      split. { rewrite sub_fld. unfold b at 1. f_equal. unfold zlen in Hbl. lia. }
      intros k Hk1 Hk2. rewrite Hw by assumption. now apply F2.
    - destruct x as [x0|]; [|discriminate]. injection Ht as <-. destruct (Hx x0 eq_refl) as [_ Hxl].
      apply bind_ok in Hsrc as (r & Hr & Hsrc). destruct r as [n' o]. destruct (n' <? x_length x0) eqn:Q1; [discriminate|]. destruct (x_length x0 <? n') eqn:Q2; [discriminate|].
      apply Ok_inj in Hsrc. injection Hsrc as -> -> ->.
      destruct (x_data x0) as [bs|] eqn:Exd.
      + apply bind_ok in Hr as (cur & Hc & Hr). apply bind_ok in Hr as (bs' & Hv & Hr). injection Hr as <- <-.
        apply Hcur in Hc. apply validate_stored in Hv. rewrite Hc in Hv.
        exists bs'. split; [reflexivity|]. split; [lia|]. split; [reflexivity|]. split; [auto|]. split; [auto|]. split; [auto|].
        intros w'' Hw. exists x0. split; [reflexivity|]. split; [reflexivity|]. split; [lia|]. split; [intros bs0 E; congruence|]. split; [congruence|assumption].
      + injection Hr as <- <-. exists []. split; [reflexivity|]. split; [lia|]. split; [reflexivity|]. split; [lia|]. split; [auto|]. split; [auto|].
        intros w'' Hw. exists x0. split; [reflexivity|]. split; [reflexivity|]. split; [change (zlen []) with 0; lia|]. split; [intros bs0 E; congruence|]. split; [reflexivity|assumption]. }
  destruct S as (b & Zb & Hn & D2 & Hcopy & O2 & F2 & Hspec). clear Hsrc.
  assert (Hfr : forall k, k <> asset -> data (w' k) = data (w2 k)).
  { intros k Hk. rewrite (update_finish_frame _ _ _ _ _ _ _ _ _ _ _ k Hfin Hk). eapply update_room_frame; eassumption. }
  specialize (Hspec w' Hfr). rewrite <- D2 in HL.
  assert (Hc3 : (forall k, k <> asset -> data (w3 k) = data (w2 k)) -> 0 < n -> match buffer with Some bk => b = fld (data (w3 bk)) 184 n | None => src = Some b end).
  { intros Q Hn0. specialize (Hcopy Hn0). destruct buffer as [bk|]; [|assumption]. rewrite Q; [assumption|].
    destruct Hspec as (Q1 & _). exact Q1. }
  destruct (loc t 168 l) as [[c b0]|] eqn:El; injection Er as -> ->.
  - apply loc_some in El as (l1 & l2 & -> & -> & <- & Hfa).
    pose proof (update_room_found _ _ _ _ _ _ _ _ _ _ _ _ _ _ HL Hn Hroom) as (B0 & tl' & D3 & ZB & Ht' & F3 & O3).
    pose proof HF as HF'. apply Forall_app in HF' as [Hf1 Hf2]. apply Forall_cons_iff in Hf2 as [Hb0 Hf2].
    pose proof (sect_size_nonneg l1). pose proof (sect_size_nonneg l2). pose proof (blk_size_pos b0). pose proof (zlen_nonneg tl).
    rewrite sect_size_app in Hlen. cbn [sect_size] in Hlen.
    eapply update_finish_layout in Hfin; [|exact Htn|exact Hh|exact Hf1|exact Hf2|apply Hn|exact Zb|exact D3|exact ZB|reflexivity| | | | |apply Hs'|exact (Hc3 F3)].
    + destruct Hfin as (b' & T' & B' & L' & F' & O'). exists (bk_type b0), b, (l1 ++ b' :: l2), tl'.
      split; [assumption|]. split; [assumption|]. split; [destruct Ht' as [->|[-> _]]; auto|]. split.
      { unfold put_ext. rewrite lookup_block by assumption. rewrite <- B'. apply replaced_at; assumption. }
      split; [assumption|]. intro k. rewrite O', O3. apply O2.
    + cbn [blk_hdr h_bnd]. lia.
    + cbn [blk_hdr h_bnd]. lia.
    + destruct Ht' as [->|[-> Q]]; [left; reflexivity|right; exact Q].
    + destruct Ht' as [->|[-> _]]; [left; reflexivity|assumption].
  - pose proof (update_room_new _ _ _ _ _ _ _ _ _ _ _ _ HL ltac:(apply Hn) Hroom) as (B0 & D3 & ZB & F3 & O3).
    pose proof (sect_size_nonneg l). pose proof (zlen_nonneg tl).
    eapply (update_finish_layout _ _ _ _ _ _ hd l B0 (168 + sect_size l) [] []) in Hfin; [|exact Htn|exact Hh|exact HF|constructor|apply Hn|exact Zb| |exact ZB|reflexivity|lia|cbn [sect_size]; lia|now left|left; reflexivity|apply Hs'|exact (Hc3 F3)].
    2:{ cbn [enc_sect app]. rewrite app_nil_r. exact D3. }
    destruct Hfin as (b' & T' & B' & L' & F' & O'). exists t, b, (l ++ [b']), [].
    split; [assumption|]. split; [assumption|]. split; [now left|]. split.
    { unfold put_ext. replace (lookup t (ext_list l)) with (@None bytes).
      - rewrite ext_list_app. cbn [ext_list map]. now rewrite T', B'.
      - symmetry. apply lookup_none. unfold ext_list. rewrite map_map. intro Q. apply in_map_iff in Q as (b1 & Q1 & Q2).
        apply loc_none in El. rewrite Forall_forall in El. exact (El b1 Q2 Q1). }
    split; [assumption|]. intro k. rewrite O', O3. apply O2.
Qed.


(** ** The header *)
Definition upd_head (a : update_input) (d : bytes) : bytes :=
  let d1 := match u_name a with Some n => put d 133 (pod_str35 n) | None => d end in
  match u_mutable a with Some b => put d1 3 [bool_byte b] | None => d1 end.
Lemma upd_head_layout a d hd l tl : layout d hd l tl -> layout (upd_head a d) (upd_head a hd) l tl.
Proof.
  intro HL. unfold upd_head. cbv zeta. destruct (u_name a), (u_mutable a);
    repeat (apply layout_head; [|lia|]); try exact HL; rewrite ?zlen_pod; try (unfold zlen; cbn [length]); lia.
Qed.
Lemma upd_head_fields a d : 168 <= zlen d -> header_updated a d (upd_head a d).
Proof.
  intro Hd. unfold upd_head. cbv zeta.
  set (d1 := match u_name a with Some n => put d 133 (pod_str35 n) | None => d end).
  assert (Z1 : zlen d1 = zlen d) by (unfold d1; destruct (u_name a); [apply zlen_put; rewrite ?zlen_pod; lia|reflexivity]).
  assert (N1 : forall i, (i < 133)%nat -> nth i d1 x00 = nth i d x00).
  { intros i Hi. unfold d1. destruct (u_name a); [apply nth_put_other; rewrite ?zlen_pod; lia|reflexivity]. }
  assert (S1 : forall o n, (o + n <= 133)%nat -> sub d1 o n = sub d o n).
  { intros o n Hi. unfold d1. destruct (u_name a); [apply sub_put_other; rewrite ?zlen_pod; lia|reflexivity]. }
  assert (M1 : sub d1 133 35 = match u_name a with Some n => name_field n | None => sub d 133 35 end).
  { unfold d1. destruct (u_name a) as [n|]; [|reflexivity]. rewrite <- pod_name.
    pose proof (sub_put_same d Hd 133 (pod_str35 n) ltac:(lia) ltac:(rewrite zlen_pod; lia)) as L.
    replace (length (pod_str35 n)) with 35%nat in L by (pose proof (zlen_pod n) as P; unfold zlen in P; lia). exact L. }
  set (d2 := match u_mutable a with Some b => put d1 3 [bool_byte b] | None => d1 end).
  assert (N2 : forall i, (i <> 3)%nat -> nth i d2 x00 = nth i d1 x00).
  { intros i Hi. unfold d2. destruct (u_mutable a) as [m|]; [apply nth_put_other; change (zlen [bool_byte m]) with 1; lia|reflexivity]. }
  assert (S2 : forall o n, (4 <= o)%nat -> sub d2 o n = sub d1 o n).
  { intros o n Hi. unfold d2. destruct (u_mutable a) as [m|]; [apply sub_put_other; change (zlen [bool_byte m]) with 1; lia|reflexivity]. }
  unfold header_updated, s_disc, s_state, s_standard, s_mutable, s_owner, s_group, s_authority, s_delegate, s_roles, s_name.
  rewrite !N2, !S2, !N1, !S1, M1 by lia. repeat (split; [reflexivity|]). split; [|repeat split; try (rewrite N2, N1 by lia; reflexivity)].
  unfold d2. destruct (u_mutable a) as [m|]; [|apply N1; lia]. exact (nth_put_one d1 3 (bool_byte m) ltac:(lia) ltac:(lia)).
Qed.
Lemma header_updated_layout a d hd l tl d' hd' l' tl' : layout d hd l tl -> layout d' hd' l' tl' ->
  header_updated a hd hd' -> header_updated a d d'.
Proof.
  intros L L' H. unfold header_updated in *.
  destruct (hd_fields _ _ _ _ L) as (-> & -> & -> & -> & -> & -> & -> & -> & -> & ->).
  destruct (hd_fields _ _ _ _ L') as (-> & -> & -> & -> & -> & -> & -> & -> & -> & ->). exact H.
Qed.

(** ** The instruction *)
Lemma update_effect e infos w a w' asset hd l tl : env_ok e -> e_prog e <> pk_zero -> sized w ->
  arg infos 0 asset -> layout (data (w asset)) hd l tl ->
  (forall x, u_ext a = Some x -> x_type x <> XNone /\ 0 <= x_length x <= 2000000000) ->
  process e infos w (IUpdate a) = Ok w' ->
  exists auth hd' l' tl', arg infos 1 auth /\ signed infos auth /\ acct_owner (w asset) = e_prog e /\
    initialized (data (w asset)) /\
    s_authority (data (w asset)) = pk_bytes auth /\ mutable (data (w asset)) /\
    header_updated a (data (w asset)) (data (w' asset)) /\
    layout (data (w' asset)) hd' l' tl' /\ (tl' = [] \/ tl' = tl) /\
    (forall k, acct_owner (w' k) = acct_owner (w k)) /\
    ((u_ext a = None /\ arg infos 2 (e_prog e) /\ l' = l /\ forall k, k <> asset -> data (w' k) = data (w k)) \/
     (exists buffer t b, (buffer = None /\ arg infos 2 (e_prog e) \/ exists bk, buffer = Some bk /\ arg infos 2 bk /\ bk <> e_prog e) /\
        t <> XNone /\ ext_list l' = put_ext t b (ext_list l) /\
        source_spec e w asset auth buffer (u_ext a) t (lookup t (ext_list l)) b w')).
Proof.
  intros He Hp Hs A0 HL Hx H. apply process_dispatch in H. cbn [dispatch] in H.
  assert (Hs' : sized w') by (eapply psteps_sized; [eapply update_psteps; eassumption|assumption]).
  unfold process_update in H.
  apply bind_ok in H as (asset' & B0 & H). apply bind_ok in H as (auth & A1 & H). apply bind_ok in H as (buffer & A2 & H).
  apply bind_ok in H as (group & _ & H). apply bind_ok in H as (payer & _ & H). apply bind_ok in H as (sysp & _ & H).
  apply acct_arg in B0, A1. rewrite (arg_det _ _ _ _ B0 A0) in *. clear B0 asset'.
  apply require_ok in H as [Sg H]. apply require_ok in H as [O1 H]. cbv zeta in H. apply check_authority_ok in H as (I1 & Au & Mu & H).
  fold (upd_head a (data (w asset))) in H. apply bind_ok in H as (w1 & H1 & H). apply set_data_world in H1 as (D1 & F1 & W1).
  apply signed_acct in Sg. unfold owned_by_prog in O1. apply pk_eqb_eq in O1.
  pose proof (upd_head_layout a _ _ _ _ HL) as L1. rewrite <- D1 in L1.
  assert (Hhd : zlen hd = 168) by (destruct HL as (_ & ? & _); assumption).
  pose proof (upd_head_fields a hd ltac:(lia)) as Hu.
  assert (A2' : (buffer = None /\ arg infos 2 (e_prog e)) \/ exists bk, buffer = Some bk /\ arg infos 2 bk /\ bk <> e_prog e).
  { destruct buffer as [bk|]; [right; exists bk; split; [reflexivity|]; now apply opt_acct_some in A2|left; split; [reflexivity|]; now apply opt_acct_none in A2]. }
  assert (Hcase : (u_ext a = None /\ buffer = None /\ w1 = w') \/ ((buffer = None \/ u_ext a = None) /\ update_ext e (passed infos) w w1 asset auth buffer payer sysp (u_ext a) = Ok w')).
  { destruct (u_ext a) as [x|] eqn:Ex, buffer as [bk|]; try discriminate; try (right; split; [auto|exact H]); [].
    left. split; [reflexivity|]. split; [reflexivity|]. congruence. }
  destruct Hcase as [(E1 & E2 & <-)|(Hb & He1)].
  - exists auth, (upd_head a hd), l, tl. repeat (split; [assumption|]).
    split; [eapply header_updated_layout; [exact HL|exact L1|exact Hu]|]. split; [assumption|]. split; [now right|]. split; [assumption|].
    left. split; [assumption|]. split; [|auto]. destruct A2' as [[_ Q]|(bk & Q & _)]; [assumption|congruence].
  - eapply update_ext_effect in He1; [|exact L1|exact Hs'|exact Hx|exact Hb].
    destruct He1 as (t & b & l' & tl' & T1 & L2 & T2 & EL & SS & OO).
    exists auth, (upd_head a hd), l', tl'. repeat (split; [assumption|]).
    split; [eapply header_updated_layout; [exact HL|exact L2|exact Hu]|]. split; [assumption|]. split; [assumption|].
    split; [intro k; rewrite OO; apply W1|]. right. exists buffer, t, b. split; [assumption|]. split; [assumption|]. split; [assumption|].
    unfold source_spec in *. destruct buffer as [bk|].
    + destruct SS as (N1 & X1 & R). rewrite !F1 in R by assumption. rewrite W1 in R. destruct R as (R1 & R2 & R3 & R4 & inp' & R5 & R6 & R7 & R8 & R9).
      split; [assumption|]. split; [assumption|]. split; [assumption|]. split; [assumption|]. split; [assumption|]. split; [assumption|].
      exists inp'. split; [assumption|]. split; [assumption|]. split; [assumption|]. split; [assumption|].
      intros k K1 K2. rewrite R9 by assumption. now apply F1.
    + destruct SS as (x0 & R1 & R2 & R3 & R4 & R5 & R6). exists x0. split; [assumption|]. split; [assumption|]. split; [assumption|].
      split; [assumption|]. split; [assumption|]. intros k K. rewrite R6 by assumption. now apply F1.
Qed.

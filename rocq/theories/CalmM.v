(** Remove gets an answer (C90). *)
From Verif Require Import Base State Layout Constr Ext World Proc BaseL Spec SpecB SpecF SpecH SpecJ SpecSafe SpecCalm WorldL ProcSteps LayoutL LayoutE HeadL AuthL AllocL AcceptL UpdateL RemoveL SafeL SafeM SafeN CalmL.
From Coq Require Import Strings.Byte.

Lemma find_quiet t tl (Htl : tail_ok tl) : t <> XNone -> forall l A fuel, zlen A mod 8 = 0 -> Forall blk_ok l ->
  zlen A + sect_size l <= u32_max ->
  remove_find fuel t (A ++ enc_sect (zlen A) l ++ tl) (zlen A) <> Panic.
Proof.
  intro Ht. induction l as [|b l IH]; intros A fuel HA HF Hu; (destruct fuel as [|fuel]; [discriminate|]); cbn [remove_find enc_sect app sect_size] in *.
  - match goal with |- (if ?q then _ else _) <> _ => destruct q eqn:E end; [|discriminate].
    destruct (tail_hdr A tl (zlen A) eq_refl HA Htl) as [E'|[E' (h & Hh & Hz)]]; [lia|].
    rewrite Hh. cbn [bind]. rewrite Hz. destruct (0 =? ext_code t); discriminate.
  - apply Forall_cons_iff in HF as [Hb HF]. pose proof (blk_size_pos b). pose proof (sect_size_nonneg l).
    match goal with |- (if ?q then _ else _) <> _ => destruct q eqn:E end; [|discriminate].
    rewrite <- !app_assoc. rewrite load_hdr_blk by (auto; lia). cbn [bind h_type h_bnd].
    destruct (ext_code (bk_type b) =? ext_code t); [discriminate|]. destruct (ext_code (bk_type b) =? 0); [discriminate|].
    assert (HL : zlen (A ++ enc_blk (zlen A) b) = zlen A + blk_size b) by (rewrite zlen_app, zlen_enc_blk by assumption; reflexivity).
    specialize (IH (A ++ enc_blk (zlen A) b) fuel). rewrite HL in IH. rewrite <- app_assoc in IH. apply IH; auto; [|lia].
    pose proof (blk_size_mod b Hb). lia.
Qed.
Lemma p_find d l t : well_formed d l -> t <> XNone -> answered (remove_find (walk_fuel d) t d ASSET_LEN).
Proof.
  intros W Ht. pose proof (well_ahead _ _ W) as HA.
  assert (C : contained (remove_find (walk_fuel d) t d ASSET_LEN)) by (apply s_removefind; [exact HA|unfold walk_fuel; lia|unfold walk_fuel, zlen, ASSET_LEN; lia]).
  destruct W as (hd & tl & HL). pose proof (layout_u32 _ _ _ _ HL) as Hu. destruct HL as (E & Hh & HF & Htl & _).
  assert (Q : remove_find (walk_fuel d) t d ASSET_LEN <> Panic).
  { change ASSET_LEN with 168. rewrite <- Hh. rewrite E at 2. rewrite <- Hh. apply find_quiet; auto; [rewrite Hh; reflexivity|lia]. }
  destruct (remove_find _ _ _ _); try exact I; try exact C. now contradiction Q.
Qed.
Lemma remove_p e infos w asset t l : sound_accounts e infos w -> arg infos 0 asset -> well_formed (data (w asset)) l -> readable l -> t <> XNone ->
  answered (process e infos w (IRemove t)).
Proof.
  intros HS A0 W R Ht. unfold process. cbv zeta. apply p_bind; [now apply access_p|]. intros lk _.
  assert (D : answered (dispatch e (passed infos) w (IRemove t))).
  { cbn [dispatch]. unfold process_remove. pf.
    match goal with K : acct _ 0 = Ok _ |- _ => apply acct_arg in K; rewrite (arg_det _ _ _ _ K A0) in * end.
    apply p_bind; [eapply p_find; eauto|]. intros [[off bnd]|] F; [|exact I].
    pose proof W as W'. destruct W as (hd & tl & HL). destruct (remove_find_layout _ _ _ _ _ _ HL Ht F) as (l1 & b & l2 & El & Eb & Hn & E).
    apply p_bind.
    { destruct t; try exact I. destruct (p_get _ _ XGrouping W' R) as [G|(o & x & -> & M & P)]; [discriminate| |].
      - exfalso. rewrite (layout_get _ _ _ _ HL XGrouping ltac:(discriminate)) in G. apply Ok_inj in G.
        assert (lookup XGrouping (ext_list l) = None) as Q. { rewrite (loc_lookup XGrouping l 168). destruct (loc XGrouping 168 l); [discriminate G|reflexivity]. }
        revert Q. rewrite El. clear - Eb. induction l1 as [|y l1 IH]; cbn [app ext_list map lookup].
        + rewrite Eb. cbn. discriminate.
        + destruct (ext_type_eqb _ _); [discriminate|]. exact IH.
      - cbn [bind]. apply p_bind; [now apply p_grouping|]. intros. pf. }
    intros _ _. subst l.
    pose proof (f_equal fst E) as E1. pose proof (f_equal snd E) as E2. cbn [fst snd] in E1, E2. pose proof (layout_len _ _ _ _ HL) as Z. rewrite sect_size_app in Z. cbn [sect_size] in Z.
    pose proof (sect_size_nonneg l1). pose proof (sect_size_nonneg l2). pose proof (blk_size_pos b). pose proof (zlen_nonneg tl).
    apply p_bind.
    { unfold memmove. destruct (_ =? 0); [exact I|]. destruct (_ && _) eqn:Q; [exact I|]. exfalso. lia. }
    intros. apply p_bind; [apply p_set|]. intros. pf. }
  destruct lk as [k|]; [|exact D]. destruct (blocked_when_locked _); [exact I|exact D].
Qed.

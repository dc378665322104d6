(** Derived statements about Create and Group used by the property theorems. *)
From Verif Require Import Base State Layout Constr Ext World Proc BaseL Spec SpecB WorldL LayoutL LayoutM LayoutE AllocM ValidL CreateL GroupL.
From Coq Require Import Strings.Byte.

Lemma created_validated auth l l' : Forall2 (created auth) l l' -> Forall2 (validated auth) l l'.
Proof. induction 1 as [|b b' l l' C Hl IH]; constructor; auto. destruct (created_fresh _ _ _ C). split; assumption. Qed.
Lemma created_valid auth l l' : Forall2 (created auth) l l' -> Forall (fun b => valid_new (bk_type b) (bk_data b)) l'.
Proof.
  induction 1 as [|b b' l l' (E & E') Hl IH]; constructor; auto. destruct E' as (al & _ & E'). rewrite E.
  cbn [bk_type bk_data with_data]. eapply on_create_valid; exact E'.
Qed.

Lemma create_initializes e infos w m w' asset hd l n : env_ok e -> e_prog e <> pk_zero ->
  arg infos 0 asset -> open_account (data (w asset)) hd l n -> sized w -> Forall ext_arg (inline m) ->
  process e infos w (ICreate m) = Ok w' ->
  exists auth owner l' hd' tl, arg infos 1 auth /\ arg infos 2 owner /\ signed infos asset /\
    layout (data (w' asset)) hd' l' tl /\ acct_owner (w' asset) = e_prog e /\
    Forall2 (validated (pk_bytes auth)) (l ++ inline_blks (inline m)) l' /\
    Forall (fun b => valid_new (bk_type b) (bk_data b)) l' /\
    Forall (fun x => x_length x = zlen (given x)) (inline m) /\
    s_disc (data (w' asset)) = x01 /\ s_standard (data (w' asset)) = standard_code (m_standard m) /\
    s_mutable (data (w' asset)) = bool_byte (m_mutable m) /\
    s_owner (data (w' asset)) = pk_bytes owner /\ s_authority (data (w' asset)) = pk_bytes auth /\
    s_name (data (w' asset)) = name_field (m_name m) /\
    s_state (data (w' asset)) = s_state hd /\ s_delegate (data (w' asset)) = s_delegate hd /\
    s_roles (data (w' asset)) = s_roles hd /\
    (data (w asset) = [] -> s_state hd = x00 /\ s_delegate hd = no_key /\ s_roles hd = x00 /\ s_group hd = no_key).
Proof.
  intros He Hp A0 HO Hs HF H.
  pose proof (create_effect _ _ _ _ _ _ _ _ _ He Hp A0 HO Hs HF H) as (auth & owner & l' & hd' & A1 & A2 & Sg & HL & HC & Hx & Ow & D1 & D2 & D3 & D4 & D5 & D6 & D7 & D8 & D9 & _).
  pose proof (hd_fields _ _ _ _ HL) as F. destruct F as (F1 & F2 & F3 & F4 & F5 & F6 & F7 & F8 & F9 & F10).
  exists auth, owner, l', hd'. eexists.
  split; [assumption|]. split; [assumption|]. split; [assumption|]. split; [exact HL|]. split; [assumption|].
  split; [now apply created_validated|]. split; [eapply created_valid; eassumption|]. split; [assumption|].
  repeat (split; [congruence|]).
  intros E. destruct HO as [(_ & -> & _ & _)|[_ (E' & Hh & _)]]; [repeat split|].
  rewrite E in E'. destruct hd; [discriminate Hh|discriminate E'].
Qed.
Lemma create_kind e infos w m w' asset hd l n : env_ok e -> e_prog e <> pk_zero ->
  arg infos 0 asset -> open_account (data (w asset)) hd l n -> sized w -> Forall ext_arg (inline m) ->
  process e infos w (ICreate m) = Ok w' ->
  exists l', well_formed (data (w' asset)) l' /\ s_standard (data (w' asset)) = standard_code (m_standard m) /\
    (m_standard m = Managed <-> exists b, lookup XManager (ext_list l') = Some b) /\
    (m_standard m = Proxied <-> exists b, lookup XProxy (ext_list l') = Some b) /\
    (forall b, lookup XProxy (ext_list l') = Some b -> proxy_derives e b asset).
Proof.
  intros He Hp A0 HO Hs HF H.
  pose proof (create_effect _ _ _ _ _ _ _ _ _ He Hp A0 HO Hs HF H) as (auth & owner & l' & hd' & A1 & A2 & Sg & HL & HC & Hx & Ow & D1 & D2 & D3 & D4 & D5 & D6 & D7 & D8 & D9 & HM & HP1 & HP2 & _).
  pose proof (hd_fields _ _ _ _ HL) as F. destruct F as (F1 & F2 & F3 & _).
  exists l'. split; [eexists; eexists; exact HL|]. split; [congruence|]. split.
  - rewrite HM. split.
    + intro Q. destruct (lookup XManager (ext_list l')) eqn:E; [eauto|]. apply lookup_none in E. exfalso. apply E.
      unfold ext_list. now rewrite map_map.
    + intros (b & Q). destruct (in_dec (ltac:(decide equality) : forall x y : ext_type, {x = y} + {x <> y}) XManager (map bk_type l')); [assumption|].
      assert (E : lookup XManager (ext_list l') = None) by (apply lookup_none; unfold ext_list; now rewrite map_map). congruence.
  - split.
    + split; [intro Q; destruct (HP1 Q) as (b & Q1 & _); eauto|]. intros (b & Q).
      destruct (m_standard m); try reflexivity; rewrite HP2 in Q by discriminate; discriminate.
    + intros b Q. assert (M : m_standard m = Proxied) by (destruct (m_standard m); try reflexivity; rewrite HP2 in Q by discriminate; discriminate).
      destruct (HP1 M) as (b' & Q1 & Q2). congruence.
Qed.

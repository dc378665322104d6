(** The registry over one instruction (C77). *)
From Verif Require Import Base State Layout Constr Ext World Proc BaseL Spec SpecB SpecC SpecH SpecG SpecS WorldL ProcSteps FrameL LayoutL LayoutE HeadL CreatorsL AuthL AuthM GroupL ResizeL UpdateL UpdateM AllocL AllocM AllocC CreateL BuildL RemoveL StepL StepH BornL TheftL CountL CountM CountH RoyalL VerifyL RegL.
From Coq Require Import Strings.Byte.

Lemma disable_small m x : b2z m < 8 -> b2z (disable_role m x) < 8.
Proof.
  intro H. pose proof (b2z_range m) as H0. assert (E : m = z2b (b2z m)) by (symmetry; apply z2b_b2z).
  assert (C : b2z m = 0 \/ b2z m = 1 \/ b2z m = 2 \/ b2z m = 3 \/ b2z m = 4 \/ b2z m = 5 \/ b2z m = 6 \/ b2z m = 7) by lia.
  rewrite E. destruct C as [C|[C|[C|[C|[C|[C|[C|C]]]]]]]; rewrite C; destruct x; vm_compute; reflexivity.
Qed.
Lemma disables_small l : forall m, b2z m < 8 -> b2z (fold_left disable_role l m) < 8.
Proof. induction l as [|x l IH]; intros m H; cbn [fold_left]; [exact H|]. apply IH, disable_small, H. Qed.
Lemma small_active m : b2z m < 8 -> has_active_roles m = negb (no_rights (rights_of m)).
Proof.
  intro H. pose proof (b2z_range m) as H0. assert (E : m = z2b (b2z m)) by (symmetry; apply z2b_b2z).
  assert (C : b2z m = 0 \/ b2z m = 1 \/ b2z m = 2 \/ b2z m = 3 \/ b2z m = 4 \/ b2z m = 5 \/ b2z m = 6 \/ b2z m = 7) by lia.
  rewrite E. destruct C as [C|[C|[C|[C|[C|[C|[C|C]]]]]]]; rewrite C; vm_compute; reflexivity.
Qed.
Lemma rights_disabled m l : rights_of (fold_left disable_role l m) = drop (rights_of m) (asked (DSome l)).
Proof.
  apply rights_ext. intro r. rewrite role_bits, disable_roles_spec, right_drop, role_bits, right_asked. unfold requested.
  split; intros [A B]; (split; [assumption|]); [tauto|]. intro Q. apply B. split; [assumption|]. intros ->. exact A.
Qed.
Lemma key_opt_none b : key_opt b = None <-> b = no_key.
Proof. unfold key_opt. destruct (list_eq_dec _ _ _); split; congruence. Qed.
Lemma key_opt_some b k : key_opt b = Some k <-> b = k /\ k <> no_key.
Proof. unfold key_opt. destruct (list_eq_dec _ _ _); split; intros; [discriminate|destruct H; congruence|split; congruence|destruct H; congruence]. Qed.
Lemma key_opt_same b : b <> no_key -> key_opt b = Some b.
Proof. intro N. now apply key_opt_some. Qed.

Lemma deputy_iff d l k r : deputy (view d (ext_list l)) k r <->
  match lookup XManager (ext_list l) with Some b => manager_is b k r | None => delegate_is d k r end.
Proof.
  unfold deputy. cbn [view as_exts as_delegate]. destruct (lookup XManager (ext_list l)) as [b|]; [reflexivity|]. unfold delegate_is, key_with_role. split.
  - intros (x & E & Hr). destruct (key_opt (s_delegate d)) as [k0|] eqn:K; [|discriminate]. apply key_opt_some in K as [K1 K2]. assert (E1 : k0 = pk_bytes k) by congruence. assert (E2 : rights_of (s_roles d) = x) by congruence.
    split; [congruence|]. split; [congruence|]. apply role_bits. congruence.
  - intros (N & E & Hr). rewrite (key_opt_same _ N). exists (rights_of (s_roles d)). split; [now rewrite E|now apply role_bits].
Qed.
Lemma entitled_iff d l k r : entitled (view d (ext_list l)) k r <-> authorized d l k r.
Proof. unfold entitled, authorized. now rewrite deputy_iff. Qed.
Lemma lockable_iff d l k : lockable (view d (ext_list l)) k <-> may_lock d l k.
Proof.
  unfold lockable, may_lock. rewrite deputy_iff. cbn [view as_delegate as_owner].
  assert (X : match key_opt (s_delegate d) with Some k0 => Some (k0, rights_of (s_roles d)) | None => None end = None <-> s_delegate d = no_key).
  { rewrite <- key_opt_none. destruct (key_opt (s_delegate d)); split; congruence. }
  rewrite X. destruct (lookup XManager (ext_list l)); reflexivity.
Qed.
Lemma lock_check_may d l k : well_formed d l -> lock_check d k = Ok tt -> may_lock d l k.
Proof.
  intros W H. apply (lock_check_spec d l k W); [|exact H]. intros b Hb. unfold lock_check in H. rewrite (manager_layout _ _ W), Hb in H.
  unfold load_delegate, guard in H. destruct (33 <=? zlen b) eqn:E; [apply Z.leb_le in E; unfold zlen in E; lia|discriminate].
Qed.
Lemma shown d v : shows d v -> exists l, tidy d l /\ well_formed d l /\ v = view d (ext_list l).
Proof. intros (_ & _ & l & T & E). exists l. split; [assumption|]. split; [|assumption]. destruct T as (hd & n & L). exists hd, (repeat x00 n). exact L. Qed.
Lemma lookup_shown d v t off b : shows d v -> t <> XNone -> has_ext d t off b -> lookup t (as_exts v) = Some b.
Proof. intros (_ & _ & l & (hd & n & L) & ->) Ht HE. cbn [view as_exts]. eapply has_ext_lookup; eauto. Qed.
Lemma shown_lookup d v t b : shows d v -> lookup t (as_exts v) = Some b -> exists off, has_ext d t off b.
Proof. intros (_ & _ & l & (hd & n & L) & ->) E. cbn [view as_exts] in E. eapply lookup_has_ext; eauto. Qed.

Section Step.
Variables (e : env) (infos : list ainfo) (w w' : world) (R : registry).
Let p := e_prog e.
Hypothesis (He : env_ok e) (Hp : p <> pk_zero) (HS : sound p w) (HR : roomy p w) (HI : pictures p w R).

Lemma known_of i a v : process e infos w i = Ok w' -> arg infos 0 a -> R a = Some v -> known infos R a v.
Proof.
  intros H A0 E. split; [assumption|]. split; [assumption|]. intro S. pose proof (HI a) as Q. rewrite E in Q.
  destruct Q as [[O _] (_ & _ & l & _ & ->)]. eapply proxied_signer; eauto.
Qed.
Lemma unlocked_of i : process e infos w i = Ok w' ->
  match i with IApprove _ | IBurn | ILock | IRevoke _ | ITransfer => True | _ => False end -> unlocked infos R.
Proof.
  intros H C x v Hx E. pose proof (HI (ai_key x)) as Q. rewrite E in Q. destruct Q as [[O [_ D]] (_ & _ & l & _ & ->)].
  cbn [view as_locked]. unfold same_byte. destruct (Byte.byte_eq_dec _ _) as [S|S]; [exfalso|reflexivity].
  refine (locked_blocks e infos w i x Hx O _ C w' H). split; assumption.
Qed.
(** one account written by the program *)
Lemma wrote a d : set_data e (passed infos) w a d = Ok w' -> data (w' a) = d /\
  (forall k, k <> a -> data (w' k) = data (w k) /\ acct_owner (w' k) = acct_owner (w k)) /\ acct_owner (w' a) = acct_owner (w a).
Proof. intro H. apply set_data_world in H as (D & F & O). split; [assumption|]. split; [|apply O]. intros k N. split; [now apply F|apply O]. Qed.
Lemma drawn_some a v : acct_owner (w' a) = acct_owner (w a) -> asset_of p w a -> shows (data (w' a)) v -> drawn p w' a (Some v).
Proof. intros O [A _] S. split; [|exact S]. split; [congruence|apply S]. Qed.
Lemma writes a d v' : asset_of p w a -> set_data e (passed infos) w a d = Ok w' -> shows d v' -> sets R a (Some v') (rset R a (Some v')) /\ pictures p w' (rset R a (Some v')).
Proof.
  intros A H S. destruct (wrote a d H) as (D & F & O). split; [apply rset_sets|]. apply (pictures_upd p w); [assumption|assumption|].
  apply drawn_some; [assumption|assumption|]. now rewrite D.
Qed.
Lemma seen a : asset_of p w a -> exists v, R a = Some v /\ shows (data (w a)) v.
Proof. apply pictured. assumption. Qed.

Lemma cleared d v : shows d v -> shows (clear_delegate d) (with_delegate None v).
Proof.
  intro S. unfold clear_delegate. change (zeros 33) with (no_key ++ [x00]).
  pose proof (init_zlen _ (proj1 S)) as Z1.
  apply (shows_put d v 100 (no_key ++ [x00]) (with_delegate None)); [assumption|lia|vm_compute; discriminate| |].
  - intros L Z2. destruct (view_delegate d L Z2 no_key x00 eq_refl) as [-> _]. reflexivity.
  - destruct (view_delegate d [] Z1 no_key x00 eq_refl) as [_ ->]. reflexivity.
Qed.
Lemma newly d v k q : shows d v -> shows (put d 100 (pk_bytes k ++ [z2b (roles_of q)]))
  (with_delegate (match key_opt (pk_bytes k) with Some d => Some (d, asked q) | None => None end) v).
Proof.
  intro S. pose proof (init_zlen _ (proj1 S)) as Z1. pose proof (roles_of_range q) as Rq.
  apply (shows_put d v 100 _ (with_delegate (match key_opt (pk_bytes k) with Some d => Some (d, asked q) | None => None end))); [assumption|lia| | |].
  - rewrite zlen_app, pk_zlen. vm_compute. discriminate.
  - intros L Z2. destruct (view_delegate d L Z2 (pk_bytes k) (z2b (roles_of q)) (pk_length k)) as [-> _]. now rewrite rights_asked.
  - destruct (view_delegate d [] Z1 (pk_bytes k) (z2b (roles_of q)) (pk_length k)) as [_ ->]. change (b2z (z2b (roles_of q)) < 8). rewrite b2z_z2b, Z.mod_small; lia.
Qed.
Lemma remask d v m : shows d v -> b2z m < 8 ->
  shows (put d 132 [m]) (with_delegate (match as_delegate v with Some (k, _) => Some (k, rights_of m) | None => None end) v).
Proof.
  intros S Hm. pose proof (init_zlen _ (proj1 S)) as Z1.
  apply (shows_put d v 132 [m] (fun v => with_delegate (match as_delegate v with Some (k, _) => Some (k, rights_of m) | None => None end) v)); [assumption|lia|vm_compute; discriminate| |].
  - intros L Z2. destruct (view_roles d L Z2 m) as [-> _]. cbn [view as_delegate]. destruct (key_opt _); reflexivity.
  - destruct (view_roles d [] Z1 m) as [_ ->]. exact Hm.
Qed.
Lemma delegate_seen d v : shows d v -> as_delegate v = match key_opt (s_delegate d) with Some k => Some (k, rights_of (s_roles d)) | None => None end.
Proof. intros (_ & _ & l & _ & ->). reflexivity. Qed.

Lemma step_approve q : process e infos w (IApprove q) = Ok w' -> exists R', act e w infos R (IApprove q) R' /\ pictures p w' R'.
Proof.
  intro H. pose proof H as H0. apply process_dispatch in H0. cbn [dispatch] in H0.
  apply approve_inv in H0 as (a & o & d & A0 & A1 & A2 & O1 & Sg & I1 & Ow & W). apply acct_arg in A0, A1, A2. apply signed_acct in Sg.
  destruct (seen a (conj O1 I1)) as (v & E & S).
  assert (Hv : as_owner v = pk_bytes o) by (destruct S as (_ & _ & l & _ & ->); exact Ow).
  assert (S' : shows (if bytes_eqb (s_delegate (data (w a))) no_key then put (data (w a)) 100 (pk_bytes d ++ [z2b (roles_of q)])
     else if bytes_eqb (s_delegate (data (w a))) (pk_bytes d) then put (data (w a)) 132 [z2b (Z.lor (b2z (s_roles (data (w a)))) (roles_of q))]
     else put (data (w a)) 100 (pk_bytes d ++ [z2b (roles_of q)])) (with_delegate (approved v (pk_bytes d) q) v)).
  { unfold approved. rewrite (delegate_seen _ _ S). destruct (bytes_eqb (s_delegate (data (w a))) no_key) eqn:E1.
    - apply bytes_eqb_eq in E1. apply key_opt_none in E1. rewrite E1. pose proof (newly _ _ d q S) as N. destruct (key_opt (pk_bytes d)); exact N.
    - apply bytes_eqb_neq in E1. rewrite (key_opt_same _ E1). destruct (bytes_eqb (s_delegate (data (w a))) (pk_bytes d)) eqn:E2.
      + apply bytes_eqb_eq in E2. rewrite <- E2. rewrite (key_opt_same _ E1). destruct (list_eq_dec _ _ _) as [_|N]; [|contradiction].
        pose proof S as (_ & Rl & _). pose proof (b2z_range (s_roles (data (w a)))) as Br. change (Z.of_N (Byte.to_N (s_roles (data (w a))))) with (b2z (s_roles (data (w a)))) in Rl.
        pose proof (lor_lt8 (b2z (s_roles (data (w a)))) (roles_of q) ltac:(lia) (roles_of_range q)) as Lr.
        pose proof (remask _ _ (z2b (Z.lor (b2z (s_roles (data (w a)))) (roles_of q))) S ltac:(rewrite b2z_z2b, Z.mod_small; lia)) as N.
        rewrite (delegate_seen _ _ S), (key_opt_same _ E1), rights_added in N. exact N.
      + apply bytes_eqb_neq in E2. pose proof (newly _ _ d q S) as N. destruct (key_opt (pk_bytes d)) as [k|] eqn:E3; [|exact N].
        apply key_opt_some in E3 as [E3 _]. destruct (list_eq_dec _ _ _) as [Q|_]; [congruence|exact N]. }
  destruct (writes a _ _ (conj O1 I1) W S') as [Q1 Q2]. eexists. split; [|exact Q2].
  eapply act_approve; eauto; [eapply known_of; eauto|eapply unlocked_of; eauto; exact I].
Qed.

Lemma step_revoke q : process e infos w (IRevoke q) = Ok w' -> exists R', act e w infos R (IRevoke q) R' /\ pictures p w' R'.
Proof.
  intro H. pose proof H as H0. apply process_dispatch in H0. cbn [dispatch] in H0.
  apply revoke_inv in H0 as (a & s & A0 & A1 & O1 & Sg & I1 & Au & W). apply acct_arg in A0, A1. apply signed_acct in Sg.
  destruct (seen a (conj O1 I1)) as (v & E & S).
  assert (Hv : as_owner v = pk_bytes s \/ (exists r, as_delegate v = Some (pk_bytes s, r))).
  { destruct Au as [Q|[Q1 Q2]]; [left; destruct S as (_ & _ & l & _ & ->); exact Q|right]. rewrite (delegate_seen _ _ S), (key_opt_same _ Q1), Q2. eauto. }
  assert (S' : shows (match q with
       | DAll => clear_delegate (data (w a))
       | DSome roles =>
           if bytes_eqb (s_delegate (data (w a))) no_key then data (w a)
           else let r' := fold_left disable_role roles (s_roles (data (w a))) in
                if has_active_roles r' then put (data (w a)) 132 [r'] else clear_delegate (data (w a))
       end) (with_delegate (revoked v q) v)).
  { unfold revoked. destruct q as [|rs]; [now apply cleared|]. rewrite (delegate_seen _ _ S). destruct (bytes_eqb (s_delegate (data (w a))) no_key) eqn:E1.
    - apply bytes_eqb_eq in E1. apply key_opt_none in E1. rewrite E1.
      pose proof (delegate_seen _ _ S) as Q. rewrite E1 in Q. assert (Ev : with_delegate None v = v) by (destruct v as [v1 v2 v3 v4 v5 v6 v7 v8 v9]; cbn [as_delegate] in Q; subst v4; reflexivity). rewrite Ev. exact S.
    - apply bytes_eqb_neq in E1. rewrite (key_opt_same _ E1). cbv zeta.
      pose proof S as (_ & Rl & _). change (Z.of_N (Byte.to_N (s_roles (data (w a))))) with (b2z (s_roles (data (w a)))) in Rl.
      pose proof (disables_small rs _ Rl) as Ds. rewrite (small_active _ Ds), rights_disabled.
      destruct (no_rights _); cbn [negb]; [now apply cleared|].
      pose proof (remask _ _ _ S Ds) as N. rewrite (delegate_seen _ _ S), (key_opt_same _ E1), rights_disabled in N. exact N. }
  destruct (writes a _ _ (conj O1 I1) W S') as [Q1 Q2]. eexists. split; [|exact Q2].
  eapply act_revoke; eauto; [eapply known_of; eauto|eapply unlocked_of; eauto; exact I].
Qed.

Lemma stated d v b : shows d v -> shows (put d 1 [bool_byte b]) (with_lock b v).
Proof.
  intro S. pose proof (init_zlen _ (proj1 S)) as Z1.
  apply (shows_put d v 1 [bool_byte b] (with_lock b)); [assumption|lia|vm_compute; discriminate| |].
  - intros L Z2. rewrite view_state by assumption. destruct b; reflexivity.
  - rewrite roles_kept; [apply S|assumption|lia|vm_compute; discriminate].
Qed.
Lemma step_state (b : bool) : process e infos w (if b then ILock else IUnlock) = Ok w' ->
  exists R', act e w infos R (if b then ILock else IUnlock) R' /\ pictures p w' R'.
Proof.
  intro H. pose proof H as H0. apply process_dispatch in H0.
  assert (H1 : process_set_state (bool_byte b) e (passed infos) w = Ok w') by (destruct b; exact H0). clear H0.
  apply set_state_inv in H1 as (a & s & A0 & A1 & Sg & O1 & I1 & C & W). apply acct_arg in A0, A1. apply signed_acct in Sg.
  destruct (seen a (conj O1 I1)) as (v & E & S).
  assert (Hv : lockable v s). { destruct (shown _ _ S) as (l & _ & WF & ->). apply lockable_iff. now apply lock_check_may. }
  destruct (writes a _ _ (conj O1 I1) W (stated _ _ b S)) as [Q1 Q2]. eexists. split; [|exact Q2].
  destruct b; [eapply act_lock; eauto; [eapply known_of; eauto|eapply unlocked_of; eauto; exact I]|eapply act_unlock; eauto; eapply known_of; eauto].
Qed.

Lemma owned d v k : shows d v -> shows (put d 4 (pk_bytes k)) (with_owner (pk_bytes k) v).
Proof.
  intro S. pose proof (init_zlen _ (proj1 S)) as Z1.
  apply (shows_put d v 4 (pk_bytes k) (with_owner (pk_bytes k))); [assumption|lia|rewrite pk_zlen; lia| |].
  - intros L Z2. now apply view_owner.
  - rewrite roles_kept; [apply S|assumption|lia|rewrite pk_zlen; lia].
Qed.
Lemma member_group a g : asset_of p w a -> s_group (data (w a)) = pk_bytes g -> pk_bytes g <> no_key -> asset_of p w g.
Proof.
  intros A G N. destruct (asset_dec p w g) as [Q|Q]; [assumption|exfalso]. destruct HS as (_ & _ & _ & HC).
  assert (Ng : g <> pk_zero) by (intros ->; apply N; reflexivity).
  apply (counts_zero_inv p w g (HC g 0 Ng (or_intror (conj Q eq_refl))) a). split; assumption.
Qed.
Lemma step_transfer : process e infos w ITransfer = Ok w' -> exists R', act e w infos R ITransfer R' /\ pictures p w' R'.
Proof.
  intro H. pose proof H as H0. apply process_dispatch in H0. cbn [dispatch] in H0.
  apply transfer_inv in H0 as (a & s & r & grp & ck & A0 & A1 & A2 & A3 & O1 & Sg & I1 & St & Hck & Ac & W). apply acct_arg in A0, A1, A2. apply signed_acct in Sg.
  apply royalties_checked in Hck.
  destruct (seen a (conj O1 I1)) as (v & E & S). destruct (shown _ _ S) as (l & T & WF & Ev).
  assert (Hv : entitled v s RTransfer) by (rewrite Ev; apply entitled_iff; now apply act_check_wf).
  assert (Hst : as_standard v <> x02) by (rewrite Ev; exact St).
  assert (X1 : forall b, lookup XRoyalties (as_exts v) = Some b -> permits e w a s r b).
  { intros b Lk. destruct (shown_lookup _ _ _ _ S Lk) as [off HE]. destruct Hck as [[_ N]|[_ (off' & b' & HE' & HP)]]; [elim (N _ _ HE)|].
    destruct (has_ext_det _ _ _ _ _ _ HE' HE) as [_ <-]. exact HP. }
  destruct W as [[Ow Ew]|(Ow & X2 & W)].
  { exists R. split; [|rewrite Ew; exact HI]. eapply act_keep; eauto; [eapply known_of; eauto|eapply unlocked_of; eauto; exact I|rewrite Ev; exact Ow|intro; reflexivity]. }
  pose proof (cleared _ _ (owned _ _ r S)) as S'.
  destruct (writes a _ _ (conj O1 I1) W S') as [Q1 Q2]. eexists. split; [|exact Q2].
  apply (act_transfer e w infos R a v s r); auto; [eapply known_of; eauto|eapply unlocked_of; eauto; exact I|rewrite Ev; exact Ow|].
  unfold royalties. destruct (lookup XRoyalties (as_exts v)) as [b|] eqn:Lk; [now apply X1|].
  assert (Hf : ck = false).
  { destruct Hck as [[Q _]|[_ (off & b & HE & _)]]; [exact Q|]. rewrite (lookup_shown _ _ XRoyalties _ _ S ltac:(discriminate) HE) in Lk. discriminate. }
  assert (Eg : as_group v = key_opt (s_group (data (w a)))) by (rewrite Ev; reflexivity). rewrite Eg.
  destruct (key_opt (s_group (data (w a)))) as [gk|] eqn:K; [|exact I]. apply key_opt_some in K as [K1 K2].
  destruct (X2 gk ltac:(apply nullable_some; split; [exact K1|change (s_group (data (w a)) <> no_key); congruence]) Hf) as (g & x & -> & G1 & G2 & G3 & _ & _ & G4).
  apply opt_acct_some in A3 as [A3 Np]. apply royalties_checked in G4.
  assert (Ag : asset_of p w g) by (apply (member_group a g); [split; assumption|congruence|congruence]).
  destruct (seen g Ag) as (u & Eu & Su). exists g, u. split; [congruence|]. split; [assumption|]. split; [assumption|]. split; [assumption|]. split; [assumption|].
  intros b Lb. destruct (shown_lookup _ _ _ _ Su Lb) as [off HE]. destruct G4 as [[_ N]|[_ (off' & b' & HE' & HP)]]; [elim (N _ _ HE)|].
  destruct (has_ext_det _ _ _ _ _ _ HE' HE) as [_ <-]. exact HP.
Qed.

Lemma authored d v k : shows d v -> shows (put d 68 (pk_bytes k)) (with_authority (pk_bytes k) v).
Proof.
  intro S. pose proof (init_zlen _ (proj1 S)) as Z1.
  apply (shows_put d v 68 (pk_bytes k) (with_authority (pk_bytes k))); [assumption|lia|rewrite pk_zlen; lia| |].
  - intros L Z2. now apply view_authority.
  - rewrite roles_kept; [apply S|assumption|lia|rewrite pk_zlen; lia].
Qed.
Lemma is_mutable d v : shows d v -> mutable d -> as_mutable v = true.
Proof. intros (_ & _ & l & _ & ->) M. cbn [view as_mutable]. unfold same_byte. destruct (Byte.byte_eq_dec _ _); [contradiction|reflexivity]. Qed.
Lemma commands_of i a v auth : process e infos w i = Ok w' -> arg infos 0 a -> R a = Some v -> shows (data (w a)) v -> arg infos 1 auth -> signed infos auth ->
  s_authority (data (w a)) = pk_bytes auth -> mutable (data (w a)) -> commands infos R a v auth.
Proof.
  intros H A0 E S A1 Sg Au M. split; [eapply known_of; eauto|]. split; [assumption|]. split; [assumption|]. split; [|eapply is_mutable; eauto].
  destruct S as (_ & _ & l & _ & ->). exact Au.
Qed.
Lemma step_handover : process e infos w IHandover = Ok w' -> exists R', act e w infos R IHandover R' /\ pictures p w' R'.
Proof.
  intro H. pose proof H as H0. apply process_dispatch in H0. cbn [dispatch] in H0. unfold process_handover in H0.
  apply bind_ok in H0 as (a & A0 & H0). apply bind_ok in H0 as (au & A1 & H0). apply bind_ok in H0 as (n & A2 & H0).
  apply acct_arg in A0, A1, A2. apply require_ok in H0 as [S1 H0]. apply require_ok in H0 as [S2 H0]. apply require_ok in H0 as [O1 H0].
  cbv zeta in H0. apply check_authority_ok in H0 as (I1 & Au & M & W). apply signed_acct in S1, S2. apply pk_eqb_eq in O1.
  destruct (seen a (conj O1 I1)) as (v & E & S).
  destruct (writes a _ _ (conj O1 I1) W (authored _ _ n S)) as [Q1 Q2]. eexists. split; [|exact Q2].
  apply (act_handover e w infos R a v au n); auto. eapply commands_of; eauto.
Qed.
Lemma step_verify (y : bool) : process e infos w (if y then IVerify else IUnverify) = Ok w' ->
  exists R', act e w infos R (if y then IVerify else IUnverify) R' /\ pictures p w' R'.
Proof.
  intro H. pose proof (verify_effect _ _ _ _ _ H) as (a & c & off & b & b' & A0 & A1 & Sg & A & HE & F & D & F1 & O1).
  destruct (seen a A) as (v & E & S). pose proof F as (Lb & _).
  destruct (shows_payload _ _ XCreators _ _ b' S ltac:(discriminate) HE Lb) as [Lk S'].
  eexists. split; [eapply act_verify; eauto; [eapply known_of; eauto|apply rset_sets]|].
  apply (pictures_upd p w); [assumption| |].
  - intros k N. rewrite F1 by assumption. auto.
  - apply drawn_some; [apply O1|assumption|]. now rewrite D.
Qed.

(** groups *)
Lemma grouped d v g : shows d v -> length g = 32%nat -> shows (put d 36 g) (with_group (key_opt g) v).
Proof.
  intros S Lg. pose proof (init_zlen _ (proj1 S)) as Z1. assert (Z32 : zlen g = 32) by (unfold zlen; now rewrite Lg).
  apply (shows_put d v 36 g (with_group (key_opt g))); [assumption|lia|lia| |].
  - intros L Z2. now apply view_group.
  - rewrite roles_kept; [apply S|assumption|lia|lia].
Qed.
Lemma resized d v off b n : shows d v -> has_ext d XGrouping off b -> (16 <= length b)%nat ->
  lookup XGrouping (as_exts v) = Some b /\ shows (put d off (le_enc 8 (n mod two64))) (grown n b v).
Proof.
  intros S HE Hb. destruct (shows_size _ _ off b n S HE Hb) as [L S']. split; [assumption|]. 
  replace (le_enc 8 (n mod two64)) with (le_enc 8 n) by (symmetry; apply (le_enc_mod 8 n)). exact S'.
Qed.
Lemma governs_of d v b k : shows d v -> group_signer d b k -> governs v b k.
Proof. intros (_ & _ & l & _ & ->) G. exact G. Qed.
Lemma step_group : process e infos w IGroup = Ok w' -> exists R', act e w infos R IGroup R' /\ pictures p w' R'.
Proof.
  intro H. pose proof H as H0. apply process_dispatch in H0. cbn [dispatch] in H0. unfold process_group in H0.
  apply bind_ok in H0 as (a & A0 & H0). apply bind_ok in H0 as (g & A1 & H0). apply bind_ok in H0 as (au & A2 & H0).
  apply acct_arg in A0, A1, A2.
  apply do_group_inv in H0 as (Sg & O1 & O2 & I1 & I2 & Hne & Hg & Ha & off & b & HE & Hb & Ho & Gs & Hm & (T1 & T2) & D1 & D2); [|apply HS].
  apply signed_acct in Sg.
  destruct (seen a (conj O1 I1)) as (v & Ev & Sv). destruct (seen g (conj O2 I2)) as (u & Eu & Su).
  destruct (resized _ _ off b (gr_size b + 1) Su HE ltac:(lia)) as [Lk Su'].
  eexists. split; [eapply (act_join e w infos R a v g u b au)|]; auto; [eapply known_of; eauto| | |apply rset_sets2; assumption|].
  - destruct (shown _ _ Sv) as (l & _ & _ & ->). cbn [view as_group]. now apply key_opt_none.
  - split; [assumption|]. split; [destruct (shown _ _ Sv) as (l & _ & _ & ->), (shown _ _ Su) as (lu & _ & _ & ->); exact Ha|]. split; [assumption|].
    split; [eapply governs_of; eauto|]. auto.
  - apply (pictures_upd2 p w); [assumption|assumption| | |].
    + intros k N1 N2. split; [now rewrite T1|apply T2].
    + apply drawn_some; [apply T2|split; assumption|]. rewrite D1. apply grouped; [assumption|apply pk_length].
    + apply drawn_some; [apply T2|split; assumption|]. now rewrite D2.
Qed.
Lemma step_ungroup : process e infos w IUngroup = Ok w' -> exists R', act e w infos R IUngroup R' /\ pictures p w' R'.
Proof.
  intro H. pose proof (ungroup_effect e infos w w' (proj1 HS) H) as (a & g & s & off & b & A0 & A1 & A2 & Sg & Hne & O1 & O2 & I1 & I2 & Hg & HE & Gs & F1 & F2 & _ & _ & _ & _ & D1 & D2 & Hb).
  destruct (seen a (conj O1 I1)) as (v & Ev & Sv). destruct (seen g (conj O2 I2)) as (u & Eu & Su).
  destruct (resized _ _ off b (gr_size b - 1) Su HE ltac:(lia)) as [Lk Su'].
  eexists. split; [eapply (act_leave e w infos R a v g u b s)|]; auto; [eapply known_of; eauto| |eapply governs_of; eauto| |apply rset_sets2; congruence|].
  - destruct (shown _ _ Sv) as (l & _ & _ & ->). cbn [view as_group]. now rewrite Hg.
  - intro Ng. destruct (shown _ _ Su) as (l & T & _ & ->). assert (C : counts p w g (size_in l)) by (apply HS; [assumption|left; split; [split; assumption|eauto]]).
    cbn [view as_exts] in Lk. unfold size_in in C. rewrite Lk in C. apply (counts_pos p w g _ a C). split; [split; assumption|assumption].
  - apply (pictures_upd2 p w); [assumption|congruence| | |].
    + intros k N1 N2. rewrite F1 by assumption. auto.
    + apply drawn_some; [apply F2|split; assumption|]. rewrite D1. pose proof (grouped _ _ no_key Sv eq_refl) as Q. exact Q.
    + apply drawn_some; [apply F2|split; assumption|]. now rewrite D2.
Qed.

Lemma gone a : w' a = mkAcct 0 pk_zero [] -> drawn p w' a None.
Proof. intros E [_ [Q _]]. rewrite E in Q. cbn [data length] in Q. lia. Qed.
Lemma step_burn : process e infos w IBurn = Ok w' -> exists R', act e w infos R IBurn R' /\ pictures p w' R'.
Proof.
  intro H. pose proof H as H0. apply process_dispatch in H0. cbn [dispatch] in H0.
  apply burn_inv in H0 as (a & s & rec & grp & w1 & A0 & A1 & A2 & A3 & O1 & Sg & I1 & Ac & Hg & Hown & Hc).
  apply acct_arg in A0, A1. apply signed_acct in Sg.
  assert (W1 : lamports (w1 a) = lamports (w a)).
  { destruct Hg as [[_ ->]|(ga & off & b & gr & _ & _ & _ & _ & _ & _ & Hset)]; [reflexivity|]. eapply set_data_lam; eauto. }
  apply close_account_spec in Hc as (C1 & C2 & C3 & C4); [|rewrite W1; apply HS].
  assert (Hsame : forall k, k <> a -> data (w' k) = data (w1 k) /\ acct_owner (w' k) = acct_owner (w1 k)).
  { intros k Na. destruct (pk_dec k (match rec with Some r => r | None => s end)) as [->|Nd]; [rewrite C3; auto|rewrite C4 by assumption; auto]. }
  destruct (seen a (conj O1 I1)) as (v & Ev & Sv). destruct (shown _ _ Sv) as (l & T & WF & Vv).
  assert (Hv : entitled v s RBurn) by (rewrite Vv; apply entitled_iff; now apply act_check_wf).
  assert (He0 : forall b, lookup XGrouping (as_exts v) = Some b -> gr_size b = 0).
  { intros b Lb. destruct (shown_lookup _ _ _ _ Sv Lb) as [off HE].
    destruct Hown as [Q|(off' & b' & gr & Q & Hgr & Z0)]; [elim (asset_get_none _ _ Q _ _ HE)|].
    apply asset_get_some in Q. destruct (has_ext_det _ _ _ _ _ _ Q HE) as [_ <-]. apply grouping_ok in Hgr as (_ & -> & _). exact Z0. }
  assert (Eg : as_group v = key_opt (s_group (data (w a)))) by (rewrite Vv; reflexivity).
  destruct Hg as [[G0 ->]|(g & off & b & gr & G1 & -> & Nga & Hge & Hgr & H1 & Hset)].
  - apply nullable_none in G0. eexists. split; [eapply (act_burn e w infos R a v s)|]; auto; [eapply known_of; eauto|eapply unlocked_of; eauto; exact I| |apply rset_sets|].
    + rewrite Eg. now apply key_opt_none.
    + apply (pictures_upd p w); [assumption|assumption|now apply gone].
  - apply opt_acct_some in A3 as [A3 Np]. apply asset_get_some in Hge. apply grouping_ok in Hgr as (Hb & -> & _). cbn [g_size] in *.
    apply nullable_some in G1 as [G1 G2]. change (s_group (data (w a)) = pk_bytes g) in G1. change (s_group (data (w a)) <> no_key) in G2.
    assert (Ag : asset_of p w g) by (apply (member_group a g); [split; assumption|assumption|congruence]).
    destruct (seen g Ag) as (u & Eu & Su).
    apply set_data_world in Hset as (D1 & F1 & O2).
    destruct (shows_size _ _ off b (gr_size b - 1) Su Hge ltac:(lia)) as [Lk Su'].
    eexists. split; [eapply (act_burn_member e w infos R a v s g u b)|]; auto; [eapply known_of; eauto|eapply unlocked_of; eauto; exact I| |apply rset_sets2; assumption|].
    + rewrite Eg, G1. apply key_opt_same. congruence.
    + apply (pictures_upd2 p w); [assumption|assumption| |now apply gone|].
      * intros k N1 N2. destruct (Hsame k N1) as [-> ->]. split; [now apply F1|apply O2].
      * destruct (Hsame g Nga) as [Dg Og]. apply drawn_some; [rewrite Og; apply O2|assumption|]. now rewrite Dg, D1.
Qed.

Lemma tidy_ends hd tl l d n : layout d hd l (repeat x00 n) -> tl = [] \/ tl = repeat x00 n -> exists m, tl = repeat x00 m.
Proof. intros _ [->| ->]; [exists 0%nat|exists n]; reflexivity. Qed.
Lemma step_update q : proper e infos w (IUpdate q) -> process e infos w (IUpdate q) = Ok w' -> exists R', act e w infos R (IUpdate q) R' /\ pictures p w' R'.
Proof.
  intros [P2 PX] H. assert (exists a, arg infos 0 a) as [a A0].
  { pose proof H as H0. apply process_dispatch in H0. cbn [dispatch] in H0. unfold process_update in H0. apply bind_ok in H0 as (a & A0 & _). apply acct_arg in A0. eauto. }
  assert (O0 : acct_owner (w a) = p /\ initialized (data (w a))).
  { pose proof H as H0. apply process_dispatch in H0. cbn [dispatch] in H0. unfold process_update in H0.
    apply bind_ok in H0 as (a' & B0 & H0). apply bind_ok in H0 as (au & _ & H0). apply bind_ok in H0 as (bu & _ & H0).
    apply bind_ok in H0 as (gr & _ & H0). apply bind_ok in H0 as (pa & _ & H0). apply bind_ok in H0 as (sy & _ & H0).
    apply acct_arg in B0. rewrite (arg_det _ _ _ _ B0 A0) in *. apply require_ok in H0 as [_ H0]. apply require_ok in H0 as [O1 H0]. cbv zeta in H0.
    apply check_authority_ok in H0 as (I1 & _). apply pk_eqb_eq in O1. split; assumption. }
  destruct (seen a O0) as (v & E & S). pose proof S as (_ & Rl & l & (hd & n & HL) & Vv).
  destruct (update_effect e infos w q w' a hd l _ He Hp (proj1 HS) A0 HL) as (au & hd' & l' & tl' & A1 & Sg & O1 & I1 & Au & M & HU & HL' & Tl & Ow & HX).
  { intros x Hx. destruct (PX x Hx) as [(Q1 & Q2 & _) _]. split; assumption. }
  { exact H. }
  destruct HU as (U1 & U2 & U3 & U4 & U5 & U6 & U7 & U8 & U9 & U10).
  assert (S' : forall L, ext_list l' = L -> shows (data (w' a)) (with_exts L (with_face (match u_name q with Some n => name_field n | None => as_name v end)
                                         (match u_mutable q with Some m => m | None => as_mutable v end) v))).
  { intros L EL. split; [pose proof (layout_zlen_ge _ _ _ _ HL') as Z'; unfold zlen in Z'; split; [lia|destruct I1; congruence]|].
    split; [congruence|]. exists l'. destruct (tidy_ends _ _ _ _ _ HL Tl) as [m ->]. split; [exists hd', m; exact HL'|].
    rewrite Vv. unfold with_exts, with_face, view. cbn [as_owner as_group as_authority as_delegate as_locked as_standard as_mutable as_name as_exts].
    rewrite U2, U3, U4, U5, U6, U7, U8, U9, U10, EL. f_equal.
    destruct (u_mutable q) as [[]|]; reflexivity. }
  assert (CM : commands infos R a v au) by (eapply commands_of; eauto).
  destruct HX as [(Ex & _ & -> & F)|(bu & t & b & B2 & Nt & EL & Src)].
  - eexists. split; [eapply (act_update e w infos R a v au q (as_exts v)); [assumption|rewrite Ex; reflexivity|apply rset_sets]|].
    apply (pictures_upd p w); [assumption| |].
    + intros k N. split; [now apply F|apply Ow].
    + apply drawn_some; [apply Ow|exact O0|]. apply S'. rewrite Vv. reflexivity.
  - destruct B2 as [[-> _]|(bk & -> & B2 & Nb)]; [|elim Nb; eapply arg_det; eauto].
    destruct Src as (x0 & Ex & -> & Lx & Sx & _ & F). destruct (PX x0 Ex) as [_ Nd].
    destruct (x_data x0) as [gv|] eqn:Ed; [clear Nd|contradiction]. specialize (Sx gv eq_refl).
    eexists. split; [eapply (act_update e w infos R a v au q (put_ext (x_type x0) b (as_exts v))); [assumption| |apply rset_sets]|].
    + rewrite Ex. exists gv, b. split; [assumption|]. split.
      * rewrite Lx. unfold zlen. f_equal. unfold stored in Sx. destruct (lookup _ _); [apply Sx|destruct Sx as (_ & _ & (Q & _) & _); exact Q].
      * split; [rewrite Vv; exact Sx|reflexivity].
    + apply (pictures_upd p w); [assumption| |].
      * intros k N. split; [now apply F|apply Ow].
      * apply drawn_some; [apply Ow|exact O0|]. apply S'. rewrite Vv. exact EL.
Qed.

Lemma same_head d d' hd l l' tl tl' v : layout d hd l tl -> layout d' hd l' tl' -> shows d v -> (exists n, tl' = repeat x00 n) -> ext_list l = as_exts v ->
  shows d' (with_exts (ext_list l') v).
Proof.
  intros HL HL' (I1 & Rl & l0 & T0 & ->) (n & ->) El. pose proof (head_eq_layout _ _ _ _ _ _ _ HL HL') as HE'.
  apply head_eq_fields in HE' as (F1 & F2 & F3 & F4 & F5 & F6 & F7 & F8 & F9 & F10).
  pose proof (layout_zlen_ge _ _ _ _ HL') as Z'. unfold zlen in Z'.
  split; [split; [lia|destruct I1; congruence]|]. split; [congruence|]. exists l'. split; [exists hd, n; exact HL'|].
  unfold with_exts, view. cbn [as_owner as_group as_authority as_delegate as_locked as_standard as_mutable as_name as_exts].
  rewrite F2, F3, F4, F5, F6, F7, F8, F9, F10. reflexivity.
Qed.
Lemma lookup_none t l : Forall (fun x => bk_type x <> t) l -> lookup t (ext_list l) = None.
Proof.
  induction 1 as [|x l Hx _ IH]; [reflexivity|]. cbn [ext_list map lookup]. fold (ext_list l). destruct (ext_type_eqb (bk_type x) t) eqn:Q; [apply ext_type_eqb_eq in Q; contradiction|exact IH].
Qed.
Lemma step_remove t : proper e infos w (IRemove t) -> process e infos w (IRemove t) = Ok w' -> exists R', act e w infos R (IRemove t) R' /\ pictures p w' R'.
Proof.
  intros [Nt PX] H.
  assert (exists a, arg infos 0 a /\ asset_of p w a) as (a & A0 & Aa).
  { pose proof H as H0. apply process_dispatch in H0. cbn [dispatch] in H0. unfold process_remove in H0. apply bind_ok in H0 as (a & A0 & H0).
    apply bind_ok in H0 as (x1 & _ & H0). apply bind_ok in H0 as (x2 & _ & H0). apply bind_ok in H0 as (x3 & _ & H0).
    apply acct_arg in A0. exists a. split; [assumption|].
    apply require_ok in H0 as [_ H0]. apply require_ok in H0 as [O1 H0]. cbv zeta in H0. apply check_authority_ok in H0 as (I1 & _). apply pk_eqb_eq in O1. split; assumption. }
  destruct (seen a Aa) as (v & E & S). pose proof S as (_ & Rl & l & (hd & n & HL) & Vv).
  destruct (PX a l A0 ltac:(exists hd, (repeat x00 n); exact HL)) as (l1 & b & -> & Tb & F1).
  pose proof (remove_last _ _ _ _ _ _ _ _ _ _ A0 HL Tb F1 Nt H) as HL'.
  destruct (remove_effect _ _ _ _ _ _ _ _ _ A0 HL Nt H) as (au & m1 & c & m2 & A1 & Sg & Au & M & N1 & N2 & N3 & El & Ec & Fm & _ & F & Ow).
  assert (Ecb : c = b).
  { clear - El Tb F1 Ec Fm. revert m1 El Fm. induction l1 as [|x l1 IH]; intros [|y m1] El Hm; cbn [app] in El.
    - now injection El as -> _.
    - injection El as -> El. destruct m1; discriminate.
    - injection El as <- _. apply Forall_cons_iff in F1 as [F1 _]. contradiction.
    - injection El as -> El. apply Forall_cons_iff in F1 as [_ F1]. apply Forall_cons_iff in Hm as [_ Hm]. eauto. }
  subst c. eexists. split; [eapply (act_remove e w infos R a v au t (ext_list l1) (bk_data b))|]; auto; [eapply commands_of; eauto| | |apply rset_sets|].
  - rewrite Vv. cbn [view as_exts]. unfold ext_list. rewrite map_app. cbn [map]. now rewrite Tb.
  - now apply lookup_none.
  - apply (pictures_upd p w); [assumption| |].
    + intros k N. split; [now apply F|apply Ow].
    + apply drawn_some; [apply Ow|exact Aa|]. apply (same_head _ _ hd _ l1 _ _ v HL HL' S); [eauto|rewrite Vv; reflexivity].
Qed.
Lemma step_resize s : proper e infos w (IResize s) -> process e infos w (IResize s) = Ok w' -> exists R', act e w infos R (IResize s) R' /\ pictures p w' R'.
Proof.
  intros PX H. pose proof H as H0. apply process_dispatch in H0. cbn [dispatch] in H0.
  assert (O0 : forall a, arg infos 0 a -> acct_owner (w a) = p).
  { intros a A0. pose proof H0 as H1. unfold process_resize in H1. apply bind_ok in H1 as (a' & B0 & H1). apply acct_arg in B0. rewrite (arg_det _ _ _ _ B0 A0) in *.
    apply bind_ok in H1 as (x1 & _ & H1). apply bind_ok in H1 as (x2 & _ & H1). apply bind_ok in H1 as (x3 & _ & H1).
    apply require_ok in H1 as [_ H1]. apply require_ok in H1 as [O1 H1]. now apply pk_eqb_eq in O1. }
  apply resize_inv in H0 as (a & au & pa & sy & size & A0 & A1 & Sg & I1 & Au & M & _ & _). apply acct_arg in A0, A1. apply signed_acct in Sg.
  pose proof (O0 a A0) as O1. destruct (seen a (conj O1 I1)) as (v & E & S). pose proof S as (_ & Rl & l & (hd & n & HL) & Vv).
  assert (Q : (exists m, layout (data (w' a)) hd l (repeat x00 m)) /\ (forall k, k <> a -> data (w' k) = data (w k)) /\ (forall k, acct_owner (w' k) = acct_owner (w k))).
  { destruct s as [|z].
    - destruct (trim_effect _ _ _ _ _ _ _ _ A0 HL H) as (_ & L' & F & Ow). split; [exists 0%nat; exact L'|]. auto.
    - cbn [proper] in PX. pose proof (sized_preserved _ _ _ _ _ He Hp (proj1 (proj2 HS)) (proj1 HS) H) as Hs'. rewrite <- (Nat2Z.id n) in HL.
      destruct (ResizeL.extend_effect _ _ _ _ _ _ _ _ _ A0 (Zle_0_nat n) PX Hs' HL H) as (_ & _ & L' & F & Ow). split; [eexists; exact L'|auto]. }
  destruct Q as ((m & HL') & F & Ow). exists R. split; [eapply act_resize; [eapply commands_of; eauto|intro; reflexivity]|].
  intro k. apply (proj1 (pictures_drawn p w' R)). clear k. 
  assert (Ra : forall k, drawn p w' k (R k)); [|exact Ra]. intro k. destruct (pk_dec k a) as [->|N].
  - rewrite E. apply drawn_some; [apply Ow|split; assumption|]. pose proof (same_head _ _ _ _ _ _ _ v HL HL' S ltac:(eauto) ltac:(rewrite Vv; reflexivity)) as Q.
    assert (Ee : with_exts (ext_list l) v = v) by (rewrite Vv; reflexivity). now rewrite Ee in Q.
  - apply (drawn_same p w w' k (R k)); [now apply F|apply Ow|apply HI].
Qed.
End Step.

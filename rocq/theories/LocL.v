(** The outcome of a request depends on the accounts passed and on no other (C78). *)
From Verif Require Import Base State Layout Constr Ext World Proc Spec BaseL WorldL.
From Coq Require Import Strings.Byte.

Definition rel {A} (P : A -> A -> Prop) (r s : res A) : Prop :=
  match r, s with
  | Ok a, Ok b => P a b
  | Err x, Err y => x = y
  | Panic, Panic | Diverge, Diverge | UB, UB => True
  | _, _ => False
  end.
Definition so (ks : list pubkey) (w v : world) : Prop := forall k, In k ks -> w k = v k.

Lemma rel_refl {A} (P : A -> A -> Prop) r : (forall a, P a a) -> rel P r r.
Proof. intros H. destruct r; cbn; auto. Qed.
Lemma rel_eq {A} (r : res A) : rel eq r r.
Proof. now apply rel_refl. Qed.
Lemma rel_bind {A B} (P : A -> A -> Prop) (Q : B -> B -> Prop) r s f g :
  rel P r s -> (forall a b, P a b -> rel Q (f a) (g b)) -> rel Q (bind r f) (bind s g).
Proof. destruct r, s; cbn; try contradiction; auto. Qed.
Lemma rel_require {B} (Q : B -> B -> Prop) c x r s : rel Q r s -> rel Q (require c x r) (require c x s).
Proof. destruct c; cbn; auto. Qed.
Lemma rel_guard {B} (Q : B -> B -> Prop) c r s : rel Q r s -> rel Q (guard c r) (guard c s).
Proof. destruct c; cbn; auto. Qed.

(** walking through two copies of the same code *)
Ltac norm := repeat match goal with
  | H : so ?ks ?w ?v, Hk : In ?k ?ks |- context [?w ?k] => lazymatch w with v => fail | _ => rewrite (H k Hk) end
  end.
Ltac walk1 := first
  [ assumption
  | progress norm
  | lazymatch goal with |- rel _ (Ok _) (Ok _) => cbn [rel]; first [assumption | reflexivity] end
  | lazymatch goal with |- rel _ ?r ?r => apply rel_refl; first [reflexivity | intro; intros ? ?; reflexivity] end
  | lazymatch goal with
    | |- rel _ (require _ _ _) (require _ _ _) => apply rel_require
    | |- rel _ (guard _ _) (guard _ _) => apply rel_guard
    | |- rel _ (bind ?r _) (bind ?r _) => eapply (rel_bind eq); [apply rel_eq|intros ? ? <-]
    | |- rel _ (match ?x with _ => _ end) (match ?x with _ => _ end) => destruct x
    | |- rel _ (let '(_, _) := ?x in _) (let '(_, _) := ?x in _) => destruct x
    end ].
Ltac walk := cbv zeta; repeat (walk1; cbv zeta).

Section Loc.
Variables (e : env) (infos : list ainfo) (ks : list pubkey).
Hypothesis Hin : forall a, In a infos -> In (ai_key a) ks.

Lemma so_upd w v k a b : so ks w v -> a = b -> so ks (upd w k a) (upd v k b).
Proof. intros H -> k' Hk. unfold upd. destruct (pk_eqb k' k); auto. Qed.

Lemma set_data_rel w v k d : In k ks -> so ks w v ->
  rel (so ks) (set_data e infos w k d) (set_data e infos v k d).
Proof. intros Hk H. unfold set_data. walk. cbn [rel]. now apply so_upd. Qed.

Lemma upd_at w k a k' : upd w k a k' = if pk_eqb k' k then a else w k'.
Proof. reflexivity. Qed.

Lemma move_rel w v s d n : In s ks -> In d ks -> so ks w v ->
  rel (so ks) (move_lamports e infos w s d n) (move_lamports e infos v s d n).
Proof. intros Hs Hd H. unfold move_lamports. rewrite !upd_at. walk. cbn [rel]. now repeat apply so_upd. Qed.
Lemma transfer_rel w v s d n : In s ks -> In d ks -> so ks w v ->
  rel (so ks) (sys_transfer infos w s d n) (sys_transfer infos v s d n).
Proof. intros Hs Hd H. unfold sys_transfer. rewrite !upd_at. walk. cbn [rel]. now repeat apply so_upd. Qed.
Lemma create_rel w v p k l n : In p ks -> In k ks -> so ks w v ->
  rel (so ks) (sys_create e infos w p k l n) (sys_create e infos v p k l n).
Proof. intros Hp Hk H. unfold sys_create. walk. apply transfer_rel; auto. now apply so_upd. Qed.
Lemma realloc_rel w0 v0 w v k n : In k ks -> so ks w0 v0 -> so ks w v ->
  rel (so ks) (realloc e infos w0 w k n) (realloc e infos v0 v k n).
Proof. intros Hk H0 H. unfold realloc. walk. now apply set_data_rel. Qed.

Definition oin (o : option pubkey) : Prop := match o with Some k => In k ks | None => True end.

Lemma resize_rel w0 v0 w v n k p s : In k ks -> oin p -> so ks w0 v0 -> so ks w v ->
  rel (so ks) (resize e infos w0 w n k p s) (resize e infos v0 v n k p s).
Proof.
  intros Hk Hp H0 H. unfold resize. cbv zeta. eapply (rel_bind (so ks)).
  - destruct p as [p|]; cbn [oin ok_or bind] in *; walk; [now apply move_rel|now apply transfer_rel].
  - intros a b Hab. now apply realloc_rel.
Qed.
Lemma close_rel w v k r : In k ks -> In r ks -> so ks w v ->
  rel (so ks) (close_account e infos w k r) (close_account e infos v k r).
Proof.
  intros Hk Hr H. unfold close_account. walk. eapply (rel_bind (so ks)); [now apply move_rel|].
  intros a b Hab. walk. cbn [rel]. now apply so_upd.
Qed.
Lemma royalties_rel w v a s r d : In a ks -> In s ks -> In r ks -> so ks w v ->
  rel eq (process_royalties e w a s r d) (process_royalties e v a s r d).
Proof. intros Ha Hs Hr H. unfold process_royalties, target_of. walk. Qed.

Lemma find_locked_rel w v l : (forall a, In a l -> In (ai_key a) ks) -> so ks w v ->
  rel eq (find_locked e w l) (find_locked e v l).
Proof.
  intros Hl H. induction l as [|a l IH]; [reflexivity|]. cbn [find_locked].
  assert (Ha : In (ai_key a) ks) by (apply Hl; now left).
  assert (Hr : forall x, In x l -> In (ai_key x) ks) by (intros x Hx; apply Hl; now right).
  specialize (IH Hr). walk.
Qed.
Lemma validate_access_rel w v : so ks w v -> rel eq (validate_access e w infos) (validate_access e v infos).
Proof.
  intros H. unfold validate_access. eapply (rel_bind eq).
  - assert (Hi := Hin). clear Hin. destruct infos as [|a l]; [reflexivity|]. assert (Ha : In (ai_key a) ks) by (apply Hi; now left). walk.
  - intros _ _ _. now apply find_locked_rel.
Qed.

Lemma acct_in n k : acct infos n = Ok k -> In k ks.
Proof.
  unfold acct. destruct (nth_error infos n) eqn:E; [|discriminate]. intros [= <-].
  apply Hin. eapply nth_error_In; eauto.
Qed.
Lemma opt_acct_in n o : opt_acct e infos n = Ok o -> oin o.
Proof.
  unfold opt_acct. destruct (acct infos n) eqn:E; try discriminate. cbn [bind]. intros [= <-].
  apply acct_in in E. destruct (pk_eqb a (e_prog e)); cbn [oin]; auto.
Qed.
Ltac args := repeat lazymatch goal with
  | |- rel _ (bind (acct infos ?n) _) _ => let k := fresh "k" in let E := fresh "Hk" in
      destruct (acct infos n) as [k| | | |] eqn:E; cbn [bind]; [apply acct_in in E|now cbn..]
  | |- rel _ (bind (opt_acct e infos ?n) _) _ => let k := fresh "o" in let E := fresh "Ho" in
      destruct (opt_acct e infos n) as [k| | | |] eqn:E; cbn [bind]; [apply opt_acct_in in E|now cbn..]
  end.
Notation R := (rel (so ks)).

Variables w v : world.
Hypothesis H : so ks w v.

Lemma close_i_rel : R (process_close e infos w) (process_close e infos v).
Proof. unfold process_close, owned_by_prog. args. walk. now apply close_rel. Qed.
Lemma burn_rel : R (process_burn e infos w) (process_burn e infos v).
Proof.
  unfold process_burn, owned_by_prog. args. cbv zeta. norm.
  do 3 apply rel_require. eapply (rel_bind eq); [apply rel_eq|intros al ? <-]. apply rel_require.
  eapply (rel_bind (so ks)).
  - destruct (nullable _); [|assumption]. destruct o0 as [g|]; cbn [ok_or bind oin] in *; [|reflexivity]. walk. now apply set_data_rel.
  - intros w1 v1 H1. walk. apply close_rel; auto. destruct o; auto.
Qed.
Lemma approve_rel a : R (process_approve e infos w a) (process_approve e infos v a).
Proof. unfold process_approve, owned_by_prog. args. cbv zeta. norm. do 4 apply rel_require. now apply set_data_rel. Qed.
Lemma revoke_rel a : R (process_revoke e infos w a) (process_revoke e infos v a).
Proof. unfold process_revoke, owned_by_prog. args. cbv zeta. norm. do 4 apply rel_require. now apply set_data_rel. Qed.
Lemma set_state_rel st : R (process_set_state st e infos w) (process_set_state st e infos v).
Proof.
  unfold process_set_state, owned_by_prog. args. cbv zeta. norm. do 3 apply rel_require.
  do 2 (eapply (rel_bind eq); [apply rel_eq|intros ? ? <-]). now apply set_data_rel.
Qed.
Lemma transfer_i_rel : R (process_transfer e infos w) (process_transfer e infos v).
Proof.
  unfold process_transfer, owned_by_prog. args. cbv zeta. norm. do 3 apply rel_require.
  eapply (rel_bind eq); [now apply royalties_rel|intros ch ? <-]. apply rel_require.
  eapply (rel_bind eq); [apply rel_eq|intros al ? <-]. apply rel_require.
  destruct (key_is _ _); [assumption|]. eapply (rel_bind eq).
  - destruct (nullable _); [|reflexivity]. destruct ch; [reflexivity|].
    destruct o as [g|]; cbn [ok_or bind oin] in *; [|reflexivity]. norm. do 3 apply rel_require. apply rel_guard, rel_require.
    eapply (rel_bind eq); [now apply royalties_rel|]. now intros.
  - intros _ _ _. now apply set_data_rel.
Qed.
Lemma set_verified_rel b : R (process_set_verified b e infos w) (process_set_verified b e infos v).
Proof. unfold process_set_verified, owned_by_prog. args. walk. now apply set_data_rel. Qed.
Lemma handover_rel : R (process_handover e infos w) (process_handover e infos v).
Proof. unfold process_handover, owned_by_prog, check_authority. args. walk. now apply set_data_rel. Qed.
End Loc.

Section Loc2.
Variables (e : env) (infos : list ainfo) (ks : list pubkey).
Hypothesis Hin : forall a, In a infos -> In (ai_key a) ks.
Notation R := (rel (so ks)).
Notation oin := (oin ks).
Ltac args := repeat lazymatch goal with
  | |- rel _ (bind (acct infos ?n) _) _ => let k := fresh "k" in let E := fresh "Hk" in
      destruct (acct infos n) as [k| | | |] eqn:E; cbn [bind]; [apply (acct_in infos ks Hin) in E|now cbn..]
  | |- rel _ (bind (opt_acct e infos ?n) _) _ => let k := fresh "o" in let E := fresh "Ho" in
      destruct (opt_acct e infos n) as [k| | | |] eqn:E; cbn [bind]; [apply (opt_acct_in e infos ks Hin) in E|now cbn..]
  end.

Lemma do_group_rel w v a g s : In a ks -> In g ks -> so ks w v ->
  R (do_group e infos w a g s) (do_group e infos v a g s).
Proof.
  intros Ha Hg H. unfold do_group, owned_by_prog. cbv zeta. norm. do 8 apply rel_require. walk.
  eapply (rel_bind (so ks)); [now apply set_data_rel|]. intros w1 v1 H1. now apply set_data_rel.
Qed.
Lemma group_rel w v : so ks w v -> R (process_group e infos w) (process_group e infos v).
Proof. intros H. unfold process_group. args. now apply do_group_rel. Qed.
Lemma ungroup_rel w v : so ks w v -> R (process_ungroup e infos w) (process_ungroup e infos v).
Proof.
  intros H. unfold process_ungroup, owned_by_prog. args. cbv zeta. norm. do 7 apply rel_require. walk.
  eapply (rel_bind (so ks)); [now apply set_data_rel|]. intros w1 v1 H1. now apply set_data_rel.
Qed.
Lemma alloc_create_rel w v a p s n : In a ks -> oin p -> so ks w v ->
  R (alloc_create_account e infos w a p s n) (alloc_create_account e infos v a p s n).
Proof.
  intros Ha Hp H. unfold alloc_create_account. destruct p as [p|]; cbn [ok_or bind LocL.oin] in *; [|reflexivity].
  walk. now apply create_rel.
Qed.
Lemma save_rel w0 v0 w v a p s x b o bs : In a ks -> oin p -> so ks w0 v0 -> so ks w v ->
  R (save_extension_data e infos w0 w a p s x b o bs) (save_extension_data e infos v0 v a p s x b o bs).
Proof.
  intros Ha Hp H0 H. unfold save_extension_data. cbv zeta. norm. eapply (rel_bind (so ks)).
  - walk; [now apply alloc_create_rel|now apply resize_rel].
  - intros w1 v1 H1. norm. do 2 (eapply (rel_bind eq); [apply rel_eq|intros ? ? <-]). now apply set_data_rel.
Qed.
Lemma do_allocate_rel w0 v0 w v a p s x : In a ks -> oin p -> so ks w0 v0 -> so ks w v ->
  R (do_allocate e infos w0 w a p s x) (do_allocate e infos v0 v a p s x).
Proof.
  intros Ha Hp H0 H. unfold do_allocate, owned_by_prog. cbv zeta. norm. apply rel_require.
  do 2 (eapply (rel_bind eq); [apply rel_eq|intros ? ? <-]). now apply save_rel.
Qed.
Lemma allocate_rel w v x : so ks w v -> R (process_allocate e infos w x) (process_allocate e infos v x).
Proof. intros H. unfold process_allocate. args. now apply do_allocate_rel. Qed.
Lemma write_rel w v x : so ks w v -> R (process_write e infos w x) (process_write e infos v x).
Proof.
  intros H. unfold process_write, owned_by_prog. args. cbv zeta. norm. do 6 apply rel_require.
  eapply (rel_bind eq); [apply rel_eq|intros l ? <-]. destruct l as [[h off]|]; [|reflexivity]. apply rel_require.
  eapply (rel_bind (so ks)); [now apply resize_rel|]. intros w1 v1 H1. norm.
  eapply (rel_bind eq); [apply rel_eq|intros d1 ? <-].
  eapply (rel_bind (so ks)); [now apply set_data_rel|]. intros w2 v2 H2. walk. now apply set_data_rel.
Qed.
Lemma allocate_all_rel w0 v0 a p s l : forall w v, In a ks -> oin p -> so ks w0 v0 -> so ks w v ->
  R (allocate_all e infos w0 w a p s l) (allocate_all e infos v0 v a p s l).
Proof.
  induction l as [|x l IH]; intros w v Ha Hp H0 H; cbn [allocate_all]; [exact H|].
  eapply (rel_bind (so ks)); [now apply do_allocate_rel|]. intros w1 v1 H1. now apply IH.
Qed.
Lemma create_i_rel w v m : so ks w v -> R (process_create e infos w m) (process_create e infos v m).
Proof.
  intros H. unfold process_create, owned_by_prog. args. cbv zeta. norm. apply rel_require.
  eapply (rel_bind (so ks)); [walk; now apply alloc_create_rel|]. intros w1 v1 H1.
  eapply (rel_bind (so ks)); [walk; now apply allocate_all_rel|]. intros w2 v2 H2. norm.
  eapply (rel_bind eq); [apply rel_eq|intros r ? <-]. apply rel_require.
  do 3 (eapply (rel_bind eq); [apply rel_eq|intros ? ? <-]).
  eapply (rel_bind (so ks)); [now apply set_data_rel|]. intros w3 v3 H3.
  destruct o as [g|]; [|exact H3]. now apply do_group_rel.
Qed.

Definition tri (x y : Z * option bytes * world) : Prop := fst x = fst y /\ so ks (snd x) (snd y).
Lemma update_type_rel w v a b x : oin b -> so ks w v -> rel eq (update_type e w a b x) (update_type e v a b x).
Proof.
  intros Hb H. unfold update_type, owned_by_prog. destruct b as [b|]; cbn [LocL.oin] in *; cbv zeta; norm; apply rel_eq.
Qed.
Lemma update_source_rel w v a s b x t off f : In a ks -> oin b -> so ks w v ->
  rel tri (update_source e infos w a s b x t off f) (update_source e infos v a s b x t off f).
Proof.
  intros Ha Hb H. unfold update_source. destruct b as [b|]; cbn [LocL.oin] in *; cbv zeta; norm.
  - eapply (rel_bind eq); [apply rel_eq|intros fe ? <-]. destruct fe as [[h ?]|]; [|reflexivity]. do 2 apply rel_require.
    do 3 (eapply (rel_bind eq); [apply rel_eq|intros ? ? <-]).
    eapply (rel_bind (so ks)); [now apply set_data_rel|]. intros w1 v1 H1. split; [reflexivity|exact H1].
  - destruct x as [x|]; [|reflexivity]. eapply (rel_bind eq); [apply rel_eq|intros [n o] ? <-].
    destruct (_ <? _); [reflexivity|]. destruct (_ <? _); [reflexivity|]. split; [reflexivity|exact H].
Qed.
Lemma update_room_rel w0 v0 w v a p s off f n : In a ks -> oin p -> so ks w0 v0 -> so ks w v ->
  R (update_room e infos w0 w a p s off f n) (update_room e infos v0 v a p s off f n).
Proof.
  intros Ha Hp H0 H. unfold update_room. cbv zeta. destruct f as [c|]; [|now apply resize_rel].
  destruct (_ =? _); [exact H|]. norm. eapply (rel_bind eq); [apply rel_eq|intros l ? <-].
  destruct l as [[lh ?]|]; [|reflexivity].
  eapply (rel_bind (so ks)); [destruct (_ <? _); [now apply resize_rel|exact H]|]. intros w1 v1 H1. norm.
  eapply (rel_bind eq); [apply rel_eq|intros d1 ? <-].
  eapply (rel_bind (so ks)); [now apply set_data_rel|]. intros w2 v2 H2.
  destruct (_ <? _); [now apply resize_rel|exact H2].
Qed.
Lemma update_finish_rel w v a b t off f n src : In a ks -> oin b -> so ks w v ->
  R (update_finish e infos w a b t off f n src) (update_finish e infos v a b t off f n src).
Proof.
  intros Ha Hb H. unfold update_finish. cbv zeta. norm.
  do 2 (eapply (rel_bind eq); [apply rel_eq|intros ? ? <-]).
  eapply (rel_bind eq).
  - destruct b as [b|]; cbn [LocL.oin] in *; norm; apply rel_eq.
  - intros ? ? <-. now apply set_data_rel.
Qed.
Lemma update_rel w v x : so ks w v -> R (process_update e infos w x) (process_update e infos v x).
Proof.
  intros H. unfold process_update, owned_by_prog, check_authority. args. cbv zeta. norm. do 5 apply rel_require.
  eapply (rel_bind (so ks)); [now apply set_data_rel|]. intros w1 v1 H1.
  assert (Hu : R (update_ext e infos w w1 k k0 o o1 o2 (u_ext x)) (update_ext e infos v v1 k k0 o o1 o2 (u_ext x))).
  { unfold update_ext. eapply (rel_bind eq); [now apply update_type_rel|intros t ? <-]. norm.
    eapply (rel_bind eq); [apply rel_eq|intros [off f] ? <-].
    eapply (rel_bind tri); [now apply update_source_rel|]. intros [[n src] w2] [[n' src'] v2] [[= <- <-] H2]. cbn [snd] in H2.
    eapply (rel_bind (so ks)); [now apply update_room_rel|]. intros w3 v3 H3. now apply update_finish_rel. }
  destruct (u_ext x), o; first [exact Hu|exact H1|reflexivity].
Qed.
Lemma remove_rel w v t : so ks w v -> R (process_remove e infos w t) (process_remove e infos v t).
Proof.
  intros H. unfold process_remove, owned_by_prog, check_authority. args. cbv zeta. norm. do 5 apply rel_require.
  eapply (rel_bind eq); [apply rel_eq|intros r ? <-]. destruct r as [[off b]|]; [|reflexivity].
  do 2 (eapply (rel_bind eq); [apply rel_eq|intros ? ? <-]).
  eapply (rel_bind (so ks)); [now apply set_data_rel|]. intros w1 v1 H1. now apply resize_rel.
Qed.
Lemma resize_i_rel w v s : so ks w v -> R (process_resize e infos w s) (process_resize e infos v s).
Proof.
  intros H. unfold process_resize, owned_by_prog, check_authority. args. cbv zeta. norm. do 5 apply rel_require.
  eapply (rel_bind eq); [apply rel_eq|intros n ? <-]. now apply resize_rel.
Qed.
Lemma dispatch_rel w v i : so ks w v -> R (dispatch e infos w i) (dispatch e infos v i).
Proof.
  intros H. destruct i; cbn [dispatch]; unfold process_lock, process_unlock, process_verify, process_unverify.
  - now apply close_i_rel.
  - now apply burn_rel.
  - now apply create_i_rel.
  - now apply approve_rel.
  - now apply allocate_rel.
  - now apply set_state_rel.
  - now apply revoke_rel.
  - now apply transfer_i_rel.
  - now apply set_state_rel.
  - now apply set_verified_rel.
  - now apply update_rel.
  - now apply set_verified_rel.
  - now apply write_rel.
  - now apply group_rel.
  - now apply ungroup_rel.
  - now apply handover_rel.
  - now apply remove_rel.
  - now apply resize_i_rel.
Qed.
End Loc2.

Lemma process_rel e infos w v i ks : (forall a, In a (passed infos) -> In (ai_key a) ks) -> so ks w v ->
  rel (so ks) (process e infos w i) (process e infos v i).
Proof.
  intros Hin H. unfold process. cbv zeta. eapply (rel_bind eq); [now apply (validate_access_rel e (passed infos) ks)|intros l ? <-].
  destruct l; [|now apply (dispatch_rel e (passed infos) ks)]. destruct (blocked_when_locked i); [reflexivity|now apply (dispatch_rel e (passed infos) ks)].
Qed.

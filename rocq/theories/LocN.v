(** The same for the entry points of the three programs (C78). *)
From Verif Require Import Base State Layout Constr Ext World Proc Borsh Proxy Bridge Spec BaseL WorldL LocL.
From Coq Require Import Strings.Byte.

Lemma entry_rel e infos w v b ks : (forall a, In a (passed infos) -> In (ai_key a) ks) -> so ks w v ->
  rel (so ks) (entry e infos w b) (entry e infos v b).
Proof. intros Hi H. unfold entry. destruct (try_from_slice b); [|reflexivity]. now apply process_rel. Qed.
Lemma passed_in infos a : In a (passed infos) -> In a infos.
Proof. unfold passed. intros H. rewrite <- (firstn_skipn 7 infos). apply in_or_app. now left. Qed.
Lemma listed_in infos k ks : (forall a, In a infos -> In (ai_key a) ks) -> listed infos k = true -> In k ks.
Proof.
  intros Hi H. unfold listed in H. apply existsb_exists in H as (a & Ha & E). apply pk_eqb_eq in E. subst k. auto.
Qed.

Section LocP.
Variables (e : env) (me : pubkey) (infos : list ainfo) (ks : list pubkey).
Hypothesis Hin : forall a, In a infos -> In (ai_key a) ks.
Notation R := (rel (so ks)).

Lemma grown_eq w0 v0 w v l : (forall a, In a l -> In (ai_key a) ks) -> so ks w0 v0 -> so ks w v ->
  grown l w0 w = grown l v0 v.
Proof.
  intros Hl H0 H. unfold grown. induction l as [|a l IH]; [reflexivity|]. cbn [forallb].
  rewrite (H _ (Hl a (or_introl eq_refl))), (H0 _ (Hl a (or_introl eq_refl))), IH; [reflexivity|].
  intros x Hx. apply Hl. now right.
Qed.
Lemma invoke_rel w0 v0 w v metas b seeds bump : so ks w0 v0 -> so ks w v ->
  R (invoke e me infos w0 w metas b seeds bump) (invoke e me infos v0 v metas b seeds bump).
Proof.
  intros H0 H. unfold invoke. eapply (rel_bind eq); [apply rel_eq|intros pda ? <-]. apply rel_require.
  destruct (forallb (granted infos pda) metas) eqn:G; cbn [require]; [|reflexivity].
  eapply (rel_bind (so ks)).
  - apply entry_rel; [|assumption]. intros a Ha. apply passed_in in Ha. rewrite forallb_forall in G. specialize (G a Ha).
    unfold granted in G. apply andb_prop in G as [G _]. apply andb_prop in G as [G _]. eapply listed_in; eauto.
  - intros w1 v1 H1. rewrite (grown_eq w0 v0 w1 v1); auto. destruct (grown infos v0 v1); cbn; auto.
Qed.
Ltac args := repeat lazymatch goal with
  | |- rel _ (bind (acct infos ?n) _) _ => let k := fresh "k" in let E := fresh "Hk" in
      destruct (acct infos n) as [k| | | |] eqn:E; cbn [bind]; [apply (acct_in infos ks Hin) in E|now cbn..]
  | |- rel _ (bind (opt_acct e infos ?n) _) _ => let k := fresh "o" in let E := fresh "Ho" in
      destruct (opt_acct e infos n) as [k| | | |] eqn:E; cbn [bind]; [apply (opt_acct_in e infos ks Hin) in E|now cbn..]
  end.
Lemma iface_rel w v b : so ks w v -> R (iface_process e me infos w b) (iface_process e me infos v b).
Proof.
  intros H. unfold iface_process. destruct b as [|t b]; [reflexivity|]. apply rel_require.
  assert (I := invoke_rel). destruct infos as [|i r]; [reflexivity|].
  rewrite (H (ai_key i)) by (apply Hin; now left). eapply (rel_bind eq); [apply rel_eq|intros p ? <-]. now apply I.
Qed.
Lemma proxy_transfer_rel pe w v : so ks w v -> R (proxy_transfer pe e me infos w) (proxy_transfer pe e me infos v).
Proof.
  intros H. unfold proxy_transfer. args. cbv zeta. norm. eapply (rel_bind eq); [apply rel_eq|intros p ? <-]. apply rel_require.
  eapply (rel_bind eq); [apply rel_eq|intros a ? <-]. destruct a as [[off b]|]; [|reflexivity].
  do 2 (eapply (rel_bind eq); [apply rel_eq|intros ? ? <-]).
  do 3 (eapply (rel_bind (so ks)); [now apply invoke_rel|intros ? ? ?]). now apply invoke_rel.
Qed.
Lemma proxy_update_rel w v u : so ks w v -> R (proxy_update e me infos w u) (proxy_update e me infos v u).
Proof.
  intros H. unfold proxy_update. args. norm. eapply (rel_bind eq); [apply rel_eq|intros p ? <-]. do 2 apply rel_require.
  destruct (nullable _); [|reflexivity]. apply rel_require. now apply invoke_rel.
Qed.
Lemma proxy_create_rel pe w v n : so ks w v -> R (proxy_create pe e me infos w n) (proxy_create pe e me infos v n).
Proof.
  intros H. unfold proxy_create. cbv zeta. repeat (eapply (rel_bind eq); [apply rel_eq|intros ? ? <-]). do 2 apply rel_require.
  destruct (find_address _ _ _ _) as [[k bump]|]; [|reflexivity]. apply rel_require. now apply invoke_rel.
Qed.
Lemma proxy_entry_rel pe w v b : so ks w v -> R (proxy_entry pe e me infos w b) (proxy_entry pe e me infos v b).
Proof.
  intros H. unfold proxy_entry. destruct (proxy_decode b); [now apply proxy_create_rel|].
  assert (I := iface_rel w v b H). destruct (try_from_slice b) as [[]|]; try exact I;
    [now apply proxy_transfer_rel|now apply proxy_update_rel].
Qed.

(** the bridge's Create *)
Lemma allocate_each_rel w0 v0 a p s seeds bump l : forall w v, so ks w0 v0 -> so ks w v ->
  R (allocate_each e me infos w0 w a p s seeds bump l) (allocate_each e me infos v0 v a p s seeds bump l).
Proof.
  induction l as [|x l IH]; intros w v H0 H; cbn [allocate_each]; [exact H|].
  eapply (rel_bind (so ks)); [now apply invoke_rel|]. intros w1 v1 H1. now apply IH.
Qed.
Lemma opt_of_in n o : opt_of me infos n = Ok o -> oin ks o.
Proof.
  unfold opt_of. destruct (acct infos n) eqn:E; try discriminate. cbn [bind]. intros [= <-].
  apply (acct_in infos ks Hin) in E. destruct (pk_eqb a me); cbn [oin]; auto.
Qed.
Lemma must_sign_rel w v m c : oin ks c -> so ks w v ->
  rel eq (authority_must_sign e me infos w m c) (authority_must_sign e me infos v m c).
Proof.
  intros Hc H. unfold authority_must_sign. destruct (mt_collection m) as [[[] key]|]; try reflexivity.
  destruct (find_address _ _ _ _) as [[k bump]|]; [|reflexivity].
  destruct c as [c|]; cbn [ok_or bind oin] in *; [|reflexivity]. norm. apply rel_eq.
Qed.
Ltac args_b := repeat lazymatch goal with
  | |- rel _ (bind (acct infos ?n) _) _ => let k := fresh "k" in let E := fresh "Hk" in
      destruct (acct infos n) as [k| | | |] eqn:E; cbn [bind]; [apply (acct_in infos ks Hin) in E|now cbn..]
  | |- rel _ (bind (opt_of me infos ?n) _) _ => let k := fresh "o" in let E := fresh "Ho" in
      destruct (opt_of me infos n) as [k| | | |] eqn:E; cbn [bind]; [apply opt_of_in in E|now cbn..]
  end.
Lemma bridge_create_rel b w v c : so ks w v -> R (bridge_create b e me infos w c) (bridge_create b e me infos v c).
Proof.
  intros H. unfold bridge_create. apply rel_require. args_b. norm. do 2 apply rel_require.
  eapply (rel_bind eq); [apply rel_eq|intros m ? <-]. do 3 apply rel_require.
  eapply (rel_bind eq); [now apply must_sign_rel|intros s ? <-]. apply rel_require.
  destruct (find_address e (vault_seeds _) me 255) as [[x bump]|]; [|reflexivity]. do 2 apply rel_require. cbv zeta. apply rel_require.
  eapply (rel_bind (so ks)); [now apply create_rel|]. intros w1 v1 H1.
  destruct (find_address e (asset_seeds _) me 255) as [[y abump]|]; [|reflexivity]. apply rel_require.
  eapply (rel_bind (so ks)); [now apply set_data_rel|]. intros w2 v2 H2.
  eapply (rel_bind (so ks)); [now apply allocate_each_rel|]. intros w3 v3 H3. now apply invoke_rel.
Qed.
End LocP.
From Verif Require Import SpecLoc.
Lemma so_agree infos w v : so (map ai_key infos) w v <-> agree_on infos w v.
Proof.
  split.
  - intros H a Ha. apply H. now apply in_map.
  - intros H k Hk. apply in_map_iff in Hk as (a & <- & Ha). now apply H.
Qed.
Lemma rel_result infos r s : rel (so (map ai_key infos)) r s -> same_result infos r s.
Proof. unfold rel, same_result. destruct r, s; auto. apply so_agree. Qed.
Lemma proxy_local pe e me infos w v b : agree_on infos w v ->
  same_result infos (proxy_entry pe e me infos w b) (proxy_entry pe e me infos v b).
Proof. intros H. apply rel_result, proxy_entry_rel; [intros a; apply in_map|now apply so_agree]. Qed.
Lemma bridge_local b e me infos w v c : agree_on infos w v ->
  same_result infos (bridge_create b e me infos w c) (bridge_create b e me infos v c).
Proof. intros H. apply rel_result, bridge_create_rel; [intros a; apply in_map|now apply so_agree]. Qed.

(** Accounts of the program keep their rent (C82). *)
From Verif Require Import Base State Layout Constr Ext World Proc Spec SpecB SpecH SpecG SpecL SpecRent LayoutL RentL Sample ThmAuth ThmBuild ThmFrame ThmHist ThmRemove ThmLive.
From Coq Require Import Strings.Byte.

(** C82: if every account of the program that holds data has its rent, it still has after
    any successful instruction ... *)
Theorem C82_step : forall e, e_prog e <> pk_zero -> env_ok e -> rent_mono e -> forall infos w i w', lam_ok w ->
  paid_by (e_rent e) (e_prog e) w -> process e infos w i = Ok w' -> paid_by (e_rent e) (e_prog e) w'.
Proof. exact process_paid. Qed.
Print Assumptions C82_step.
(** ... and after any history, whatever other programs do within the runtime's rules. *)
Theorem C82_history : forall rent p w w', p <> pk_zero -> tariff rent -> rented rent p w w' -> lam_ok w -> paid_by rent p w -> paid_by rent p w'.
Proof. exact rented_paid. Qed.
Print Assumptions C82_history.
(** In particular from a chain on which the program has no account yet. *)
Theorem C82_from_nothing : forall rent p w w', p <> pk_zero -> tariff rent -> rented rent p w w' -> lam_ok w -> (forall k, acct_owner (w k) <> p) ->
  forall k, acct_owner (w' k) = p -> 0 < zlen (data (w' k)) -> rent (zlen (data (w' k))) <= lamports (w' k).
Proof. exact rented_new. Qed.
Print Assumptions C82_from_nothing.
Definition rent0 (n : Z) : Z := Z.max 0 (128 + n).
Definition w_rent : world := table [(kAsset, mkAcct 1000 kProg two_data); (kHolder, wal 700); (kTo, wal 5)].
Definition w_rent1 : world := run w_rent (process env0 (i_remove kAsset) w_rent (IRemove XCreators)).
Example C82_case : tariff rent0 /\ rented rent0 kProg w_rent w_rent1 /\ paid_by rent0 kProg w_rent /\ lamports (w_rent1 kAsset) = rent0 (zlen (data (w_rent1 kAsset))).
Proof.
  split; [split; [intros a b; unfold rent0; lia|intro n; unfold rent0; lia]|].
  split; [apply (rented_instr _ _ w_rent w_rent env0 (i_remove kAsset) (IRemove XCreators)); [constructor|reflexivity|reflexivity|apply (run_ok w_rent); vm_compute; reflexivity]|].
  split; [|vm_compute; reflexivity].
  intros k O Z0. unfold w_rent, table in *. destruct (find _ _) as [q|] eqn:F; [|cbn in Z0; lia].
  apply find_some in F as [[<-|[<-|[<-|[]]]] _]; [vm_compute; discriminate|vm_compute in Z0; discriminate Z0|vm_compute in Z0; discriminate Z0].
Qed.

(** Shrinking an account leaves exactly the rent of the new size on it; everything above —
    deposits that were never rent, too — goes to the account named in the request. *)
Theorem C82_sweep : forall e infos w i w' k r, rent_mono e -> paid_by (e_rent e) (e_prog e) w -> arg infos 0 k -> r <> k ->
  ((exists t, i = IRemove t /\ arg infos 3 r) \/ (exists s, i = IResize s /\ arg infos 2 r)) ->
  process e infos w i = Ok w' -> 0 < zlen (data (w' k)) < zlen (data (w k)) ->
  lamports (w' k) = e_rent e (zlen (data (w' k))) /\ lamports (w' r) = lamports (w r) + lamports (w k) - e_rent e (zlen (data (w' k))).
Proof. exact process_sweep. Qed.
Print Assumptions C82_sweep.
Example C82_sweep_case : exists w', process env0 (i_remove kAsset) w_rent (IRemove XCreators) = Ok w' /\ arg (i_remove kAsset) 0 kAsset /\ arg (i_remove kAsset) 3 kTo /\
  zlen (data (w' kAsset)) = 192 /\ lamports (w_rent kAsset) = 1000 /\ lamports (w' kAsset) = 320 /\ lamports (w' kTo) = 685.
Proof. eexists. split; [apply (run_ok w_rent); vm_compute; reflexivity|]. split; [exists (mkInfo kAsset false true); split; reflexivity|]. split; [exists (mkInfo kTo false true); split; reflexivity|]. vm_compute. auto. Qed.

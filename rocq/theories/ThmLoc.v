(** Property theorems: requests that do not concern each other (C78). *)
From Verif Require Import Base State Layout Constr Ext World Proc BaseL Spec SpecLoc WorldL LocL LocM LocN Sample SampleP Borsh Proxy Bridge ThmProxy.
From Coq Require Import Strings.Byte.

(** C78: what a request does depends on the accounts it names and on no other
    account: in two states that agree on these, it succeeds with agreeing accounts or
    fails in the same way. *)
Theorem C78_local : forall e infos w v i, agree_for infos w v ->
  same_outcome infos (process e infos w i) (process e infos v i).
Proof. exact local. Qed.
Print Assumptions C78_local.

(** C78: so requests made meanwhile by others change nothing about it, as long as
    none of them may write to an account it names. *)
Theorem C78_meanwhile : forall l w w' s, Forall valid l -> lam_ok w -> steps l w = Ok w' ->
  (forall r k, In r l -> writable (accounts r) k -> ~ names (accounts s) k) ->
  same_outcome (accounts s) (process (fst (fst s)) (accounts s) w (snd s)) (process (fst (fst s)) (accounts s) w' (snd s)).
Proof. exact meanwhile. Qed.
Print Assumptions C78_meanwhile.

(** C78: two requests, neither of which may write to an account the other names, can be
    made in either order ... *)
Theorem C78_swap : forall r s w w1 w2, valid r -> valid s -> lam_ok w -> apart r s ->
  process (fst (fst r)) (accounts r) w (snd r) = Ok w1 ->
  process (fst (fst s)) (accounts s) w1 (snd s) = Ok w2 ->
  exists v1 v2, process (fst (fst s)) (accounts s) w (snd s) = Ok v1 /\
    process (fst (fst r)) (accounts r) v1 (snd r) = Ok v2 /\ agree w2 v2.
Proof. exact swap. Qed.
Print Assumptions C78_swap.

(** C78: ... and two sequences of such requests can be interleaved in any way. *)
Theorem C78_interleaved : forall l1 l2 l l' w w', mix l1 l2 l -> mix l1 l2 l' ->
  Forall valid l1 -> Forall valid l2 -> lam_ok w ->
  (forall r s, In r l1 -> In s l2 -> apart r s) -> steps l w = Ok w' ->
  exists v', steps l' w = Ok v' /\ agree w' v'.
Proof. exact mixes. Qed.
Print Assumptions C78_interleaved.

(** C78: the same for the proxy program and for the bridge's Create, which look at all
    the accounts they are given. *)
Theorem C78_proxy : forall pe e me infos w v b, agree_on infos w v ->
  same_result infos (proxy_entry pe e me infos w b) (proxy_entry pe e me infos v b).
Proof. exact proxy_local. Qed.
Print Assumptions C78_proxy.
Theorem C78_bridge_create : forall b e me infos w v c, agree_on infos w v ->
  same_result infos (bridge_create b e me infos w c) (bridge_create b e me infos v c).
Proof. exact bridge_local. Qed.
Print Assumptions C78_bridge_create.

(** The holder of two assets moves one and locks, then unlocks, the other. *)
Definition w_two : world := table [(kAsset, acc plain_data); (kOther, acc soul_data); (kHolder, wal 700); (kTo, wal 5)].
Definition r_move : request := (env0, [mkInfo kAsset false true; mkInfo kHolder true false; mkInfo kTo false false; mkInfo kProg false false], ITransfer).
Definition r_lock : request := (env0, [mkInfo kOther false true; mkInfo kHolder true false], ILock).
Definition r_unlock : request := (env0, [mkInfo kOther false true; mkInfo kHolder true false], IUnlock).
Lemma two_apart r s : accounts r = accounts r_move -> accounts s = accounts r_lock -> apart r s.
Proof.
  intros Hr Hs k. rewrite Hr, Hs. split; intros (a & Ha & <- & Hw) (n & b & Hb & Hk); apply nth_error_In in Hb;
    cbn in Ha, Hb; repeat (destruct Ha as [<-|Ha]; [|]); try contradiction; cbn in Hw; try discriminate Hw;
    repeat (destruct Hb as [<-|Hb]; [|]); try contradiction; discriminate Hk.
Qed.
Lemma two_valid r : fst (fst r) = env0 -> valid r.
Proof. intros H. unfold valid. rewrite H. split; [exact env0_ok|discriminate]. Qed.
Example C78_case :
  (agree_for (accounts r_lock) w_two (upd w_two kAsset (wal 9)) /\ w_two kAsset <> wal 9) /\
  apart r_move r_lock /\ valid r_move /\ valid r_lock /\ lam_ok w_two /\
  mix [r_move] [r_lock; r_unlock] [r_lock; r_move; r_unlock] /\ mix [r_move] [r_lock; r_unlock] [r_move; r_lock; r_unlock] /\
  (exists w1 w2, process env0 (accounts r_move) w_two ITransfer = Ok w1 /\ process env0 (accounts r_lock) w1 ILock = Ok w2 /\
     s_owner (data (w2 kAsset)) = pk_bytes kTo /\ nth 1 (data (w2 kOther)) x00 = x01) /\
  exists w', steps [r_lock; r_move; r_unlock] w_two = Ok w' /\ s_owner (data (w' kAsset)) = pk_bytes kTo.
Proof.
  split; [split; [|discriminate]|].
  { intros k (n & b & Hb & <-). apply nth_error_In in Hb. cbn in Hb. destruct Hb as [<-|[<-|[]]]; reflexivity. }
  split; [now apply two_apart|]. do 2 (split; [now apply two_valid|]).
  split; [apply table_lam_ok; vm_compute; reflexivity|].
  do 2 (split; [repeat constructor|]).
  split.
  - eexists. eexists. split; [apply (run_ok w_two); vm_compute; reflexivity|].
    split; [apply (run_ok w_two); vm_compute; reflexivity|]. split; vm_compute; reflexivity.
  - eexists. split; [apply (run_ok w_two); vm_compute; reflexivity|]. vm_compute; reflexivity.
Qed.

(** A Transfer through the proxy program, whatever another account holds. *)
Example C78_proxy_case : agree_on ip_transfer w_prox (upd w_prox kOther (wal 9)) /\ w_prox kOther <> wal 9 /\
  okb (proxy_entry pe0 envP kMe ip_transfer w_prox (write_instr ITransfer)) = true.
Proof.
  split; [|split; [discriminate|vm_compute; reflexivity]].
  intros a Ha. cbn in Ha. repeat (destruct Ha as [<-|Ha]; [reflexivity|]). destruct Ha.
Qed.

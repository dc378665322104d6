(** Specification vocabulary for the origin of extensions. *)
From Verif Require Import Base State Layout Constr Ext World Proc Spec SpecB SpecG SpecH SpecSince.
From Coq Require Import Strings.Byte.

(** the first extension of kind [t] stored in [d] has payload [b] *)
Definition carries (t : ext_type) (b d : bytes) : Prop := exists off, has_ext d t off b.
Definition lacks (t : ext_type) (d : bytes) : Prop := forall b, ~ carries t b d.

(** an Update of [k], signed by its authority while [k] is mutable, *)
Definition authority_update (k : pubkey) (a : update_input) (infos : list ainfo) (w : world) (i : instr) : Prop :=
  i = IUpdate a /\ arg infos 0 k /\ by_authority infos w k.
(** with an extension of kind [t] in the instruction, and payload [b] or none; *)
Definition inline_payload (t : ext_type) (b : bytes) (a : update_input) : Prop :=
  exists x, u_ext a = Some x /\ x_type x = t /\ x_length x = zlen b /\ (x_data x = Some b \/ x_data x = None /\ b = []).
(** with a buffer account of the program [p] that holds such an extension and payload [b] *)
Definition buffer_payload (p k : pubkey) (t : ext_type) (b : bytes) (a : update_input) (infos : list ainfo) (w : world) : Prop :=
  u_ext a = None /\ exists bk, arg infos 2 bk /\ bk <> k /\ acct_owner (w bk) = p /\ s_disc (data (w bk)) = x00 /\
    le32 (data (w bk)) 168 = ext_code t /\ le32 (data (w bk)) 172 = zlen b /\ b = sub (data (w bk)) 184 (length b).
Definition supplies (p k : pubkey) (t : ext_type) (b : bytes) (infos : list ainfo) (w : world) (i : instr) : Prop :=
  exists a, authority_update k a infos w i /\ (inline_payload t b a \/ buffer_payload p k t b a infos w).

(** Creators: an Update by the authority, or a Verify or Unverify signed by the creator
    whose entries it changes *)
Definition amends (k : pubkey) (b : bytes) (infos : list ainfo) (w : world) (i : instr) : Prop :=
  (exists a, authority_update k a infos w i) \/
  (exists v s b0, i = (if v : bool then IVerify else IUnverify) /\ arg infos 0 k /\ arg infos 1 s /\ signed infos s /\
     carries XCreators b0 (data (w k)) /\ set_flags v (pk_bytes s) b0 b).
(** Grouping: an Update by the authority, or a change of size by an asset that joins or
    leaves; limit and delegate stay *)
Definition recounts (k : pubkey) (b : bytes) (infos : list ainfo) (w : world) (i : instr) : Prop :=
  (exists a, authority_update k a infos w i) \/
  (exists b0, carries XGrouping b0 (data (w k)) /\ length b = length b0 /\ gr_max b = gr_max b0 /\ skipn 16 b = skipn 16 b0 /\
     ((i = IGroup /\ arg infos 1 k \/ exists m, i = ICreate m /\ arg infos 3 k) /\ gr_size b = (gr_size b0 + 1) mod 2 ^ 64 /\ (gr_max b0 = 0 \/ gr_size b0 < gr_max b0) \/
      (i = IUngroup /\ arg infos 1 k \/ i = IBurn /\ arg infos 3 k) /\ gr_size b = (gr_size b0 - 1) mod 2 ^ 64)).
(** a Remove of kind [t] signed by the authority while [k] is mutable *)
Definition drops (k : pubkey) (t : ext_type) (infos : list ainfo) (w : world) (i : instr) : Prop :=
  i = IRemove t /\ arg infos 0 k /\ by_authority infos w k /\ t <> XManager /\ t <> XProxy.

(** who may do something: the owner, somebody the present owner appointed, or a manager
    who was named by the authority *)
Definition rooted (p : pubkey) (w w' : world) (k s : pubkey) (r : role) : Prop :=
  s_owner (data (w' k)) = pk_bytes s \/
  since (entrusted (s_owner (data (w' k))) (pk_bytes s) r) (grants k (s_owner (data (w' k))) (pk_bytes s) r) p w w' k \/
  exists b, manager_is b s r /\ (throughout (carries XManager b) p w w' k \/ since (carries XManager b) (supplies p k XManager b) p w w' k).

(** C75: the interface description inside a program binary. *)
From Verif Require Import Base Idl SpecT BaseL IdlL.
From Coq Require Import Strings.Byte.

Definition sec_type : option bytes * Z := (Some IDL_TYPE_SECTION, 0).
Definition sec_data : option bytes * Z := (Some IDL_DATA_SECTION, 16).
(** pointers to 6 bytes at 32 and to 2 bytes at 38 *)
Definition bin0 : bytes := [x00; x00; x00; x00] ++ le_enc 4 32 ++ le_enc 8 6 ++ [x00; x00; x00; x00] ++ le_enc 4 38 ++ le_enc 8 2 ++ idl_str Codama ++ [x7b; x7d].
Definition ie0 : idl_env bytes := mkIdlEnv _ (fun _ => Some [(None, 7); sec_type; sec_data]) Some Some.
(** the second pointer beyond the end *)
Definition bin1 : bytes := [x00; x00; x00; x00] ++ le_enc 4 32 ++ le_enc 8 6 ++ [x00; x00; x00; x00] ++ le_enc 4 39 ++ le_enc 8 2 ++ idl_str Codama ++ [x7b; x7d].

Theorem C75_parse : forall V (ie : idl_env V) buf l t v, ie_elf ie buf = Some l -> near buf l -> parse_idl ie buf = Ok (t, v) <->
  Forall (readable ie buf) l /\ (exists h, last_such type_section l h /\ reads_type buf h t) /\ (exists h, last_such data_section l h /\ reads_data ie buf h v).
Proof. exact parse_iff. Qed.
Print Assumptions C75_parse.
Theorem C75_none : forall V (ie : idl_env V) buf l, ie_elf ie buf = Some l -> near buf l -> idl_cli ie buf = Ok None <->
  Forall (readable ie buf) l /\ (Forall (fun h => ~ type_section h) l \/ Forall (fun h => ~ data_section h) l).
Proof. exact parse_none. Qed.
Print Assumptions C75_none.
Theorem C75_included : forall V (ie : idl_env V) buf l t z j v h h2, ie_elf ie buf = Some l -> near buf l ->
  (forall x, In x l -> type_section x <-> x = h) -> (forall x, In x l -> data_section x <-> x = h2) -> In h l -> In h2 l ->
  points_to buf (snd h) (idl_str t) -> points_to buf (snd h2) z -> ie_inflate ie z = Some j -> ie_json ie j = Some v ->
  idl_cli ie buf = Ok (Some (idl_str t, v)).
Proof. exact included_read. Qed.
Print Assumptions C75_included.
Example C75_case : ie_elf ie0 bin0 = Some [(None, 7); sec_type; sec_data] /\ near bin0 [(None, 7); sec_type; sec_data] /\
  points_to bin0 0 (idl_str Codama) /\ points_to bin0 16 [x7b; x7d] /\ idl_cli ie0 bin0 = Ok (Some (idl_str Codama, [x7b; x7d])) /\
  idl_from_str [x43; x6f; x44; x61; x4d; x61] = Some Codama.
Proof.
  split; [reflexivity|]. split; [split; [vm_compute; reflexivity|repeat constructor; vm_compute; congruence]|].
  split; [apply points_iff; vm_compute; [discriminate|reflexivity..]|]. split; [apply points_iff; vm_compute; [discriminate|reflexivity..]|]. vm_compute. auto.
Qed.
(** a section that cannot be read stops the reader, instead of being reported *)
Theorem C75_panic : forall V (ie : idl_env V) buf l, ie_elf ie buf = Some l -> near buf l -> parse_idl ie buf = Panic <-> ~ Forall (readable ie buf) l.
Proof. exact parse_panics. Qed.
Print Assumptions C75_panic.
Theorem C75_reported_refuted : exists (ie : idl_env bytes) buf l, ie_elf ie buf = Some l /\ near buf l /\ idl_cli ie buf = Panic.
Proof.
  exists ie0, bin1, [(None, 7); sec_type; sec_data]. split; [reflexivity|]. split; [split; [vm_compute; reflexivity|repeat constructor; vm_compute; congruence]|vm_compute; reflexivity].
Qed.
Print Assumptions C75_reported_refuted.

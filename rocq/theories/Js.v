(** The JavaScript client: payloads, instruction data, the account reader, account
    lists and the multi-instruction helpers.
    Paths are relative to /repo/clients/js/asset/src.

    The serializers of @metaplex-foundation/umi (^0.9.1) are not part of /repo; what
    is assumed of them is written out below.  Writing gives [None] where a
    serializer throws.  Texts are their UTF-8 bytes, public keys their 32 bytes;
    numbers that the code declares as bytes are bytes. *)
From Verif Require Import Base State Layout Constr Ext World Proc Borsh Client Proxy.
From Coq Require Import Strings.Byte.

(** ** umi serializers, writing *)
(** struct, mergeBytes: one after the other *)
Fixpoint jseq (l : list (option bytes)) : option bytes :=
  match l with
  | [] => Some []
  | o :: r => match o, jseq r with Some a, Some b => Some (a ++ b) | _, _ => None end
  end.
(** u8, u16, u32, u64: throw when out of range *)
Definition ju (n : nat) (z : Z) : option bytes :=
  if (0 <=? z) && (z <? 256 ^ Z.of_nat n) then Some (le_enc n z) else None.
Definition jbool (b : bool) : option bytes := Some [bool_byte b].
(** string({ size: u8() }) *)
Definition jstr8 (s : bytes) : option bytes := jseq [ju 1 (zlen s); Some s].
(** string() and bytes({ size: u32() }) *)
Definition jstr32 (s : bytes) : option bytes := jseq [ju 4 (zlen s); Some s].
Definition joption {A} (f : A -> option bytes) (o : option A) : option bytes :=
  match o with None => Some [x00] | Some a => jseq [Some [x01]; f a] end.
(** array(item) *)
Definition jarray {A} (f : A -> option bytes) (l : list A) : option bytes :=
  jseq [ju 4 (zlen l); jseq (map f l)].
(** array(item, { size: 'remainder' }) *)
Definition jremainder {A} (f : A -> option bytes) (l : list A) : option bytes := jseq (map f l).
(** nullablePublicKey — hooked/nullablePublicKey.ts:12-21 *)
Definition jnullable (o : option bytes) : option bytes :=
  Some match o with Some k => k | None => zero32 end.

(** ** umi serializers, reading: value and bytes left, [None] where they throw *)
Definition jr_fixed (n : nat) : reader bytes := fun b =>
  if Nat.leb n (length b) then Some (firstn n b, skipn n b) else None.
Definition jr_u (n : nat) : reader Z := rbind (jr_fixed n) (fun x => rret (le_dec x)).
(** bool(): the byte 1 *)
Definition jr_bool : reader bool := rbind (jr_u 1) (fun z => rret (z =? 1)).
(** the decoder of strings drops NUL characters *)
Definition js_text (s : bytes) : bytes := filter (fun x => negb (beqb x x00)) s.
Definition jr_str8 : reader bytes :=
  rbind (jr_u 1) (fun n => rbind (jr_fixed (Z.to_nat n)) (fun s => rret (js_text s))).
(** scalarEnum with [n] variants *)
Definition jr_enum (n : Z) : reader Z := rbind (jr_u 1) (fun z => if z <? n then rret z else rfail).
Definition jr_nullable : reader (option bytes) :=
  rbind (jr_fixed 32) (fun k => rret (if bytes_eqb k zero32 then None else Some k)).
(** array(item, { size: 'remainder' }): while bytes are left.  Every item read
    here takes at least one byte, so the fuel [S (length b)] is enough. *)
Fixpoint jr_many {A} (fuel : nat) (p : reader A) (b : bytes) : option (list A) :=
  match b with
  | [] => Some []
  | _ => match fuel with
         | O => None
         | S f => match p b with
                  | Some (a, r) => match jr_many f p r with Some l => Some (a :: l) | None => None end
                  | None => None
                  end
         end
  end.
Definition jr_remainder {A} (p : reader A) : reader (list A) := fun b =>
  match jr_many (S (length b)) p b with Some l => Some (l, []) | None => None end.

(** ** Enumerations — generated/types: extensionType.ts:11-24, delegateRole.ts:11-16,
    standard.ts:11-16, type.ts:11-15; AccountType — constraints/index.ts:162-166 *)
Definition js_kinds : list ext_type :=
  [XNone; XAttributes; XBlob; XCreators; XLinks; XMetadata; XGrouping; XRoyalties; XManager; XProxy; XProperties; XBucket].
Definition js_ext_of (z : Z) : option ext_type :=
  if 0 <=? z then nth_error js_kinds (Z.to_nat z) else None.
Definition js_ext_code (t : ext_type) : Z :=
  match t with
  | XNone => 0 | XAttributes => 1 | XBlob => 2 | XCreators => 3 | XLinks => 4 | XMetadata => 5
  | XGrouping => 6 | XRoyalties => 7 | XManager => 8 | XProxy => 9 | XProperties => 10 | XBucket => 11
  end.
Definition js_role_code (r : role) : Z := match r with RNone => 0 | RTransfer => 1 | RLock => 2 | RBurn => 3 end.
Definition js_standard_code (s : standard) : Z :=
  match s with NonFungible => 0 | Managed => 1 | Soulbound => 2 | Proxied => 3 end.
Definition js_account_code (a : cacct) : Z := match a with AAsset => 0 | AAuthority => 1 | ARecipient => 2 end.

(** ** Delegate roles — hooked/delegateRoles.ts:13-33 *)
(** [1 << (role - 1)] on 32-bit integers; the shift count is taken modulo 32, so
    for None it is [1 << 31] *)
Definition role_shift (r : role) : Z :=
  match r with RNone => -2147483648 | RTransfer => 1 | RLock => 2 | RBurn => 4 end.
Definition jroles (l : list role) : option bytes := ju 1 (fold_left Z.lor (map role_shift l) 0).
Definition jr_roles : reader (list role) := rbind (jr_u 1) (fun mask =>
  rret (if mask =? 0 then [RNone]
        else filter (fun r => negb (Z.land mask (role_shift r) =? 0)) [RNone; RTransfer; RLock; RBurn])).

(** ** Constraints — constraints/*.ts *)
Inductive jcon : Set :=
| JAnd (l : list jcon) | JNot (c : jcon) | JOr (l : list jcon)
| JOwnedBy (a : cacct) (ks : list bytes) | JPubkeyMatch (a : cacct) (ks : list bytes)
| JEmpty.
(** wrapSerializerInConstraintHeader, serialize — index.ts:106-126 *)
Definition jwrap (ty : Z) (o : option bytes) : option bytes :=
  match o with Some p => jseq [ju 4 ty; ju 4 (zlen p); Some p] | None => None end.
(** and.ts:23-29, not.ts:19-23, or.ts:23-29, ownedBy.ts:34-41, pubkeyMatch.ts:34-41, empty.ts:12-13 *)
Definition jkeys (a : cacct) (ks : list bytes) : option bytes :=
  jseq [ju 8 (js_account_code a); Some (concat ks)].
Fixpoint jconstr (c : jcon) : option bytes :=
  match c with
  | JAnd l => jwrap 0 (jseq (map jconstr l))
  | JNot x => jwrap 1 (jconstr x)
  | JOr l => jwrap 2 (jseq (map jconstr l))
  | JOwnedBy a ks => jwrap 3 (jkeys a ks)
  | JPubkeyMatch a ks => jwrap 4 (jkeys a ks)
  | JEmpty => jwrap 5 (Some [])
  end.
(** getConstraintSerializer().deserialize — index.ts:37-44: the operator is chosen by
    the first byte; index.ts:127-133: the body is the next [size] bytes, fewer if
    there are not as many.  Fuel as in Constr.v. *)
Definition jr_account : reader cacct := rbind (jr_u 8) (fun z =>
  if z =? 0 then rret AAsset else if z =? 1 then rret AAuthority else if z =? 2 then rret ARecipient else rfail).
Definition jr_keys : reader (cacct * list bytes) :=
  rbind jr_account (fun a => rbind (jr_remainder (jr_fixed 32)) (fun ks => rret (a, ks))).
Fixpoint jr_constr (fuel : nat) (b : bytes) {struct fuel} : option (jcon * bytes) :=
  match fuel, b with
  | O, _ | _, [] => None
  | S f, ty :: _ =>
      match rbind (jr_u 4) (fun _ => jr_u 4) b with
      | None => None
      | Some (size, r) =>
          let body := firstn (Z.to_nat size) r in
          let rest := skipn (Z.to_nat size) r in
          let out o := match o with Some c => Some (c, rest) | None => None end in
          match b2z ty with
          | 0 => out (match jr_constrs f body with Some l => Some (JAnd l) | None => None end)
          | 1 => out (match jr_constr f body with Some (c, _) => Some (JNot c) | None => None end)
          | 2 => out (match jr_constrs f body with Some l => Some (JOr l) | None => None end)
          | 3 => out (match jr_keys body with Some (p, _) => Some (JOwnedBy (fst p) (snd p)) | None => None end)
          | 4 => out (match jr_keys body with Some (p, _) => Some (JPubkeyMatch (fst p) (snd p)) | None => None end)
          | 5 => out (Some JEmpty)
          | _ => None
          end
      end
  end
with jr_constrs (fuel : nat) (b : bytes) {struct fuel} : option (list jcon) :=
  match fuel with
  | O => None
  | S f =>
      match b with
      | [] => Some []
      | _ => match jr_constr f b with
             | Some (c, r) => match jr_constrs f r with Some l => Some (c :: l) | None => None end
             | None => None
             end
      end
  end.
Definition jr_constraint : reader jcon := fun b => jr_constr (constr_fuel b) b.

(** ** Extensions *)
(** TypedExtension — extensions/index.ts:38-49; properties.ts:82-85 *)
Inductive jval : Set := JText (s : bytes) | JNumber (n : Z) | JBoolean (b : bool).
Inductive jext : Set :=
| JAttributes (l : list (bytes * bytes))
| JBlob (ct dat : bytes)
| JCreators (l : list (bytes * bool * Z))
| JLinks (l : list (bytes * bytes))
| JMetadata (s d u i : bytes)
| JGrouping (size max : Z) (del : option bytes)
| JRoyalties (bp : Z) (c : jcon)
| JManager (addr : option bytes) (roles : list role)
| JProxy (prog seeds : bytes) (bump : Z) (auth : option bytes)
| JProperties (l : list (bytes * jval))
| JBucket (dat : bytes).
Definition jext_type (x : jext) : ext_type :=
  match x with
  | JAttributes _ => XAttributes | JBlob _ _ => XBlob | JCreators _ => XCreators | JLinks _ => XLinks
  | JMetadata _ _ _ _ => XMetadata | JGrouping _ _ _ => XGrouping | JRoyalties _ _ => XRoyalties
  | JManager _ _ => XManager | JProxy _ _ _ _ => XProxy | JProperties _ => XProperties | JBucket _ => XBucket
  end.

(** The helpers that make them — extensions/creators.ts:5-14, grouping.ts:5-13,
    manager.ts:4-13, metadata.ts:4-12, royalties.ts:11-18 *)
Definition js_creators (l : list (bytes * Z)) : jext := JCreators (map (fun c => (fst c, false, snd c)) l).
Definition js_grouping (max : option Z) (del : option bytes) : jext :=
  JGrouping 0 (match max with Some m => m | None => 0 end) (Some match del with Some k => k | None => zero32 end).
Definition js_metadata (s d u i : option bytes) : jext :=
  let t o := match o with Some s => s | None => [] end in JMetadata (t s) (t d) (t u) (t i).
Definition js_royalties (bp : Z) (c : option jcon) : jext :=
  JRoyalties bp match c with Some c => c | None => JEmpty end.

(** Serializers — generated/types: trait.ts:20-28, link.ts:20-28, blob.ts:21-29,
    creator.ts:22-31, metadata.ts:25-35, grouping.ts:28-37, delegate.ts:26-34,
    manager.ts:16-20, proxy.ts:37-47, bucket.ts:20-24; extensions/properties.ts:120-163,
    royalties.ts:20-28 *)
Definition jpair (p : bytes * bytes) : option bytes := jseq [jstr8 (fst p); jstr8 (snd p)].
Definition jcreator (c : bytes * bool * Z) : option bytes :=
  let '(k, v, s) := c in jseq [Some k; jbool v; ju 1 s].
Definition jproperty (p : bytes * jval) : option bytes :=
  match snd p with
  | JText s => jseq [jstr8 (fst p); ju 1 0; jstr8 s]
  | JNumber n => jseq [jstr8 (fst p); ju 1 1; ju 8 n]
  | JBoolean b => jseq [jstr8 (fst p); ju 1 2; jbool b]
  end.
Definition js_payload (x : jext) : option bytes :=
  match x with
  | JAttributes l | JLinks l => jremainder jpair l
  | JBlob ct dat => jseq [jstr8 ct; Some dat]
  | JCreators l => jremainder jcreator l
  | JMetadata s d u i => jseq [jstr8 s; jstr8 d; jstr8 u; jstr8 i]
  | JGrouping size max del => jseq [ju 8 size; ju 8 max; jnullable del]
  | JRoyalties bp c => jseq [ju 8 bp; jconstr c]
  | JManager addr roles => jseq [jnullable addr; jroles roles]
  | JProxy prog seeds bump auth =>
      jseq [Some prog; if Nat.eqb (length seeds) 32 then Some seeds else None; ju 1 bump; jnullable auth]
  | JProperties l => jremainder jproperty l
  | JBucket dat => Some dat
  end.

Definition jr_pair : reader (bytes * bytes) := rbind jr_str8 (fun n => rbind jr_str8 (fun v => rret (n, v))).
Definition jr_rest : reader bytes := fun b => Some (b, []).
Definition jr_creator : reader (bytes * bool * Z) :=
  rbind (jr_fixed 32) (fun k => rbind jr_bool (fun v => rbind (jr_u 1) (fun s => rret (k, v, s)))).
(** the type byte picks the serializer, which reads name and type again —
    properties.ts:75-79 *)
Definition jr_property : reader (bytes * jval) :=
  rbind jr_str8 (fun n => rbind (jr_u 1) (fun t =>
    if t =? 0 then rbind jr_str8 (fun s => rret (n, JText s))
    else if t =? 1 then rbind (jr_u 8) (fun z => rret (n, JNumber z))
    else if t =? 2 then rbind jr_bool (fun b => rret (n, JBoolean b))
    else rfail)).
Definition js_read (t : ext_type) : reader jext :=
  match t with
  | XNone => rfail
  | XAttributes => rbind (jr_remainder jr_pair) (fun l => rret (JAttributes l))
  | XLinks => rbind (jr_remainder jr_pair) (fun l => rret (JLinks l))
  | XBlob => rbind jr_str8 (fun s => rbind jr_rest (fun d => rret (JBlob s d)))
  | XCreators => rbind (jr_remainder jr_creator) (fun l => rret (JCreators l))
  | XMetadata => rbind jr_str8 (fun s => rbind jr_str8 (fun d => rbind jr_str8 (fun u => rbind jr_str8 (fun i => rret (JMetadata s d u i)))))
  | XGrouping => rbind (jr_u 8) (fun s => rbind (jr_u 8) (fun m => rbind jr_nullable (fun d => rret (JGrouping s m d))))
  | XRoyalties => rbind (jr_u 8) (fun bp => rbind jr_constraint (fun c => rret (JRoyalties bp c)))
  | XManager => rbind jr_nullable (fun k => rbind jr_roles (fun l => rret (JManager k l)))
  | XProxy => rbind (jr_fixed 32) (fun p => rbind (jr_fixed 32) (fun s => rbind (jr_u 1) (fun n => rbind jr_nullable (fun a => rret (JProxy p s n a)))))
  | XProperties => rbind (jr_remainder jr_property) (fun l => rret (JProperties l))
  | XBucket => rbind jr_rest (fun d => rret (JBucket d))
  end.

(** ** Accounts *)
(** InternalAssetAccountData — hooked/internalAssetAccountData.ts:16-22 *)
Record jasset : Set := mkJasset {
  ja_state : Z; ja_standard : Z; ja_mutable : bool; ja_owner : bytes; ja_group : option bytes;
  ja_authority : bytes; ja_delegate : option (bytes * list role); ja_name : bytes; ja_exts : list jext }.
(** [JHang]: the loop never ends *)
Inductive jout (A : Type) : Type := JDone (a : A) | JThrow | JHang.
Arguments JDone {A} a.
Arguments JThrow {A}.
Arguments JHang {A}.
(** the header — generated/types/internalAssetAccountData.ts:61-79, discriminator.ts:11-14,
    state.ts:11-14; hooked/internalAssetAccountData.ts:47-53, 85-89 *)
Definition jr_header : reader jasset :=
  rbind (jr_enum 2) (fun disc => rbind (jr_enum 2) (fun st => rbind (jr_enum 4) (fun std =>
  rbind jr_bool (fun m => rbind (jr_fixed 32) (fun ow => rbind jr_nullable (fun g =>
  rbind (jr_fixed 32) (fun au => rbind jr_nullable (fun del => rbind jr_roles (fun rs =>
  rbind (jr_fixed 35) (fun n =>
    if disc =? 1 then
      rret (mkJasset st std m ow g au (match del with Some k => Some (k, rs) | None => None end) (js_text n) [])
    else rfail)))))))))).
(** Uint8Array.subarray: ends are moved into the array *)
Definition subarray (d : bytes) (a b : Z) : bytes := firstn (Z.to_nat (b - a)) (skipn (Z.to_nat a) d).
(** the loop — internalAssetAccountData.ts:55-83; generated/types/extensionHeader.ts:20-33.
    The cursor alone decides how it goes on, so one that takes more steps than
    there are positions never ends. *)
Fixpoint js_loop (fuel : nat) (d : bytes) (cur : Z) : jout (list jext) :=
  if zlen d <=? cur then JDone []
  else match fuel with
  | O => JHang
  | S f =>
      if zlen d <? cur + 16 then JThrow
      else
        let kind := le_dec (fld d cur 4) in
        let len := le_dec (fld d (cur + 4) 4) in
        let bnd := le_dec (fld d (cur + 8) 4) in
        if kind =? 0 then JDone []
        else match js_ext_of kind with
        | None => js_loop f d bnd
        | Some t =>
            let stop := match t with XMetadata => bnd | _ => cur + 16 + len end in
            match js_read t (subarray d (cur + 16) stop) with
            | None => JThrow
            | Some (x, _) =>
                match js_loop f d bnd with
                | JDone l => JDone (x :: l)
                | JThrow => JThrow
                | JHang => JHang
                end
            end
        end
  end.
Definition js_asset (d : bytes) : jout jasset :=
  match jr_header d with
  | None => JThrow
  | Some (a, _) =>
      match js_loop (S (length d)) d 168 with
      | JDone l => JDone (mkJasset (ja_state a) (ja_standard a) (ja_mutable a) (ja_owner a) (ja_group a)
                            (ja_authority a) (ja_delegate a) (ja_name a) l)
      | JThrow => JThrow
      | JHang => JHang
      end
  end.
(** getExtension — extensions/index.ts:88-97 *)
Definition js_get (t : ext_type) (l : list jext) : option jext :=
  find (fun x => ext_type_eqb (jext_type x) t) l.

(** Search filters — index.ts:68-98: offset in the account and bytes to compare with *)
Inductive jfilter : Set :=
| JFOwner (k : bytes) | JFGroup (k : option bytes) | JFAuthority (k : bytes) | JFDelegate (k : option bytes)
| JFRoles (l : list role) | JFName (s : bytes) | JFState (z : Z) | JFStandard (s : standard) | JFMutable (b : bool)
| JFDiscriminator (z : Z).
(** string({ size: 35 }): cut or filled with zeros *)
Definition jstr_fixed (n : nat) (s : bytes) : bytes := firstn n (s ++ repeat x00 n).
Definition js_filter (f : jfilter) : option (nat * bytes) :=
  let at_ (o : nat) (b : option bytes) := match b with Some b => Some (o, b) | None => None end in
  match f with
  | JFDiscriminator z => at_ 0%nat (if z <? 2 then ju 1 z else None)
  | JFState z => at_ 1%nat (if z <? 2 then ju 1 z else None)
  | JFStandard s => at_ 2%nat (ju 1 (js_standard_code s))
  | JFMutable b => at_ 3%nat (jbool b)
  | JFOwner k => at_ 4%nat (Some k)
  | JFGroup k => at_ 36%nat (jnullable k)
  | JFAuthority k => at_ 68%nat (Some k)
  | JFDelegate k => at_ 100%nat (jnullable k)
  | JFRoles l => at_ 132%nat (jroles l)
  | JFName s => at_ 133%nat (Some (jstr_fixed 35 s))
  end.

(** ** Instruction data — generated/instructions/*.ts *)
(** generated/types/extensionInput.ts:35-47, delegateInput.ts:28-44, strategy.ts:23-34 *)
Definition js_ext_input (x : ext_input) : option bytes :=
  jseq [ju 1 (js_ext_code (x_type x)); ju 4 (x_length x); joption jstr32 (x_data x)].
Definition js_delegate_input (d : delegate_input) : option bytes :=
  match d with
  | DAll => ju 1 0
  | DSome l => jseq [ju 1 1; jarray (fun r => ju 1 (js_role_code r)) l]
  end.
Definition js_strategy (s : strategy) : option bytes :=
  match s with Trim => ju 1 0 | Extend v => jseq [ju 1 1; ju 2 v] end.
(** the data serializers: create.ts:78-101, update.ts:70-92, write.ts:53-69,
    allocate.ts:55-70, approve.ts:51-66, revoke.ts:49-64, remove.ts:53-68,
    resize.ts:49-64; the others hold the discriminator only *)
Definition js_instr (i : instr) : option bytes :=
  match i with
  | IClose => ju 1 0 | IBurn => ju 1 1
  | ICreate m => jseq [ju 1 2; jstr32 (m_name m); ju 1 (js_standard_code (m_standard m)); jbool (m_mutable m);
                       joption (jarray js_ext_input) (m_exts m)]
  | IApprove d => jseq [ju 1 3; js_delegate_input d]
  | IAllocate x => jseq [ju 1 4; js_ext_input x]
  | ILock => ju 1 5
  | IRevoke d => jseq [ju 1 6; js_delegate_input d]
  | ITransfer => ju 1 7 | IUnlock => ju 1 8 | IUnverify => ju 1 9
  | IUpdate u => jseq [ju 1 10; joption jstr32 (u_name u); joption jbool (u_mutable u); joption js_ext_input (u_ext u)]
  | IVerify => ju 1 11
  | IWrite d => jseq [ju 1 12; jbool (w_overwrite d); jstr32 (w_bytes d)]
  | IGroup => ju 1 13 | IUngroup => ju 1 14 | IHandover => ju 1 15
  | IRemove t => jseq [ju 1 16; ju 1 (js_ext_code t)]
  | IResize s => jseq [ju 1 17; js_strategy s]
  end.
(** defaults of Create — create.ts:93-99 *)
Definition js_default {A} (d : A) (o : option A) : A := match o with Some a => a | None => d end.

(** ** Account lists *)
(** a public key, or a signer *)
Definition jkey : Set := (pubkey * bool)%type.
Definition jpub (k : pubkey) : jkey := (k, false).
Definition jsigner (k : pubkey) : jkey := (k, true).
(** getAccountMetasAndSigners — generated/shared/index.ts:91-117, with 'programId':
    an absent account is the program's ID *)
Definition jmeta (prog : pubkey) (writable : bool) (o : option jkey) : ainfo :=
  match o with
  | Some (k, s) => mkInfo k s writable
  | None => mkInfo prog false false
  end.
(** the identity and the payer of the context *)
Record jctx : Set := mkJctx { jc_identity : pubkey; jc_payer : pubkey }.
Definition jor (o : option pubkey) (d : pubkey) : pubkey := match o with Some k => k | None => d end.
(** the system program, by default only if there is a payer *)
Definition jsys (payer : option pubkey) (sysp : option pubkey) : option jkey :=
  match sysp, payer with
  | Some s, _ => Some (jpub s)
  | None, Some _ => Some (jpub pk_zero)
  | None, None => None
  end.
(** create.ts:44-60, 118-186 *)
Definition js_create_metas (prog : pubkey) (c : jctx) (asset : pubkey) (auth : option jkey) (owner group gauth payer sysp : option pubkey) : list ainfo :=
  [jmeta prog true (Some (jsigner asset));
   jmeta prog false (Some match auth with Some a => a | None => jsigner (jc_identity c) end);
   jmeta prog false (Some (jpub (jor owner (jc_identity c))));
   jmeta prog true (option_map jpub group); jmeta prog false (option_map jsigner gauth);
   jmeta prog true (option_map jsigner payer); jmeta prog false (jsys payer sysp)].
(** allocate.ts:35-42, 87-129 *)
Definition js_allocate_metas (prog asset : pubkey) (payer sysp : option pubkey) : list ainfo :=
  [jmeta prog true (Some (jsigner asset)); jmeta prog true (option_map jsigner payer); jmeta prog false (jsys payer sysp)].
(** write.ts (generated):33-42, 86-129 *)
Definition js_write_metas (prog : pubkey) (c : jctx) (asset : pubkey) (payer sysp : option pubkey) : list ainfo :=
  [jmeta prog true (Some (jsigner asset)); jmeta prog true (Some (jsigner (jor payer (jc_payer c))));
   jmeta prog false (Some (jpub (jor sysp pk_zero)))].
(** update.ts (generated):41-54, 109-169 *)
Definition js_update_metas (prog : pubkey) (c : jctx) (asset : pubkey) (auth buffer group payer sysp : option pubkey) : list ainfo :=
  [jmeta prog true (Some (jpub asset)); jmeta prog false (Some (jsigner (jor auth (jc_identity c))));
   jmeta prog true (option_map jpub buffer); jmeta prog false (option_map jpub group);
   jmeta prog true (option_map jsigner payer); jmeta prog false (jsys payer sysp)].
(** close.ts:30-35, 66-87 *)
Definition js_close_metas (prog buffer recipient : pubkey) : list ainfo :=
  [jmeta prog true (Some (jsigner buffer)); jmeta prog true (Some (jpub recipient))].
(** burn.ts (generated):30-39, 70-101 *)
Definition js_burn_metas (prog asset signer : pubkey) (recipient group : option pubkey) : list ainfo :=
  [jmeta prog true (Some (jpub asset)); jmeta prog true (Some (jsigner signer));
   jmeta prog true (option_map jpub recipient); jmeta prog true (option_map jpub group)].
(** transfer.ts (generated):30-39, 74-110 *)
Definition js_transfer_metas (prog : pubkey) (c : jctx) (asset : pubkey) (signer : option pubkey) (recipient : pubkey) (group : option pubkey) : list ainfo :=
  [jmeta prog true (Some (jpub asset)); jmeta prog false (Some (jsigner (jor signer (jc_identity c))));
   jmeta prog false (Some (jpub recipient)); jmeta prog false (option_map jpub group)].
(** approve.ts:35-42, 83-107 *)
Definition js_approve_metas (prog : pubkey) (c : jctx) (asset : pubkey) (owner : option pubkey) (delegate : pubkey) : list ainfo :=
  [jmeta prog true (Some (jpub asset)); jmeta prog false (Some (jsigner (jor owner (jc_identity c)))); jmeta prog false (Some (jpub delegate))].
(** lock.ts:30-35, 66-82; unlock.ts:30-35, 66-82; revoke.ts:35-40, 81-100 *)
Definition js_signer_metas (prog : pubkey) (c : jctx) (asset : pubkey) (signer : option pubkey) : list ainfo :=
  [jmeta prog true (Some (jpub asset)); jmeta prog false (Some (jsigner (jor signer (jc_identity c))))].
(** verify.ts:30-35, 66-87; unverify.ts:30-35, 70-91 *)
Definition js_verify_metas (prog asset creator : pubkey) : list ainfo :=
  [jmeta prog true (Some (jpub asset)); jmeta prog false (Some (jsigner creator))].
(** group.ts:30-37, 68-89; ungroup.ts:30-37, 68-89 *)
Definition js_group_metas (prog : pubkey) (c : jctx) (asset group : pubkey) (auth : option pubkey) : list ainfo :=
  [jmeta prog true (Some (jpub asset)); jmeta prog true (Some (jpub group)); jmeta prog false (Some (jsigner (jor auth (jc_identity c))))].
(** handover.ts:30-37, 72-93 *)
Definition js_handover_metas (prog : pubkey) (c : jctx) (asset : pubkey) (auth : option pubkey) (next : pubkey) : list ainfo :=
  [jmeta prog true (Some (jpub asset)); jmeta prog false (Some (jsigner (jor auth (jc_identity c)))); jmeta prog false (Some (jsigner next))].
(** remove.ts (generated):35-44, 85-117 *)
Definition js_remove_metas (prog : pubkey) (c : jctx) (asset : pubkey) (auth group recipient : option pubkey) : list ainfo :=
  [jmeta prog true (Some (jpub asset)); jmeta prog false (Some (jsigner (jor auth (jc_identity c))));
   jmeta prog false (option_map jpub group); jmeta prog true (Some (jpub (jor recipient (jc_identity c))))].
(** resize.ts (generated):31-40, 81-122; the payer may be given as a key only *)
Definition js_resize_metas (prog : pubkey) (c : jctx) (asset : pubkey) (auth : option pubkey) (payer : option jkey) (sysp : option pubkey) : list ainfo :=
  [jmeta prog true (Some (jpub asset)); jmeta prog false (Some (jsigner (jor auth (jc_identity c))));
   jmeta prog true (Some match payer with Some p => p | None => jsigner (jc_payer c) end);
   jmeta prog false (Some (jpub (jor sysp pk_zero)))].
(** With [proxy]: the lists are made for the proxy's ID and the asset program is
    added — burn.ts:16-30, transfer.ts:16-30, update.ts:39-56 and the like *)
Definition js_proxied (e : env) (metas : list ainfo) : list ainfo := metas ++ [mkInfo (e_prog e) false false].

(** ** Helpers that make several instructions; [None] when a serializer throws *)
Definition jix (metas : list ainfo) (i : instr) : option ix :=
  match js_instr i with Some b => Some (metas, b) | None => None end.
Fixpoint jall (l : list (option ix)) : option (list ix) :=
  match l with
  | [] => Some []
  | o :: r => match o, jall r with Some x, Some y => Some (x :: y) | _, _ => None end
  end.
Definition DEFAULT_CHUNK_SIZE : nat := 850.     (* write.ts:12 *)
(** write — write.ts:30-63; Array.from({ length: ceil(n / size) }, slice) *)
Definition js_write (e : env) (c : jctx) (asset : pubkey) (payer : option pubkey) (size : nat) (b : bytes) : list (option ix) :=
  let infos := js_write_metas (e_prog e) c asset (Some (jor payer (jc_payer c))) None in
  match chunks (length b) size b with
  | [] => []
  | x :: r => jix infos (IWrite (mkDataInput true x)) :: map (fun y => jix infos (IWrite (mkDataInput false y))) r
  end.
(** initialize — initialize.ts:14-46 *)
Definition js_initialize (e : env) (c : jctx) (asset : pubkey) (payer sysp : option pubkey) (x : jext) : list (option ix) :=
  match js_payload x with
  | None => [None]
  | Some b =>
      let infos := js_allocate_metas (e_prog e) asset payer sysp in
      if Nat.ltb DEFAULT_CHUNK_SIZE (length b) then
        jix infos (IAllocate (mkExtInput (jext_type x) (zlen b) None)) :: js_write e c asset payer DEFAULT_CHUNK_SIZE b
      else [jix infos (IAllocate (mkExtInput (jext_type x) (zlen b) (Some b)))]
  end.
(** mint — mint.ts:14-39 *)
Record jmint : Set := mkJmint {
  jm_asset : pubkey; jm_auth : option jkey; jm_owner : option pubkey; jm_group : option pubkey; jm_gauth : option pubkey;
  jm_payer : option pubkey; jm_sysp : option pubkey;
  jm_name : bytes; jm_standard : option standard; jm_mutable : option bool; jm_exts : list jext }.
Definition jmint_meta (a : jmint) : metadata_input :=
  mkMetaInput (jm_name a) (js_default NonFungible (jm_standard a)) (js_default true (jm_mutable a)) None.
Definition jmint_create_metas (e : env) (c : jctx) (a : jmint) : list ainfo :=
  js_create_metas (e_prog e) c (jm_asset a) (jm_auth a) (jm_owner a) (jm_group a) (jm_gauth a) (jm_payer a) (jm_sysp a).
Definition js_mint (e : env) (c : jctx) (a : jmint) : option (list ix) :=
  jall (flat_map (js_initialize e c (jm_asset a) (jm_payer a) (jm_sysp a)) (jm_exts a) ++
        [jix (jmint_create_metas e c a) (ICreate (jmint_meta a))]).
(** create with inline extensions — create.ts:15-44 (not generated) *)
Fixpoint jinputs (l : list jext) : option (list ext_input) :=
  match l with
  | [] => Some []
  | x :: r => match js_payload x, jinputs r with
              | Some b, Some y => Some (mkExtInput (jext_type x) (zlen b) (Some b) :: y)
              | _, _ => None
              end
  end.
(** [xs]: the extensions given, if any; those in the record are not used *)
Definition js_create (e : env) (c : jctx) (a : jmint) (xs : option (list jext)) : option ix :=
  match (match xs with Some l => option_map Some (jinputs l) | None => Some None end) with
  | Some o => jix (jmint_create_metas e c a) (ICreate (mkMetaInput (jm_name a) (js_default NonFungible (jm_standard a)) (js_default true (jm_mutable a)) o))
  | None => None
  end.
(** updateWithBuffer without proxy — updateWithBuffer.ts:19-102; [buffer] is the
    generated key.  Simplified: the caller passes no buffer and no system program of
    their own. *)
Record jupdate : Set := mkJupdate {
  ju_asset : pubkey; ju_auth : option pubkey; ju_group : option pubkey; ju_payer : option pubkey;
  ju_name : option bytes; ju_mutable : option bool; ju_ext : jext; ju_chunk : option nat }.
Definition js_update_with_buffer (e : env) (c : jctx) (buffer : pubkey) (a : jupdate) : option (list ix) :=
  match js_payload (ju_ext a) with
  | None => None
  | Some b =>
      let size := js_default DEFAULT_CHUNK_SIZE (ju_chunk a) in
      let t := jext_type (ju_ext a) in
      if Nat.ltb size (length b) then
        jall (jix (js_allocate_metas (e_prog e) buffer (ju_payer a) None) (IAllocate (mkExtInput t (zlen b) None)) ::
              js_write e c buffer (ju_payer a) size b ++
              [jix (js_update_metas (e_prog e) c (ju_asset a) (ju_auth a) (Some buffer) (ju_group a) (ju_payer a) (Some pk_zero))
                   (IUpdate (mkUpdInput (ju_name a) (ju_mutable a) None));
               jix (js_close_metas (e_prog e) buffer (jor (ju_payer a) (jc_payer c))) IClose])
      else
        jall [jix (js_update_metas (e_prog e) c (ju_asset a) (ju_auth a) None (ju_group a) (ju_payer a) None)
                  (IUpdate (mkUpdInput (ju_name a) (ju_mutable a) (Some (mkExtInput t (zlen b) (Some b)))))]
  end.
(** the same with proxy: every instruction goes to the proxy program [me]; only
    Update gets the asset program's account *)
Definition js_update_with_buffer_proxied (e : env) (me : pubkey) (c : jctx) (buffer : pubkey) (a : jupdate) : option (list ix) :=
  match js_payload (ju_ext a) with
  | None => None
  | Some b =>
      let size := js_default DEFAULT_CHUNK_SIZE (ju_chunk a) in
      let t := jext_type (ju_ext a) in
      let wr := js_write_metas me c buffer (Some (jor (ju_payer a) (jc_payer c))) None in
      if Nat.ltb size (length b) then
        jall (jix (js_allocate_metas me buffer (ju_payer a) None) (IAllocate (mkExtInput t (zlen b) None)) ::
              (match chunks (length b) size b with
               | [] => []
               | x :: r => jix wr (IWrite (mkDataInput true x)) :: map (fun y => jix wr (IWrite (mkDataInput false y))) r
               end) ++
              [jix (js_proxied e (js_update_metas me c (ju_asset a) (ju_auth a) (Some buffer) (ju_group a) (ju_payer a) (Some pk_zero)))
                   (IUpdate (mkUpdInput (ju_name a) (ju_mutable a) None));
               jix (js_close_metas me buffer (jor (ju_payer a) (jc_payer c))) IClose])
      else
        jall [jix (js_proxied e (js_update_metas me c (ju_asset a) (ju_auth a) None (ju_group a) (ju_payer a) None))
                  (IUpdate (mkUpdInput (ju_name a) (ju_mutable a) (Some (mkExtInput t (zlen b) (Some b)))))]
  end.

(** instructions sent one after the other to the proxy program [me] *)
Fixpoint run_proxied (pe : penv) (e : env) (me : pubkey) (l : list ix) (w : world) : res world :=
  match l with
  | [] => Ok w
  | (metas, b) :: r => w1 <- proxy_entry pe e me metas w b ;; run_proxied pe e me r w1
  end.

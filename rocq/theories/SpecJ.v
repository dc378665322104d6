(** Specification for the JavaScript client: the values it can write, what the
    program makes of a payload, what it shows of one. *)
From Verif Require Import Base State Layout Constr Ext World Proc Borsh Client Js Spec SpecB SpecC SpecI SpecF SpecK.
From Coq Require Import Strings.Byte.

(** the names in an instruction are texts (JavaScript strings are) *)
Definition named (i : instr) : Prop :=
  match i with
  | ICreate m => utf8_text (m_name m)
  | IUpdate u => opt_valid utf8_text (u_name u)
  | _ => True
  end.

(** ** Values *)
Definition key32 (k : bytes) : Prop := length k = 32%nat.
Definition opt_key32 (o : option bytes) : Prop := match o with Some k => key32 k | None => True end.
Definition text255 (s : bytes) : Prop := zlen s <= 255.
Definition is_u8 (z : Z) : Prop := 0 <= z < 256.
Definition is_u64 (z : Z) : Prop := 0 <= z < 18446744073709551616.

(** the rule a constraint stands for, its keys and its size *)
Fixpoint jrule (c : jcon) : rule :=
  match c with
  | JAnd l => RAll (map jrule l) | JOr l => RAny (map jrule l) | JNot x => RNeg (jrule x)
  | JOwnedBy a ks => ROwner (cacct_code a) ks
  | JPubkeyMatch a ks => RKey (cacct_code a) ks
  | JEmpty => RTrue
  end.
Fixpoint jcon_keys (c : jcon) : Prop :=
  match c with
  | JAnd l | JOr l => fold_right (fun x P => jcon_keys x /\ P) True l
  | JNot x => jcon_keys x
  | JOwnedBy _ ks | JPubkeyMatch _ ks => Forall key32 ks
  | JEmpty => True
  end.
Fixpoint jcon_size (c : jcon) : Z :=
  8 + match c with
      | JAnd l | JOr l => fold_right (fun x s => jcon_size x + s) 0 l
      | JNot x => jcon_size x
      | JOwnedBy _ ks | JPubkeyMatch _ ks => 8 + 32 * zlen ks
      | JEmpty => 0
      end.

(** keys are keys (the TypeScript type) *)
Definition typed (x : jext) : Prop :=
  match x with
  | JCreators l => Forall (fun c => key32 (fst (fst c))) l
  | JGrouping _ _ del => opt_key32 del
  | JRoyalties _ c => jcon_keys c
  | JManager addr _ => opt_key32 addr
  | JProxy prog _ _ auth => key32 prog /\ opt_key32 auth
  | _ => True
  end.
(** the values that fit their place *)
Definition value_fits (v : jval) : Prop :=
  match v with JText s => text255 s | JNumber n => is_u64 n | JBoolean _ => True end.
Definition in_range (x : jext) : Prop :=
  match x with
  | JAttributes l | JLinks l => Forall (fun p => text255 (fst p) /\ text255 (snd p)) l
  | JBlob ct _ => text255 ct
  | JCreators l => Forall (fun c => is_u8 (snd c)) l
  | JMetadata s d u i => text255 s /\ text255 d /\ text255 u /\ text255 i
  | JGrouping size max _ => is_u64 size /\ is_u64 max
  | JRoyalties bp c => is_u64 bp /\ jcon_size c <= 8 + 4294967295
  | JManager _ roles => ~ In RNone roles
  | JProxy _ seeds bump _ => key32 seeds /\ is_u8 bump
  | JProperties l => Forall (fun p => text255 (fst p) /\ value_fits (snd p)) l
  | JBucket _ => True
  end.

(** ** The program's view of a payload: [says x b] — in payload [b] the program
    reads the values of [x] *)
Definition key_or_zero (o : option bytes) : bytes := match o with Some k => k | None => no_key end.
Definition as_creator (c : bytes * bool * Z) : creator :=
  mkCreator (fst (fst c)) (if snd (fst c) then x01 else x00) (z2b (snd c)).
Definition as_value (v : jval) : prop_val :=
  match v with
  | JText s => PText s | JNumber n => PNumber (le_enc 8 n) | JBoolean b => PBoolean (if b then x01 else x00)
  end.
Definition grants (mask : byte) (roles : list role) : Prop := forall r, r <> RNone -> (has_role mask r <-> In r roles).
Definition says (x : jext) (b : bytes) : Prop :=
  match x with
  | JAttributes l => attributes_from_bytes b = Ok l
  | JLinks l => links_from_bytes b = Ok l
  | JBlob ct dat => blob_from_bytes b = Ok (ct, dat)
  | JCreators l => creators_from_bytes b = Ok (map as_creator l)
  | JMetadata s d u i => metadata_from_bytes b = Ok (s, d, u, i)
  | JGrouping size max del => grouping_from_bytes 0 b = Ok (mkGrouping size max (key_or_zero del))
  | JRoyalties bp c => exists r, royalties_from_bytes 0 b = Ok (bp, r) /\ erase r = jrule c
  | JManager addr roles => exists mask, manager_from_bytes b = Ok (mkDelegate (key_or_zero addr) mask) /\ grants mask roles
  | JProxy prog seeds bump auth => proxy_from_bytes b = Ok (mkProxy prog seeds (z2b bump) (key_or_zero auth))
  | JProperties l => properties_from_bytes b = Ok (map (fun p => (fst p, as_value (snd p))) l)
  | JBucket dat => b = dat
  end.

(** ** What the client shows *)
(** texts without their NUL bytes, the zero key as nothing *)
Definition seen_text (s : bytes) : bytes := filter (fun x => negb (beqb x x00)) s.
Definition seen_key (k : bytes) : option bytes := if bytes_eqb k no_key then None else Some k.
Definition seen_roles (mask : byte) : list role :=
  if beqb mask x00 then [RNone]
  else filter (fun r => match role_bit r with Some n => N.testbit (Byte.to_N mask) n | None => false end) [RTransfer; RLock; RBurn].
Definition seen_pair (p : bytes * bytes) : bytes * bytes := (seen_text (fst p), seen_text (snd p)).
Definition seen_value (v : prop_val) : jval :=
  match v with PText s => JText (seen_text s) | PNumber b8 => JNumber (le_dec b8) | PBoolean y => JBoolean (beqb y x01) end.
Definition seen_creator (c : creator) : bytes * bool * Z := (cr_addr c, beqb (cr_verified c) x01, b2z (cr_share c)).
(** [shown t b pad x]: of a payload [b] of type [t], followed by the padding [pad],
    the client shows [x] — in terms of what the program reads *)
Definition shown (t : ext_type) (b pad : bytes) (x : jext) : Prop :=
  t = jext_type x /\
  match x with
  | JAttributes v => exists l, attributes_from_bytes b = Ok l /\ v = map seen_pair l
  | JLinks v => exists l, links_from_bytes b = Ok l /\ v = map seen_pair l
  | JBlob ct dat => exists s, blob_from_bytes b = Ok (s, dat) /\ ct = seen_text s
  | JCreators v => exists l, creators_from_bytes b = Ok l /\ v = map seen_creator l
  | JMetadata s d u i => exists s' d' u' i' bs bd bu bi junk,
      pstring s' bs /\ pstring d' bd /\ pstring u' bu /\ pstring i' bi /\ b ++ pad = bs ++ bd ++ bu ++ bi ++ junk /\
      s = seen_text s' /\ d = seen_text d' /\ u = seen_text u' /\ i = seen_text i'
  | JGrouping size max del => exists k, zlen b = 48 /\ grouping_from_bytes 0 b = Ok (mkGrouping size max k) /\ del = seen_key k
  | JRoyalties bp c => exists r, royalties_from_bytes 0 b = Ok (bp, r) /\ erase r = jrule c
  | JManager addr roles => exists k m, manager_from_bytes b = Ok (mkDelegate k m) /\ addr = seen_key k /\ roles = seen_roles m
  | JProxy prog seeds bump auth => exists n a, proxy_from_bytes b = Ok (mkProxy prog seeds n a) /\ bump = b2z n /\ auth = seen_key a
  | JProperties v => exists l, properties_from_bytes b = Ok l /\ v = map (fun p => (seen_text (fst p), seen_value (snd p))) l
  | JBucket dat => dat = b
  end.
(** the header *)
Definition shown_header (d : bytes) (a : jasset) : Prop :=
  ja_state a = b2z (s_state d) /\ ja_standard a = b2z (s_standard d) /\ ja_mutable a = beqb (s_mutable d) x01 /\
  ja_owner a = s_owner d /\ ja_group a = seen_key (s_group d) /\ ja_authority a = s_authority d /\
  ja_delegate a = match seen_key (s_delegate d) with Some k => Some (k, seen_roles (s_roles d)) | None => None end /\
  ja_name a = seen_text (s_name d).
(** an account with state and standard that exist *)
Definition valid_header (d : bytes) : Prop := initialized d /\ b2z (s_state d) < 2 /\ b2z (s_standard d) < 4.
(** every payload is one the program can read *)
Definition readable (l : list blk) : Prop := Forall (fun k => parses (bk_type k) (bk_data k)) l.
(** the payloads the client can show *)
Definition four_texts (b : bytes) : Prop := exists s d u i bs bd bu bi junk,
  pstring s bs /\ pstring d bd /\ pstring u bu /\ pstring i bi /\ b = bs ++ bd ++ bu ++ bi ++ junk.
Definition showable (k : blk) : Prop :=
  (bk_type k = XGrouping -> zlen (bk_data k) = 48) /\ (bk_type k = XMetadata -> four_texts (bk_data k ++ bk_pad k)).
(** after the extensions there is nothing, or at least a header *)
Definition end_ok (tl : bytes) : Prop := tl = [] \/ 16 <= zlen tl.
(** a value shown for a value written *)
Definition same_roles (l l' : list role) : Prop := forall r, r <> RNone -> (In r l <-> In r l').
Definition seen_opt (o : option bytes) : option bytes := match o with Some k => seen_key k | None => None end.
Definition seen_jval (v : jval) : jval := match v with JText s => JText (seen_text s) | _ => v end.
Definition same_value (x y : jext) : Prop :=
  match x with
  | JAttributes l => y = JAttributes (map seen_pair l)
  | JLinks l => y = JLinks (map seen_pair l)
  | JBlob ct dat => y = JBlob (seen_text ct) dat
  | JMetadata s d u i => y = JMetadata (seen_text s) (seen_text d) (seen_text u) (seen_text i)
  | JGrouping size max del => y = JGrouping size max (seen_opt del)
  | JManager addr roles => exists roles', y = JManager (seen_opt addr) roles' /\ same_roles roles roles'
  | JProxy prog seeds bump auth => y = JProxy prog seeds bump (seen_opt auth)
  | JProperties l => y = JProperties (map (fun p => (seen_text (fst p), seen_jval (snd p))) l)
  | _ => y = x
  end.

(** ** Account search: a filter compares bytes at an offset *)
Definition matches (d : bytes) (p : nat * bytes) : Prop := sub d (fst p) (length (snd p)) = snd p.
Definition selects (f : jfilter) (d : bytes) : Prop :=
  match f with
  | JFDiscriminator z => b2z (s_disc d) = z
  | JFState z => b2z (s_state d) = z
  | JFStandard s => s_standard d = standard_code s
  | JFMutable b => s_mutable d = (if b then x01 else x00)
  | JFOwner k => s_owner d = k
  | JFGroup k => s_group d = key_or_zero k
  | JFAuthority k => s_authority d = k
  | JFDelegate k => s_delegate d = key_or_zero k
  | JFRoles l => grants (s_roles d) l /\ b2z (s_roles d) < 8
  | JFName s => s_name d = firstn 35 (s ++ repeat x00 35)
  end.
Definition filter_typed (f : jfilter) : Prop :=
  match f with
  | JFOwner k | JFAuthority k => key32 k
  | JFGroup k | JFDelegate k => opt_key32 k
  | _ => True
  end.

(** ** Helpers of several instructions *)
(** the payloads of the extensions, with their types *)
Definition parts (xs : list jext) (ps : list (ext_type * bytes)) : Prop :=
  Forall2 (fun x p => fst p = jext_type x /\ js_payload x = Some (snd p)) xs ps.
Definition js_authority (c : jctx) (a : jmint) : pubkey := match jm_auth a with Some k => fst k | None => jc_identity c end.
Definition js_owner (c : jctx) (a : jmint) : pubkey := jor (jm_owner a) (jc_identity c).
(** the asset the arguments of [mint] describe *)
Definition js_minted (c : jctx) (a : jmint) (ps : list (ext_type * bytes)) (g : bytes) (d : bytes) : Prop :=
  exists l, tight d l /\ map bk_type l = map jext_type (jm_exts a) /\
    Forall2 (fun x b => fresh_payload (fst x) (Some (pk_bytes (js_authority c a))) (snd x) (bk_data b)) ps l /\
    Forall (fun b => valid_new (bk_type b) (bk_data b)) l /\
    s_disc d = x01 /\ s_state d = x00 /\
    s_standard d = standard_code (match jm_standard a with Some s => s | None => NonFungible end) /\
    s_mutable d = (match jm_mutable a with Some false => x00 | _ => x01 end) /\
    s_owner d = pk_bytes (js_owner c a) /\ s_authority d = pk_bytes (js_authority c a) /\
    s_group d = g /\ s_delegate d = no_key /\ s_roles d = x00 /\ s_name d = name_field (jm_name a).

(** the group [mint] names counts one more member *)
Definition group_joined (e : env) (c : jctx) (a : jmint) (g : pubkey) (w w' : world) : Prop :=
  exists off b, acct_owner (w' g) = e_prog e /\ initialized (data (w g)) /\ s_authority (data (w g)) = pk_bytes (js_authority c a) /\
    has_ext (data (w g)) XGrouping off b /\ (gr_max b = 0 \/ gr_size b < gr_max b) /\
    data (w' g) = put (data (w g)) off (le_enc 8 ((gr_size b + 1) mod two64)) /\
    (forall k, k <> jm_asset a -> k <> g -> data (w' k) = data (w k)).
(** what an update leaves: header fields as asked for, one extension put in *)
Definition js_updated (c : jctx) (a : jupdate) (t : ext_type) (b' : bytes) (l : list blk) (d d' : bytes) : Prop :=
  s_authority d = pk_bytes (jor (ju_auth a) (jc_identity c)) /\ mutable d /\
  header_updated (mkUpdInput (ju_name a) (ju_mutable a) None) d d' /\
  exists l', well_formed d' l' /\ ext_list l' = put_ext t b' (ext_list l).

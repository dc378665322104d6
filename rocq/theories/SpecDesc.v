(** What the descriptions should say: for each instruction, extension and stored header
    the name and the values under which the program knows them. *)
From Verif Require Import Base State Layout Constr Ext World Proc Borsh Js Rs Bridge BridgeC ProxyC Desc Spec SpecI SpecJ.
From Coq Require Import Strings.Byte Strings.String Strings.Ascii.
Open Scope string_scope.
Open Scope Z_scope.

(** ** Instructions *)
Definition kind_name (t : ext_type) : string :=
  match t with
  | XNone => "none" | XAttributes => "attributes" | XBlob => "blob" | XCreators => "creators" | XLinks => "links" | XMetadata => "metadata"
  | XGrouping => "grouping" | XRoyalties => "royalties" | XManager => "manager" | XProxy => "proxy" | XProperties => "properties" | XBucket => "bucket"
  end.
Definition role_name (r : role) : string :=
  match r with RNone => "none" | RTransfer => "transfer" | RLock => "lock" | RBurn => "burn" end.
Definition standard_name (s : standard) : string :=
  match s with NonFungible => "nonFungible" | Managed => "managed" | Soulbound => "soulbound" | Proxied => "proxied" end.
Definition word (s : string) : cval := VVar s [].
Definition maybe {A} (f : A -> cval) (o : option A) : cval := match o with Some a => VSome (f a) | None => VNone end.
Definition ext_value (x : ext_input) : cval := VRec [word (kind_name (x_type x)); VNum (x_length x); maybe VRaw (x_data x)].
Definition roles_value (d : delegate_input) : cval :=
  match d with DAll => word "all" | DSome l => VVar "some" [VSeq (map (fun r => word (role_name r)) l)] end.
Definition strategy_value (s : strategy) : cval :=
  match s with Trim => word "trim" | Extend v => VVar "extend" [VNum v] end.
Definition told (i : instr) : string * list cval :=
  match i with
  | IClose => ("close", []) | IBurn => ("burn", [])
  | ICreate m => ("create", [VRaw (m_name m); word (standard_name (m_standard m)); VBool (m_mutable m); maybe (fun l => VSeq (map ext_value l)) (m_exts m)])
  | IApprove d => ("approve", [roles_value d])
  | IAllocate x => ("allocate", [ext_value x])
  | ILock => ("lock", [])
  | IRevoke d => ("revoke", [roles_value d])
  | ITransfer => ("transfer", []) | IUnlock => ("unlock", []) | IUnverify => ("unverify", [])
  | IUpdate u => ("update", [maybe VRaw (u_name u); maybe VBool (u_mutable u); maybe ext_value (u_ext u)])
  | IVerify => ("verify", [])
  | IWrite d => ("write", [VBool (w_overwrite d); VRaw (w_bytes d)])
  | IGroup => ("group", []) | IUngroup => ("ungroup", []) | IHandover => ("handover", [])
  | IRemove t => ("remove", [word (kind_name t)])
  | IResize s => ("resize", [strategy_value s])
  end.
(** shank's files: the arguments of these four make one record *)
Definition told_shank (i : instr) : string * list cval :=
  (fst (told i), match i with ICreate _ | IAllocate _ | IUpdate _ | IWrite _ => [VRec (snd (told i))] | _ => snd (told i) end).
(** the instructions that name a kind of extension, a role or a standard *)
Definition names_kind (i : instr) : Prop :=
  match i with
  | ICreate _ | IAllocate _ | IRemove _ => True
  | IApprove (DSome (_ :: _)) | IRevoke (DSome (_ :: _)) => True
  | IUpdate u => u_ext u <> None
  | _ => False
  end.

(** ** Accounts *)
(** those handed over for a request, in the order of the program; a key with a flag is
    one that may sign *)
Definition must (k : pubkey) : option (pubkey * bool) := Some (k, false).
Definition may (o : option pubkey) : option (pubkey * bool) := option_map (fun k => (k, false)) o.
Definition given (x : rs_ix) : string * list (option (pubkey * bool)) :=
  (fst (told (rs_instr x)),
   match x with
   | RsClose b r => [must b; must r]
   | RsBurn a s r g => [must a; must s; may r; may g]
   | RsCreate a au o g ga p s _ => [must a; Some au; must o; may g; may ga; may p; may s]
   | RsApprove a o d _ => [must a; must o; must d]
   | RsAllocate a p s _ => [must a; may p; may s]
   | RsLock a s | RsRevoke a s _ | RsUnlock a s | RsUnverify a s | RsVerify a s => [must a; must s]
   | RsTransfer a s r g => [must a; must s; must r; may g]
   | RsUpdate a au b g p s _ => [must a; must au; may b; may g; may p; may s]
   | RsWrite a p s _ => [must a; must p; must s]
   | RsGroup a g au | RsUngroup a g au => [must a; must g; must au]
   | RsHandover a au n => [must a; must au; must n]
   | RsRemove a au g r _ => [must a; must au; may g; must r]
   | RsResize a au p s _ => [must a; must au; Some p; may s]
   end).

(** ** Extensions: the type that describes a payload and its values; none for royalties
    and properties *)
Definition octets (b : bytes) : cval := VSeq (map (fun x => VNum (b2z x)) b).
Definition two (p : bytes * bytes) : cval := VRec [VRaw (fst p); VRaw (snd p)].
Definition mask (l : list role) : Z :=
  fold_right (fun r z => Z.lor (match r with RNone => 0 | RTransfer => 1 | RLock => 2 | RBurn => 4 end) z) 0 l.
Definition told_ext (x : jext) : option (string * cval) :=
  match x with
  | JAttributes l => Some ("attributes", VRec [VSeq (map two l)])
  | JBlob ct dat => Some ("blob", VRec [VRaw ct; octets dat])
  | JCreators l => Some ("creators", VRec [VSeq (map (fun c => VRec [VRaw (fst (fst c)); VBool (snd (fst c)); VNum (snd c)]) l)])
  | JLinks l => Some ("links", VRec [VSeq (map two l)])
  | JMetadata s d u i => Some ("metadata", VRec [VRaw s; VRaw d; VRaw u; VRaw i])
  | JGrouping size max del => Some ("grouping", VRec [VNum size; VNum max; VRaw (key_or_zero del)])
  | JManager addr roles => Some ("manager", VRec [VRec [VRaw (key_or_zero addr); VNum (mask roles)]])
  | JProxy prog seeds bump auth => Some ("proxy", VRec [VRaw prog; octets seeds; VNum bump; VRaw (key_or_zero auth)])
  | JBucket dat => Some ("bucket", VRec [octets dat])
  | JRoyalties _ _ | JProperties _ => None
  end.
(** its texts are text, its roles are roles *)
Definition describable (x : jext) : Prop :=
  match x with
  | JAttributes l | JLinks l => Forall (fun p => utf8_text (fst p) /\ utf8_text (snd p)) l
  | JBlob ct _ => utf8_text ct
  | JMetadata s d u i => utf8_text s /\ utf8_text d /\ utf8_text u /\ utf8_text i
  | JManager _ roles => ~ In RNone roles
  | _ => True
  end.

(** ** The header of a stored asset *)
Definition told_header (d : bytes) : cval :=
  VRec [word "asset"; word (if b2z (s_state d) =? 0 then "unlocked" else "locked");
        word (match b2z (s_standard d) with 0 => "nonFungible" | 1 => "managed" | 2 => "soulbound" | _ => "proxied" end);
        VBool (b2z (s_mutable d) =? 1); VRaw (s_owner d); VRaw (s_group d); VRaw (s_authority d);
        VRec [VRaw (s_delegate d); VNum (b2z (s_roles d))]; VRaw (s_name d)].

(** ** The proxy and the bridge *)
Definition told_proxy (name : bytes) : string * list cval := ("create", [VRec [VRaw name]]).
Definition told_bridge (i : bridge_instr) : string * list cval :=
  match i with BBridge => ("bridge", []) | BCreate c => ("create", [VRec [VBool c]]) end.
Definition given_bridge (i : rbridge) : list (option (pubkey * bool)) :=
  [must (rb_asset i); must (rb_vault i); must (rb_owner i); must (rb_token i); must (rb_mint i); must (rb_metadata i); must (rb_edition i);
   may (rb_record i); must (rb_vtoken i); may (rb_vrecord i); must (rb_payer i); must (rb_nifty i); must (rb_tm i); must (rb_sys i);
   must (rb_sysvar i); must (rb_spl i); must (rb_ata i); may (rb_rulesp i); may (rb_rules i); may (rb_group i)].
Definition given_create (i : rcreate) : list (option (pubkey * bool)) :=
  [must (rn_asset i); must (rn_vault i); must (rn_mint i); must (rn_metadata i); Some (rn_auth i); may (rn_collection i);
   must (rn_payer i); must (rn_sys i); must (rn_nifty i)].

(** ** Errors: names with a small first letter *)
Definition small (s : string) : string :=
  match s with
  | EmptyString => EmptyString
  | String a r => let n := nat_of_ascii a in String (if Nat.leb 65 n && Nat.leb n 90 then ascii_of_nat (n + 32) else a) r
  end.

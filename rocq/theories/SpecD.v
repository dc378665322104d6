(** Specification of the account lists: what the program declares about the accounts
    of each instruction. *)
From Verif Require Import Base State World Proc Spec.
From Coq Require Import Strings.Byte.

(** signer, optional_signer or neither *)
Inductive sign : Set := SignNo | SignMay | SignMust.
(** one [#[account(...)]] line: optional, signer, writable *)
Record decl : Set := mkDecl { d_opt : bool; d_sign : sign; d_write : bool }.
Definition asset_ : decl := mkDecl false SignNo true.
Definition asset_s : decl := mkDecl false SignMust true.
Definition signer_ : decl := mkDecl false SignMust false.
Definition signer_w : decl := mkDecl false SignMust true.
Definition plain_ : decl := mkDecl false SignNo false.
Definition optional_ : decl := mkDecl true SignNo false.
Definition optional_w : decl := mkDecl true SignNo true.
Definition payer_ : decl := mkDecl true SignMust true.
(** the annotations of [Instruction] — program/src/instruction.rs:15-125 *)
Definition declared (i : instr) : list decl :=
  match i with
  | IClose => [asset_s; asset_]
  | IBurn => [asset_; signer_w; optional_w; optional_w]
  | ICreate _ => [asset_s; mkDecl false SignMay false; plain_; optional_w; mkDecl true SignMust false; payer_; optional_]
  | IApprove _ => [asset_; signer_; plain_]
  | IAllocate _ => [asset_s; payer_; optional_]
  | ILock | IRevoke _ | IUnlock | IUnverify | IVerify => [asset_; signer_]
  | ITransfer => [asset_; signer_; plain_; optional_]
  | IUpdate _ => [asset_; signer_; optional_w; optional_; payer_; optional_]
  | IWrite _ => [asset_s; signer_w; plain_]
  | IGroup | IUngroup => [asset_; asset_; signer_]
  | IHandover => [asset_; signer_; signer_]
  | IRemove _ => [asset_; signer_; optional_; asset_]
  | IResize _ => [asset_; signer_; mkDecl false SignMay true; optional_]
  end.

(** two account lists name the same accounts and agree on every declared flag *)
Definition agree_declared (i : instr) (infos infos' : list ainfo) : Prop :=
  map ai_key (passed infos) = map ai_key (passed infos') /\
  forall n d k, nth_error (declared i) n = Some d -> arg infos n k ->
    (d_sign d <> SignNo -> (signed infos k <-> signed infos' k)) /\
    (d_write d = true -> (writable infos k <-> writable infos' k)).
(** the list with nothing but the declared flags *)
Fixpoint strip (ds : list decl) (infos : list ainfo) : list ainfo :=
  match infos with
  | [] => []
  | a :: r =>
      match ds with
      | [] => mkInfo (ai_key a) false false :: strip [] r
      | d :: ds' => mkInfo (ai_key a) (match d_sign d with SignNo => false | _ => ai_signer a end) (d_write d && ai_writable a) :: strip ds' r
      end
  end.
(** every entry of an account has the same flags, as in a transaction *)
Definition coherent (infos : list ainfo) : Prop :=
  forall a b, In a infos -> In b infos -> ai_key a = ai_key b -> ai_signer a = ai_signer b /\ ai_writable a = ai_writable b.
(** an account list as the declarations ask: the optional accounts left out are
    marked with the program's ID *)
Definition fits_decl (prog : pubkey) (d : decl) (a : ainfo) : Prop :=
  (d_opt d = true /\ a = mkInfo prog false false) \/
  (ai_writable a = d_write d /\ match d_sign d with SignNo => ai_signer a = false | SignMust => ai_signer a = true | SignMay => True end).
Definition conforms (prog : pubkey) (i : instr) (infos : list ainfo) : Prop := Forall2 (fits_decl prog) (declared i) infos.

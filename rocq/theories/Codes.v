(** Error codes: what the program returns and what the clients make of it. *)
From Verif Require Import Base.
From Coq Require Import Strings.String.
Open Scope string_scope.
Open Scope Z_scope.

(** AssetError with its variants in order — programs/asset/program/src/error.rs:9-98;
    [e as u32] is the position (103-107).  InvalidAlignment is in the list but no
    modelled path returns it ([Layout::from_size_align] with alignment 8 fails only
    for sizes near 2^63). *)
Definition asset_errors : list (option error * string) :=
  [(Some EAlreadyInitialized, "AlreadyInitialized"); (Some EInvalidAccountLength, "InvalidAccountLength"); (Some EIncompleteExtensionData, "IncompleteExtensionData"); (Some EUninitialized, "Uninitialized");
   (Some EExtensionNotFound, "ExtensionNotFound"); (None, "InvalidAlignment"); (Some EInvalidBurnAuthority, "InvalidBurnAuthority"); (Some EInvalidTransferAuthority, "InvalidTransferAuthority");
   (Some EDelegateNotFound, "DelegateNotFound"); (Some EDelegateRoleNotActive, "DelegateRoleNotActive"); (Some EInvalidDelegate, "InvalidDelegate"); (Some EInvalidAssetOwner, "InvalidAssetOwner");
   (Some ELockedAsset, "LockedAsset"); (Some EInvalidAuthority, "InvalidAuthority"); (Some EImmutableAsset, "ImmutableAsset"); (Some ECannotTransferSoulbound, "CannotTransferSoulbound");
   (Some EExtensionDataInvalid, "ExtensionDataInvalid"); (Some EInvalidGroup, "InvalidGroup"); (Some EAssertionFailure, "AssertionFailure"); (Some EGroupNotEmpty, "GroupNotEmpty");
   (Some EAlreadyInGroup, "AlreadyInGroup"); (Some EExtensionLengthInvalid, "ExtensionLengthInvalid")].
Fixpoint place (l : list (option error * string)) (n : Z) (p : option error * string -> bool) : option Z :=
  match l with [] => None | x :: l' => if p x then Some n else place l' (n + 1) p end.
Definition error_eqb (a b : error) : bool :=
  match a, b with
  | EAlreadyInitialized, EAlreadyInitialized | EInvalidAccountLength, EInvalidAccountLength | EIncompleteExtensionData, EIncompleteExtensionData
  | EUninitialized, EUninitialized | EExtensionNotFound, EExtensionNotFound | EInvalidBurnAuthority, EInvalidBurnAuthority
  | EInvalidTransferAuthority, EInvalidTransferAuthority | EDelegateNotFound, EDelegateNotFound | EDelegateRoleNotActive, EDelegateRoleNotActive
  | EInvalidDelegate, EInvalidDelegate | EInvalidAssetOwner, EInvalidAssetOwner | ELockedAsset, ELockedAsset
  | EInvalidAuthority, EInvalidAuthority | EImmutableAsset, EImmutableAsset | ECannotTransferSoulbound, ECannotTransferSoulbound
  | EExtensionDataInvalid, EExtensionDataInvalid | EInvalidGroup, EInvalidGroup | EAssertionFailure, EAssertionFailure
  | EGroupNotEmpty, EGroupNotEmpty | EAlreadyInGroup, EAlreadyInGroup | EExtensionLengthInvalid, EExtensionLengthInvalid => true
  | _, _ => false
  end.
(** the custom code of an error, None for errors of the runtime — error.rs:103-107 *)
Definition custom_code (er : error) : option Z :=
  place asset_errors 0 (fun x => match fst x with Some e => error_eqb e er | None => false end).

(** clients/js/asset/src/generated/errors/asset.ts:18-302: the map from codes, the map
    from names, and of each class its name and code *)
Definition js_codes : list (Z * string) :=
  [(0, "AlreadyInitialized"); (1, "InvalidAccountLength"); (2, "IncompleteExtensionData"); (3, "Uninitialized");
   (4, "ExtensionNotFound"); (5, "InvalidAlignment"); (6, "InvalidBurnAuthority"); (7, "InvalidTransferAuthority");
   (8, "DelegateNotFound"); (9, "DelegateRoleNotActive"); (10, "InvalidDelegate"); (11, "InvalidAssetOwner");
   (12, "LockedAsset"); (13, "InvalidAuthority"); (14, "ImmutableAsset"); (15, "CannotTransferSoulbound");
   (16, "ExtensionDataInvalid"); (17, "InvalidGroup"); (18, "AssertionFailure"); (19, "GroupNotEmpty");
   (20, "AlreadyInGroup"); (21, "ExtensionLengthInvalid")].
Definition js_names : list (string * string) :=
  [("AlreadyInitialized", "AlreadyInitialized"); ("InvalidAccountLength", "InvalidAccountLength"); ("IncompleteExtensionData", "IncompleteExtensionData"); ("Uninitialized", "Uninitialized");
   ("ExtensionNotFound", "ExtensionNotFound"); ("InvalidAlignment", "InvalidAlignment"); ("InvalidBurnAuthority", "InvalidBurnAuthority"); ("InvalidTransferAuthority", "InvalidTransferAuthority");
   ("DelegateNotFound", "DelegateNotFound"); ("DelegateRoleNotActive", "DelegateRoleNotActive"); ("InvalidDelegate", "InvalidDelegate"); ("InvalidAssetOwner", "InvalidAssetOwner");
   ("LockedAsset", "LockedAsset"); ("InvalidAuthority", "InvalidAuthority"); ("ImmutableAsset", "ImmutableAsset"); ("CannotTransferSoulbound", "CannotTransferSoulbound");
   ("ExtensionDataInvalid", "ExtensionDataInvalid"); ("InvalidGroup", "InvalidGroup"); ("AssertionFailure", "AssertionFailure"); ("GroupNotEmpty", "GroupNotEmpty");
   ("AlreadyInGroup", "AlreadyInGroup"); ("ExtensionLengthInvalid", "ExtensionLengthInvalid")].
Definition js_classes : list (string * (string * Z)) :=
  [("AlreadyInitialized", ("AlreadyInitialized", 0)); ("InvalidAccountLength", ("InvalidAccountLength", 1)); ("IncompleteExtensionData", ("IncompleteExtensionData", 2)); ("Uninitialized", ("Uninitialized", 3));
   ("ExtensionNotFound", ("ExtensionNotFound", 4)); ("InvalidAlignment", ("InvalidAlignment", 5)); ("InvalidBurnAuthority", ("InvalidBurnAuthority", 6)); ("InvalidTransferAuthority", ("InvalidTransferAuthority", 7));
   ("DelegateNotFound", ("DelegateNotFound", 8)); ("DelegateRoleNotActive", ("DelegateRoleNotActive", 9)); ("InvalidDelegate", ("InvalidDelegate", 10)); ("InvalidAssetOwner", ("InvalidAssetOwner", 11));
   ("LockedAsset", ("LockedAsset", 12)); ("InvalidAuthority", ("InvalidAuthority", 13)); ("ImmutableAsset", ("ImmutableAsset", 14)); ("CannotTransferSoulbound", ("CannotTransferSoulbound", 15));
   ("ExtensionDataInvalid", ("ExtensionDataInvalid", 16)); ("InvalidGroup", ("InvalidGroup", 17)); ("AssertionFailure", ("AssertionFailure", 18)); ("GroupNotEmpty", ("GroupNotEmpty", 19));
   ("AlreadyInGroup", ("AlreadyInGroup", 20)); ("ExtensionLengthInvalid", ("ExtensionLengthInvalid", 21))].
(** the first entry; keys are distinct (a later [set] would overwrite), see [js_keys] *)
Fixpoint get_z {A} (l : list (Z * A)) (k : Z) : option A :=
  match l with [] => None | (x, a) :: l' => if x =? k then Some a else get_z l' k end.
Fixpoint get_s {A} (l : list (string * A)) (k : string) : option A :=
  match l with [] => None | (x, a) :: l' => if String.eqb x k then Some a else get_s l' k end.
(** getAssetErrorFromCode, getAssetErrorFromName — asset.ts:308-330: the name and code
    of the error that is built *)
Definition js_from_code (c : Z) : option (string * Z) :=
  match get_z js_codes c with Some k => get_s js_classes k | None => None end.
Definition js_from_name (n : string) : option (string * Z) :=
  match get_s js_names n with Some k => get_s js_classes k | None => None end.

(** clients/rust/asset/src/generated/errors/asset.rs:11-79: NiftyAssetError *)
Definition rust_errors : list (string * Z) :=
  [("AlreadyInitialized", 0); ("InvalidAccountLength", 1); ("IncompleteExtensionData", 2); ("Uninitialized", 3);
   ("ExtensionNotFound", 4); ("InvalidAlignment", 5); ("InvalidBurnAuthority", 6); ("InvalidTransferAuthority", 7);
   ("DelegateNotFound", 8); ("DelegateRoleNotActive", 9); ("InvalidDelegate", 10); ("InvalidAssetOwner", 11);
   ("LockedAsset", 12); ("InvalidAuthority", 13); ("ImmutableAsset", 14); ("CannotTransferSoulbound", 15);
   ("ExtensionDataInvalid", 16); ("InvalidGroup", 17); ("AssertionFailure", 18); ("GroupNotEmpty", 19);
   ("AlreadyInGroup", 20); ("ExtensionLengthInvalid", 21)].
(** FromPrimitive *)
Definition rust_from_code (c : Z) : option string := get_z (map (fun p => (snd p, fst p)) rust_errors) c.

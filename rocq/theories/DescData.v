(** The descriptions in /repo/idls, written out by a script from the files; names of
    shank's files with a small first letter, as kinobi writes them. *)
From Verif Require Import Base World Borsh Desc.
From Coq Require Import Strings.String.
Open Scope string_scope.
Open Scope Z_scope.

(** idls/asset-program.codama.json (one line; program.instructions, program.definedTypes,
    program.errors).  Two nodes are marked as imported from hooked code. *)
Definition codama_asset : cprog := {|
  cp_instrs := [
    (mkCInstr "close" 0 [mkAcc "buffer" true Signs false; mkAcc "recipient" true Looks false]
       []);
    (mkCInstr "burn" 1 [mkAcc "asset" true Looks false; mkAcc "signer" true Signs false; mkAcc "recipient" true Looks true; mkAcc "group" true Looks true]
       []);
    (mkCInstr "create" 2 [mkAcc "asset" true Signs false; mkAcc "authority" false Either false; mkAcc "owner" false Looks false; mkAcc "group" true Looks true; mkAcc "groupAuthority" false Signs true; mkAcc "payer" true Signs true; mkAcc "systemProgram" false Looks true]
       [("name", (CSized 4 CStr)); ("standard", (CLink "standard")); ("mutable", CBool); ("extensions", (COpt (CVec 4 (CLink "extensionInput"))))]);
    (mkCInstr "approve" 3 [mkAcc "asset" true Looks false; mkAcc "owner" false Signs false; mkAcc "delegate" false Looks false]
       [("delegateInput", (CLink "delegateInput"))]);
    (mkCInstr "allocate" 4 [mkAcc "asset" true Signs false; mkAcc "payer" true Signs true; mkAcc "systemProgram" false Looks true]
       [("extension", (CLink "extensionInput"))]);
    (mkCInstr "lock" 5 [mkAcc "asset" true Looks false; mkAcc "signer" false Signs false]
       []);
    (mkCInstr "revoke" 6 [mkAcc "asset" true Looks false; mkAcc "signer" false Signs false]
       [("delegateInput", (CLink "delegateInput"))]);
    (mkCInstr "transfer" 7 [mkAcc "asset" true Looks false; mkAcc "signer" false Signs false; mkAcc "recipient" false Looks false; mkAcc "group" false Looks true]
       []);
    (mkCInstr "unlock" 8 [mkAcc "asset" true Looks false; mkAcc "signer" false Signs false]
       []);
    (mkCInstr "unverify" 9 [mkAcc "asset" true Looks false; mkAcc "creator" false Signs false]
       []);
    (mkCInstr "update" 10 [mkAcc "asset" true Looks false; mkAcc "authority" false Signs false; mkAcc "buffer" true Looks true; mkAcc "group" false Looks true; mkAcc "payer" true Signs true; mkAcc "systemProgram" false Looks true]
       [("name", (COpt (CSized 4 CStr))); ("mutable", (COpt CBool)); ("extension", (COpt (CLink "extensionInput")))]);
    (mkCInstr "verify" 11 [mkAcc "asset" true Looks false; mkAcc "creator" false Signs false]
       []);
    (mkCInstr "write" 12 [mkAcc "asset" true Signs false; mkAcc "payer" true Signs false; mkAcc "systemProgram" false Looks false]
       [("overwrite", CBool); ("bytes", (CSized 4 CBytes))]);
    (mkCInstr "group" 13 [mkAcc "asset" true Looks false; mkAcc "group" true Looks false; mkAcc "authority" false Signs false]
       []);
    (mkCInstr "ungroup" 14 [mkAcc "asset" true Looks false; mkAcc "group" true Looks false; mkAcc "authority" false Signs false]
       []);
    (mkCInstr "handover" 15 [mkAcc "asset" true Looks false; mkAcc "authority" false Signs false; mkAcc "newAuthority" false Signs false]
       []);
    (mkCInstr "remove" 16 [mkAcc "asset" true Looks false; mkAcc "authority" false Signs false; mkAcc "group" false Looks true; mkAcc "recipient" true Looks false]
       [("extensionType", (CLink "extensionType"))]);
    (mkCInstr "resize" 17 [mkAcc "asset" true Looks false; mkAcc "authority" false Signs false; mkAcc "payer" true Either false; mkAcc "systemProgram" false Looks true]
       [("strategy", (CLink "strategy"))])];
  cp_types := [
    ("extensionInput", (CStruct [("extensionType", (CLink "extensionType")); ("length", (CNum 4)); ("data", (COpt (CSized 4 CBytes)))]));
    ("delegateInput", (CEnum [("all", []); ("some", [("roles", (CVec 4 (CLink "delegateRole")))])]));
    ("strategy", (CEnum [("trim", []); ("extend", [("value", (CNum 2))])]));
    ("discriminator", (CEnum [("uninitialized", []); ("asset", [])]));
    ("standard", (CEnum [("nonFungible", []); ("managed", []); ("soulbound", []); ("proxied", [])]));
    ("state", (CEnum [("unlocked", []); ("locked", [])]));
    ("delegateRole", (CEnum [("none", []); ("transfer", []); ("lock", []); ("burn", [])]));
    ("extensionType", (CEnum [("none", []); ("attributes", []); ("blob", []); ("creators", []); ("links", []); ("metadata", []); ("grouping", []); ("royalties", []); ("manager", []); ("proxy", []); ("properties", []); ("bucket", [])]));
    ("delegate", (CStruct [("address", (CHook "nullablePublicKey")); ("roles", (CHook "delegateRoles"))]));
    ("extensionHeader", (CStruct [("kind", (CNum 4)); ("length", (CNum 4)); ("boundary", (CNum 4)); ("padding", (CNum 4))]));
    ("attributes", (CStruct [("values", (CRest (CLink "trait")))]));
    ("trait", (CStruct [("name", (CSized 1 CStr)); ("value", (CSized 1 CStr))]));
    ("blob", (CStruct [("contentType", (CSized 1 CStr)); ("data", (CRest (CNum 1)))]));
    ("links", (CStruct [("values", (CRest (CLink "link")))]));
    ("link", (CStruct [("name", (CSized 1 CStr)); ("uri", (CSized 1 CStr))]));
    ("creators", (CStruct [("values", (CRest (CLink "creator")))]));
    ("creator", (CStruct [("address", CKey); ("verified", CBool); ("share", (CNum 1))]));
    ("metadata", (CStruct [("symbol", (CSized 1 CStr)); ("description", (CSized 1 CStr)); ("uri", (CSized 1 CStr)); ("imageUri", (CSized 1 CStr))]));
    ("grouping", (CStruct [("size", (CNum 8)); ("maxSize", (CNum 8)); ("delegate", (CHook "nullablePublicKey"))]));
    ("manager", (CStruct [("delegate", (CLink "delegate"))]));
    ("proxy", (CStruct [("program", CKey); ("seeds", (CArr 32 (CNum 1))); ("bump", (CNum 1)); ("authority", (CHook "nullablePublicKey"))]));
    ("bucket", (CStruct [("data", (CRest (CNum 1)))]));
    ("type", (CEnum [("text", []); ("number", []); ("boolean", [])]))];
  cp_errors := [(0, "alreadyInitialized");
    (1, "invalidAccountLength");
    (2, "incompleteExtensionData");
    (3, "uninitialized");
    (4, "extensionNotFound");
    (5, "invalidAlignment");
    (6, "invalidBurnAuthority");
    (7, "invalidTransferAuthority");
    (8, "delegateNotFound");
    (9, "delegateRoleNotActive");
    (10, "invalidDelegate");
    (11, "invalidAssetOwner");
    (12, "lockedAsset");
    (13, "invalidAuthority");
    (14, "immutableAsset");
    (15, "cannotTransferSoulbound");
    (16, "extensionDataInvalid");
    (17, "invalidGroup");
    (18, "assertionFailure");
    (19, "groupNotEmpty");
    (20, "alreadyInGroup");
    (21, "extensionLengthInvalid")] |}.

(** program.accounts[0], internalAsset *)
Definition codama_account : cty := (CStruct [("discriminator", (CLink "discriminator")); ("state", (CLink "state")); ("standard", (CLink "standard")); ("mutable", CBool); ("owner", CKey); ("group", (CHook "nullablePublicKey")); ("authority", CKey); ("delegate", (CLink "delegate")); ("name", (CFixed 35 CStr))]).

(** idls/asset_program.json:4-730 (instructions), 731-890 (types), 891-1002 (errors) *)
Definition shank_asset : cprog := {|
  cp_instrs := [
    (mkCInstr "close" 0 [mkAcc "buffer" true Signs false; mkAcc "recipient" true Looks false]
       []);
    (mkCInstr "burn" 1 [mkAcc "asset" true Looks false; mkAcc "signer" true Signs false; mkAcc "recipient" true Looks true; mkAcc "group" true Looks true]
       []);
    (mkCInstr "create" 2 [mkAcc "asset" true Signs false; mkAcc "authority" false Either false; mkAcc "owner" false Looks false; mkAcc "group" true Looks true; mkAcc "groupAuthority" false Signs true; mkAcc "payer" true Signs true; mkAcc "systemProgram" false Looks true]
       [("metadataInput", (CLink "metadataInput"))]);
    (mkCInstr "approve" 3 [mkAcc "asset" true Looks false; mkAcc "owner" false Signs false; mkAcc "delegate" false Looks false]
       [("delegateInput", (CLink "delegateInput"))]);
    (mkCInstr "allocate" 4 [mkAcc "asset" true Signs false; mkAcc "payer" true Signs true; mkAcc "systemProgram" false Looks true]
       [("allocateInput", (CLink "allocateInput"))]);
    (mkCInstr "lock" 5 [mkAcc "asset" true Looks false; mkAcc "signer" false Signs false]
       []);
    (mkCInstr "revoke" 6 [mkAcc "asset" true Looks false; mkAcc "signer" false Signs false]
       [("delegateInput", (CLink "delegateInput"))]);
    (mkCInstr "transfer" 7 [mkAcc "asset" true Looks false; mkAcc "signer" false Signs false; mkAcc "recipient" false Looks false; mkAcc "group" false Looks true]
       []);
    (mkCInstr "unlock" 8 [mkAcc "asset" true Looks false; mkAcc "signer" false Signs false]
       []);
    (mkCInstr "unverify" 9 [mkAcc "asset" true Looks false; mkAcc "creator" false Signs false]
       []);
    (mkCInstr "update" 10 [mkAcc "asset" true Looks false; mkAcc "authority" false Signs false; mkAcc "buffer" true Looks true; mkAcc "group" false Looks true; mkAcc "payer" true Signs true; mkAcc "systemProgram" false Looks true]
       [("updateInput", (CLink "updateInput"))]);
    (mkCInstr "verify" 11 [mkAcc "asset" true Looks false; mkAcc "creator" false Signs false]
       []);
    (mkCInstr "write" 12 [mkAcc "asset" true Signs false; mkAcc "payer" true Signs false; mkAcc "systemProgram" false Looks false]
       [("dataInput", (CLink "dataInput"))]);
    (mkCInstr "group" 13 [mkAcc "asset" true Looks false; mkAcc "group" true Looks false; mkAcc "authority" false Signs false]
       []);
    (mkCInstr "ungroup" 14 [mkAcc "asset" true Looks false; mkAcc "group" true Looks false; mkAcc "authority" false Signs false]
       []);
    (mkCInstr "handover" 15 [mkAcc "asset" true Looks false; mkAcc "authority" false Signs false; mkAcc "newAuthority" false Signs false]
       []);
    (mkCInstr "remove" 16 [mkAcc "asset" true Looks false; mkAcc "authority" false Signs false; mkAcc "group" false Looks true; mkAcc "recipient" true Looks false]
       [("extensionType", (CLink "extensionType"))]);
    (mkCInstr "resize" 17 [mkAcc "asset" true Looks false; mkAcc "authority" false Signs false; mkAcc "payer" true Either false; mkAcc "systemProgram" false Looks true]
       [("strategy", (CLink "strategy"))])];
  cp_types := [
    ("allocateInput", (CStruct [("extension", (CLink "extensionInput"))]));
    ("dataInput", (CStruct [("overwrite", CBool); ("bytes", (CSized 4 CBytes))]));
    ("extensionInput", (CStruct [("extensionType", (CLink "extensionType")); ("length", (CNum 4)); ("data", (COpt (CSized 4 CBytes)))]));
    ("metadataInput", (CStruct [("name", (CSized 4 CStr)); ("standard", (CLink "standard")); ("mutable", CBool); ("extensions", (COpt (CVec 4 (CLink "extensionInput"))))]));
    ("updateInput", (CStruct [("name", (COpt (CSized 4 CStr))); ("mutable", (COpt CBool)); ("extension", (COpt (CLink "extensionInput")))]));
    ("delegateInput", (CEnum [("all", []); ("some", [("roles", (CVec 4 (CLink "delegateRole")))])]));
    ("strategy", (CEnum [("trim", []); ("extend", [("value", (CNum 2))])]))];
  cp_errors := [(0, "alreadyInitialized");
    (1, "invalidAccountLength");
    (2, "incompleteExtensionData");
    (3, "uninitialized");
    (4, "extensionNotFound");
    (5, "invalidAlignment");
    (6, "invalidBurnAuthority");
    (7, "invalidTransferAuthority");
    (8, "delegateNotFound");
    (9, "delegateRoleNotActive");
    (10, "invalidDelegate");
    (11, "invalidAssetOwner");
    (12, "lockedAsset");
    (13, "invalidAuthority");
    (14, "immutableAsset");
    (15, "cannotTransferSoulbound");
    (16, "extensionDataInvalid");
    (17, "invalidGroup");
    (18, "assertionFailure");
    (19, "groupNotEmpty");
    (20, "alreadyInGroup");
    (21, "extensionLengthInvalid")] |}.

(** idls/nifty_asset_interface.json:4-730, 731-890; no errors *)
Definition shank_interface : cprog := {|
  cp_instrs := [
    (mkCInstr "close" 0 [mkAcc "buffer" true Signs false; mkAcc "recipient" true Looks false]
       []);
    (mkCInstr "burn" 1 [mkAcc "asset" true Signs false; mkAcc "signer" true Signs false; mkAcc "recipient" true Looks true; mkAcc "group" true Looks true]
       []);
    (mkCInstr "create" 2 [mkAcc "asset" true Signs false; mkAcc "authority" false Either false; mkAcc "owner" false Looks false; mkAcc "group" true Looks true; mkAcc "groupAuthority" false Signs true; mkAcc "payer" true Signs true; mkAcc "systemProgram" false Looks true]
       [("metadataInput", (CLink "metadataInput"))]);
    (mkCInstr "approve" 3 [mkAcc "asset" true Signs false; mkAcc "owner" false Signs false; mkAcc "delegate" false Looks false]
       [("delegateInput", (CLink "delegateInput"))]);
    (mkCInstr "allocate" 4 [mkAcc "asset" true Signs false; mkAcc "payer" true Signs true; mkAcc "systemProgram" false Looks true]
       [("allocateInput", (CLink "allocateInput"))]);
    (mkCInstr "lock" 5 [mkAcc "asset" true Signs false; mkAcc "signer" false Signs false]
       []);
    (mkCInstr "revoke" 6 [mkAcc "asset" true Signs false; mkAcc "signer" false Signs false]
       [("delegateInput", (CLink "delegateInput"))]);
    (mkCInstr "transfer" 7 [mkAcc "asset" true Signs false; mkAcc "signer" false Signs false; mkAcc "recipient" false Looks false; mkAcc "group" false Looks true]
       []);
    (mkCInstr "unlock" 8 [mkAcc "asset" true Signs false; mkAcc "signer" false Signs false]
       []);
    (mkCInstr "unverify" 9 [mkAcc "asset" true Signs false; mkAcc "creator" false Signs false]
       []);
    (mkCInstr "update" 10 [mkAcc "asset" true Signs false; mkAcc "authority" false Signs false; mkAcc "buffer" true Looks true; mkAcc "group" false Looks true; mkAcc "payer" true Signs true; mkAcc "systemProgram" false Looks true]
       [("updateInput", (CLink "updateInput"))]);
    (mkCInstr "verify" 11 [mkAcc "asset" true Signs false; mkAcc "creator" false Signs false]
       []);
    (mkCInstr "write" 12 [mkAcc "asset" true Signs false; mkAcc "payer" true Signs false; mkAcc "systemProgram" false Looks false]
       [("dataInput", (CLink "dataInput"))]);
    (mkCInstr "group" 13 [mkAcc "asset" true Signs false; mkAcc "group" true Looks false; mkAcc "authority" false Signs false]
       []);
    (mkCInstr "ungroup" 14 [mkAcc "asset" true Signs false; mkAcc "group" true Looks false; mkAcc "authority" false Signs false]
       []);
    (mkCInstr "handover" 15 [mkAcc "asset" true Signs false; mkAcc "authority" false Signs false; mkAcc "newAuthority" false Signs false]
       []);
    (mkCInstr "remove" 16 [mkAcc "asset" true Signs false; mkAcc "authority" false Signs false; mkAcc "group" false Looks true; mkAcc "recipient" true Looks false]
       [("extensionType", (CLink "extensionType"))]);
    (mkCInstr "resize" 17 [mkAcc "asset" true Signs false; mkAcc "authority" false Signs false; mkAcc "payer" true Either false; mkAcc "systemProgram" false Looks true]
       [("strategy", (CLink "strategy"))])];
  cp_types := [
    ("allocateInput", (CStruct [("extension", (CLink "extensionInput"))]));
    ("dataInput", (CStruct [("overwrite", CBool); ("bytes", (CSized 4 CBytes))]));
    ("extensionInput", (CStruct [("extensionType", (CLink "extensionType")); ("length", (CNum 4)); ("data", (COpt (CSized 4 CBytes)))]));
    ("metadataInput", (CStruct [("name", (CSized 4 CStr)); ("standard", (CLink "standard")); ("mutable", CBool); ("extensions", (COpt (CVec 4 (CLink "extensionInput"))))]));
    ("updateInput", (CStruct [("name", (COpt (CSized 4 CStr))); ("mutable", (COpt CBool)); ("extension", (COpt (CLink "extensionInput")))]));
    ("delegateInput", (CEnum [("all", []); ("some", [("roles", (CVec 4 (CLink "delegateRole")))])]));
    ("strategy", (CEnum [("trim", []); ("extend", [("value", (CNum 2))])]))];
  cp_errors := [] |}.

(** idls/proxy_program.json:4-80, 81-106, 107-118 *)
Definition shank_proxy : cprog := {|
  cp_instrs := [
    (mkCInstr "create" 0 [mkAcc "asset" true Looks false; mkAcc "stub" false Signs false; mkAcc "owner" false Looks false; mkAcc "authority" false Signs false; mkAcc "payer" true Signs true; mkAcc "systemProgram" false Looks true; mkAcc "niftyAssetProgram" false Looks false]
       [("metadata", (CLink "metadata"))])];
  cp_types := [
    ("createArgs", (CStruct [("isCollection", CBool)]));
    ("metadata", (CStruct [("name", (CSized 4 CStr))]))];
  cp_errors := [(0, "invalidMint");
    (1, "invalidAuthority")] |}.

(** idls/bridge_program.json:4-271, 272-313, 314-325 *)
Definition shank_bridge : cprog := {|
  cp_instrs := [
    (mkCInstr "bridge" 0 [mkAcc "asset" true Looks false; mkAcc "vault" true Looks false; mkAcc "owner" false Signs false; mkAcc "token" true Looks false; mkAcc "mint" false Looks false; mkAcc "metadata" true Looks false; mkAcc "masterEdition" false Looks false; mkAcc "tokenRecord" true Looks true; mkAcc "vaultToken" true Looks false; mkAcc "vaultTokenRecord" true Looks true; mkAcc "payer" true Signs false; mkAcc "niftyAssetProgram" false Looks false; mkAcc "tokenMetadataProgram" false Looks false; mkAcc "systemProgram" false Looks false; mkAcc "sysvarInstructions" false Looks false; mkAcc "splTokenProgram" false Looks false; mkAcc "splAtaProgram" false Looks false; mkAcc "authorizationRulesProgram" false Looks true; mkAcc "authorizationRules" false Looks true; mkAcc "groupAsset" false Looks true]
       []);
    (mkCInstr "create" 1 [mkAcc "asset" true Looks false; mkAcc "vault" true Looks false; mkAcc "mint" false Looks false; mkAcc "metadata" false Looks false; mkAcc "updateAuthority" false Either false; mkAcc "collection" false Looks true; mkAcc "payer" true Signs false; mkAcc "systemProgram" false Looks false; mkAcc "niftyAssetProgram" false Looks false]
       [("createArgs", (CLink "createArgs"))])];
  cp_types := [
    ("createArgs", (CStruct [("isCollection", CBool)]));
    ("discriminator", (CEnum [("uninitialized", []); ("vault", [])]));
    ("state", (CEnum [("idle", []); ("active", [])]))];
  cp_errors := [(0, "invalidMint");
    (1, "invalidAuthority")] |}.
(** The types that idls/asset_program.json refers to and does not define, as
    configs/kinobi-asset.cjs:90-97,107-115,118-134 supplies them ("Add missing types from the IDL") *)
Definition kinobi_types : cdefs := [
  ("standard", CEnum [("nonFungible", []); ("managed", []); ("soulbound", []); ("proxied", [])]);
  ("delegateRole", CEnum [("none", []); ("transfer", []); ("lock", []); ("burn", [])]);
  ("extensionType", CEnum [("none", []); ("attributes", []); ("blob", []); ("creators", []); ("links", []); ("metadata", []);
     ("grouping", []); ("royalties", []); ("manager", []); ("proxy", []); ("properties", []); ("bucket", [])])].
(** The two types left to code: clients/js/asset/src/hooked/nullablePublicKey.ts:12-21 (32
    bytes, zero for none), delegateRoles.ts:13-33 (a mask, one byte) *)
Definition hooked_types : cdefs := [("nullablePublicKey", CKey); ("delegateRoles", CNum 1)].

{"id": "C01", "title": "Only the holder, the holder's transfer delegate or the manager can move an asset", "statement": "If a Transfer succeeds and changes the recorded owner, the instruction was signed by the current owner, or by the manager extension's delegate with the transfer role, or (when the asset has no manager extension) by the holder's delegate with the transfer role.", "quantifier": "every world, account list, flag assignment and asset byte content", "why_tests_cant": "a test exercises a handful of account lists; authorization has to hold for every byte content of the asset and every aliasing of accounts", "anchors": ["programs/asset/program/src/processor/transfer.rs:process_transfer", "programs/asset/program/src/utils.rs:assert_delegate"]}
{"id": "C02", "title": "Transfer has exactly the documented effect", "statement": "A successful Transfer to the current owner changes nothing; otherwise it sets the owner to the recipient, clears the delegate, and changes no other byte of any account and no balance.", "quantifier": "every world, account list and asset content", "why_tests_cant": "frame conditions quantify over all the bytes and accounts the test does not look at", "anchors": ["programs/asset/program/src/processor/transfer.rs:process_transfer"]}
{"id": "C03", "title": "Soulbound assets never change hands", "statement": "No Transfer of a soulbound asset ever succeeds, whoever signs and whatever extensions the asset has.", "quantifier": "every world, signer set and account list", "why_tests_cant": "negative claim over all inputs", "anchors": ["programs/asset/program/src/processor/transfer.rs:process_transfer"]}
{"id": "C04", "title": "A locked asset freezes the instruction set", "statement": "If any account passed to the program is a locked asset, then Approve, Burn, Lock, Revoke and Transfer fail and change nothing, no matter in which position the locked asset appears.", "quantifier": "every account list containing a locked asset at any position", "why_tests_cant": "position and content of the locked account are unbounded", "anchors": ["programs/asset/program/src/processor/mod.rs:process_instruction", "programs/asset/program/src/processor/mod.rs:validate_access"]}
{"id": "C05", "title": "Who can lock and unlock", "statement": "Lock (and Unlock) on a well-formed asset succeeds exactly when the signer account signed and: if a delegate is set, the signer is the manager delegate with the lock role (when the asset has a manager extension) or the delegate with the lock role (when it has none); if no delegate is set, the signer is the owner or the manager delegate with the lock role. Lock additionally needs that no passed account is a locked asset. The only byte changed is the state byte.", "quantifier": "every world and signer", "why_tests_cant": "the decision table has to be exact for all combinations of delegate, manager, roles and signer", "anchors": ["programs/asset/program/src/processor/lock.rs:process_lock", "programs/asset/program/src/processor/unlock.rs:process_unlock", "programs/asset/program/src/utils.rs:assert_delegate"]}
{"id": "C06", "title": "Approve semantics", "statement": "Approve succeeds only when signed by the owner; approving the current delegate adds the requested roles to the ones it already holds; approving another key replaces the delegate and grants exactly the requested roles; nothing else changes.", "quantifier": "every asset content, role list (any length, repetitions) and accounts", "why_tests_cant": "role lists are unbounded, and the frame covers all other bytes", "anchors": ["programs/asset/program/src/processor/approve.rs:process_approve", "programs/asset/types/src/state/delegate.rs:Delegate"]}
{"id": "C07", "title": "Revoke semantics", "statement": "Revoke succeeds only when signed by the owner or the current delegate. With All the delegate is removed. With a role list exactly the named roles disappear, and the delegate is removed when no role is left. No role is ever added and nothing else changes.", "quantifier": "every asset content, role list and accounts", "why_tests_cant": "role lists are unbounded, and the frame covers all other bytes", "anchors": ["programs/asset/program/src/processor/revoke.rs:process_revoke", "programs/asset/types/src/state/delegate.rs:Delegate"]}
{"id": "C08", "title": "Role sets are represented faithfully", "statement": "Approving a list of roles and decoding the stored mask yields exactly the set of roles in the list; enabling and disabling are set insertion and deletion for every mask.", "quantifier": "every role list and every mask byte", "why_tests_cant": "lists are unbounded", "anchors": ["programs/asset/types/src/state/delegate.rs:DelegateRole::mask", "programs/asset/types/src/state/delegate.rs:Delegate::decode_roles"]}
{"id": "C09", "title": "Burn authorization", "statement": "Burn succeeds only when signed by the owner, the manager delegate with the burn role or (without a manager) the delegate with the burn role.", "quantifier": "every world and account list", "why_tests_cant": "authorization over all inputs", "anchors": ["programs/asset/program/src/processor/burn.rs:process_burn"]}
{"id": "C10", "title": "Burn returns every lamport and leaves no data", "statement": "A successful Burn leaves the asset account with zero lamports, no data and the system program as owner; its whole balance is credited to the recipient (or signer); no other balance changes; the asset's group size, if it has a group, drops by exactly one and no other byte of the group changes.", "quantifier": "every world and account list, including aliased accounts", "why_tests_cant": "aliasing and conservation are global", "anchors": ["programs/asset/program/src/processor/burn.rs:process_burn", "programs/asset/program/src/utils.rs:close_program_account"]}
{"id": "C11", "title": "A non-empty group cannot be destroyed", "statement": "Neither Burn nor Remove(Grouping) can succeed on an asset whose grouping extension has a non-zero size.", "quantifier": "every world and asset content", "why_tests_cant": "negative claim over all inputs", "anchors": ["programs/asset/program/src/processor/burn.rs:process_burn", "programs/asset/program/src/processor/remove.rs:process_remove"]}
{"id": "C12", "title": "Handover needs both parties", "statement": "The recorded authority of an initialized asset with a well-formed extension section changes only by a Handover signed by both the current and the new authority while the asset is mutable.", "quantifier": "every instruction, world and account list", "why_tests_cant": "ranges over all 18 instructions with all inputs", "anchors": ["programs/asset/program/src/processor/handover.rs:process_handover", "programs/asset/program/src/processor/mod.rs:process_instruction"]}
{"id": "C13", "title": "Immutable means immutable", "statement": "Once an asset with a well-formed extension section is immutable, no sequence of instructions can change its name, standard, authority, mutability flag or any extension content other than creator verification flags and the group size, short of burning it.", "quantifier": "every finite history of instructions and transfers, by any signers", "why_tests_cant": "unbounded histories", "anchors": ["programs/asset/program/src/processor/update.rs:process_update", "programs/asset/program/src/processor/remove.rs:process_remove", "programs/asset/program/src/processor/resize.rs:process_resize", "programs/asset/program/src/processor/handover.rs:process_handover"]}
{"id": "C14", "title": "Ownership is stable under everything but Transfer and Burn", "statement": "On an initialized asset with a well-formed extension section, no instruction other than Transfer and Burn changes the owner field, and none other than Approve, Revoke, Transfer and Burn changes the delegate.", "quantifier": "every instruction, world and account list", "why_tests_cant": "ranges over all 18 instructions with all inputs", "anchors": ["programs/asset/program/src/processor/mod.rs:process_instruction"]}
{"id": "C15", "title": "An initialized asset cannot be re-initialized or closed as a buffer", "statement": "Create, Allocate, Write and Close fail on an account that holds an initialized asset.", "quantifier": "every world and args", "why_tests_cant": "negative claim over all inputs", "anchors": ["programs/asset/program/src/processor/create.rs:process_create", "programs/asset/program/src/processor/allocate.rs:process_allocate", "programs/asset/program/src/processor/write.rs:process_write", "programs/asset/program/src/processor/close.rs:process_close"]}
{"id": "C16", "title": "Lamports are conserved and nobody pays without signing", "statement": "Every successful instruction preserves the total of lamports over all accounts, and the balance of an account not owned by the program decreases only if that account signed.", "quantifier": "every instruction, world, account list (with aliasing)", "why_tests_cant": "global sums and all accounts", "anchors": ["programs/asset/program/src/processor/mod.rs:resize", "programs/asset/program/src/utils.rs:close_program_account", "programs/asset/program/src/processor/create.rs:process_create"]}
{"id": "C17", "title": "Frame: untouched accounts", "statement": "A successful instruction leaves every account that was not passed to it unchanged, changes data only of writable accounts, and a failing instruction changes nothing.", "quantifier": "every instruction, world and account list", "why_tests_cant": "all accounts not mentioned", "anchors": ["programs/asset/program/src/processor/mod.rs:process_instruction"]}
{"id": "C18", "title": "Extension lookup is a finite map", "statement": "For a section holding the extensions e1..en (distinct known types), Asset::get / contains / get_extensions / last_extension return exactly the data stored for a type, membership, the types in order and the last entry.", "quantifier": "every list of extensions with arbitrary payload lengths", "why_tests_cant": "lists and payload lengths are unbounded", "anchors": ["programs/asset/types/src/state/asset.rs:Asset::get", "programs/asset/types/src/state/asset.rs:Asset::contains", "programs/asset/types/src/state/asset.rs:Asset::get_extensions", "programs/asset/types/src/state/asset.rs:Asset::last_extension"]}
{"id": "C19", "title": "Two lookup entry points agree", "statement": "Extension::get over the extension section and Asset::get over the whole account return the same data for every well-formed section.", "quantifier": "every list of extensions", "why_tests_cant": "unbounded lists; two different cursor computations", "anchors": ["programs/asset/types/src/extensions/mod.rs:Extension::get", "programs/asset/types/src/state/asset.rs:Asset::get"]}
{"id": "C20", "title": "Allocate appends", "statement": "Allocating an extension with complete data on a well-formed uninitialized account appends exactly that extension after the existing ones, preserves all existing ones, and keeps the account exactly filled and 8-byte aligned.", "quantifier": "every existing extension list and payload", "why_tests_cant": "unbounded", "anchors": ["programs/asset/program/src/processor/allocate.rs:process_allocate", "programs/asset/program/src/processor/allocate.rs:save_extension_data"]}
{"id": "C21", "title": "Chunked writing equals one-shot allocation", "statement": "Allocating an extension with a prefix of its data and appending the rest by any number of Write instructions with chunks of any sizes yields byte for byte the account that a single Allocate with the complete data yields.", "quantifier": "every payload and every split into chunks", "why_tests_cant": "all splits of all payloads", "anchors": ["programs/asset/program/src/processor/write.rs:process_write", "programs/asset/program/src/processor/allocate.rs:process_allocate"]}
{"id": "C22", "title": "Create initializes what was asked", "statement": "A successful Create on a well-formed account sets discriminator, standard, mutability, owner, authority and name as requested, leaves state unlocked and delegate empty, and keeps the payload of every extension except creator verification flags.", "quantifier": "every buffer content, argument list and accounts", "why_tests_cant": "unbounded extension lists", "anchors": ["programs/asset/program/src/processor/create.rs:process_create"]}
{"id": "C23", "title": "Managed and proxied assets carry their extension", "statement": "A successful Create of a Managed asset implies it has a manager extension and vice versa; of a Proxied asset that it has a proxy extension deriving the asset's own address, and vice versa.", "quantifier": "every buffer content and args", "why_tests_cant": "all byte contents", "anchors": ["programs/asset/program/src/processor/create.rs:process_create"]}
{"id": "C24", "title": "Update replaces exactly one extension", "statement": "A successful Update with new data for an existing extension of a well-formed asset replaces that extension's data and preserves type, order and data of every other extension, for growth, shrinkage and equal size.", "quantifier": "every extension list, position, old and new payload length", "why_tests_cant": "memmove and boundary rewriting for all sizes and positions", "anchors": ["programs/asset/program/src/processor/update.rs:process_update"]}
{"id": "C25", "title": "Update adds at the end", "statement": "A successful Update with data for an extension type the asset does not have appends it after the existing ones and preserves those.", "quantifier": "every extension list and payload", "why_tests_cant": "unbounded", "anchors": ["programs/asset/program/src/processor/update.rs:process_update"]}
{"id": "C26", "title": "Remove deletes exactly one extension", "statement": "Removing the last extension of a well-formed asset yields the asset without it. (Removing an earlier one should yield the list without that entry.)", "quantifier": "every extension list and position", "why_tests_cant": "unbounded", "anchors": ["programs/asset/program/src/processor/remove.rs:process_remove"]}
{"id": "C27", "title": "A holder's plain asset cannot be taken by its authority", "statement": "For a NonFungible asset, no sequence of instructions signed only by the authority (and parties other than the holder and the holder's delegate) changes the owner.", "quantifier": "every finite history", "why_tests_cant": "unbounded adversarial histories", "anchors": ["programs/asset/program/src/processor/remove.rs:process_remove", "programs/asset/program/src/processor/transfer.rs:process_transfer", "programs/asset/program/src/processor/update.rs:process_update"]}
{"id": "C28", "title": "Group membership is granted by the group", "statement": "The group field of an asset is set only with the signature of the group's authority or grouping delegate, and only while the group and asset have the same authority and the group is not full.", "quantifier": "every instruction, world and account list; every history", "why_tests_cant": "adversarial histories", "anchors": ["programs/asset/program/src/processor/group.rs:process_group", "programs/asset/program/src/processor/create.rs:process_create"]}
{"id": "C29", "title": "Group size counts the members", "statement": "A group's recorded size increases by one exactly when an asset joins and decreases by one exactly when a member leaves or is burned, so that along any history of Group, Ungroup, Burn and other instructions on well-formed assets the size stays equal to the number of assets whose group field names the group.", "quantifier": "every finite history from an empty group", "why_tests_cant": "unbounded histories and number of assets", "anchors": ["programs/asset/program/src/processor/group.rs:process_group", "programs/asset/program/src/processor/ungroup.rs:process_ungroup", "programs/asset/program/src/processor/burn.rs:process_burn"]}
{"id": "C30", "title": "Maximum group size is respected", "statement": "With a maximum size set, a Group or Create instruction never makes the size exceed it.", "quantifier": "every world and history", "why_tests_cant": "histories", "anchors": ["programs/asset/program/src/processor/group.rs:process_group", "programs/asset/types/src/extensions/grouping.rs:GroupingMut"]}
{"id": "C31", "title": "The authority cannot edit the group size", "statement": "Updating the grouping extension keeps the recorded size, whatever size the supplied data claims.", "quantifier": "every payload, through instruction data or a buffer account", "why_tests_cant": "all payloads and both input paths", "anchors": ["programs/asset/program/src/processor/update.rs:process_update", "programs/asset/types/src/extensions/grouping.rs:GroupingMut::on_update"]}
{"id": "C32", "title": "Verified creators consented", "statement": "A creator's verified flag goes from false to true only by a Verify signed by that creator (or when the creator is the recorded authority at creation/update time), and never by any other instruction.", "quantifier": "every instruction, world and account list", "why_tests_cant": "all inputs and both update paths", "anchors": ["programs/asset/program/src/processor/verify.rs:process_verify", "programs/asset/types/src/extensions/creators.rs:CreatorsMut"]}
{"id": "C33", "title": "Verified creators cannot be dropped by the authority", "statement": "An Update of the creators extension that succeeds keeps every verified creator, still verified.", "quantifier": "every old and new creator list", "why_tests_cant": "unbounded lists with duplicates", "anchors": ["programs/asset/types/src/extensions/creators.rs:CreatorsMut::on_update", "programs/asset/program/src/processor/update.rs:process_update"]}
{"id": "C34", "title": "Creator shares add up to 100", "statement": "After Create or Update of the creators extension the shares of all creators add up to 100.", "quantifier": "every creator list", "why_tests_cant": "unbounded lists; u8 wrap-around", "anchors": ["programs/asset/types/src/extensions/creators.rs:CreatorsMut::on_create", "programs/asset/types/src/extensions/creators.rs:CreatorsMut::on_update"]}
{"id": "C35", "title": "Unverify and Verify touch one flag", "statement": "Verify (Unverify) signed by a creator sets (clears) exactly the flags of the entries with that address and changes nothing else; it fails when the signer is not in the list.", "quantifier": "every creator list and asset content", "why_tests_cant": "unbounded lists", "anchors": ["programs/asset/program/src/processor/verify.rs:process_verify", "programs/asset/program/src/processor/unverify.rs:process_unverify"]}
{"id": "C36", "title": "Constraint encoding round-trips", "statement": "Building any constraint tree with the builders and parsing the bytes gives back the same tree, consuming exactly the bytes produced.", "quantifier": "every constraint tree of any depth and width", "why_tests_cant": "trees are unbounded", "anchors": ["programs/asset/types/src/constraints/mod.rs:Constraint::from_bytes", "programs/asset/types/src/constraints/and.rs:AndBuilder", "programs/asset/types/src/constraints/not.rs:NotBuilder", "programs/asset/types/src/constraints/or.rs:OrBuilder", "programs/asset/types/src/constraints/owned_by.rs:OwnedByBuilder", "programs/asset/types/src/constraints/pubkey_match.rs:PubkeyMatchBuilder"]}
{"id": "C37", "title": "Constraint evaluation is boolean logic", "statement": "Evaluating a parsed constraint with a recipient present never errors and equals the boolean formula it denotes (all/any/not, membership of key, membership of owner of a non-empty account).", "quantifier": "every tree and evaluation context", "why_tests_cant": "trees are unbounded", "anchors": ["programs/asset/types/src/constraints/mod.rs", "programs/asset/types/src/constraints/and.rs:And", "programs/asset/types/src/constraints/or.rs:Or", "programs/asset/types/src/constraints/not.rs:Not"]}
{"id": "C38", "title": "Royalty rules are enforced on transfer", "statement": "A Transfer that changes the owner of an asset with a royalties extension (its own, or its group's when it has none) succeeds only if the constraint passes or it is a top-level transfer where signer and recipient are both system accounts.", "quantifier": "every constraint tree, world and account list", "why_tests_cant": "all constraint trees and group configurations", "anchors": ["programs/asset/program/src/processor/transfer.rs:process_transfer", "programs/asset/program/src/utils.rs:process_royalties"]}
{"id": "C39", "title": "Royalty basis points never exceed 10000", "statement": "After Create, Update or Write validation a royalties extension never carries more than 10000 basis points.", "quantifier": "every payload", "why_tests_cant": "all payloads and input paths", "anchors": ["programs/asset/types/src/extensions/royalties.rs:RoyaltiesMut"]}
{"id": "C40", "title": "Extension data round-trips", "statement": "For each of the 11 extensions, data produced by the builder from values (strings up to 255 bytes) parses back to the same values and the reported length is the byte length.", "quantifier": "every list of values", "why_tests_cant": "unbounded lists", "anchors": ["programs/asset/types/src/extensions/attributes.rs", "programs/asset/types/src/extensions/blob.rs", "programs/asset/types/src/extensions/bucket.rs", "programs/asset/types/src/extensions/creators.rs", "programs/asset/types/src/extensions/grouping.rs", "programs/asset/types/src/extensions/links.rs", "programs/asset/types/src/extensions/manager.rs", "programs/asset/types/src/extensions/metadata.rs", "programs/asset/types/src/extensions/properties.rs", "programs/asset/types/src/extensions/proxy.rs", "programs/asset/types/src/extensions/royalties.rs"]}
{"id": "C41", "title": "Instruction codec round-trips and is unambiguous", "statement": "Decoding the encoding of any instruction gives it back, no two instructions share an encoding, and decoding is exact (no trailing bytes accepted).", "quantifier": "every instruction with arbitrary nested arguments", "why_tests_cant": "arguments are unbounded", "anchors": ["programs/asset/program/src/instruction.rs:Instruction"]}
{"id": "C42", "title": "Close refunds only uninitialized buffers, to whom the buffer chose", "statement": "Close succeeds only if the buffer signed and is uninitialized; it moves the whole balance to the recipient and erases the account.", "quantifier": "every world and account list", "why_tests_cant": "aliasing and conservation", "anchors": ["programs/asset/program/src/processor/close.rs:process_close"]}
{"id": "C43", "title": "Proxied assets move only with their program", "statement": "Every instruction whose first account is a Proxied asset fails unless that asset account itself signed (which only its deriving program can do).", "quantifier": "every instruction and account list", "why_tests_cant": "all inputs", "anchors": ["programs/asset/program/src/processor/mod.rs:validate_access"]}
{"id": "C44", "title": "Proxy derivation data is fixed", "statement": "No Update changes program, seeds or bump of an asset's proxy extension.", "quantifier": "every payload and input path", "why_tests_cant": "all payloads", "anchors": ["programs/asset/types/src/extensions/proxy.rs:ProxyMut::on_update", "programs/asset/program/src/processor/update.rs:process_update"]}
{"id": "C45", "title": "The client's mint pipeline produces the requested asset", "statement": "Running the instructions generated by mint() (Allocate with a first chunk, Write chunks, Create) from an empty address yields the asset with exactly the requested extensions in order and every instruction fits the transaction budget.", "quantifier": "every list of extensions and payload sizes", "why_tests_cant": "unbounded payloads and lists", "anchors": ["clients/rust/asset/src/mint.rs:mint"]}
{"id": "C46", "title": "Bridge vault state machine", "statement": "Along any history of bridge toggles, the vault is Active exactly when the asset has been released and the token is held by the vault: token and asset are never both available, and each toggle moves both in opposite directions.", "quantifier": "every finite history", "why_tests_cant": "unbounded histories", "anchors": ["programs/bridge/src/processor/bridge.rs:process_bridge", "programs/bridge/src/state/vault.rs:Vault"]}
{"id": "C47", "title": "Resizing never damages data", "statement": "Resize by Trim or Extend keeps all extensions of a well-formed asset and its header; Trim after Extend restores the exact original bytes.", "quantifier": "every asset and extension amount", "why_tests_cant": "all sizes", "anchors": ["programs/asset/program/src/processor/resize.rs:process_resize", "programs/asset/program/src/processor/mod.rs:resize"]}
{"id": "C48", "title": "Grouping size arithmetic never wraps", "statement": "Group, Ungroup and Burn never wrap the 64-bit size counter.", "quantifier": "every world reachable or not", "why_tests_cant": "overflow corner cases", "anchors": ["programs/asset/program/src/processor/ungroup.rs:process_ungroup", "programs/asset/program/src/processor/burn.rs:process_burn", "programs/asset/program/src/processor/group.rs:process_group"]}
{"id": "C49", "title": "Well-formed assets never crash read access", "statement": "On a well-formed asset none of the accessors panics or loops: lookup, listing and role checks terminate within the number of extensions.", "quantifier": "every well-formed asset", "why_tests_cant": "all contents", "anchors": ["programs/asset/types/src/state/asset.rs:Asset", "programs/asset/types/src/extensions/mod.rs:Extension"]}
{"id": "C50", "title": "Interface pass-through covers the instruction set", "statement": "A proxy program built on the interface crate forwards every asset instruction it does not handle itself.", "quantifier": "every instruction tag", "why_tests_cant": "all instructions", "anchors": ["programs/asset/interface/src/processor.rs:Interface::process_instruction", "programs/asset/interface/src/processor.rs:log_instruction_name"]}
{"id": "C51", "title": "Soulbound for life", "statement": "The owner of a soulbound asset never changes along any history of instructions by anybody (immutable asset: any history; mutable asset: any history in which no extension is removed from the middle and no extension of type None is requested), short of burning it.", "quantifier": "every finite history, by any signers", "why_tests_cant": "unbounded adversarial histories", "anchors": ["programs/asset/program/src/processor/transfer.rs:process_transfer", "programs/asset/program/src/processor/update.rs:process_update"]}
{"id": "C52", "title": "The proxy program's own instruction never overlaps the asset interface", "statement": "A byte string is accepted as the proxy program's own Create(name) exactly when it is tag 0 followed by the borsh encoding of a UTF-8 name; no such string is the encoding of any asset-program instruction (in particular Close, which also has tag 0), and every encoded asset instruction other than Transfer and Update is handed to the pass-through unchanged.", "quantifier": "all byte strings, all names, all 18 asset instructions with all arguments", "why_tests_cant": "Two decoders tried one after the other over the same unbounded byte space; a collision for one name length would silently run Create instead of the forwarded instruction.", "anchors": ["programs/proxy/src/processor/mod.rs", "programs/proxy/src/instruction.rs", "programs/asset/interface/src/interface.rs"]}
{"id": "C53", "title": "The proxy program only does what its callers' rights and its own derived addresses allow", "statement": "Whatever instruction the proxy program executes successfully, its effect is a sequence of asset-program instructions whose accounts, signer and writable flags are covered by the caller's account list, apart from signatures of addresses derived from the proxy program; hence it is a legal history of the asset program. Because a proxied asset is its own authority and the pass-through signs for it, ANY signer can make itself the authority of any such asset (finding).", "quantifier": "all worlds, account lists, instruction bytes, hash and clock values; the takeover for every asset whose authority is itself and every wallet", "why_tests_cant": "Needs all account lists including duplicated accounts, over all forwarded instructions.", "anchors": ["programs/proxy/src/processor/mod.rs", "programs/asset/interface/src/processor.rs", "programs/proxy/src/processor/create.rs"]}
{"id": "C54", "title": "Update through the proxy program needs the proxy authority and touches only name and mutability", "statement": "If the proxy program's Update succeeds, account 1 signed and is the authority stored in the asset's proxy extension, the asset's header changes exactly in the supplied name and mutability, its extension section is unchanged, and no other account's data changes.", "quantifier": "all worlds, account lists and Update arguments, any well-formed asset", "why_tests_cant": "Universal over the arguments (a supplied extension must always be dropped) and over account lists.", "anchors": ["programs/proxy/src/processor/update.rs"]}
{"id": "C55", "title": "Transfer through the proxy program: owner changes, counter is incremented, nothing else", "statement": "If the proxy program's Transfer succeeds on an asset whose attributes hold the counter n, then the signer was entitled to transfer (owner, delegate or manager) and signed or is the derived address, the owner becomes the recipient, the attributes show n+1, image and time stamp are replaced, all other extensions, the remaining header fields and other accounts' data are unchanged.", "quantifier": "all worlds, account lists, counters in the i64 range, hashes, clock values, image templates up to 50000 bytes, any well-formed asset", "why_tests_cant": "Composition of four nested instructions over arbitrary extension sections and counter values (formatting and parsing included).", "anchors": ["programs/proxy/src/processor/transfer.rs"]}
{"id": "C56", "title": "Create through the proxy program makes a well-formed self-governed asset", "statement": "If the proxy program's Create succeeds for an empty account, stub and authority signed, the account is the address derived from the stub, and it becomes a well-formed proxied, mutable asset owned by the given owner with itself as authority, no delegate, and exactly the attributes (counter 0), properties, proxy (program, stub, bump, authority) and blob extensions.", "quantifier": "all worlds, account lists, names, hashes, clock values, image templates up to 50000 bytes", "why_tests_cant": "Universal over names, seeds, rent and account lists.", "anchors": ["programs/proxy/src/processor/create.rs"]}
{"id": "C57", "title": "Payloads the client builds from JSON mean what the file says", "statement": "The payloads the client builds from a JSON description of creators, attributes, links, blob, metadata and royalties read back through the program's parsers as the values given, for strings up to 255 bytes. An allow or deny list given for royalties restricts transfers by the listed programs or accounts.", "quantifier": "all lists, strings up to 255 bytes, basis points in u64, up to a million list items; for the lists all worlds, signers and recipients", "why_tests_cant": "Unbounded lists and strings; the meaning of the list needs every transfer context.", "anchors": ["clients/rust/asset/src/mint.rs"]}
{"id": "C58", "title": "Instructions go through exactly when their conditions hold", "statement": "For accounts laid out as the program leaves them, Approve, Revoke, Handover, Group, Ungroup, Close, Burn, Transfer, Resize, Remove, Allocate, Write, Create and Update succeed if and only if the required signatures are present and the listed conditions on the account bytes and balances hold; nothing further is demanded and nothing less is accepted.", "quantifier": "all environments, account lists, worlds, extension lists and arguments", "why_tests_cant": "A test shows one accepted or refused call; that no permitted call is refused needs every account state, signer and balance.", "anchors": ["programs/asset/program/src/processor/"]}
{"id": "C59", "title": "Payload validation takes exactly the payloads of the format", "statement": "A payload is accepted for a new extension if and only if it is of the type's format (strings with length bytes, typed property values, 34-byte creator entries, grouping of 16 to 48 bytes, a constraint behind the basis points, ...) and the type's rule holds (shares of 100 as a byte, group size 0, at most 10000 basis points). It is accepted in place of a current payload if and only if it is of the format and keeps every verified creator, a group limit not below the size, at most 10000 basis points, or the proxy's first 65 bytes.", "quantifier": "all byte strings of any length, all types, all 8-aligned addresses, all authorities", "why_tests_cant": "The parsers run over unbounded recursive formats; that no well-formed payload is refused and no other accepted needs every byte string.", "anchors": ["programs/asset/types/src/extensions/", "programs/asset/types/src/constraints/"]}
{"id": "C60", "title": "JavaScript client: instruction data is what the program reads", "statement": "The JavaScript client produces data for an instruction exactly when every number and length is in range, and the program, given this data, executes that instruction with exactly these arguments.", "quantifier": "all eighteen instructions and all arguments, names any UTF-8 text, any account list and world", "why_tests_cant": "Two independent encoders over unbounded arguments; equality on samples leaves every other argument open.", "anchors": ["clients/js/asset/src/generated/instructions/", "clients/js/asset/src/generated/types/", "programs/asset/program/src/instruction.rs"]}
{"id": "C61", "title": "JavaScript client: extension payloads mean the same to the program", "statement": "The JavaScript client serializes an extension exactly when every value fits its place (texts up to 255 bytes, numbers in range, no role None). The program's parser then reads the same values in the payload, and the client reads them back, up to NUL characters in texts, zero keys and the order of roles.", "quantifier": "all values of the eleven extension types, constraints nested to any depth, payloads up to 2^32-1 bytes", "why_tests_cant": "Unbounded lists, texts and constraint trees, two separate implementations of each format.", "anchors": ["clients/js/asset/src/extensions/", "clients/js/asset/src/constraints/", "clients/js/asset/src/hooked/", "clients/js/asset/src/generated/types/"]}
{"id": "C62", "title": "JavaScript client: accounts are shown as the program reads them", "statement": "For every account the program can leave behind whose payloads the program can read, the JavaScript client returns an asset whose fields and extensions are those the program reads; search filters select exactly the accounts whose field has the value.", "quantifier": "all well-formed accounts with any extensions, paddings and tails; all filters", "why_tests_cant": "The reader loops over unbounded sections with offsets from the data; which accounts make it throw needs every length and tail.", "anchors": ["clients/js/asset/src/hooked/internalAssetAccountData.ts", "clients/js/asset/src/index.ts"]}
{"id": "C63", "title": "JavaScript client: mint and updateWithBuffer do what their arguments say", "statement": "When all instructions returned by mint succeed on an empty account, the asset has the header and, in order, the extensions described by the arguments, and only the group's count changed besides. When all instructions returned by updateWithBuffer succeed, the asset has the new extension payload, the other extensions are as before, and the buffer account is closed; with a proxy program the same holds of the proxied asset.", "quantifier": "all argument values, extension lists, payload and chunk sizes, contexts and account states", "why_tests_cant": "Payload sizes and chunk splits are unbounded and the helpers chain several instructions whose intermediate states matter.", "anchors": ["clients/js/asset/src/mint.ts", "clients/js/asset/src/initialize.ts", "clients/js/asset/src/write.ts", "clients/js/asset/src/updateWithBuffer.ts", "clients/js/asset/src/burn.ts"]}
{"id": "C64", "title": "The mint helpers go through exactly when the asset asked for is possible and paid for", "statement": "On an address nothing was put at, with a wallet as payer, all instructions returned by the Rust or JavaScript client's mint succeed one after the other if and only if no two extensions have the same type, every payload is acceptable for its type, the standard fits the extensions, the payer holds the rent of the finished account, and (JavaScript, when a group is named) the group takes the asset. No intermediate step needs more money or space than the end result.", "quantifier": "all argument values, extension lists and payload sizes, all contexts, rent schedules that grow with size and account states", "why_tests_cant": "Failures in the middle of an upload depend on sizes, chunk boundaries and balances; tests mint a few fixed assets with rich payers.", "anchors": ["clients/rust/asset/src/mint.rs", "clients/js/asset/src/mint.ts", "programs/asset/program/src/processor/allocate.rs", "programs/asset/program/src/processor/write.rs", "programs/asset/program/src/processor/create.rs"]}
{"id": "C65", "title": "The account flags declared for each instruction are the ones that matter", "statement": "For every instruction, two account lists naming the same accounts and agreeing on the signer and writable flags that the instruction's annotations declare have the same result; undeclared flags are irrelevant, with the single exception of the signature of a Proxied asset. The account lists made by the generated Rust builders and by the JavaScript builders carry exactly the declared flags, and the data made by the Rust builders decode to the instruction built.", "quantifier": "all instructions and arguments, all account lists (repeated accounts included), account states and environments", "why_tests_cant": "The number of flag combinations times account states is unbounded; tests use the generated builders only, so a check on an undeclared flag or a missing one stays unnoticed.", "anchors": ["programs/asset/program/src/instruction.rs", "programs/asset/program/src/processor", "clients/rust/asset/src/generated/instructions", "clients/js/asset/src/generated/instructions"]}
{"id": "C66", "title": "The Rust client reads every asset that can exist", "statement": "The Rust client's account reader succeeds exactly on data of at least 168 bytes whose discriminator, state, standard and mutable bytes are values of their enumerations, and returns the fields that are stored. After any sequence of instructions and foreign transactions since deployment every asset of the program can be read.", "quantifier": "all account data; all histories from a world without accounts of the program, including misuse of Write, Update and Resize", "why_tests_cant": "Histories are unbounded and include crafted Writes that place arbitrary bytes next to the header.", "anchors": ["clients/rust/asset/src/generated/accounts/internal_asset.rs", "clients/rust/asset/src/hooked", "programs/asset/program/src/processor"]}
{"id": "C67", "title": "Exactly when the bridge exchanges token and asset", "statement": "A Bridge instruction with the mint's vault succeeds exactly if the owner signs, the mint belongs to an SPL token program, the metadata describes a non-fungible token of that mint, vault and asset are writable and the asset program is passed, Token Metadata accepts moving the token one way, and the asset program's Transfer rules let the asset go the other way. In particular, for an asset without royalties and group, nobody but Token Metadata can refuse to hand the asset out of an idle vault, and the holder of an unlocked asset can always redeem it unless Token Metadata refuses.", "quantifier": "all worlds, account lists, vaults in either mode, well-formed assets, and all behaviours of Token Metadata within its interface", "why_tests_cant": "The claim excludes every further reason to fail, for an arbitrary external program.", "anchors": ["programs/bridge/program/src/processor/bridge.rs", "programs/asset/program/src/processor/transfer.rs"]}
{"id": "C68", "title": "An authority cannot take away the right to unlock or burn", "statement": "Whoever may unlock a locked asset, and a holder who may burn an asset, keep that right whatever the asset's authority does alone.", "quantifier": "all assets, all Updates by the authority, all later histories", "why_tests_cant": "What is lost must be shown lost for every later sequence of instructions by anybody.", "anchors": ["programs/asset/program/src/processor/update.rs", "programs/asset/program/src/processor/unlock.rs", "programs/asset/program/src/processor/burn.rs", "programs/asset/program/src/processor/mod.rs"]}
{"id": "C70", "title": "Exactly when the bridge's Create succeeds, and that nobody can prevent it", "statement": "A Create instruction of the bridge succeeds exactly if mint and metadata describe a non-fungible token, the update authority signs (or the token belongs to a verified collection whose bridged asset is passed), both derived addresses are passed and vacant, the creators' shares add up, the payer signs and can pay both rents, and the accounts have their privileges. While update authority and payer are willing, no third party can make it fail.", "quantifier": "all worlds, account lists, metadata, flags, and all later histories of both programs and of foreign transactions", "why_tests_cant": "The claim excludes every further reason to fail, and blocking must be shown to last for every later sequence of instructions.", "anchors": ["programs/bridge/program/src/processor/create.rs", "programs/asset/program/src/processor/allocate.rs", "programs/asset/program/src/processor/create.rs"]}
{"id": "C69", "title": "The bridge's clients send what the bridge accepts and read what it stores", "statement": "The addresses that the clients derive are the ones Create accepts. What JavaScript's bridge() and create() send, given only owner and mint, never misses a signature, a writable flag or a program: it succeeds exactly if the token qualifies, Token Metadata moves it and the asset program lets the asset go. The Rust client sends the same. Both clients read every vault after any history, with its mint and what it holds.", "quantifier": "all inputs of the clients, worlds, behaviours of Token Metadata within its interface, and all histories of a vault", "why_tests_cant": "Inputs, defaults and worlds are unbounded; the claim excludes every other reason to fail.", "anchors": ["clients/js/bridge/src/generated/instructions/bridge.ts", "clients/js/bridge/src/generated/instructions/create.ts", "clients/js/bridge/src/generated/accounts/vault.ts", "clients/js/bridge/src/pda.ts", "clients/rust/bridge/src/generated"]}
{"id": "C71", "title": "Proxied assets pass from holder to holder, and what stops them", "statement": "Create, Transfer and Update of the proxy program succeed under exactly stated conditions. A created asset is its own authority and carries counter, time stamp, proxy data and image; each Transfer keeps it so, keeps its size and counts up by one, so it passes along every chain of holders of up to 9999999999999 transfers without a payer. The owner of an unlocked proxied asset can always transfer it.", "quantifier": "all worlds, account lists, names, images, chains of holders, and all later histories of both programs and of foreign transactions", "why_tests_cant": "Chains of holders and histories are unbounded, and the exact conditions exclude every further reason to fail.", "anchors": ["programs/proxy/src/processor/create.rs", "programs/proxy/src/processor/transfer.rs", "programs/proxy/src/processor/update.rs"]}
{"id": "C72", "title": "Readers skip extensions of types they do not know", "statement": "On every account whose headers form a chain, whatever their type codes: get, contains, get_extension and Extension::get return the first extension of the type asked for, get_extensions lists exactly those of known types, and the JavaScript client shows exactly those. None of them fails because of an unknown type. last_extension returns None if there is an unrecognized type (its documentation).", "quantifier": "all account data, any number of headers with any type codes, lengths and paddings", "why_tests_cant": "Types to come cannot be enumerated; chains have any length.", "anchors": ["programs/asset/types/src/state/asset.rs", "programs/asset/types/src/extensions/mod.rs", "clients/js/asset/src/hooked/internalAssetAccountData.ts"]}
{"id": "C73", "title": "Calls from other programs through the generated builders", "statement": "A cross-program call through a generated builder sends exactly the account list and data of the plain builder to the asset program, whatever program account it is given, and succeeds exactly if the caller holds every right it passes on (or signs for the address with its seeds) and the instruction succeeds. Remaining accounts are sent with the flags they were added with. The interface crate's builders differ only in demanding the asset's signature, which changes the result for Proxied assets only.", "quantifier": "all eighteen instructions and arguments, all callers, account lists, seeds, worlds and lists of remaining accounts", "why_tests_cant": "Callers and their account lists are unbounded; no test in the repository passes remaining accounts to a call.", "anchors": ["clients/rust/asset/src/generated/instructions/transfer.rs", "programs/asset/interface/src/generated/instructions/transfer.rs", "programs/asset/interface/src/generated/programs.rs"]}
{"id": "C74", "title": "Proxied assets through the JavaScript clients", "statement": "findProxiedAssetPda gives the canonical address of the stub. create() of the proxy client succeeds exactly if that address is new, the image fits and a payer can pay the rent, and leaves an asset in the care of the proxy program; the payer of the context is used if none is named. transfer() and update() of the asset client, given the proxy program, succeed exactly if the owner or their transfer delegate, or the proxy authority, is the caller; every other instruction runs at the asset program with the asset's signature added. An asset made by create() passes through any number of holders with transfer() alone.", "quantifier": "all stubs, names, callers, worlds, images, and all chains of up to 9999999999999 holders", "why_tests_cant": "Chains of holders and worlds are unbounded; the tests transfer twice and always name a payer.", "anchors": ["clients/js/proxy/src/generated/instructions/create.ts", "clients/js/proxy/src/hooked/resolvers.ts", "clients/js/asset/src/transfer.ts", "clients/js/asset/src/update.ts", "programs/proxy/src/processor"]}
{"id": "C75", "title": "The interface description inside a program binary", "statement": "parse_idl_from_program_binary returns exactly what the last .idl.type and .idl.data sections point to, provided every such section can be read; what include_idl! and compress_idl put into a binary is read back by the command line tool. A binary without readable sections is reported as having none.", "quantifier": "all binaries, section tables, and all behaviours of the ELF, zlib and JSON parsers", "why_tests_cant": "The repository has no test of the reader; binaries are unbounded.", "anchors": ["include-idl/src/parse.rs", "include-idl/src/lib.rs", "include-idl-cli/src/main.rs"]}
{"id": "C76", "title": "Reasons of refusal", "statement": "Every request gets the error of the first condition it breaks, in a fixed order, and goes through if it breaks none: Approve, Revoke, Handover, Lock, Unlock, Group, Ungroup, Close, Burn, Transfer, Verify, Unverify, Resize(Extend) and Update of name and flag. For the other instructions the same holds of everything asked for before payloads are looked at.", "quantifier": "all account lists, worlds and arguments whose first account is writable; extension lists are well-formed where they are read", "why_tests_cant": "Tests break one condition at a time; which error wins when several are broken, and that no condition beyond the listed ones exists, is never tested.", "anchors": ["programs/asset/program/src/processor", "programs/asset/program/src/utils.rs", "programs/asset/program/src/error.rs"]}
{"id": "C77", "title": "The program keeps a registry of assets", "statement": "Read as an abstract registry (owner, group, authority, delegate with rights, lock, standard, mutability, name, extensions per address), the accounts change exactly as a small set of registry rules says: every instruction that succeeds is a rule applied to the registry shown before, the accounts then show the registry after it, and nothing else in a history changes the registry. Conversely, whenever a rule applies and the accounts are in place (writable, parsable, rent paid for), the instruction succeeds with that outcome, and a request leads to one registry only. A world shows at most one registry.", "quantifier": "all worlds whose assets are tidy and groups counted (every world reachable from nothing by proper requests), all account lists and arguments that are proper; all histories, with arbitrary steps of other programs in between", "why_tests_cant": "Refinement quantifies over all states and all interleavings; tests compare a few fields after single calls and never check that every other asset, field and extension stays the same.", "anchors": ["programs/asset/program/src/processor", "programs/asset/types/src/state.rs", "programs/asset/types/src/extensions"]}
{"id": "C78", "title": "Requests that do not concern each other do not influence each other", "statement": "What an instruction of the asset program does (or the way it fails) depends only on the accounts it is given: in two states that agree on those accounts it has the same outcome. Hence requests of others that may not write to these accounts make no difference, two requests neither of which may write to an account the other names commute, and sequences of such requests have the same result in whatever way they are interleaved. The proxy program and the bridge's Create depend only on the accounts they are given, too.", "quantifier": "all instructions, arguments, account lists, states; all interleavings of all pairs of sequences of independent requests", "why_tests_cant": "It is a relation between two runs in arbitrary states, and between all interleavings; a test runs one order in one state.", "anchors": ["programs/asset/program/src/processor/mod.rs", "programs/asset/program/src/processor", "programs/asset/program/src/utils.rs", "programs/proxy/src/processor", "programs/bridge/src/processor/create.rs"]}
{"id": "C79", "title": "A JavaScript client gets back what it minted", "statement": "mint of the JavaScript client, given a vacant address and a payer's wallet, succeeds exactly when the extension values have different types, are sensible (shares adding up to 100 modulo 256, group size 0, at most 10000 basis points), go with the standard, the payer has the rent and the group, if one is named, takes the asset; the same holds of create, which in addition needs an account of at most 10240 bytes. The account reader then shows the asset with the values given: header fields and defaults from the arguments, extensions in the order given (for create: the first, then the rest from the last on), texts without NUL bytes, zero keys as none, roles as a set, creators verified exactly when they are the authority. getExtension gives the first extension of the type, which is the one the program finds. The helper functions (creators, grouping, metadata, royalties) make sensible values from sensible arguments.", "quantifier": "all extension values and argument lists, all states with a vacant address and a wallet, all groups", "why_tests_cant": "The tests mint a few fixed values; this relates all values written to all values read through the program's validation.", "anchors": ["clients/js/asset/src/mint.ts", "clients/js/asset/src/create.ts", "clients/js/asset/src/extensions", "clients/js/asset/src/hooked/internalAssetAccountData.ts", "programs/asset/program/src/processor/create.rs"]}
{"id": "C80", "title": "Whatever is stored can be read back, and both clients show it", "statement": "A payload its type's reader cannot read is never stored: after any sequence of requests (Updates with a payload inline, building in order, Removes of the last extension) and anything other programs do, every extension of every asset can be read and verified flags are 0 or 1. The accounts then show a registry that came about by its steps, the Rust client's reader returns the entry of every asset, and the JavaScript client's reader does when groupings have 48 bytes, metadata four texts, and nothing or at least 16 bytes follow the extensions. updateWithBuffer of the JavaScript client with a payload of one chunk succeeds exactly when the authority shown is the one that signs, the asset is shown as mutable, the value can follow the one getExtension gives and the rent can be moved; afterwards the client shows the change asked for and nothing else. An Update that carries royalties or a grouping needs its argument at an address divisible by 8.", "quantifier": "all histories from a state without assets, all extension values, all assets and argument lists", "why_tests_cant": "Tests read back the few values they have written; that no sequence of accepted requests leaves an account a client cannot read is about all of them. Alignment of heap buffers differs between the test machine and the chain.", "anchors": ["programs/asset/program/src/processor/update.rs", "programs/asset/types/src/extensions", "clients/js/asset/src/hooked/internalAssetAccountData.ts", "clients/js/asset/src/updateWithBuffer.ts", "clients/rust/asset/src/generated/accounts/asset.rs"]}
{"id": "C81", "title": "An asset ceases to exist only by Burn", "statement": "A successful request of a real extension type leaves a well-formed asset an asset, unless it is the Burn of that asset; so does any sequence of requests by anybody that takes no extension out of the middle, whatever other programs do. The exception: Remove of an extension and then of the one behind it takes as many bytes too many as the first one occupied. If these were the only extensions the header is cut: the account is no asset any more, and from then on no instruction changes it, moves its lamports or closes it, for ever; if the first extension was as large as the header, the account is empty and all its lamports are with the recipient named by the authority.", "quantifier": "all well-formed assets, environments, account lists, requests and histories", "why_tests_cant": "Tests remove single extensions; survival concerns every request and every sequence of requests, and the loss appears only for particular sequences.", "anchors": ["programs/asset/program/src/processor/remove.rs", "programs/asset/program/src/processor/mod.rs", "programs/asset/program/src/processor/close.rs", "programs/asset/program/src/processor/burn.rs"]}
{"id": "C82", "title": "Accounts of the program keep their rent", "statement": "If every account of the program that holds data has the lamports the runtime asks for its size, this stays so after any successful instruction and any history within the runtime's rules; in particular for a chain that starts without accounts of the program. Remove and Resize that make an account smaller leave exactly the rent of the new size on it, and everything above goes to the account named in the request.", "quantifier": "all non-decreasing rent tariffs, worlds, account lists, instructions and histories", "why_tests_cant": "Tests see single balances after single requests; that none of the many paths which create, grow, shrink or close accounts leaves one below its rent is a statement about all of them.", "anchors": ["programs/asset/program/src/processor/mod.rs", "programs/asset/program/src/processor/allocate.rs", "programs/asset/program/src/processor/write.rs", "programs/asset/program/src/processor/resize.rs", "programs/asset/program/src/processor/remove.rs", "programs/asset/program/src/utils.rs"]}
{"id": "C83", "title": "What can be taken back", "statement": "An asset or buffer that is created, filled, changed and resized at one payer's expense and then burned or closed in that payer's favour leaves no trace: every account of the chain, the payer's lamports included, is as before. Lock then Unlock, Handover there and back, Approve then Revoke of everything, Transfer there and back, Group then Ungroup, Verify then Unverify, and Extend then Trim with the same payer leave every account as it was, bytes and lamports, whoever asks; for Approve and Transfer provided there was no delegate, for Verify provided the creator was unverified. Whoever could lock can unlock with the same accounts. A delegate there was before an Approve is lost and does not come back with Revoke.", "quantifier": "all worlds, environments, account lists, payers, and all sequences of requests between creation and closing", "why_tests_cant": "Tests compare a few fields after single requests; that a round trip restores every byte and lamport of every account, for arbitrary work in between, is a statement about all runs.", "anchors": ["programs/asset/program/src/processor/burn.rs", "programs/asset/program/src/processor/close.rs", "programs/asset/program/src/processor/lock.rs", "programs/asset/program/src/processor/unlock.rs", "programs/asset/program/src/processor/handover.rs", "programs/asset/program/src/processor/approve.rs", "programs/asset/program/src/processor/revoke.rs", "programs/asset/program/src/processor/transfer.rs", "programs/asset/program/src/processor/group.rs", "programs/asset/program/src/processor/ungroup.rs", "programs/asset/program/src/processor/verify.rs", "programs/asset/program/src/processor/unverify.rs", "programs/asset/program/src/processor/resize.rs"]}
{"id": "C84", "title": "The same request twice", "statement": "Create, Lock, Burn, Close, Group, Ungroup, a Handover to somebody else, an Allocate of a given type and the removal of the last extension, once carried out, are refused when the same request arrives again with the same accounts. A Transfer, Approve, Revoke, Unlock, Handover, Verify, Unverify, an Update without extension or with one given in the request, or a Trim that arrives a second time is refused or changes nothing at all, in any account. Extend is not like that: twice extends twice.", "quantifier": "all worlds, environments, account lists and request arguments", "why_tests_cant": "Tests send a handful of requests once, or twice with one concrete account; that a replayed request has no effect on any account in any reachable state is a statement about all states.", "anchors": ["programs/asset/program/src/processor/create.rs", "programs/asset/program/src/processor/lock.rs", "programs/asset/program/src/processor/unlock.rs", "programs/asset/program/src/processor/burn.rs", "programs/asset/program/src/processor/close.rs", "programs/asset/program/src/processor/group.rs", "programs/asset/program/src/processor/ungroup.rs", "programs/asset/program/src/processor/handover.rs", "programs/asset/program/src/processor/allocate.rs", "programs/asset/program/src/processor/remove.rs", "programs/asset/program/src/processor/resize.rs", "programs/asset/program/src/processor/transfer.rs", "programs/asset/program/src/processor/approve.rs", "programs/asset/program/src/processor/revoke.rs", "programs/asset/program/src/processor/verify.rs", "programs/asset/program/src/processor/unverify.rs", "programs/asset/program/src/processor/update.rs"]}
{"id": "C85", "title": "Rights come from those who held them", "statement": "At any moment, whoever is recorded as delegate with some role was given that role by the present owner, in an Approve the owner signed, and has held it without interruption since; the owner received the asset by a Transfer that somebody entitled signed; the authority was appointed by its predecessor and agreed; a group the asset is in agreed to take it; a locked asset was locked by somebody entitled; an immutable one was made immutable by its authority. So whoever moves, burns, locks or unlocks an asset that began without a delegate is its owner, its manager, or somebody the present owner entrusted and never took the role back from. While an asset is locked its owner, delegate and roles stay. (An asset that began with one of these keeps it until changed.)", "quantifier": "all histories of requests by anybody and of whatever other programs do in between, in which the asset is not burned and no extension is taken out of its middle; all worlds, assets, keys and roles", "why_tests_cant": "Tests run short scripts by well-behaved parties; that no sequence of requests leaves behind a right that was not granted by the present owner is a statement about every history.", "anchors": ["programs/asset/program/src/processor/approve.rs", "programs/asset/program/src/processor/revoke.rs", "programs/asset/program/src/processor/transfer.rs", "programs/asset/program/src/processor/burn.rs", "programs/asset/program/src/processor/lock.rs", "programs/asset/program/src/processor/unlock.rs", "programs/asset/program/src/processor/handover.rs", "programs/asset/program/src/processor/group.rs", "programs/asset/program/src/processor/update.rs"]}
{"id": "C86", "title": "The published interface descriptions describe the programs", "statement": "The Codama description embedded in the asset program encodes, for each instruction name and argument list, exactly the bytes the program decodes as that instruction with those arguments, and encodes every instruction the program accepts; with the types the generator adds, shank's description of the program and of its interface do the same. The lists of accounts with their order, signer and writable flags are those the generated clients (for the interface: the on-chain callers) send. The described extension types give payloads the program reads back with the same values, the account type gives the 168 header bytes of an asset, and the error table has the codes the program returns. The proxy's and the bridge's descriptions encode what those programs decode. Everything the program stores has a described type.", "quantifier": "all instruction names, argument values and byte strings; all account lists; all typed extensions; all valid asset headers; all error codes", "why_tests_cant": "Tests use a few instructions through the generated clients; agreement of description and decoder is about all argument values and, for completeness, all byte strings.", "anchors": ["idls/asset-program.codama.json", "idls/asset_program.json", "idls/nifty_asset_interface.json", "idls/proxy_program.json", "idls/bridge_program.json", "programs/asset/program/build.rs:19-38", "configs/kinobi-asset.cjs"]}
{"id": "C87", "title": "Every extension was put there by the authority", "statement": "After any sequence of requests that does not burn the asset nor take an extension out of its middle: each extension the asset carries (other than creators and grouping) it carried all the time with the same payload, or it has carried it unchanged since an Update that the recorded authority of that moment signed while the asset was mutable, and whose instruction, or whose buffer account, held exactly that payload. Creators change besides only through a Verify or Unverify signed by the creator whose flags change; a grouping changes besides only in its size, by one, as members come and go. An extension that is missing was missing all the time or has been since the authority removed it, and it was neither a manager nor a proxy. Hence, where no delegate was recorded at the start, whoever moves, burns, locks or unlocks the asset is the owner, or somebody the present owner appointed, or a manager who was there from the start or was named by the authority.", "quantifier": "all histories of any length, by any signers, with any account lists, payloads and interleaved foreign transactions", "why_tests_cant": "A test checks one sequence; that no other sequence of instructions can leave foreign content in an asset is a statement about all histories.", "anchors": ["programs/asset/program/src/processor/update.rs", "programs/asset/program/src/processor/remove.rs", "programs/asset/program/src/processor/verify.rs", "programs/asset/program/src/processor/group.rs", "programs/asset/types/src/extensions/mod.rs"]}
{"id": "C88", "title": "The same Write or buffered Update twice", "statement": "A Write with the overwrite flag that arrives twice leaves in every account what it leaves once. A Write that appends puts its bytes there as often as it arrives; once the announced length is reached, further Writes are refused. An Update from a buffer that arrives a second time is refused or changes nothing at all.", "quantifier": "all worlds, environments, account lists, payloads, chunkings and request arguments", "why_tests_cant": "Tests send each Write once; what a repeated request does depends on the length announced, its remainder modulo eight and what earlier requests left in the buffer.", "anchors": ["programs/asset/program/src/processor/write.rs", "programs/asset/program/src/processor/update.rs"]}
{"id": "C89", "title": "No request leaves its data or hangs", "statement": "Whatever accounts and arguments a request names, the program succeeds, refuses or aborts: its raw memory copies stay inside the account data, no invalid enum value is made, and every walk over extensions ends - provided the extension headers stored in the accounts lead forward and stored royalties can be read, which holds of every account with well-formed extensions. Without bytes beyond the announced length and without unreadable royalties in the arguments this covers the requests that fill or move extensions, too.", "quantifier": "all environments, account lists, worlds, request arguments, extension lists and payloads", "why_tests_cant": "Out-of-bounds copies inside the loader's padding and invalid enum values do not fail a test; which header fields lead a walk outside the data is a question about all byte strings.", "anchors": ["programs/asset/program/src/processor/write.rs", "programs/asset/program/src/processor/update.rs", "programs/asset/program/src/processor/remove.rs", "programs/asset/types/src/state/asset.rs", "programs/asset/types/src/constraints/mod.rs"]}
{"id": "C90", "title": "Requests on sound accounts get an answer", "statement": "When the program's accounts among those passed hold nothing or an asset with well-formed readable extensions (or at least a header's length of other data), and the group an asset names is an asset, every request that brings no payload - Close, Burn, Approve, Revoke, Lock, Unlock, Transfer, Handover, Verify, Unverify, Group, Ungroup, Resize - and every Remove of an extension type (other than None) from an account with such extensions ends in success or in an error code, whoever sends it, with whatever accounts, signatures and arguments. It is never aborted by an index out of range, a failed cast or an overflow. After a history of requests as clients make them all conditions hold but for the length of accounts that are not assets. Allocate gets an answer whatever its payload, and Write as long as no more bytes arrive than announced and a payload it completes can be read; so does Create with complete payloads that can be read, and Update with a readable payload in the instruction when the asset's extensions are readable and fill its data.", "quantifier": "all environments, account lists, worlds, requests and extension lists", "why_tests_cant": "Every slice, cast and checked addition in thirteen processors and the extension readers would have to be reached with every account list and every stored extension list.", "anchors": ["programs/asset/program/src/processor/mod.rs", "programs/asset/program/src/processor/transfer.rs", "programs/asset/program/src/processor/burn.rs", "programs/asset/program/src/processor/remove.rs", "programs/asset/program/src/utils.rs", "programs/asset/types/src/state/asset.rs"]}

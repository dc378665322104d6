# Design: a machine-checked model of nifty-oss/asset

All Coq files are in `rocq/theories`. Paths without prefix are relative to
`/repo/programs/asset`. Every definition of the model carries the file and lines it
follows.

## 1. What is modelled

| file | code |
|------|------|
| `Base` | bytes, little endian integers, slices, outcomes |
| `State` | header and extension header layout, enums, roles, nullable keys: `types/src/state`, `types/src/extensions/mod.rs` |
| `Layout` | the cursor loops `get`, `contains`, `last_extension`, `get_extensions`, `Extension::from_bytes` …: `types/src/state/asset.rs`, `types/src/extensions/mod.rs` |
| `Constr` | constraints: parser, evaluation, builders, `as_bytes`: `types/src/constraints` |
| `Ext`, `ExtLen` | the eleven extensions: parsers, builders, `length`, `on_create`, `on_update`: `types/src/extensions` |
| `World` | accounts, account infos, runtime rules, system program calls, `processor/mod.rs`, `utils.rs` |
| `Proc` | the eighteen processors and `process_instruction`: `program/src/processor/*.rs`, `program/src/processor/mod.rs`, `entrypoint.rs` |
| `Borsh` | instruction encoding and decoding: `program/src/instruction.rs` |
| `Proxy` | the interface pass-through (`interface/src/processor.rs`, `fetch_standard…`) and the proxy program (`/repo/programs/proxy/src`) |
| `Client` | the Rust client: `mint()`, the builders it uses, JSON payloads, the `allocate…!` macros: `/repo/clients/rust/asset/src/{mint,impls}.rs` |
| `Js` | the JavaScript client: serializers, constraints, extensions, instruction data, account reader, search filters, account lists, `mint`, `initialize`, `write`, `updateWithBuffer`: `/repo/clients/js/asset/src` |
| `Rs` | the Rust client's eighteen generated instruction builders and its account reader: `/repo/clients/rust/asset/src/generated` |
| `BridgeC` | the bridge's clients: derived addresses, account lists and data of `bridge` and `create`, vault readers: `/repo/clients/js/bridge/src`, `/repo/clients/rust/bridge/src/generated`; the address functions of Token Metadata and SPL are arguments |
| `Cpi` | the generated builders for cross-program calls, of the Rust client and of the interface crate (`/repo/programs/asset/interface/src/generated/instructions`) |
| `ProxyC` | the JavaScript client of the proxy program: `/repo/clients/js/proxy/src` (address, `create`), and `transfer`, `update` of the asset client with `proxy` |
| `Codes` | error codes: `/repo/programs/asset/program/src/error.rs`, `/repo/clients/js/asset/src/generated/errors/asset.ts`, `/repo/clients/rust/asset/src/generated/errors/asset.rs` |
| `Idl` | the reader of interface descriptions: `/repo/include-idl/src`, `/repo/include-idl-cli/src`; goblin, flate2 and serde_json are arguments |
| `Desc`, `DescData` | the interface descriptions in `/repo/idls`: the meaning of their type, account and instruction nodes, and their contents (`DescData` is generated from the files) |
| `Bridge` | the bridge program's two instructions: `/repo/programs/bridge/src/processor` |

An account is a key, lamports, an owner and a list of bytes. An instruction is a
function `process : env -> list ainfo -> world -> instr -> res world`. Outcomes
other than `Ok`: `Err e` (a returned error), `Panic` (slice out of range, failed
cast, explicit panic), `Diverge` (a loop that does not end), `UB` (execution whose
Rust behaviour is undefined; nothing is claimed about it). Arithmetic that can wrap
in a release build is written with an explicit `mod`.

`env` holds what the code gets from outside: program ID, rent function, derived
addresses (`e_cpa`), whether the call comes from another program, alignment of heap
buffers, heap size. Theorems quantify over it.

### Not modelled
* default values, documentation and display data in the IDL files, and their compression; tests, logging, feature `serde`;
* UTF-8 validity of strings inside payloads (it is modelled for instruction data);
* compute budget, stack depth, heap exhaustion, rent-state check at the end of a transaction;
* undefined behaviour from reading an invalid enum byte in a header (the byte is compared as a byte);
* in `Proxy`: `str::trim` only for ASCII white space; the SVG image is a function of the environment; `keccak` and the clock are arguments;
* in `Client`: JSON syntax and files; in `Cpi`: the builders' panics on fields not set;
* in `Bridge`: the calls into Token Metadata and the token program are arguments (see section 3).

## 2. Specification vocabulary

`Spec`, `SpecB`, `SpecH`, `SpecG`, `SpecC`, `SpecI`, `SpecP`, `SpecK`, `SpecL`, `SpecD`, `SpecR`, `SpecV`, `SpecE`, `SpecF`, `SpecJ`, `SpecW`, `SpecX`, `SpecY`, `SpecZ`, `SpecM`, `SpecN`, `SpecO`, `SpecQ`, `SpecS`, `SpecT`, `SpecU`, `SpecLoc`, `SpecJs`, `SpecView`, `SpecRent`, `SpecTake`, `SpecSince`, `SpecDesc`, `SpecHas`, `SpecSafe`, `SpecCalm` define what theorems
talk about without using the functions of the model: header fields read off the bytes
(`s_owner …`), extension blocks and their encoding (`blk`, `enc_sect`, `layout`,
`well_formed`, `tight`), signers and account positions (`signed`, `arg`), rights
(`authorized`, `may_act`), histories (`outside`, `history`), group counting, the
constraint grammar (`reads`, `holds`), payload formats (`parses`, `acceptable`), UTF-8, instruction values.

`well_formed d l`: 168 header bytes, then the blocks of `l` with consistent lengths and
boundaries, then a tail that no loop enters. `tight`: no tail.
`open_account`: an account still being built.

`Thm*` files contain property theorems and their examples only.
`*L`, `*M` files contain lemmas. `Sample`, `SampleP`, `SampleB` contain the concrete accounts used
in the examples.

## 3. Trusted base

* The Coq kernel 8.16.1 (`vm_compute` included) and the build.
* `Print Assumptions` says "Closed under the global context" for every theorem: no axioms.
* The reading of the Rust sources in the model files.
* The Solana runtime as written in `World`, `SpecH.outside` and `Proxy`: an error or panic undoes everything; lamports are conserved and an account's lamports and data change only by its owner or through the system program; data is changed only in writable accounts; realloc grows by at most 10240 bytes per instruction, up to 10 MiB, with zero bytes; the flags of an account passed twice are merged; an entry point receives at most seven accounts here (`MAX_ACCOUNTS`); calls between programs never add rights except for derived addresses; account data starts at a multiple of 8.
* `podded` 0.5.1: `PodBool` is true iff the byte is not 0; `PodOption` is `None` iff the value is the null value; `PodStr<N>::from` copies the first N bytes and zero-fills; `U8PrefixStr` is a length byte and that many bytes, panics when short, and writes the length as `u8`; loads panic on short or misaligned slices (`bytemuck`).
* `nitrate` 0.1.0 and Shank's `context()`: missing accounts give `NotEnoughAccountKeys`; an optional account is `None` iff its key is the program ID; signer flags are not checked by the derive.
* borsh 0.10: format in the head of `Borsh`.
* Token Metadata, as called by the bridge (`SpecV.tm_ok`): a successful TransferV1 moves the mint's one token from source to destination, requires the authority's signature, and leaves accounts of the asset program and of the bridge alone; decoded metadata has UTF-8 names, symbols and URIs of at most 200 bytes, at most 255 creators. `Metadata::try_from` is an argument (`be_meta`).
* `@metaplex-foundation/umi` serializers (^0.9.1), as written at the head of `Js`: numbers throw when out of range or when bytes are missing; `bool` reads true for the byte 1 only; decoded strings lose NUL characters; arrays of size `remainder` read until the bytes end; `scalarEnum` throws on an unknown value; fixed-size strings are cut or zero-filled. Numbers are integers; text is its UTF-8 bytes.
* For histories with the bridge (`SpecV.traffic`): the vault and asset addresses sign only in calls made by the bridge; no two mints derive the same asset address (`SpecV.addresses`); the bridge's seeds are hashed concatenated.
* The meaning of Codama (kinobi) nodes and of shank's types, as written in `Desc`: little-endian numbers, a u8 in front of options and enums, sizes and counts as annotated (shank: u32), accounts left out replaced by the program ID; a signer "either" is decided by the caller.

## 4. Properties

Status as in `MANIFEST.json`. "All inputs" means every environment, account list
(including repeated accounts and wrong flags), world and argument.

| id | what is proved, and how | limits |
|----|------------------------|--------|
| C01–C03 | Transfer: who may call, byte-exact effect, soulbound; inversion of the processor | all inputs |
| C04, C43 | dispatch gate: locked and proxied assets; list induction over the accounts | positions 0..6 |
| C05–C07 | Lock, Unlock, Approve, Revoke: exact (iff) on well-formed assets, effect for all inputs | |
| C08 | role masks: induction on role lists, sweep over all masks | |
| C09–C11 | Burn: rights, lamports, non-empty groups | all inputs |
| C12–C14 | authority, immutability, owner over every instruction and any history with other programs in between | Update/Remove of the type `None` excluded; `C14_none_refuted` shows why |
| C15, C42 | no re-initialisation; Close | all inputs |
| C16, C17 | lamports conserved (sums over key lists without repetition), payers signed; frame | all inputs |
| C18, C19, C49 | lookups on well-formed assets are a finite map, agree, never crash; induction on the blocks | |
| C20–C22 | Allocate, Write, Create refine appending to a list of blocks; any chunking | flags preset in a creators payload: `C21_flags_refuted` |
| C23 | manager/proxy extension iff managed/proxied | |
| C24, C25 | Update refines replacing or appending one block | buffers: `C24_buffer_creators_refuted` |
| C26 | Remove of the last extension; bytes for any | `C26_earlier_refuted`, `C26_empty_refuted` |
| C27, C28, C51 | histories: takeover, membership, soulbound | careful requests; `C27_taken_refuted`, `C28_forged_refuted` |
| C29, C30, C48 | group size = number of members, over histories with any number of assets | `C29_size_refuted` without the restriction to proper requests; `C48_*_refuted` in arbitrary worlds |
| C31–C34, C39, C44 | what Update keeps: group size, verified creators, shares, basis points, proxy data | data in the instruction; `*_buffer_refuted`, `*_none_refuted`, `C32_unsigned_refuted`, `C34_shares_refuted` |
| C35 | Verify/Unverify: exact | |
| C36–C38 | constraints: round trip, grammar unambiguous, evaluation is the boolean formula; royalties enforced exactly | `C36_as_bytes_refuted`, `C36_reuse_refuted` |
| C40, C41 | codecs of payloads and instructions; entry point on bytes | bounds refuted where missing |
| C45 | mint: what the returned instructions build, transaction size; macros | names over 887 bytes, Write chunks of the macro |
| C46 | bridge: exact effect of Bridge (`C46_toggle`) and Create (`C46_created`); in every history an idle vault holds the asset, an active one the token (`C46_backed_partial`) | requires that nothing is removed from the middle of the asset: `C46_backed_refuted` |
| C47 | Resize | `C47_junk_tail_refuted` |
| C50 | interface pass-through = direct call with the first account signing | Resize: `C50_resize_refuted` |
| C52–C56 | proxy program: instruction spaces, rights, Update, Transfer, Create | `C53_*_refuted`, `C55_grouped_refuted` |
| C57 | JSON payloads | `C57_lists_refuted` |
| C58 | exact success conditions: the body of each processor is reduced, check by check, to an if-and-only-if (`ExactL` … `ExactP`, `GrowL`, `OverL`, `TailL`); conditions stated in `SpecE`, `SpecW` | Write of more bytes than announced (finding 7); what can never succeed: `C58_unpadded_stuck`, `C58_short_tail`, `C58_zero_tail_stuck` |
| C59 | validation accepts exactly the formats of `SpecF`: induction over each grammar in both directions (`AcceptL`) | addresses that are multiples of 8 |
| C60–C61 | JavaScript client, data: each serializer is shown to succeed exactly in range and to write the builder's bytes (`JsL`, `JsM`), then the program's round trip lemmas apply; reading by induction over the formats (`JsN`, `JsO`) | `C61_rewrite_refuted` |
| C62 | account reader: induction over the extension blocks; exact condition for a result | `C62_*_refuted` |
| C63 | JavaScript `mint`, `initialize`, `write`, `updateWithBuffer` as lists of encoded instructions run one by one; induction over extensions and chunks | `C63_royalties`, `C63_*_payer`, `C63_proxied*`, `C63_burn_proxied` say what can never work |
| C64 | the instruction lists of C45 and C63 run to the end; invariant over chunks and extensions: asset holds exactly its rent, payer and asset together hold what the payer had, accounts stay open | both directions; rent assumed monotone in size (`rent_mono`), payer a wallet |
| C65 | each processor is shown equal on two account lists that agree on the flags of `SpecD.declared` (`DeclL`); builders by cases | the signature of a Proxied asset matters though undeclared: `C65_proxied_refuted` |
| C66 | reader: exact; bytes 1 to 3 of every account of the program are valid in every history, an invariant of all eighteen instructions (`TopL`) | |
| C67 | `process_bridge` reduced check by check to an if-and-only-if, with Token Metadata as an arbitrary function within `tm_ok` (`BridgeN`); conditions in `SpecX` | manager extension of the asset readable, royalties built with the library |
| C68 | unreadable manager or grouping: effect on each instruction, invariant over careful histories (`StuntL`) | the property is false: `C68_unlock_refuted`, `C68_burn_refuted` |
| C69 | account lists of both clients (`BridgeC`) shown to have the positions and flags of C67 and C70 (`BridgeQ`); readers reduced to a program on the byte list; searches, derivation of a vault's address from its fields and Rust's builder | proved, except that bridge() does not find the group: `C69_group_needed`, `C69_defaults_suffice_refuted` |
| C70 | `bridge_create` reduced to an if-and-only-if (`BridgeO`; conditions in `SpecY`); invariant that lamports at a derived address stay (`SquatL`) | first part proved; the second is false: `C70_open_to_the_authority_refuted`, `C70_blocked_for_ever`. Asset address without data, payer a wallet |
| C71 | condition `in_care` (`SpecM`) kept by every step; the three updates and the transfer reduced to if-and-only-ifs (`ProxyN`), Create and Update likewise (`ProxyO`), chains by induction; invariant for immutable assets over all histories (`ProxyQ`) | proved, except that the owner can always transfer: `C71_grouped`, `C71_stuck`, `C71_immutable_refuted`. Create at an address without data; count up to 9999999999999 |
| C72 | chain of headers in arbitrary bytes (`headers`, `SpecN`); each loop by induction on it (`NewerL`) | proved, except what the documentation of `last_extension` says: `C72_last_refuted`. Payloads end before their boundaries |
| C73 | the runtime's rules for a call as an iff (`call_iff`), the builders' lists as tables (`Cpi`), flags by `C65` | proved, except that the flags of remaining accounts arrive swapped: `C73_rest_refuted` |
| C74 | account lists and data of `ProxyC` against the exact conditions of C71; chains by induction | proved, except that no payer is taken from the context: `C74_default_payer_refuted` |
| C75 | `Idl`; the loop over sections by induction, pointers by cutting the file | proved, except that unreadable sections are reported: `C75_reported_refuted` |
| C76 | ordered lists of conditions with errors (`SpecU`); the checks of each instruction followed one by one | proved; prefixes for the instructions that look at payloads |
| C77 | abstract registry and its rules without bytes of headers (`SpecS`); forward simulation for each of the 18 instructions, histories by induction, completeness for all 18 instructions from C58/C05/C35 and determinism of the rules | proved |
| C78 | two runs of each processor in states that agree on the accounts given, related step by step (`LocL`, `LocN`); commutation and interleavings from this and C17 (`LocM`) | proved |
| C79 | C61 (values and bytes), C64 (when mint goes through), C58 (create) and C62 (the reader) put together: conditions and results in terms of values only (`HelpL`) | `C79_same_refuted`: mint and create order extensions differently |
| C80 | invariant `all_legible` on top of the registry (C77): the program's validation lets only payloads through that parse (`ViewL`); with it the readers of both clients (C62, C66) show the registry; C58 (Update) restated from values to values (`ViewM`) | `C80_history_refuted` (no payload), `C80_aligned_refuted` (address of the argument) |
| C81 | C14/C47's step theorem gives the header; `RemoveT` adds the length, follows two Removes byte by byte through the stale end offset, and lifts survival to histories; `WreckL`: every instruction, taken apart, refuses an account with a first byte 1 and fewer than 168 bytes in each position where it could change | `C81_cut_refuted`, `C81_rent_refuted`: two Removes |
| C82 | `RentL`: invariant `paid_by` through every instruction and helper, with the lengths of all writes; histories by `SpecRent.rented` | tariff constant and monotone |
| C83 | `TakeL`: relation `tally` (money only between two accounts, nothing else touched) through every helper and instruction, closed by the effect theorems of Burn and Close; the round trips from pairs of effect theorems, byte for byte | transaction fees are not modelled |
| C84 | `AgainL`: for each request, what the first run establishes (state byte, group, authority, owner of the account, extension list, size) contradicts a check of the second, or makes every write of the second put the bytes that are there; `AgainM`: Update's payload rules (`stored`) applied twice give the same payload | Update from a buffer and Write: C88 |
| C85 | `SinceL`: a general lemma — something decidable about an asset's header that holds at the end held all the time, or some request made it true and it has held since — applied to each header field with the single-step facts of C02, C05-C07, C12, C13, C28 | histories as in C81 |
| C86 | `DescL`–`DescO`: each type of a description is shown to encode exactly the values of one Borsh type (`codes`), instruction by instruction, then `BorshL.instr_exact`; accounts by cases; extensions by equality with the JS payload (C60) | partial: `C86_undescribed_refuted`, `C86_shank_refuted` |
| C87 | `HasL`: what is true of the extension list at the end of a history was true all along or since a step that made it so (`since_exts`); such a step is, by `StepH.tidy_step`, an Update with a known source (`source_plain`), a Verify, a change of size, or a Remove; movers compose this with C85 | proved |
| C88 | `AgainN`: effect theorems of Write (C21, C58) composed with themselves; `AgainO`: the body of Update run on a block that already has the buffer's bytes | partial: `C88_complete_refuted`, `C88_buffer_refuted` |
| C89 | `SafeL`: every reader and primitive is contained, walks by induction on `ahead` against the fuel; `SafeM`: one lemma per request; `SafeN`, `SafeO`: Remove, Write and Update, whose raw copies need the layout; `SafeP`: Create, by an invariant of the account through its Allocates | partial: `C89_write_refuted`, `C89_walk_refuted`, `C89_tag_refuted` |
| C90 | `CalmL`: `answered` passes through every primitive; on well-formed extensions `asset_get`, `sect_get` and `last_extension` are exact (`LayoutL`) and the payload parsers succeed on readable payloads (`AcceptL`), so that every guard holds; one lemma per request, put together under `validate_access`. `CalmM`: Remove, whose search is followed along the layout. `CalmN`: the conditions hold after every history of proper requests, by the registry of C77 and C80 (readable extensions) and the counts of C29 (a group with a member is an asset). `CalmO`: Allocate on an open account, Write on a partial one. `CalmP`: Create, by the account's layout through its Allocates and the validation loop. `CalmQ`: Update without a buffer, by the layout through making room, header and boundaries. `CalmR` puts the requests together (`C90_fitting`, `C90_all`); what a request must bring is `fitting` in `SpecCalmB` | proved; needed conditions: `C90_burn_refuted`, `C90_transfer_refuted`, `C90_short_refuted`, `C90_write_refuted`, `C90_update_refuted` |

Proof methods. Single instructions: inversion of the processor's monadic code into a
lemma `…_effect`, for all inputs. Layout: induction over the list of blocks with the
encoding as invariant. Histories: an invariant per account (`StepL`, `StepH`, `HistL`,
`TheftL`, `CountH`) kept by each of the eighteen instructions and by `outside`.
Constraints: structural induction with a fuel bound (fuel is the number of bytes, and
`C36_terminates` shows it suffices).

## 5. Findings

Each is a `…_refuted` theorem with a computed witness unless marked (note).

Serious:
1. **Proxied assets can be taken over** (`C53_takeover`, `C53_consent_refuted`, `C53_remove_refuted`). The proxy program makes an asset its own authority and its pass-through signs for the asset on behalf of any caller. Anyone can hand the authority over, remove extensions and collect the rent.
2. **A plain asset can be taken by its authority** (`C27_taken_refuted`). Remove of an extension that is not the last leaves end offsets of later ones unadjusted. The loops then read headers inside a payload, which can contain a forged manager.
3. **Removing an earlier extension loses later ones** (`C26_earlier_refuted`); an empty last extension cannot be removed (`C26_empty_refuted`).
4. **Update from a buffer is validated at the wrong offset** (slice `[168..168+len]` instead of `[184..]`): group size editable (`C31_buffer_refuted`), creators verified without signing (`C32_buffer_refuted`), verified creators dropped (`C33_buffer_refuted`), payload altered (`C24_buffer_creators_refuted`).
5. **Update with length 0 and no data skips validation** (`C31_none_refuted`, `C33_none_refuted`, `C44_none_refuted`).
6. **Create verifies the creator equal to the authority without that key's signature** (`C32_unsigned_refuted`).
7. **Membership can be forged** with Allocate, Write, Allocate (`C28_forged_refuted`): Write may exceed the extension's length and so write headers.
8. **Update/Remove of the type None** acts on the tail as if it were an extension and can rewrite the owner (`C14_none_refuted`).

9. **The asset in an idle bridge vault can be taken by the token's update authority** with 2 (`C46_backed_refuted`): token and asset are then both in circulation.

Others:
10. creator shares are summed in `u8` (`C34_shares_refuted`): shares of 356 in total are accepted.
11. group size wraps below zero in Ungroup and above 2^64-1 in Group (`C48_*_refuted`) in worlds that proper histories do not reach.
12. Extend after a crafted tail exposes a new extension (`C47_junk_tail_refuted`).
13. `Not::as_bytes` writes the inner header twice (`C36_as_bytes_refuted`); a builder used again after `build` writes over its first child, so that an unsatisfiable rule can come out as one that always holds (`C36_reuse_refuted`).
14. chunked upload of a creators payload with a preset flag differs from one-shot (`C21_flags_refuted`).
15. strings of 256 bytes, 257 creators, metadata length without image, typed property reads (`C40_*_refuted`; the last is undefined behaviour).
16. the interface rejects Resize always (`C50_resize_refuted`).
17. the proxy's Transfer does not pass the group account (`C55_grouped_refuted`).
18. `mint` puts the whole name into Create: names over 887 bytes exceed a transaction (`C45_long_name_refuted`); `allocate_and_write!` miscounts the Write header by four bytes (`C45_macro_limit_refuted`).
19. JSON allow/deny lists test the asset account instead of signer or recipient (`C57_lists_refuted`; exact meaning `C57_allowlist`, `C57_denylist`).
20. (note) `ProxyMut::TYPE` is `Manager`.
21. (note) `assert_delegate` returns the verdict of the last `Some` entry, so a manager with other rights hides a delegate's right; the rules in `Spec.authorized` say this explicitly.
22. (note) royalties can never be set from a buffer because of 4; Resize Extend by fewer than 16 bytes leaves a tail that Allocate-like code cannot use; three or more inline extensions of Create are stored out of order (`swap_remove`).
23. an active vault whose asset is burned or sent to the vault keeps the token for ever (`C46_stuck`, `C46_stuck_case`).
24. (note) bridge: redeeming pays the token to anybody who may transfer the asset (holder, delegate, manager), see `authorized` in `C46_toggle`; creators lose their verified flags on Create, except the update authority.

JavaScript client:
25. metadata without image throws in the reader when its length is a multiple of 8 (`C62_no_image_refuted`) — the Rust client writes such metadata from JSON —, and an image removed by Update can remain visible (`C62_old_image_refuted`): the reader runs into the padding.
26. a grouping shorter than 48 bytes (`C62_short_group_refuted`) or 1 to 15 bytes after the extensions, as Resize makes them (`C62_resized_refuted`), make an account unreadable.
27. a manager without roles is read as role None, which cannot be serialized (`C61_rewrite_refuted`).
28. NUL characters are dropped, so different names look alike (`C62_names_refuted`).
29. JavaScript helpers that can never succeed: `mint`, `initialize` and a chunked `updateWithBuffer` without an explicit payer (`C63_mint_payer`, `C63_update_payer`; `write` falls back on the context's payer, `allocate` does not), royalties through a buffer (`C63_royalties`, the program checks the wrong bytes), a chunked `updateWithBuffer` of a proxied asset (`C63_proxied`), `burn` of a proxied asset without a recipient (`C63_burn_proxied`, absent accounts are marked with the proxy's ID).
30. `updateWithBuffer` of a proxied asset with a small extension succeeds without storing it (`C63_proxied_inline`).
31. the annotations of the instructions do not declare that a Proxied asset must sign (`C65_proxied_refuted`), so no generated builder can act on one directly.
32. **Overwriting Write leaves no padding** (`C58_overwrite_effect`, `C58_unpadded_stuck`): an extension completed by one overwriting Write whose length is not a multiple of 8 ends at the last payload byte, and Create without inline extensions refuses such an account until an empty Write without the flag pads it.
33. **Bytes after the extensions make Update depend on the owner's key** (`C58_zero_tail_stuck`, `C58_zero_tail_fine`): replacing an extension by one of the same room walks the boundaries on into the tail; with the zero bytes that Resize makes, the walk goes on at the start of the account and reads bytes 4–7 of the owner's key as a boundary. If they are zero the walk never ends (a holder can choose such a key to make their asset's extensions unchangeable at equal size); 1–15 bytes refuse every new or equal-size extension (`C58_short_tail`).
34. **The authority can lock an asset for ever, or make it unburnable** (`C68_unlock_refuted`, `C68_burn_refuted`), a consequence of 5. Update is allowed on a locked asset; with type Manager, length 0 and no data it adds an empty manager extension to a plain asset. Unlock then panics for everybody, Transfer, Burn, Approve and Revoke are blocked by the lock, the extension can be neither updated (panics) nor removed (`C68_locked_for_ever`). An empty grouping makes Burn and Remove panic for ever (`C68_unburnable_for_ever`), and on a group it also stops all members from leaving and being burned (`C68_grouping`).
35. **Anybody can prevent bridging of a mint for ever** (`C70_blocked_for_ever`, `C70_open_to_the_authority_refuted`). Vault and asset addresses are derived from the mint, so they are known in advance. The bridge calls `system_instruction::create_account` for the vault, and the asset program does so for the asset; both fail if the address has lamports. A plain transfer of lamports (on a real cluster: the rent minimum of an account without data) to either address therefore blocks Create. Nothing takes the lamports away again: only the bridge can sign for the address, and it does so only in Create. The usual remedy is transfer + allocate + assign instead of `create_account`. (The proxy program derives its address from a signer that can be fresh, so there it takes a race.)
36. **JavaScript's bridge() does not resolve the group** (`C69_group_needed`, `C69_defaults_suffice_refuted`). All other accounts have defaults, `groupAsset` has none. For an asset in a group and without royalties of its own the asset program demands the group account, so bridge() fails with `NotEnoughAccountKeys` in both directions until the caller passes it.
37. **A proxied asset made immutable can never be transferred again** (`C71_stuck`, `C71_immutable_refuted`). The proxy's Transfer first updates counter, image and time stamp, and the asset program refuses updates of immutable assets; a Transfer sent to the asset program directly needs the signature of the asset, which only the proxy program can give. So the proxy authority's `Update` with `mutable: false` freezes the asset in its holder's hands, while an ordinary immutable asset stays transferable. It can still be burned.
38. **A proxied asset in a group moves to nobody else through the proxy** (`C71_grouped`; `C55_grouped_refuted` is an instance). Its extensions contain no royalties, so the asset program asks for the group account, which the proxy never forwards. This holds whoever signs.
39. **`last_extension` does not do what its comment says** (`C72_last_refuted`, `C72_trim_refuted`). On an account with an extension of unrecognized type it returns the last extension before it, not `None`. Resize with `Trim` cuts the account there, so a program version that meets extensions of a newer one (after a rollback) would cut them off, with everything after them. The other readers skip unknown types.
40. **The builders for cross-program calls swap the flags of remaining accounts** (`C73_swapped`, `C73_blocked`, `C73_rest_refuted`). `add_remaining_account(account, is_writable, is_signer)` keeps the flags in this order, and `invoke_signed_with_remaining_accounts` uses the first as `is_signer` and the second as `is_writable`, in all eighteen instructions of the client and of the interface crate. A call with a writable account that does not sign always fails; one with a read-only signer fails unless the account is writable for the caller. The builders also ignore the program account they are given (`C73_program`): the interface crate's can only reach the asset program, never a program implementing the interface.
41. **`create()` of the proxy client never succeeds without a payer** (`C74_no_payer`, `C74_default_payer_refuted`). `payer` is optional and has no default; without it the system program is left out as well, and the program always needs both to open the account. The context's payer, though known, is not used.
42. **The reader of interface descriptions panics on malformed binaries** (`C75_panic`, `C75_reported_refuted`). A pointer outside the file, data that does not inflate or is no JSON, or an unknown type of description stop the tool; only missing sections are reported.
43. **`mint` and `create` of the JavaScript client store extensions in different orders** (`C79_same_refuted`). The program's Create stores the first inline extension, then the others from the last on.
44. **Inline Updates of royalties and groupings depend on where the heap puts the argument** (`C80_aligned`, `C80_aligned_refuted`). `validate` (update.rs:224, 388) reads the payload in place with `bytemuck`, from a `Vec<u8>` that borsh allocated with alignment 1; `Royalties` and `Grouping` need alignment 8 and the cast panics otherwise. With a bump allocator the address depends on what was allocated before, e.g. the length of the new name in the same instruction.
45. **Two Removes destroy an asset** (`C81_twice`, `C81_both`, `C81_cut_refuted`, `C81_rent_refuted`, `C81_wreck_forever`), a consequence of 2. Removing an extension leaves the end offset of the next one too large by the size removed, so removing that one too takes this many bytes too many. An asset with just these two extensions loses the end of its header; nothing can use, burn or close the account afterwards and its rent is lost. If the first extension had 152 bytes or more the account becomes empty and all lamports go to the recipient. The authority of a mutable asset can do this to any holder; somebody cleaning up does it by accident.
46. **The embedded interface description is incomplete** (`C86_undescribed_refuted`). It has no types for royalties and properties, and it leaves nullable keys and roles to hand-written client code, so that neither the header of an asset nor groupings, managers and proxies can be read from the description alone. `idls/asset_program.json` lacks the types Standard, ExtensionType and DelegateRole, without which Create, Allocate, Remove, Update with an extension and Approve or Revoke of named roles cannot be encoded (`C86_shank_refuted`).
47. **A repeated Write can append a forged extension** (`C88_complete_refuted`). After the Write that completes a payload of a multiple of eight bytes the account ends where the payload ends, so the same Write sent again (a retry, say) is accepted and its bytes follow the extension; if they begin like an extension header, they are read as one. With any other length the padding makes the second Write fail (`C88_complete`).
48. **An Update from a buffer rewrites the buffer's header** (`C88_buffer_refuted`). For groupings the current size is written over type and length in the buffer: sent again, the same Update reads another type there — a group of size 1 gains an empty attributes extension.
49. **A Write can copy its bytes outside the account** (`C89_write_refuted`). Write does not check that the bytes fit the announced length. The surplus bytes of one Write can form an extension header with a boundary of the caller's choice; an overwriting Write of nothing cuts the account down to the end of that header; the next Write completes the forged extension, so it takes the forged boundary as the new size of the account (no growth) and `sol_memcpy`s its bytes behind the end. Four requests signed by the account's key suffice, from nothing. On chain the bytes land in the padding the loader keeps behind each account (10 KiB for reallocation). If the forged header ends where it begins, the walk that follows does not end until the compute budget is used up (`C89_walk_refuted`).
50. **An unknown account tag in royalties is undefined behaviour** (`C89_tag_refuted`). `Account::load` (constraints/mod.rs) makes a `&Account` from eight unchecked bytes, when the payload is validated; anything but 0, 1, 2 is an invalid enum value. Nothing before it refuses the payload.
51. **Burn reads the group account before it knows whose it is** (`C90_burn_refuted`). Transfer checks that the group belongs to the program, Burn does not; it walks the extensions of whatever account has the group's key. Data of another program there aborts the Burn instead of refusing it (a change to it would be refused by the runtime). No way to get a group's key into another program's hands while it has members is claimed.

## 6. Tests of the theorems

`seeded/LOG.jsonl`: one line per deliberate fault in the model, with the theorems that
stopped compiling. The faults are made in a copy outside this repository.

{"claims":[
  {"property": "C01", "status": "proved", "theorems": ["C01_transfer_authorized"], "note": "arbitrary account lists, worlds and environments; account data at most 10 MiB. may_act covers malformed data too, authorized is the exact rule on well-formed assets."},
  {"property": "C02", "status": "proved", "theorems": ["C02_transfer_effect"], "note": "byte-exact effect for all inputs"},
  {"property": "C03", "status": "proved", "theorems": ["C03_soulbound"], "note": ""},
  {"property": "C04", "status": "proved", "theorems": ["C04_locked_blocks"], "note": "positions 0..6: the entrypoint passes at most seven accounts"},
  {"property": "C05", "status": "proved", "theorems": ["C05_lock_exact", "C05_unlock_exact", "C05_lock_effect", "C05_unlock_effect"], "note": "success is characterised exactly on well-formed assets; effect for all inputs"},
  {"property": "C06", "status": "proved", "theorems": ["C06_approve"], "note": ""},
  {"property": "C07", "status": "proved", "theorems": ["C07_revoke"], "note": ""},
  {"property": "C08", "status": "proved", "theorems": ["C08_decode", "C08_decode_empty", "C08_decode_nodup", "C08_encode", "C08_enable", "C08_disable"], "note": ""},
  {"property": "C09", "status": "proved", "theorems": ["C09_burn_authorized"], "note": ""},
  {"property": "C10", "status": "proved", "theorems": ["C10_burn_effect"], "note": ""},
  {"property": "C11", "status": "proved", "theorems": ["C11_nonempty_group_kept"], "note": ""},
  {"property": "C12", "status": "proved", "theorems": ["C12_handover_effect", "C12_authority_stable"], "note": "Every instruction on every well-formed asset; Update/Remove of the pseudo extension type None excluded (see C14_none_refuted)."},
  {"property": "C13", "status": "proved", "theorems": ["C13_immutable"], "note": "Any history of instructions by anybody interleaved with other programs' effects."},
  {"property": "C14", "status": "partial", "theorems": ["C14_holder_stable", "C14_owner_history", "C14_none_refuted"], "note": "Holds for every instruction whose Update/Remove name a real extension type; refuted for Update of extension type None on an asset with a crafted tail (owner bytes rewritten)."},
  {"property": "C15", "status": "proved", "theorems": ["C15_no_reinit"], "note": ""},
  {"property": "C16", "status": "proved", "theorems": ["C16_conservation", "C16_payer_signed", "C16_nonnegative"], "note": "runtime lamport rules are part of the trusted base"},
  {"property": "C17", "status": "proved", "theorems": ["C17_untouched", "C17_data", "C17_failure"], "note": "rollback on failure is the runtime semantics written down in exec"},
  {"property": "C18", "status": "proved", "theorems": ["C18_get", "C18_distinct", "C18_absent", "C18_contains", "C18_types", "C18_last", "C18_first"], "note": ""},
  {"property": "C19", "status": "proved", "theorems": ["C19_lookups_agree"], "note": ""},
  {"property": "C20", "status": "proved", "theorems": ["C20_allocate_appends"], "note": "for accounts still being built (open_account) with complete payload supplied"},
  {"property": "C21", "status": "partial", "theorems": ["C21_chunked_content", "C21_chunked_equals_oneshot", "C21_flags_refuted"], "note": "content of any chunking proved; equality with one-shot Allocate proved for payloads without preset verified flags; for payloads with a preset flag equality is false (refuted by witness)"},
  {"property": "C22", "status": "proved", "theorems": ["C22_create"], "note": ""},
  {"property": "C23", "status": "proved", "theorems": ["C23_create_kind"], "note": ""},
  {"property": "C24", "status": "partial", "theorems": ["C24_update_replaces", "C24_update_none", "C24_update_buffer", "C24_update_header", "C24_buffer_creators_refuted", "C24_buffer_seen"], "note": "Full effect of Update on a well-formed asset for argument and buffer data. False in one case: a Creators extension updated from a buffer account gets a byte of its payload altered by the hooks, which run on the wrong slice (C24_buffer_creators_refuted; exactly which bytes they see and what of their work arrives: C24_buffer_seen)."},
  {"property": "C25", "status": "proved", "theorems": ["C25_update_appends"], "note": ""},
  {"property": "C26", "status": "partial", "theorems": ["C26_remove_last", "C26_remove_bytes_partial", "C26_earlier_refuted", "C26_empty_refuted"], "note": "Last extension: proved. Earlier extension: refuted (later end offsets are not adjusted, later extensions are lost). Zero-length last extension: refuted (cannot be removed)."},
  {"property": "C27", "status": "partial", "theorems": ["C27_plain_not_taken_partial", "C27_taken_refuted"], "note": "Proved for histories without removals from the middle and without requests of type None; refuted in general: Remove exposes a manager forged inside another payload."},
  {"property": "C28", "status": "partial", "theorems": ["C28_consent", "C28_create", "C28_history_partial", "C28_forged_refuted"], "note": "single instructions on well-formed assets: all worlds. Histories: proper requests only; without that an asset of any group can be forged with Allocate/Write/Allocate (C28_forged_refuted)."},
  {"property": "C29", "status": "partial", "theorems": ["C29_group", "C29_ungroup", "C29_size_counts_partial", "C29_from_nothing_partial", "C29_size_refuted"], "note": "histories of any length with any number of assets and groups, of proper requests (no buffer updates, no update with length 0 and no data, Remove takes the last extension, accounts built in order) and with fewer than 2^64-1 members; without that restriction it is false (C29_size_refuted)"},
  {"property": "C30", "status": "proved", "theorems": ["C30_group", "C30_create", "C30_history"], "note": "Group: every world; Create: every account built in order; the invariant size<=max over histories of proper requests."},
  {"property": "C31", "status": "partial", "theorems": ["C31_size_kept", "C31_buffer_refuted", "C31_none_refuted"], "note": "Holds when data is given as instruction argument; refuted for a buffer account and for an Update without data."},
  {"property": "C32", "status": "partial", "theorems": ["C32_create", "C32_step_partial", "C32_history_partial", "C32_buffer_refuted", "C32_unsigned_refuted"], "note": "Proved at creation and over histories of Updates without buffer account (tidy assets); false with buffers (validation runs 16 bytes off, a creator with address byte 16 = 0 becomes verified without signing); the authority exception needs no signature at Create."},
  {"property": "C33", "status": "partial", "theorems": ["C33_verified_kept", "C33_none_refuted", "C33_buffer_refuted"], "note": "Holds when data is given as instruction argument; refuted for a buffer account and for an Update without data."},
  {"property": "C34", "status": "partial", "theorems": ["C34_create_partial", "C34_update_partial", "C34_shares_refuted"], "note": "Shares sum to 100 modulo 256 (u8 wrap-around); exactly 100 when the true sum is below 256. Refuted in general."},
  {"property": "C35", "status": "proved", "theorems": ["C35_effect", "C35_exact"], "note": ""},
  {"property": "C36", "status": "proved", "theorems": ["C36_round_trip", "C36_unambiguous", "C36_accepts", "C36_terminates", "C36_grammar", "C36_built", "C36_as_bytes_refuted", "C36_reuse_refuted"], "note": "Round trip proved for fresh builders at 8-byte aligned slices and lengths below 2^32; re-serialisation of parsed negations and re-used builders are refuted."},
  {"property": "C37", "status": "proved", "theorems": ["C37_eval", "C37_built"], "note": ""},
  {"property": "C38", "status": "proved", "theorems": ["C38_enforced", "C38_exact", "C38_group_exact", "C38_permits"], "note": ""},
  {"property": "C39", "status": "proved", "theorems": ["C39_create", "C39_update", "C39_write"], "note": ""},
  {"property": "C40", "status": "proved", "theorems": ["C40_attributes", "C40_links", "C40_blob", "C40_bucket", "C40_metadata", "C40_properties", "C40_properties_get", "C40_creators", "C40_grouping", "C40_royalties", "C40_manager", "C40_proxy", "C40_pairs_exact", "C40_pairs_total", "C40_blob_exact", "C40_properties_exact", "C40_creators_exact", "C40_long_refuted", "C40_many_creators_refuted", "C40_metadata_length_refuted", "C40_get_type_refuted"], "note": "Round trip and reported length for all 11 builders (strings of at most 255 bytes, at most 256 creators, numbers in u64, constraint trees below 2^32 bytes); the parsers' exactness for arbitrary payloads. Refuted beyond the bounds: 256-byte strings, 257 creators, length of metadata in the older form without image uri, and Properties::get with another type (undefined behaviour)."},
  {"property": "C41", "status": "proved", "theorems": ["C41_round", "C41_exact", "C41_unambiguous", "C41_prefix", "C41_text", "C41_entry", "C41_entry_only", "C41_entry_ok"], "note": "borsh format of the derive modelled in Borsh.v (borsh itself not in the repo); UTF-8 check proved equal to the Unicode definition; the program on bytes is the program on the decoded instruction"},
  {"property": "C42", "status": "proved", "theorems": ["C42_close"], "note": ""},
  {"property": "C43", "status": "proved", "theorems": ["C43_proxied_signer"], "note": ""},
  {"property": "C44", "status": "partial", "theorems": ["C44_proxy_fixed", "C44_none_refuted"], "note": "Holds when data is given; refuted for an Update without data."},
  {"property": "C45", "status": "partial", "theorems": ["C45_mint", "C45_budget", "C45_long_name_refuted", "C45_macro_allocate", "C45_macro_open", "C45_macro_length", "C45_macro_stores", "C45_macro_limit_partial", "C45_macro_limit_refuted"], "note": "mint: if all instructions succeed the result is the asset asked for, every instruction fits for names up to 887 bytes (refuted beyond). Macros: same bytes; Write chunks exceed the macro's own limit (refuted). When the instructions succeed: C64."},
  {"property": "C46", "status": "partial", "theorems": ["C46_toggle", "C46_created", "C46_created_settled", "C46_backed_partial", "C46_backed_refuted", "C46_stuck"], "note": "Bridge and Create exactly; custody over every history provided no extension is removed from the middle of the bridged asset; without that it is false (witness); burned or sent-back assets lock the token."},
  {"property": "C47", "status": "partial", "theorems": ["C47_trim", "C47_extend_bytes", "C47_extend", "C47_extend_trim", "C47_junk_tail_refuted"], "note": "Trim drops exactly the tail, Extend adds zero bytes, Extend then Trim restores; extensions unchanged if the tail is zero bytes; with a crafted short tail Extend exposes a new extension (refuted by witness)"},
  {"property": "C48", "status": "partial", "theorems": ["C48_burn", "C30_group", "C48_history_partial", "C48_ungroup_refuted", "C48_group_refuted"], "note": "Burn and Group with a limit never wrap; over proper histories nothing wraps; in arbitrary worlds Ungroup at size 0 and Group without limit at 2^64-1 do."},
  {"property": "C49", "status": "proved", "theorems": ["C49_accessors_total"], "note": "the loops carry fuel in the model; Ok means the fuel given by the account length sufficed"},
  {"property": "C50", "status": "partial", "theorems": ["C50_forward", "C50_only", "C50_resize", "C50_resize_refuted"], "note": "The pass-through executes exactly the forwarded instruction, with the first account signing, for all instructions except Resize, which the interface always rejects (finding: C50_resize_refuted)."},
  {"property": "C51", "status": "proved", "theorems": ["C51_soulbound", "C51_soulbound_immutable"], "note": "Any history for immutable assets; histories of careful requests for mutable ones."},
  {"property": "C52", "status": "proved", "theorems": ["C52_own", "C52_apart", "C52_own_first", "C52_forwards"], "note": ""},
  {"property": "C53", "status": "proved", "theorems": ["C53_calls", "C53_history", "C53_takeover", "C53_consent_refuted", "C53_remove_refuted"], "note": "Findings: anyone takes over the authority of a proxied asset, after which the owner can no longer transfer; anyone removes its extensions and collects the rent."},
  {"property": "C54", "status": "proved", "theorems": ["C54_update"], "note": ""},
  {"property": "C55", "status": "proved", "theorems": ["C55_transfer", "C55_number", "C55_grouped_refuted"], "note": "Finding: the group account is not forwarded, so grouped proxied assets without royalties of their own cannot be transferred. The number is read from and written to any text of a 64-bit number (C55_number); the colour is that of the hash of asset, time and count."},
  {"property": "C56", "status": "proved", "theorems": ["C56_create"], "note": "For accounts without data."},
  {"property": "C57", "status": "partial", "theorems": ["C57_creators", "C57_pairs", "C57_blob", "C57_metadata", "C57_royalties", "C57_allowlist", "C57_denylist", "C57_lists_refuted"], "note": "Round trips proved. The last sentence is refuted: the lists are tested against the asset account, exact meaning given by C57_allowlist/denylist."},
  {"property": "C58", "status": "proved", "theorems": ["C58_approve", "C58_revoke", "C58_handover", "C58_group", "C58_ungroup", "C58_close", "C58_burn", "C58_transfer", "C58_trim", "C58_extend", "C58_remove", "C58_allocate", "C58_write", "C58_create", "C58_update_head", "C58_update", "C58_update_both", "C58_update_buffer", "C58_create_grow", "C58_overwrite", "C58_overwrite_effect", "C58_unpadded_stuck", "C58_update_any", "C58_update_head_any", "C58_update_both_any", "C58_update_buffer_any", "C58_short_tail", "C58_zero_tail_stuck", "C58_zero_tail_fine"], "note": "if-and-only-if for every instruction (Lock and Unlock are C05, Verify and Unverify C35). Create: inline extensions on an existing account assume a rent schedule that grows with size. Write: at most the announced bytes. Update: the room condition for accounts with bytes after the extensions is SpecW.room_ok; its consequences are C58_short_tail and C58_zero_tail_*."},
  {"property": "C59", "status": "proved", "theorems": ["C59_create", "C59_update"], "note": "if-and-only-if against grammars in SpecF; payloads at addresses that are multiples of 8, where the program keeps them."},
  {"property": "C60", "status": "proved", "theorems": ["C60_data", "C60_runs"], "note": "umi serializers as assumed in DESIGN.md section 3"},
  {"property": "C61", "status": "proved", "theorems": ["C61_range", "C61_says", "C61_back", "C61_rewrite_refuted"], "note": "refuted beside it: a manager without roles, as read, cannot be written again"},
  {"property": "C62", "status": "partial", "theorems": ["C62_account", "C62_showable", "C62_ends", "C62_filter", "C62_no_image_refuted", "C62_short_group_refuted", "C62_resized_refuted", "C62_old_image_refuted", "C62_names_refuted"], "note": "exactly which accounts are shown, and what is shown; refuted for metadata without image, short groupings, tails of 1-15 bytes; an image removed by Update may still be shown; NULs dropped"},
  {"property": "C63", "status": "partial", "theorems": ["C63_mint", "C63_mint_payer", "C63_update", "C63_inline", "C63_royalties", "C63_update_payer", "C63_proxied", "C63_proxied_inline", "C63_burn_proxied"], "note": "effect of mint and of updateWithBuffer once all instructions succeed (creators through a buffer: length only); helpers that can never succeed: no payer named, royalties through a buffer, chunked update through a proxy, proxied burn without recipient; proxied inline update drops the extension"},
  {"property": "C64", "status": "proved", "theorems": ["C64_mint", "C64_js"], "note": "both directions; assumes the payer is a wallet other than the asset, the rent schedule grows with size, the finished account is at most 10 MiB, the name is UTF-8 text and the group, if given, is well formed"},
  {"property": "C65", "status": "proved", "theorems": ["C65_unused", "C65_strip", "C65_proxied_refuted", "C65_js", "C65_rs", "C65_sent"], "note": "The exception in the statement is necessary: C65_proxied_refuted. Builders without remaining accounts."},
  {"property": "C66", "status": "proved", "theorems": ["C66_read", "C66_always"], "note": ""},
  {"property": "C67", "status": "proved", "theorems": ["C67_toggle", "C67_hand_out", "C67_redeem"], "note": "exact condition for Bridge with any Token Metadata; corollaries for settled vaults. Assumes the asset's manager extension, if any, is readable, and royalties built with the library."},
  {"property": "C68", "status": "partial", "theorems": ["C68_manager", "C68_locked_for_ever", "C68_unlock_refuted", "C68_grouping", "C68_unburnable_for_ever", "C68_burn_refuted"], "note": "false of the code: the authority adds a manager or grouping extension without data. Proved: what such extensions prevent, and that it lasts for ever (careful histories)."},
  {"property": "C69", "status": "partial", "theorems": ["C69_addresses", "C69_js_bridge_accounts", "C69_js_bridge", "C69_js_create", "C69_rust_same", "C69_readers", "C69_reads_vaults", "C69_search", "C69_searches", "C69_finds", "C69_vault_pda", "C69_builder", "C69_group_needed", "C69_defaults_suffice_refuted"], "note": "Proved with one exception: bridge() has no default for the group account, so for an asset in a group without own royalties it fails unless the caller passes it (C69_group_needed, C69_defaults_suffice_refuted)."},
  {"property": "C70", "status": "partial", "theorems": ["C70_exactly", "C70_blocked_for_ever", "C70_open_to_the_authority_refuted"], "note": "Exact success condition proved. The second sentence is false: anybody can send a lamport to either derived address, and Create then fails for ever (C70_open_to_the_authority_refuted, C70_blocked_for_ever)."},
  {"property": "C71", "status": "partial", "theorems": ["C71_transfer", "C71_stays", "C71_grouped", "C71_for_ever", "C71_create", "C71_born", "C71_update", "C71_stuck", "C71_immutable_refuted"], "note": "All proved except the last sentence, which is false: an asset in a group moves to nobody else through the proxy (C71_grouped), and one made immutable never changes hands again (C71_stuck, C71_immutable_refuted)."},
  {"property": "C72", "status": "partial", "theorems": ["C72_get", "C72_contains", "C72_get_extension", "C72_section", "C72_list", "C72_first", "C72_last", "C72_js", "C72_own", "C72_last_refuted", "C72_trim_refuted"], "note": "All proved except the last sentence, which is false: last_extension returns the last extension before the unknown one (C72_last, C72_last_refuted); Resize with Trim then cuts off what follows (C72_trim_refuted)."},
  {"property": "C73", "status": "partial", "theorems": ["C73_call", "C73_program", "C73_rest", "C73_swapped", "C73_blocked", "C73_rest_refuted", "C73_asset_signs", "C73_same_result", "C73_used"], "note": "All proved except the sentence on remaining accounts, which is false: their two flags are swapped (C73_swapped, C73_rest_refuted), so a writable account that does not sign makes every call fail (C73_blocked)."},
  {"property": "C74", "status": "partial", "theorems": ["C74_address", "C74_data", "C74_create", "C74_born", "C74_no_payer", "C74_default_payer_refuted", "C74_transfer", "C74_update", "C74_forward", "C74_life"], "note": "All proved except that the context's payer is used: create() leaves the payer out if none is named, and then never succeeds (C74_no_payer, C74_default_payer_refuted). Update through the proxy program changes name and mutability only (C71)."},
  {"property": "C75", "status": "partial", "theorems": ["C75_parse", "C75_none", "C75_included", "C75_panic", "C75_reported_refuted"], "note": "All proved except the last sentence: a section that cannot be read makes the reader panic (C75_panic, C75_reported_refuted). Section offsets within 16 of 2^64 are excluded (the arithmetic wraps). The ELF, zlib and JSON parsers are arguments."},
  {"property": "C76", "status": "proved", "theorems": ["C76_approve", "C76_revoke", "C76_handover", "C76_lock", "C76_group", "C76_ungroup", "C76_close", "C76_burn", "C76_transfer", "C76_verify", "C76_extend", "C76_update_plain", "C76_update", "C76_remove", "C76_create", "C76_allocate", "C76_write", "C76_codes", "C76_no_code"], "note": "Exact lists for fifteen instructions (answers); prefixes (begins) for Update with an extension, Remove, Create, Allocate and Write, whose later steps may panic on payloads. Errors of the runtime itself (ERuntime) are raised at the end of an instruction in reality; the statements are such that they are the last condition of a list. The codes of the errors are the same at the program and both clients."},
  {"property": "C77", "status": "proved", "theorems": ["C77_step", "C77_history", "C77_from_nothing", "C77_one", "C77_complete", "C77_determined"], "note": "Histories of proper requests (SpecG: proper, roomy), since the books go wrong otherwise (C28_forged_refuted, C29_size_refuted). The converse (C77_complete) covers all 18 instructions, for requests whose accounts are in place (SpecS: well_placed)."},
  {"property": "C78", "status": "proved", "theorems": ["C78_local", "C78_meanwhile", "C78_swap", "C78_interleaved", "C78_proxy", "C78_bridge_create"], "note": "The bridge's exchange is left out because Token Metadata, on which it depends, is an oracle."},
  {"property": "C79", "status": "proved", "theorems": ["C79_sensible", "C79_helpers", "C79_mint", "C79_mint_shown", "C79_create", "C79_create_shown", "C79_same_refuted", "C79_get", "C79_get_account", "C79_get_minted"], "note": "C79_same_refuted: create stores three or more extensions in another order than mint."},
  {"property": "C80", "status": "proved", "theorems": ["C80_step", "C80_history", "C80_clients", "C80_js", "C80_rs", "C80_history_refuted", "C80_follow", "C80_update", "C80_aligned", "C80_aligned_refuted"], "note": "C80_history_refuted: an Update without a payload leaves an extension the JavaScript client cannot read. C80_aligned_refuted: the same Update succeeds or panics depending on where its argument lies."},
  {"property": "C81", "status": "partial", "theorems": ["C81_survives", "C81_history", "C81_twice", "C81_both", "C81_cut_refuted", "C81_rent_refuted", "C81_wreck", "C81_wreck_forever"], "note": "Partial because the title is false: two Removes in the order of storage destroy an asset without Burn (C81_cut_refuted, C81_rent_refuted). Without removals from the middle it is proved for all histories."},
  {"property": "C82", "status": "proved", "theorems": ["C82_step", "C82_history", "C82_from_nothing", "C82_sweep"], "note": "The tariff is the same all the time and does not fall with the size; outside events follow the runtime rules (SpecRent.rented)."},
  {"property": "C83", "status": "proved", "theorems": ["C83_no_cost", "C83_lock", "C83_lock_live", "C83_handover", "C83_approve", "C83_delegate_lost", "C83_transfer", "C83_group", "C83_verify", "C83_extend"], "note": "Transaction fees are outside the model. C83_extend: the account held just its rent before."},
  {"property": "C84", "status": "proved", "theorems": ["C84_refused", "C84_settled", "C84_update", "C84_allocate", "C84_remove", "C84_trim", "C84_extend"], "note": "Group and Ungroup: the group is not the all-zero key. Trim: accounts hold their rent before (C82). Update from a buffer and Write: C88."},
  {"property": "C85", "status": "proved", "theorems": ["C85_delegate", "C85_mover", "C85_burner", "C85_locker", "C85_locked", "C85_shut", "C85_owner", "C85_authority", "C85_group", "C85_frozen"], "note": "Histories as in C81: the asset is not burned, no extension is taken out of its middle (C26, C27 show what happens there), requests of real extension types. The asset begins with a well-formed section followed by zeros."},
  {"property": "C86", "status": "partial", "theorems": ["C86_data", "C86_complete", "C86_shank", "C86_shank_complete", "C86_interface", "C86_shank_alone", "C86_shank_rest", "C86_shank_refuted", "C86_accounts", "C86_interface_accounts", "C86_extensions", "C86_extensions_js", "C86_header", "C86_undescribed_refuted", "C86_proxy", "C86_bridge", "C86_bridge_accounts", "C86_proxy_accounts", "C86_errors", "C86_errors_rust"], "note": "Instructions, accounts, errors and nine extension types proved; refuted: royalties and properties have no described type, the header and groupings cannot be encoded without hand-written code (C86_undescribed_refuted), and shank's file lacks three types (C86_shank_refuted). Meaning of Codama nodes assumed."},
  {"property": "C87", "status": "proved", "theorems": ["C87_content", "C87_creators", "C87_grouping", "C87_gone", "C87_mover", "C87_burner", "C87_locker"], "note": "For histories of plain requests that remove only last extensions (C26/C81 show what other removals do)."},
  {"property": "C88", "status": "partial", "theorems": ["C88_overwrite", "C88_append", "C88_complete", "C88_complete_refuted", "C88_buffer", "C88_buffer_refuted"], "note": "Proved: overwriting Writes, appending Writes below the announced length, completed payloads whose length is not a multiple of 8, Updates from buffers that hold neither creators nor a grouping. Refuted: a Write that completes a payload of 8n bytes can be repeated and its bytes then stand behind the extension, where they may form another one (C88_complete_refuted); an Update from a buffer with a grouping changes the type in the buffer, and the repeated Update adds another extension (C88_buffer_refuted). Money: only data is compared for Write."},
  {"property": "C89", "status": "partial", "theorems": ["C89_steady", "C89_settled", "C89_remove", "C89_write", "C89_write_refuted", "C89_update", "C89_create", "C89_walk_refuted", "C89_tag_refuted"], "note": "Proved: every request, from settled accounts; Create, Remove, Write and Update under the stated conditions on the asset account and the arguments. Refuted without them: bytes beyond the announced length lead to a write outside the account (C89_write_refuted) or an endless walk (C89_walk_refuted), an unknown account tag in royalties is made into an invalid enum value (C89_tag_refuted)."},
  {"property": "C90", "status": "proved", "theorems": ["C90_fitting", "C90_all", "C90_answered", "C90_remove", "C90_history", "C90_allocate", "C90_write", "C90_create", "C90_update", "C90_burn_refuted", "C90_transfer_refuted", "C90_short_refuted", "C90_write_refuted", "C90_update_refuted"], "note": "C90_fitting puts all eighteen requests together; C90_all draws the conditions on accounts from the history (SpecG: good_step) but for the length of the accounts passed. The refutations show that the conditions on groups, on readable extensions, on lengths and on readable payloads are needed. Remove and Allocate are stated for extension types other than None. No two accounts hold 2^64 lamports together. Update is stated for a payload in the instruction (not from a buffer account) decoded to aligned memory, and assets without surplus bytes after their extensions (needed: C58_zero_tail_stuck)."}
]}

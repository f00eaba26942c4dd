{
 "claims": [
  {
   "property": "C01",
   "status": "proved",
   "theorems": [
    "C01_normalise_stable",
    "C01_last_space_refuted"
   ],
   "note": "The companion _refuted theorem shows the condition on a trailing space is needed."
  },
  {
   "property": "C02",
   "status": "proved",
   "theorems": [
    "C02_normal_forms_collide_only_when_equal"
   ],
   "note": ""
  },
  {
   "property": "C03",
   "status": "proved",
   "theorems": [
    "C03_values_escape_losslessly"
   ],
   "note": ""
  },
  {
   "property": "C04",
   "status": "proved",
   "theorems": [
    "C04_escaped_types_collide_refuted",
    "C04_multivalued_order_refuted",
    "C04_two_foldings_refuted"
   ],
   "note": "Negative property; each theorem is a computed witness."
  },
  {
   "property": "C05",
   "status": "proved",
   "theorems": [
    "C05_modify_touches_only_named",
    "C05_modify_addresses_entry"
   ],
   "note": ""
  },
  {
   "property": "C06",
   "status": "proved",
   "theorems": [
    "C06_modify_keeps_naming_values",
    "C06_removal_of_naming_value_refused",
    "C06_duplicate_names_refuted"
   ],
   "note": "Attribute names are assumed ASCII and distinct up to case; the _refuted theorem shows distinctness is needed."
  },
  {
   "property": "C07",
   "status": "proved",
   "theorems": [
    "C07_replace_sets_exactly",
    "C07_replace_accepted"
   ],
   "note": ""
  },
  {
   "property": "C08",
   "status": "proved",
   "theorems": [
    "C08_add_keeps_and_appends",
    "C08_no_duplicates_refuted"
   ],
   "note": "The _refuted theorem records that an add request listing a value twice stores it twice."
  },
  {
   "property": "C09",
   "status": "proved",
   "theorems": [
    "C09_delete_removes_exactly"
   ],
   "note": ""
  },
  {
   "property": "C10",
   "status": "proved",
   "theorems": [
    "C10_changes_apply_in_order",
    "C10_repeated_delete_refuted",
    "C10_add_then_delete_refuted"
   ],
   "note": "Proved under the stated side condition; the two _refuted theorems are the witnesses without it."
  },
  {
   "property": "C11",
   "status": "proved",
   "theorems": [
    "C11_add_request_becomes_entry",
    "C11_repeated_type_refuted"
   ],
   "note": ""
  },
  {
   "property": "C12",
   "status": "proved",
   "theorems": [
    "C12_indexes_consistent",
    "C12_escaped_type_refuted"
   ],
   "note": "Attribute types are assumed to be descriptors; the _refuted theorem shows that an escaped separator in a type breaks consistency."
  },
  {
   "property": "C13",
   "status": "proved",
   "theorems": [
    "C13_database_refines_directory",
    "C13_every_state_is_a_directory"
   ],
   "note": "reachable allows faults and crashes in the history."
  },
  {
   "property": "C14",
   "status": "proved",
   "theorems": [
    "C14_all_or_nothing"
   ],
   "note": "Holds for any state, also a corrupt one."
  },
  {
   "property": "C15",
   "status": "proved",
   "theorems": [
    "C15_identifiers_never_reused",
    "C15_identifier_codec",
    "C15_list_codec"
   ],
   "note": ""
  },
  {
   "property": "C16",
   "status": "proved",
   "theorems": [
    "C16_base_search"
   ],
   "note": ""
  },
  {
   "property": "C17",
   "status": "proved",
   "theorems": [
    "C17_one_level_search"
   ],
   "note": ""
  },
  {
   "property": "C18",
   "status": "proved",
   "theorems": [
    "C18_subtree_search"
   ],
   "note": "Fuel is the number of child lists plus one; the theorem excludes Diverge."
  },
  {
   "property": "C19",
   "status": "proved",
   "theorems": [
    "C19_names_unique",
    "C19_existing_name_rejected"
   ],
   "note": ""
  },
  {
   "property": "C20",
   "status": "proved",
   "theorems": [
    "C20_parent_stored"
   ],
   "note": ""
  },
  {
   "property": "C21",
   "status": "proved",
   "theorems": [
    "C21_all_below_base",
    "C21_renamed_base_refuted"
   ],
   "note": "The _refuted theorem is the history with a renamed base."
  },
  {
   "property": "C22",
   "status": "proved",
   "theorems": [
    "C22_delete_one_leaf",
    "C22_delete_refused"
   ],
   "note": ""
  },
  {
   "property": "C23",
   "status": "proved",
   "theorems": [
    "C23_values",
    "C23_old_values_refuted",
    "C23_rename_one_leaf"
   ],
   "note": "Values of the new RDN: up to case folding, attribute names distinct ASCII."
  },
  {
   "property": "C24",
   "status": "proved",
   "theorems": [
    "C24_modify_one_entry",
    "C24_password_one_entry"
   ],
   "note": ""
  },
  {
   "property": "C25",
   "status": "proved",
   "theorems": [
    "C25_old_password_checked"
   ],
   "note": ""
  },
  {
   "property": "C26",
   "status": "proved",
   "theorems": [
    "C26_added_is_found"
   ],
   "note": ""
  },
  {
   "property": "C27",
   "status": "proved",
   "theorems": [
    "C27_export_load"
   ],
   "note": "Entries are compared as values; the LDIF text between export and load is not modelled."
  },
  {
   "property": "C28",
   "status": "proved",
   "theorems": [
    "C28_writes_serialise",
    "C28_searches_see_one_state"
   ],
   "note": "Transition system with a single writer lock and snapshot readers, as bbolt provides."
  },
  {
   "property": "C29",
   "status": "proved",
   "theorems": [
    "C29_hash_then_validate",
    "C29_clear_text_validates_exactly",
    "C29_brace_password_refuted",
    "C29_cleartext_scheme_refuted"
   ],
   "note": "CryptoOK states that argon2id hashes accept their password and no other. The _refuted theorems show the brace exception."
  },
  {
   "property": "C30",
   "status": "proved",
   "theorems": [
    "C30_validation_not_fail_open",
    "C30_outcomes"
   ],
   "note": ""
  },
  {
   "property": "C31",
   "status": "proved",
   "theorems": [
    "C31_validation_panics_exactly"
   ],
   "note": "Panics inside the hash libraries are listed as separate cases."
  },
  {
   "property": "C32",
   "status": "proved",
   "theorems": [
    "C32_length_and_alphabet",
    "C32_one_to_one"
   ],
   "note": ""
  },
  {
   "property": "C33",
   "status": "proved",
   "theorems": [
    "C33_bind_iff",
    "C33_bind_response",
    "C33_empty_password"
   ],
   "note": "C33_bind_iff is for reachable databases and well-formed names; C33_bind_response covers any state and any packet."
  },
  {
   "property": "C34",
   "status": "proved",
   "theorems": [
    "C34_anonymous_request",
    "C34_anonymous_run"
   ],
   "note": ""
  },
  {
   "property": "C35",
   "status": "proved",
   "theorems": [
    "C35_who_can_change"
   ],
   "note": "earned says which bind gave the connection its identity. Rights are those at the time of the bind."
  },
  {
   "property": "C36",
   "status": "proved",
   "theorems": [
    "C36_one_response",
    "C36_session",
    "C36_compare_refuted"
   ],
   "note": "The _refuted theorem: a compare request is answered with the tag of a request and the connection dropped."
  },
  {
   "property": "C37",
   "status": "proved",
   "theorems": [
    "C37_only_listed",
    "C37_listed_crash",
    "C37_others_unharmed"
   ],
   "note": "Under quiet: no process kill at commit, library calls as documented, filters of the shapes go-ldap compiles. Controls the library decoder panics on are one more case. A bare substring assertion surely crashes when it is evaluated first."
  },
  {
   "property": "C38",
   "status": "proved",
   "theorems": [
    "C38_failed_bind_keeps_identity",
    "C38_write_after_failed_bind"
   ],
   "note": ""
  },
  {
   "property": "C39",
   "status": "proved",
   "theorems": [
    "C39_filter_boolean",
    "C39_first_component",
    "C39_components_refuted",
    "C39_failures"
   ],
   "note": "FilterPacket shapes are those go-ldap builds. The _refuted theorem is a two-component substring filter judged wrongly in both polarities."
  },
  {
   "property": "C40",
   "status": "proved",
   "theorems": [
    "C40_unlimited",
    "C40_limited"
   ],
   "note": "For entries on which filter and scope check do not fail, and a client that can be written to. Exceeding the limit also drops the connection (server model)."
  },
  {
   "property": "C41",
   "status": "proved",
   "theorems": [
    "C41_attributes",
    "C41_only_requested"
   ],
   "note": "TypesOnly is ignored by the code and so by the model."
  },
  {
   "property": "C42",
   "status": "proved",
   "theorems": [
    "C42_scope_check",
    "C42_subtree_unchecked",
    "C42_escaped_comma_refuted"
   ],
   "note": "ASCII names; a semicolon separator before the first comma is excluded as well as an escape. The subtree check accepts everything. The _refuted theorem has the three ways to fail."
  },
  {
   "property": "C43",
   "status": "proved",
   "theorems": [
    "C43_search_exact",
    "C43_missing_base",
    "C43_folding_refuted",
    "C43_comma_refuted"
   ],
   "note": "C43_search_exact with names_plain as the stated condition; the two _refuted theorems are the stated failures outside it."
  },
  {
   "property": "C44",
   "status": "proved",
   "theorems": [
    "C44_most_specific",
    "C44_order_independent",
    "C44_tie_refuted"
   ],
   "note": "The _refuted theorem is the tie."
  },
  {
   "property": "C45",
   "status": "proved",
   "theorems": [
    "C45_no_password",
    "C45_server",
    "C45_overlay",
    "C45_no_inference",
    "C45_paged"
   ],
   "note": "At handler level, for whole server runs and with the overlay; plus noninterference: contents that differ in userPassword values only give equal search results (userPassword not indexed). Attribute names that lower-case to userpassword are meant; options such as userPassword;x are other names. Paged searches select from the same entries (Paging.v)."
  },
  {
   "property": "C46",
   "status": "proved",
   "theorems": [
    "C46_search_ignores_identity",
    "C46_passwords_disclosed"
   ],
   "note": ""
  },
  {
   "property": "C47",
   "status": "proved",
   "theorems": [
    "C47_writes_refused",
    "C47_success",
    "C47_data_stays"
   ],
   "note": "Handler, single packets and whole runs, with and without the overlay."
  },
  {
   "property": "C48",
   "status": "proved",
   "theorems": [
    "C48_bind_iff",
    "C48_no_stored_password",
    "C48_refused",
    "C48_overlay",
    "C48_response"
   ],
   "note": "Exact characterisation of success; a bind as an entry without password value panics and is answered by OperationsError."
  },
  {
   "property": "C49",
   "status": "proved",
   "theorems": [
    "C49_covered",
    "C49_unindexed",
    "C49_equality",
    "C49_conjunction",
    "C49_misses_refuted",
    "C49_folding_refuted"
   ],
   "note": "Completeness in general form (C49_covered, C49_unindexed) and for the stated shapes under ASCII; objectClass conjuncts need care, see C49_misses_refuted; C49_folding_refuted shows that ASCII is needed."
  },
  {
   "property": "C50",
   "status": "proved",
   "theorems": [
    "C50_partition",
    "C50_continue",
    "C50_progress",
    "C50_timeout_refuted"
   ],
   "note": "C50_partition and C50_continue over all schedules, with the client repeating its request and nobody else using the cookie; C50_progress: an answer is always reachable. C50_timeout_refuted is the stated silent truncation; C50_case shows the refused request after an exactly full last page."
  },
  {
   "property": "C51",
   "status": "proved",
   "theorems": [
    "C51_one_dataset",
    "C51_current",
    "C51_failed_reload",
    "C51_reported",
    "C51_overlay",
    "C51_overlay_refuted"
   ],
   "note": "Exact answer of searches without paging (C51_one_dataset); pages come from the data at the start of the first page (C50_partition, whose schedules include reloads). C51_overlay_refuted: with the overlay a failing reload can leave half of the new data."
  },
  {
   "property": "C52",
   "status": "proved",
   "theorems": [
    "C52_not_lost",
    "C52_new_reload",
    "C52_served",
    "C52_comes_to_rest",
    "C52_stays",
    "C52_only_asked"
   ],
   "note": "C52_comes_to_rest: without further signals the loop stops by itself. The signal queue has room for one signal and further ones are dropped; the files are one file with a version number."
  },
  {
   "property": "C53",
   "status": "proved",
   "theorems": [
    "C53_build_iff",
    "C53_lookup"
   ],
   "note": ""
  },
  {
   "property": "C54",
   "status": "proved",
   "theorems": [
    "C54_exact",
    "C54_linear",
    "C54_snapshot",
    "C54_completes",
    "C54_add_blocks",
    "C54_add_gets_there"
   ],
   "note": "C54_exact and C54_linear cover adds too; C54_completes is without adds; C54_add_blocks is the stated deadlock. Counters are uint64 and wrap. Readers are not kept out by a waiting writer in the model, which allows more schedules than sync.RWMutex."
  },
  {
   "property": "C55",
   "status": "proved",
   "theorems": [
    "C55_number",
    "C55_distinct",
    "C55_above",
    "C55_zero_refuted",
    "C55_zero",
    "C55_overflow_refuted",
    "C55_duplicates_refuted"
   ],
   "note": "Three refuted variants beside the theorem: explicit zero, wrap-around, equal explicit numbers."
  },
  {
   "property": "C56",
   "status": "proved",
   "theorems": [
    "C56_inside",
    "C56_all_inside",
    "C56_no_base"
   ],
   "note": "Lexical: symbolic links are not modelled. filepath.Clean and filepath.Abs are modelled after the Go documentation."
  },
  {
   "property": "C57",
   "status": "proved",
   "theorems": [
    "C57_prefix",
    "C57_whole_iff",
    "C57_string",
    "C57_limit",
    "C57_whole_refuted"
   ],
   "note": "C57_whole_iff: whole exactly for lengths divisible by three; C57_whole_refuted is the stated loss."
  },
  {
   "property": "C58",
   "status": "proved",
   "theorems": [
    "C58_origin",
    "C58_suffix_refuted"
   ],
   "note": "C58_suffix_refuted is the stated existence of an outside entry."
  },
  {
   "property": "C59",
   "status": "proved",
   "theorems": [
    "C59_size_limit"
   ],
   "note": ""
  },
  {
   "property": "C60",
   "status": "proved",
   "theorems": [
    "C60_connection",
    "C60_abandon_hangs"
   ],
   "note": ""
  },
  {
   "property": "C61",
   "status": "proved",
   "theorems": [
    "C61_limit_per_page"
   ],
   "note": ""
  },
  {
   "property": "C62",
   "status": "proved",
   "theorems": [
    "C62_cookie_shared"
   ],
   "note": "Theorem for every state; the loss of entries in C62_case."
  },
  {
   "property": "C63",
   "status": "proved",
   "theorems": [
    "C63_kept",
    "C63_reported",
    "C63_rest"
   ],
   "note": ""
  },
  {
   "property": "C64",
   "status": "proved",
   "theorems": [
    "C64_folder",
    "C64_order",
    "C64_others",
    "C64_all_or_nothing"
   ],
   "note": "The LDIF parser and the template engine are library calls (class Files)."
  },
  {
   "property": "C65",
   "status": "proved",
   "theorems": [
    "C65_lines",
    "C65_long_line",
    "C65_disabled",
    "C65_comments",
    "C65_folded_comment_refuted"
   ],
   "note": "C65_folded_comment_refuted is the stated defect."
  },
  {
   "property": "C66",
   "status": "proved",
   "theorems": [
    "C66_distinct",
    "C66_wraps",
    "C66_set",
    "C66_start",
    "C66_precedence"
   ],
   "note": ""
  },
  {
   "property": "C67",
   "status": "proved",
   "theorems": [
    "C67_accepted",
    "C67_relevant",
    "C67_crash",
    "C67_nothing_printed",
    "C67_ends",
    "C67_long_line"
   ],
   "note": ""
  },
  {
   "property": "C68",
   "status": "proved",
   "theorems": [
    "C68_given",
    "C68_missing"
   ],
   "note": "For the scheme {ARGON2}, the default, with the laws CryptoOK; other schemes store clear text (C29)."
  },
  {
   "property": "C69",
   "status": "proved",
   "theorems": [
    "C69_entries",
    "C69_lines",
    "C69_values",
    "C69_place",
    "C69_place_refuted"
   ],
   "note": "Assumes that TrimSpace returns a part of its argument and that hashes and the mail domain have no line feeds. Carriage returns inside a line are not line ends."
  },
  {
   "property": "C70",
   "status": "proved",
   "theorems": [
    "C70_add",
    "C70_delete",
    "C70_modify",
    "C70_moddn",
    "C70_search",
    "C70_password",
    "C70_numbers",
    "C70_sent",
    "C70_refused",
    "C70_new_superior"
   ],
   "note": "Fields the parsers ignore (message tags, dereferencing, type of wrapper packets) are not constrained; names have to parse. The filter text is the result of a library call."
  },
  {
   "property": "C71",
   "status": "proved",
   "theorems": [
    "C71_write",
    "C71_others_refused",
    "C71_malformed",
    "C71_answer_truthful"
   ],
   "note": "Requests are atomic steps. C71_malformed includes the crash on malformed modify lists (C37)."
  },
  {
   "property": "C72",
   "status": "proved",
   "theorems": [
    "C72_history",
    "C72_reachable",
    "C72_empty_locked"
   ],
   "note": "Names in the packets have to satisfy the conditions of C12 (clean). C72_empty_locked is the stated empty-database fact."
  },
  {
   "property": "C73",
   "status": "proved",
   "theorems": [
    "C73_change",
    "C73_then_bind",
    "C73_generated_unknown",
    "C73_refused"
   ],
   "note": "With the laws CryptoOK of the hash library and without I/O errors during the request; C25 covers the comparison with the old password."
  },
  {
   "property": "C74",
   "status": "proved",
   "theorems": [
    "C74_search",
    "C74_limited",
    "C74_nothing",
    "C74_malformed",
    "C74_read",
    "C74_add_then_read"
   ],
   "note": "Conditions of C43 (names_plain) and supported filters; the filter text is compiled by a library."
  },
  {
   "property": "C75",
   "status": "proved",
   "theorems": [
    "C75_succeeds",
    "C75_plain",
    "C75_percent",
    "C75_directive",
    "C75_exclusive",
    "C75_argon2",
    "C75_generated_refuted",
    "C75_braces_refuted",
    "C75_unreadable_refuted",
    "C75_false_refuted",
    "C75_file_refuted"
   ],
   "note": "The hash library's output is assumed to have no percent sign in C75_argon2; the _refuted theorems are the stated defects."
  },
  {
   "property": "C76",
   "status": "proved",
   "theorems": [
    "C76_served",
    "C76_base",
    "C76_refused",
    "C76_setting",
    "C76_tls",
    "C76_spelling_refuted",
    "C76_space_refuted"
   ],
   "note": "C76_base needs a well-formed base whose last value does not end in a space; C76_space_refuted and C76_spelling_refuted are the stated failures. Reading files is an input."
  },
  {
   "property": "C77",
   "status": "proved",
   "theorems": [
    "C77_load",
    "C77_not_overwritten",
    "C77_unreadable",
    "C77_bad_base_refuted"
   ],
   "note": "Names as in C12 (dn_text_ok); fewer than 2^64 operations. C77_bad_base_refuted is the stated silent failure."
  },
  {
   "property": "C78",
   "status": "proved",
   "theorems": [
    "C78_replies",
    "C78_one_reading",
    "C78_written"
   ],
   "note": "Lengths below 2^64. The encoding is X.690 with definite lengths and tags below 31, as the external library writes; result codes are bytes. Controls are given as packets."
  },
  {
   "property": "C79",
   "status": "proved",
   "theorems": [
    "C79_framing",
    "C79_requests",
    "C79_sendable",
    "C79_same",
    "C79_password",
    "C79_stream",
    "C79_garbage"
   ],
   "note": "Lengths below 2^64 and integers of 64 bits. The reader does not cover indefinite lengths and long tags. The filter text is the result of a library call, assumed equal for the packet sent and read."
  },
  {
   "property": "C80",
   "status": "proved",
   "theorems": [
    "C80_answer",
    "C80_syntax",
    "C80_malformed",
    "C80_no_password_refuted"
   ],
   "note": "Names as in C12 (wf_dn); C80_no_password_refuted is the stated disclosure."
  },
  {
   "property": "C81",
   "status": "proved",
   "theorems": [
    "C81_grammar",
    "C81_escapes",
    "C81_blanks"
   ],
   "note": "The parser is the external library's, transcribed from its documented behaviour; blanks outside printable text, UTF-8 replacement and #hex values are oracles."
  },
  {
   "property": "C82",
   "status": "proved",
   "theorems": [
    "C82_bind",
    "C82_overlay_bind",
    "C82_search_refused",
    "C82_search",
    "C82_overlay_search"
   ],
   "note": "index_safe names the filters covered (others: C49, C49_misses_refuted); ASCII attribute names and values; names as in C42; checks left to the handler as in server/server.go:49; no paging control."
  },
  {
   "property": "C83",
   "status": "proved",
   "theorems": [
    "C83_result",
    "C83_runs",
    "C83_hangup",
    "C83_failure_noticed",
    "C83_connections",
    "C83_hand",
    "C83_accept_error",
    "C83_stopped",
    "C83_shutdown_moves",
    "C83_shutdown_ends",
    "C83_exit_code",
    "C83_unhandled_refuted",
    "C83_hangup_refuted",
    "C83_deaf_refuted"
   ],
   "note": "No clock: the shutdown's ten-second limit, which nobody looks at, and the 100 ms waits are left out, as are signals before signal.Notify. C83_deaf_refuted, C83_unhandled_refuted and C83_hangup_refuted are the stated faults."
  },
  {
   "property": "C84",
   "status": "proved",
   "theorems": [
    "C84_sent",
    "C84_search",
    "C84_ldif",
    "C84_only_listed",
    "C84_crash",
    "C84_refused",
    "C84_injection_refuted",
    "C84_runes"
   ],
   "note": "DecompileFilter and CompileFilter are the external library's, transcribed from their documented behaviour. Backends as in C74 and C82. C84_injection_refuted is the stated failure for attribute descriptions outside RFC 4512."
  },
  {
   "property": "C85",
   "status": "proved",
   "theorems": [
    "C85_serial",
    "C85_answers_so_far",
    "C85_requests",
    "C85_runs",
    "C85_real_time",
    "C85_reachable",
    "C85_progress",
    "C85_realised"
   ],
   "note": "bbolt's guarantees as in C29: one writer, snapshot readers, atomic commit. The work inside a transaction is part of its last step. Clients take what is written to them; re_send says which writes fail."
  },
  {
   "property": "C86",
   "status": "proved",
   "theorems": [
    "C86_route",
    "C86_unserved",
    "C86_single",
    "C86_empty",
    "C86_spelling_refuted",
    "C86_boundary_refuted"
   ],
   "note": "Close handlers are left out: none of them does anything but log or close the connection. C86_spelling_refuted and C86_boundary_refuted are the stated faults; idmd itself registers one handler only and is not affected."
  },
  {
   "property": "C87",
   "status": "proved",
   "theorems": [
    "C87_syntax",
    "C87_serve",
    "C87_extras",
    "C87_load",
    "C87_export",
    "C87_newusers",
    "C87_passwd",
    "C87_flags",
    "C87_codes",
    "C87_word_refuted"
   ],
   "note": "The syntax of flags is that of the libraries pflag and cobra, which are not part of the repository; numbers are parsed by a parameter. C87_word_refuted is the stated fault."
  },
  {
   "property": "C88",
   "status": "proved",
   "theorems": [
    "C88_same",
    "C88_connections",
    "C88_metrics",
    "C88_moment",
    "C88_completes",
    "C88_add_unanswered",
    "C88_add_stops",
    "C88_anybody"
   ],
   "note": "The registry, names and float64 values of the prometheus library are outside. On the database backend; the mutex is that of C54."
  },
  {
   "property": "C89",
   "status": "proved",
   "theorems": [
    "C89_serial",
    "C89_order",
    "C89_exclusive",
    "C89_waits",
    "C89_gets",
    "C89_ends",
    "C89_life"
   ],
   "note": "bbolt's flock is modelled: exclusive, shared for read-only, no timeout. The file can be opened and has its buckets."
  },
  {
   "property": "C90",
   "status": "proved",
   "theorems": [
    "C90_alone",
    "C90_survives",
    "C90_realised",
    "C90_order",
    "C90_finishes",
    "C90_pages",
    "C90_asks"
   ],
   "note": "Without the overlay. Pumps that do not give up (C50_timeout_refuted is the contrary case), cookies nobody else presents or draws (C62 is the contrary case), no abandoned paged search on the connection for progress (C60)."
  },
  {
   "property": "C91",
   "status": "proved",
   "theorems": [
    "C91_start",
    "C91_reload",
    "C91_first_kept",
    "C91_request",
    "C91_undisturbed",
    "C91_folder",
    "C91_dir",
    "C91_moved_refuted"
   ],
   "note": "What the parser makes of a file is an input (dk_main, dk_conf). Search results are those of C48; paging is C90. C91_moved_refuted is the stated fault."
  },
  {
   "property": "C92",
   "status": "proved",
   "theorems": [
    "C92_kept",
    "C92_same_answer",
    "C92_last_password",
    "C92_gone",
    "C92_renamed",
    "C92_session",
    "C92_successor_refuted",
    "C92_administrator_refuted"
   ],
   "note": "Messages with well-formed names (clean, as C72). C92_successor_refuted and C92_administrator_refuted are the stated faults."
  },
  {
   "property": "C93",
   "status": "proved",
   "theorems": [
    "C93_file",
    "C93_folder",
    "C93_login",
    "C93_nobody_else",
    "C93_not_for_boltdb"
   ],
   "note": "The two libraries in between are taken by laws (renders: plain text stays and string variables are put in; reads: records of safe strings as in RFC 2849), which a small template engine and LDIF reader are proved to satisfy. Hashes are printable. Lines shorter than 65536 bytes (C65)."
  },
  {
   "property": "C94",
   "status": "proved",
   "theorems": [
    "C94_same_answers",
    "C94_restored",
    "C94_fair",
    "C94_fair_along",
    "C94_order_refuted"
   ],
   "note": "Requests without I/O errors of the database (the histories before may have had them). One-level searches need names without escapes in their first part (C42), filters without unsupported comparisons (C39): C94_fair. Restoring (C94_restored) needs a history that renamed no base entry (C27)."
  },
  {
   "property": "C95",
   "status": "proved",
   "theorems": [
    "C95_restored_exactly"
   ],
   "note": "Both servers meet the same environment (I/O errors, crashes, failed sends) at each message; message names well formed (clean), histories without a rename of the base entry as in C27; counters with room for every event."
  },
  {
   "property": "C96",
   "status": "proved",
   "theorems": [
    "C96_listing"
   ],
   "note": "One-level searches of the database (ldbbolt), before the server filters them; names as folded and parsed."
  },
  {
   "property": "C97",
   "status": "proved",
   "theorems": [
    "C97_only_binds_tell",
    "C97_bind",
    "C97_indexed_refuted",
    "C97_others"
   ],
   "note": "Steps of the LDIF server as in LdifConns.v, paging included; the time a step takes is not modelled. C97_indexed_refuted is the witness for the last sentence."
  },
  {
   "property": "C98",
   "status": "proved",
   "theorems": [
    "C98_same_rights",
    "C98_session"
   ],
   "note": "Bound names whose lower-cased form is not empty; the middleware is not in the chain."
  },
  {
   "property": "C99",
   "status": "proved",
   "theorems": [
    "C99_refines",
    "C99_settled",
    "C99_searches_settled",
    "C99_concurrent"
   ],
   "note": "Messages are an identifier and a request without controls; database and socket writes do not fail; names well formed (clean), counters with room."
  },
  {
   "property": "C100",
   "status": "proved",
   "theorems": [
    "C100_session"
   ],
   "note": "Conditions of C99; the requests as encoded in Encode.v (the filter of a search has the same text read from its bytes, C84); identifiers and lengths within the ranges of BER integers and lengths."
  },
  {
   "property": "C101",
   "status": "proved",
   "theorems": [
    "C101_moment",
    "C101_history",
    "C101_concurrent",
    "C101_identity"
   ],
   "note": "Names in the packets well formed (clean), counters with room. Packets may carry controls. The environment of each packet says what fails; no assumption is made about it."
  },
  {
   "property": "C102",
   "status": "proved",
   "theorems": [
    "C102_request",
    "C102_overlay_request",
    "C102_refines",
    "C102_overlay_refines",
    "C102_settled"
   ],
   "note": "Messages are an identifier and a request without controls; socket writes do not fail. Searches are described exactly for ASCII records with plain names and filters the index finds completely (C49, C82); for other searches the records that the index leaves out are not described (C109). With the overlay, for bind names whose lower case is its own lower case."
  },
  {
   "property": "C103",
   "status": "proved",
   "theorems": [
    "C103_concurrent"
   ],
   "note": "Conditions of C102; messages without controls, socket writes do not fail, the pumps of the connection do not give up (C60); no overlay."
  },
  {
   "property": "C104",
   "status": "proved",
   "theorems": [
    "C104_session",
    "C104_overlay"
   ],
   "note": "Conditions of C102; the requests as encoded in Encode.v, lengths below 2^64."
  },
  {
   "property": "C105",
   "status": "proved",
   "theorems": [
    "C105_answer",
    "C105_complete",
    "C105_one_verdict",
    "C105_anonymous"
   ],
   "note": "Socket writes succeed; the controls of the message decode or are refused by the decoder (C37 covers those that panic). Names that fail in the backend only are not faults of the request."
  },
  {
   "property": "C106",
   "status": "proved",
   "theorems": [
    "C106_filter",
    "C106_judgement",
    "C106_supported",
    "C106_no_filter",
    "C106_search"
   ],
   "note": "Socket writes succeed; names_plain as in C43 for base and one-level searches; substring assertions are judged by their first component, as the code does (C39); the filter packet is the one go-ldap compiles."
  },
  {
   "property": "C107",
   "status": "proved",
   "theorems": [
    "C107_place",
    "C107_one_place",
    "C107_plain",
    "C107_search",
    "C107_unlimited"
   ],
   "note": "Socket writes succeed; names are compared by EqualFold of go-ldap as modelled in Dn.v; the filter packet is the one go-ldap compiles."
  },
  {
   "property": "C108",
   "status": "proved",
   "theorems": [
    "C108_answer",
    "C108_complete"
   ],
   "note": "The first socket write of the request succeeds; a random draw is below the number of characters (fair)."
  },
  {
   "property": "C109",
   "status": "proved",
   "theorems": [
    "C109_weighed",
    "C109_search",
    "C109_all_or_nothing"
   ],
   "note": "Socket writes succeed and the pump does not time out; no paging control (C50). Which records an index leaves out is the subject of C49."
  }
 ]
}
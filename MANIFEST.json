{
 "claims": [
  {
   "property": "C01",
   "status": "proved",
   "theorems": [
    "C01_length_counts_characters",
    "C01_length_additive"
   ],
   "note": "All well-formed texts."
  },
  {
   "property": "C02",
   "status": "proved",
   "theorems": [
    "C02_characters_partition",
    "C02_malformed_refuted"
   ],
   "note": "All well-formed texts; for malformed texts the refutation shows a read outside the text."
  },
  {
   "property": "C03",
   "status": "partial",
   "theorems": [
    "C03_from_length_partial",
    "C03_from_length_overrun",
    "C03_from_length_refuted",
    "C03_position_zero_refuted",
    "C03_from_length_backward_partial",
    "C03_from_length_backward_overrun"
   ],
   "note": "Exact characterisation for positions >= 1: right answer in range and for one-byte characters, read outside the text in all other cases (refuted in general). Position 0 answers one character too many."
  },
  {
   "property": "C04",
   "status": "partial",
   "theorems": [
    "C04_offset_partial",
    "C04_offset_overrun",
    "C04_offset_refuted"
   ],
   "note": "Right unless the number of characters < n < number of bytes; then memory behind the text is read (refuted in general)."
  },
  {
   "property": "C05",
   "status": "proved",
   "theorems": [
    "C05_character_at",
    "C05_negative_refuted"
   ],
   "note": "All well-formed texts, n >= 0. Negative n is an out-of-range conversion (refutation witness)."
  },
  {
   "property": "C06",
   "status": "partial",
   "theorems": [
    "C06_equality_partial",
    "C06_equality_exact",
    "C06_inequality_is_negation",
    "C06_equality_equivalence",
    "C06_equality_refuted"
   ],
   "note": "Proved for NUL-free texts; exact characterisation and equivalence relation for all texts; refuted for texts with embedded NUL."
  },
  {
   "property": "C07",
   "status": "partial",
   "theorems": [
    "C07_compare_antisymmetric",
    "C07_compare_partial",
    "C07_compare_same_length",
    "C07_order_messages",
    "C07_compare_zero_refuted",
    "C07_compare_transitive_refuted"
   ],
   "note": "Antisymmetry for all texts; lexicographic on the common length; 'zero only if equal' and transitivity refuted by prefixes."
  },
  {
   "property": "C08",
   "status": "proved",
   "theorems": [
    "C08_concat",
    "C08_append"
   ],
   "note": "All texts."
  },
  {
   "property": "C09",
   "status": "proved",
   "theorems": [
    "C09_replace",
    "C09_replace_empty_pattern",
    "C09_replaced_unique"
   ],
   "note": "All texts; destination buffer never overrun; specification deterministic."
  },
  {
   "property": "C10",
   "status": "partial",
   "theorems": [
    "C10_combine",
    "C10_join_split",
    "C10_split_byte",
    "C10_split_character_partial",
    "C10_split_refuted"
   ],
   "note": "Joining gives the text back for all texts and separators; 'no part contains the separator' for one-byte separators and for one-character separators in well-formed texts; refuted for longer separators. `combine:` on the list is modelled and proved to join."
  },
  {
   "property": "C11",
   "status": "proved",
   "theorems": [
    "C11_find",
    "C11_last",
    "C11_contains",
    "C11_empty_pattern"
   ],
   "note": "All well-formed texts and non-empty patterns; the empty pattern is never found."
  },
  {
   "property": "C12",
   "status": "proved",
   "theorems": [
    "C12_minus"
   ],
   "note": "All texts."
  },
  {
   "property": "C13",
   "status": "proved",
   "theorems": [
    "C13_trim",
    "C13_trimmed_unique"
   ],
   "note": "All texts, white space of the C locale."
  },
  {
   "property": "C14",
   "status": "partial",
   "theorems": [
    "C14_uppercase_partial",
    "C14_lowercase_partial",
    "C14_case_empty_refuted"
   ],
   "note": "Non-empty texts; the empty text makes the interpreter free a string literal (refuted)."
  },
  {
   "property": "C15",
   "status": "partial",
   "theorems": [
    "C15_code_partial",
    "C15_code_defined_partial",
    "C15_backslash_refuted",
    "C15_sign_refuted",
    "C15_far_mark_refuted",
    "C15_end_refuted"
   ],
   "note": "holds for texts without backslash, NUL and the signs \u21b5 \u21ff, with quotation marks only in the first 128 bytes; refuted for each of these otherwise, and undefined for texts that end inside a mark"
  },
  {
   "property": "C16",
   "status": "proved",
   "theorems": [
    "C16_siphash",
    "C16_hash",
    "C16_short_key",
    "C16_every_key",
    "C16_nul_key_refuted",
    "C16_index_hash"
   ],
   "note": "a little-endian machine with unaligned access is assumed; NUL bytes of the key are dropped, so that keys differing in their first 16 bytes may be taken for the same (refuted)"
  },
  {
   "property": "C17",
   "status": "partial",
   "theorems": [
    "C17_grouping_partial",
    "C17_separators_removed_partial",
    "C17_number_text_partial",
    "C17_unequal_separators_refuted",
    "C17_large_number_refuted",
    "C17_reused_block_refuted"
   ],
   "note": "Missing for the full claim: texts longer than the 128/127 byte work arrays, separators of unequal length, numbers above 10^60, memory that is not cleared. All four fail in the code; see findings."
  },
  {
   "property": "C18",
   "status": "partial",
   "theorems": [
    "C18_between_partial",
    "C18_between_onto",
    "C18_overflow_refuted"
   ],
   "note": "Missing: bounds outside int or further apart than an int; refuted there."
  },
  {
   "property": "C19",
   "status": "proved",
   "theorems": [
    "C19_division_by_zero"
   ],
   "note": ""
  },
  {
   "property": "C20",
   "status": "partial",
   "theorems": [
    "C20_order_is_rational_order",
    "C20_trichotomy_partial",
    "C20_parity_partial",
    "C20_nan_refuted",
    "C20_parity_overflow_refuted"
   ],
   "note": "Missing: NaN and truncations outside int; both refuted."
  },
  {
   "property": "C21",
   "status": "proved",
   "theorems": [
    "C21_binary",
    "C21_unary"
   ],
   "note": "the argument may be any object; its conversion may run arbitrary code"
  },
  {
   "property": "C22",
   "status": "proved",
   "theorems": [
    "C22_times",
    "C22_times_complete",
    "C22_count_refuted"
   ],
   "note": "counts outside int are undefined (refuted)"
  },
  {
   "property": "C23",
   "status": "proved",
   "theorems": [
    "C23_while",
    "C23_while_complete",
    "C23_condition_refuted"
   ],
   "note": "continue in the condition is turned into an error (finding)"
  },
  {
   "property": "C24",
   "status": "partial",
   "theorems": [
    "C24_skip",
    "C24_task",
    "C24_stack_refuted",
    "C24_text_refuted",
    "C24_end_refuted",
    "C24_handler_refuted"
   ],
   "note": "skipping, delivery to the innermost handler and clearing are proved; the call stack is not restored, non-text errors and the end of the program reach the handler as \"?\", a handler that is no task is undefined behaviour (all refuted)"
  },
  {
   "property": "C25",
   "status": "proved",
   "theorems": [
    "C25_list_is_sequence",
    "C25_huge_position_refuted"
   ],
   "note": "All histories of the ten operations, positions within int (outside: undefined conversion, witness theorem), fewer than 2^63 elements."
  },
  {
   "property": "C26",
   "status": "partial",
   "theorems": [
    "C26_put_at_partial",
    "C26_put_same",
    "C26_put_other",
    "C26_put_bounds",
    "C26_put_exact",
    "C26_put_after_shift_refuted"
   ],
   "note": "Proved for lists from which nothing was shifted; exact description in general; refuted after a shift (the position is taken absolutely and an element is destroyed)."
  },
  {
   "property": "C27",
   "status": "partial",
   "theorems": [
    "C27_add_partial",
    "C27_copy_partial",
    "C27_copy_exact",
    "C27_copy_after_shift_refuted"
   ],
   "note": "Proved for lists from which nothing was shifted; exact description after shifts (wrong elements, Nil padding); refuted in general."
  },
  {
   "property": "C28",
   "status": "partial",
   "theorems": [
    "C28_find_partial",
    "C28_find_exact",
    "C28_find_after_shift_refuted"
   ],
   "note": "Proved for unshifted lists and NUL-free needles; exact description in general (answer too large by the number of shifted elements); refuted in general."
  },
  {
   "property": "C29",
   "status": "partial",
   "theorems": [
    "C29_minimum_partial",
    "C29_maximum_partial",
    "C29_minimum_exact",
    "C29_minimum_after_shift_refuted"
   ],
   "note": "Proved for unshifted lists for any comparison that is a strict weak order; exact description in general (shifted-off elements still count); refuted in general."
  },
  {
   "property": "C30",
   "status": "partial",
   "theorems": [
    "C30_sub_list",
    "C30_splice_partial",
    "C30_sub_list_prefix",
    "C30_splice_refuted"
   ],
   "note": "from:length: for every list; replace:length:with: for every receiver and unshifted replacement; refuted for a shifted replacement."
  },
  {
   "property": "C31",
   "status": "proved",
   "theorems": [
    "C31_map_is_finite_map",
    "C31_lookup_put_same",
    "C31_lookup_put_other",
    "C31_lookup_delete",
    "C31_keys_distinct",
    "C31_has"
   ],
   "note": "All histories, any hash function (collisions included); items never leak, freed items are never touched."
  },
  {
   "property": "C32",
   "status": "partial",
   "theorems": [
    "C32_each_partial",
    "C32_each_refuted"
   ],
   "note": "Blocks that leave the third argument (the internal copy) alone; refuted for a block that deletes the current entry from it (freed item read)."
  },
  {
   "property": "C33",
   "status": "proved",
   "theorems": [
    "C33_search",
    "C33_method",
    "C33_unknown",
    "C33_unique"
   ],
   "note": "plug-ins are not found"
  },
  {
   "property": "C34",
   "status": "proved",
   "theorems": [
    "C34_read",
    "C34_read_world",
    "C34_read_missing",
    "C34_write",
    "C34_write_missing",
    "C34_declare",
    "C34_own",
    "C34_own_write"
   ],
   "note": "the hash index of properties is covered by C12/C14"
  },
  {
   "property": "C35",
   "status": "proved",
   "theorems": [
    "C35_program",
    "C35_task",
    "C35_message",
    "C35_deep"
   ],
   "note": "the C stack is not modelled"
  },
  {
   "property": "C36",
   "status": "partial",
   "theorems": [
    "C36_collect_exact_partial",
    "C36_collect_stable",
    "C36_prototypes_partial",
    "C36_final_sweep",
    "C36_prototype_refuted",
    "C36_key_contents_refuted",
    "C36_permanent_contents_refuted"
   ],
   "note": "Exact survival (sticky or reachable through elements, keys, values) for plain keys; idempotence; final sweep; prototypes only when permanent or otherwise reachable. Refuted for links, for contents of key objects and for contents of permanent objects. C stack depth not modelled."
  },
  {
   "property": "C37",
   "status": "partial",
   "theorems": [
    "C37_ledger_is_live_total",
    "C37_allocation_within_limit",
    "C37_over_limit_is_refused",
    "C37_reallocate_ignores_limit_refuted"
   ],
   "note": "Ledger exact, zero iff nothing is live, allocations respect and enforce the limit; refuted for ctr_heap_reallocate, which never checks the limit."
  },
  {
   "property": "C38",
   "status": "partial",
   "theorems": [
    "C38_never_undefined",
    "C38_layout",
    "C38_allocate_adds_one_block",
    "C38_free_removes_one_block",
    "C38_reallocate_replaces_one_block",
    "C38_small_pool_refuted",
    "C38_huge_request_refuted"
   ],
   "note": "Requests below 2^31-48 bytes and pools of at least 384 bytes (the pool may be switched on at any time); refuted for pools of 300..383 bytes and for requests of 2^32 bytes."
  },
  {
   "property": "C39",
   "status": "partial",
   "theorems": [
    "C39_token_bounded",
    "C39_safe_partial",
    "C39_reference_refuted",
    "C39_number_refuted"
   ],
   "note": "safe when the next white space or parenthesis is at most 255 bytes away; 256-byte references and numbers refuted; every token makes progress"
  },
  {
   "property": "C40",
   "status": "proved",
   "theorems": [
    "C40_literal",
    "C40_literal_safe",
    "C40_unclosed_refuted"
   ],
   "note": "unclosed literals: refuted finding"
  },
  {
   "property": "C41",
   "status": "proved",
   "theorems": [
    "C41_parse_written",
    "C41_unambiguous",
    "C41_long_keyword_refuted",
    "C41_dropped_token_refuted",
    "C41_every_language"
   ],
   "note": "completeness and unambiguity; the converse fails: programs outside the grammar may be accepted with a token dropped (refuted), and keyword names of 255 bytes overflow the buffer (refuted). Line numbers and error texts are not modelled; thousands separators are left out of the written form"
  },
  {
   "property": "C42",
   "status": "partial",
   "theorems": [
    "C42_round_trip_partial",
    "C42_reverse",
    "C42_layout_refuted",
    "C42_comment_refuted",
    "C42_assign_refuted",
    "C42_escape_refuted"
   ],
   "note": "up to white space before signs (`tidy`), for programs written properly in both languages; white space, comments, escapes and `x:=` refuted"
  },
  {
   "property": "C43",
   "status": "partial",
   "theorems": [
    "C43_elapsed",
    "C43_back",
    "C43_fraction_refuted",
    "C43_unknown",
    "C43_plural_refuted",
    "C43_equal_partial",
    "C43_copy",
    "C43_equal_refuted"
   ],
   "note": "whole amounts up to 2^31, moments up to 285 million years away; `=` only for zones with names of one length, the rest refuted"
  },
  {
   "property": "C44",
   "status": "partial",
   "theorems": [
    "C44_write_read",
    "C44_append",
    "C44_delete",
    "C44_errors",
    "C44_other_files",
    "C44_histories",
    "C44_nul_refuted",
    "C44_short_write_refuted",
    "C44_large_refuted",
    "C44_unreadable_refuted"
   ],
   "note": "histories need paths without NUL bytes, files below 2^31 bytes, and a device that takes all bytes; each is needed (refuted)"
  },
  {
   "property": "C45",
   "status": "partial",
   "theorems": [
    "C45_escape",
    "C45_there_and_back_partial",
    "C45_backslash_refuted",
    "C45_overrun_refuted",
    "C45_twice_refuted"
   ],
   "note": "the round trip holds exactly for texts without a backslash before a meaningful byte; otherwise the text is cut or the block is overrun (refuted)"
  },
  {
   "property": "C46",
   "status": "proved",
   "theorems": [
    "C46_restricted",
    "C46_object",
    "C46_assignment_refuted"
   ],
   "note": "assignments in the text are executed (finding)"
  },
  {
   "property": "C47",
   "status": "proved",
   "theorems": [
    "C47_steps",
    "C47_endless_refuted"
   ],
   "note": "loops whose tasks are empty take no steps: an endless sandboxed program exists (C47_endless_refuted)"
  },
  {
   "property": "C48",
   "status": "partial",
   "theorems": [
    "C48_render_all",
    "C48_render_exact",
    "C48_render_after_failures_refuted"
   ],
   "note": "Exact success condition and effect on the counters; programs rendering only values nested at most 99 deep always succeed; independence of earlier failures refuted (after 99 failures a flat list fails)."
  },
  {
   "property": "C49",
   "status": "partial",
   "theorems": [
    "C49_limit_partial",
    "C49_range",
    "C49_unit_refuted",
    "C49_fraction_refuted",
    "C49_large_refuted",
    "C49_negative_refuted"
   ],
   "note": "other units than KB and MB are ignored, fractions dropped before the unit is applied, products wrap, negative numbers undefined (all refuted)"
  },
  {
   "property": "C50",
   "status": "partial",
   "theorems": [
    "C50_chain_partial",
    "C50_again_partial",
    "C50_obtain",
    "C50_arguments_refuted",
    "C50_obtain_refuted",
    "C50_self_refuted",
    "C50_slurp_refuted"
   ],
   "note": "messages with at most one argument whose value does not read the path that grows; with more arguments they are dropped (refuted)"
  },
  {
   "property": "C51",
   "status": "partial",
   "theorems": [
    "C51_text_history_partial",
    "C51_text_leak_refuted",
    "C51_text_leak_append_refuted"
   ],
   "note": "No leak and no bad free for histories that do not change the case of an empty text nor shrink a text to nothing with replace:with:; both excluded cases are refuted."
  },
  {
   "property": "C52",
   "status": "partial",
   "theorems": [
    "C52_key_change_refuted"
   ],
   "note": "Refuted: changing an entry text in place makes its binding unreachable."
  },
  {
   "property": "C53",
   "status": "partial",
   "theorems": [
    "C53_zero_filled_partial",
    "C53_pool_memory_not_zeroed_refuted"
   ],
   "note": "Holds without the pool; pods handed out for the first time come from malloc and are not cleared."
  },
  {
   "property": "C54",
   "status": "proved",
   "theorems": [
    "C54_rewind_frees_exactly_the_later_blocks",
    "C54_free_rest_releases_all_tracked"
   ],
   "note": "Up to 10^8 tracked blocks (the table size is an int on its way through ctr_pool_bucket)."
  },
  {
   "property": "C55",
   "status": "partial",
   "theorems": [
    "C55_returned_pods_reused_refuted",
    "C55_reuse_partial"
   ],
   "note": "Holds while a never-used pod remains; refuted afterwards."
  },
  {
   "property": "C56",
   "status": "proved",
   "theorems": [
    "C56_fill_in_keyword",
    "C56_fill_in_plain",
    "C56_fill_in_bare_prefix"
   ],
   "note": "An empty message name would read before the buffer (modelled as UB); it cannot be sent."
  },
  {
   "property": "C57",
   "status": "proved",
   "theorems": [
    "C57_text_truth"
   ],
   "note": ""
  },
  {
   "property": "C58",
   "status": "proved",
   "theorems": [
    "C58_arithmetic_rounds",
    "C58_whole_numbers_exact",
    "C58_square_root",
    "C58_perfect_squares"
   ],
   "note": "Results of 2^1023 and more (overflow to infinity) are outside the statement."
  },
  {
   "property": "C59",
   "status": "partial",
   "theorems": [
    "C59_reading_partial",
    "C59_reading_localized_partial",
    "C59_writing_partial",
    "C59_long_text_refuted",
    "C59_large_number_refuted",
    "C59_reused_block_refuted"
   ],
   "note": "Missing: texts longer than 40 bytes, numbers above 10^60, uncleared blocks; refuted there."
  },
  {
   "property": "C60",
   "status": "proved",
   "theorems": [
    "C60_whole_number_text_number",
    "C60_whole_number_digits",
    "C60_text_number_text"
   ],
   "note": ""
  },
  {
   "property": "C61",
   "status": "proved",
   "theorems": [
    "C61_floor",
    "C61_ceil",
    "C61_round",
    "C61_abs"
   ],
   "note": ""
  },
  {
   "property": "C62",
   "status": "partial",
   "theorems": [
    "C62_truth_partial",
    "C62_truth_is_truncated",
    "C62_fraction_refuted",
    "C62_large_refuted"
   ],
   "note": "Holds for whole numbers in int range; refuted for fractions below one (False) and for larger numbers (undefined conversion)."
  },
  {
   "property": "C63",
   "status": "proved",
   "theorems": [
    "C63_modulo"
   ],
   "note": ""
  },
  {
   "property": "C64",
   "status": "partial",
   "theorems": [
    "C64_bits_partial",
    "C64_bits_refuted"
   ],
   "note": "Numbers outside int: the conversion is undefined; refuted."
  },
  {
   "property": "C65",
   "status": "proved",
   "theorems": [
    "C65_parse_ends",
    "C65_parse_bounded"
   ],
   "note": "the recursion depth is linear in the text, so that a deeply nested program can exhaust the C stack; the stack is not modelled"
  },
  {
   "property": "C66",
   "status": "partial",
   "theorems": [
    "C66_parse_partial",
    "C66_open_end_refuted",
    "C66_key_alone_refuted",
    "C66_fraction_refuted",
    "C66_unicode_refuted"
   ],
   "note": "texts outside the language are not all refused: text after the closing bracket is ignored, a key without a value reads outside the tokens, fractions are read with the separators of the dictionary, and some escapes are kept (refuted)"
  },
  {
   "property": "C67",
   "status": "partial",
   "theorems": [
    "C67_there_and_back_partial",
    "C67_any_numbers_partial",
    "C67_thousand_refuted",
    "C67_nested_list_refuted",
    "C67_list_text_refuted",
    "C67_form_feed_refuted"
   ],
   "note": "restricted to texts without NUL, form feed and entangled backslashes (no backslash at all in lists), lists not nested in lists, and whole numbers that the thousands separator does not split; each restriction is needed (refuted)"
  },
  {
   "property": "C68",
   "status": "proved",
   "theorems": [
    "C68_tokens"
   ],
   "note": "texts shorter than 2^31 bytes"
  },
  {
   "property": "C69",
   "status": "partial",
   "theorems": [
    "C69_listing_partial",
    "C69_long_path_refuted"
   ],
   "note": "paths that leave no room for the names overrun the buffer (refuted): the test counts the separator twice instead of the path"
  },
  {
   "property": "C70",
   "status": "partial",
   "theorems": [
    "C70_startup_partial",
    "C70_limit_refuted",
    "C70_share_refuted"
   ],
   "note": "limits up to 2147 MB, shares 1 to 127; beyond refuted"
  },
  {
   "property": "C71",
   "status": "proved",
   "theorems": [
    "C71_argument",
    "C71_argument_safe"
   ],
   "note": "numbers outside int are undefined behaviour (C09)"
  },
  {
   "property": "C72",
   "status": "partial",
   "theorems": [
    "C72_settings_partial",
    "C72_name_refuted",
    "C72_nul_refuted"
   ],
   "note": "names not empty, without equals signs and NUL bytes; the others refuted"
  },
  {
   "property": "C73",
   "status": "partial",
   "theorems": [
    "C73_ask_partial",
    "C73_ask_refuted",
    "C73_input",
    "C73_shell_partial",
    "C73_shell_nul_refuted",
    "C73_shell_refuted"
   ],
   "note": "ask never ends at the end of the input; NUL bytes in the output of commands cut lines; a command that cannot be started is undefined behaviour (refuted)"
  },
  {
   "property": "C74",
   "status": "partial",
   "theorems": [
    "C74_calendar",
    "C74_set_get",
    "C74_overflow_refuted",
    "C74_weekday_refuted"
   ],
   "note": "day of the week and of the year ignore the zone (refuted); dates that do not exist give other dates"
  },
  {
   "property": "C75",
   "status": "partial",
   "theorems": [
    "C75_months_partial",
    "C75_years_partial",
    "C75_month_refuted",
    "C75_summer_refuted"
   ],
   "note": "if the day exists in the new month and summer time is the same there; the others refuted"
  },
  {
   "property": "C76",
   "status": "partial",
   "theorems": [
    "C76_translate_partial",
    "C76_dictionary",
    "C76_one_way",
    "C76_nested_refuted",
    "C76_decimal_refuted",
    "C76_statement_refuted",
    "C76_block_refuted",
    "C76_comment_refuted",
    "C76_comment_number_refuted",
    "C76_escaped_quote_refuted",
    "C76_last_line_refuted",
    "C76_no_prefix_refuted"
   ],
   "note": "programs written properly (`well_formed`): separators in numbers inside of arguments followed by two digits, no dot with a digit two bytes behind, statements in blocks end with a dot, no backslashes in texts, words up to 180 bytes, comments inside of messages without brackets, quotation marks and signs; the rest refuted"
  },
  {
   "property": "C77",
   "status": "partial",
   "theorems": [
    "C77_each_partial",
    "C77_each_live",
    "C77_each_safe",
    "C77_unshift_refuted",
    "C77_shift_refuted"
   ],
   "note": "exact for blocks that leave the list alone or change it without moving the front; adding at the front repeats elements for ever, removed elements are still visited (both refuted)"
  },
  {
   "property": "C78",
   "status": "partial",
   "theorems": [
    "C78_sort_partial",
    "C78_numbers",
    "C78_texts",
    "C78_some_qsort",
    "C78_manual_no_order",
    "C78_manual_refuted",
    "C78_fractions_refuted",
    "C78_large_refuted",
    "C78_nested_refuted"
   ],
   "note": "the answers of the block, cut to int, must order the elements and the block must not sort; the block in the manual, fractions, large differences and nested sorting are refuted. The block is assumed not to change the list"
  },
  {
   "property": "C79",
   "status": "partial",
   "theorems": [
    "C79_by_partial",
    "C79_lookup",
    "C79_no_list",
    "C79_shift_refuted"
   ],
   "note": "lists from which nothing was shifted; refuted otherwise"
  },
  {
   "property": "C80",
   "status": "proved",
   "theorems": [
    "C80_query",
    "C80_any_query",
    "C80_no_query",
    "C80_safe",
    "C80_no_name_refuted",
    "C80_zero_refuted"
   ],
   "note": "fields without a name and NUL bytes are refuted; sizes below 2^31"
  },
  {
   "property": "C81",
   "status": "partial",
   "theorems": [
    "C81_cookies_partial",
    "C81_apostrophe_refuted",
    "C81_no_value_refuted",
    "C81_space_refuted"
   ],
   "note": "values without quotation marks at the start, spaces and semicolons (or quoted); apostrophes, cookies without a value and spaces are refuted"
  },
  {
   "property": "C82",
   "status": "proved",
   "theorems": [
    "C82_post",
    "C82_cut_off",
    "C82_length_refuted"
   ],
   "note": "length below INT_MAX; refuted at INT_MAX"
  },
  {
   "property": "C83",
   "status": "partial",
   "theorems": [
    "C83_form_partial",
    "C83_value",
    "C83_charset_refuted",
    "C83_cut_off_refuted"
   ],
   "note": "bodies as browsers write them (one header line with name and file name, optional type, boundary of ASCII letters); other parameters before the boundary and bodies that break off are refuted"
  },
  {
   "property": "C84",
   "status": "partial",
   "theorems": [
    "C84_file_partial",
    "C84_path_refuted"
   ],
   "note": "one upload per name, no field of the same name; refuted without that"
  },
  {
   "property": "C85",
   "status": "proved",
   "theorems": [
    "C85_left_right",
    "C85_line_feed_refuted"
   ],
   "note": "line ends are CR LF (as `write:` makes them, C91); a bare LF let in by `append:` is refuted"
  },
  {
   "property": "C86",
   "status": "proved",
   "theorems": [
    "C86_home_end"
   ],
   "note": ""
  },
  {
   "property": "C87",
   "status": "partial",
   "theorems": [
    "C87_up_down_partial",
    "C87_pages_partial",
    "C87_empty_line_refuted"
   ],
   "note": "not on the second line below an empty first line: refuted (reads before the text)"
  },
  {
   "property": "C88",
   "status": "partial",
   "theorems": [
    "C88_type",
    "C88_return_tab",
    "C88_after_delete_refuted"
   ],
   "note": "the block must be filled up with zeros, which Delete of a character of several bytes destroys: refuted there; fresh memory is zero (pools off); overlapping memcpy works like memmove"
  },
  {
   "property": "C89",
   "status": "proved",
   "theorems": [
    "C89_backspace",
    "C89_delete",
    "C89_overlap_refuted"
   ],
   "note": "overlapping memcpy works like memmove; refuted by the letter of ISO C"
  },
  {
   "property": "C90",
   "status": "partial",
   "theorems": [
    "C90_select",
    "C90_selected",
    "C90_delete",
    "C90_append",
    "C90_shift_alone_refuted",
    "C90_home_keeps_refuted",
    "C90_other_image_refuted",
    "C90_stale_refuted"
   ],
   "note": "Shift alone, Home/End/Page without Shift, several images and `selected` after `cut` are refuted"
  },
  {
   "property": "C91",
   "status": "proved",
   "theorems": [
    "C91_write",
    "C91_lines",
    "C91_unchanged",
    "C91_write_utf8",
    "C91_last_cr_refuted",
    "C91_no_end_refuted"
   ],
   "note": "fresh memory is zero; a CR at the very end is left alone (refuted as a line end); used memory refuted"
  },
  {
   "property": "C92",
   "status": "partial",
   "theorems": [
    "C92_clipboard_partial",
    "C92_clipboard_refuted"
   ],
   "note": "false for all texts but those of 24, 56 or 120 bytes"
  },
  {
   "property": "C93",
   "status": "partial",
   "theorems": [
    "C93_click_partial",
    "C93_drag",
    "C93_first_character_refuted",
    "C93_no_focus_refuted"
   ],
   "note": "nearest gap if widths grow with the text, and not within the first character of the line (refuted)"
  },
  {
   "property": "C94",
   "status": "proved",
   "theorems": [
    "C94_word"
   ],
   "note": ""
  },
  {
   "property": "C95",
   "status": "partial",
   "theorems": [
    "C95_session_partial"
   ],
   "note": "without Up below an empty first line and without typing after Delete of a character of several bytes (`all_fine`); Shift in C90"
  },
  {
   "property": "C96",
   "status": "partial",
   "theorems": [
    "C96_package_partial",
    "C96_add",
    "C96_missing_file",
    "C96_long_name_refuted",
    "C96_empty_file_refuted",
    "C96_newer_refuted",
    "C96_unopenable_refuted",
    "C96_endless_refuted"
   ],
   "note": "names up to 491 bytes, contents below 2^31 bytes that fit into memory; longer names, empty files and newer versions are refuted; writes succeed; the package embedded in the program is not modelled"
  },
  {
   "property": "C97",
   "status": "proved",
   "theorems": [
    "C97_substitutes",
    "C97_calls",
    "C97_same",
    "C97_like_replace",
    "C97_options",
    "C97_switched_off",
    "C97_errors",
    "C97_empty_match_refuted",
    "C97_caret_refuted",
    "C97_group_lost_refuted",
    "C97_many_options_refuted",
    "C97_nul_refuted",
    "C97_used_memory_refuted",
    "C97_not_text_refuted",
    "C97_no_failure",
    "C97_stays_failed",
    "C97_error_refuted"
   ],
   "note": "proved for patterns that do not stand for the empty text; that one does not end (refuted), ^ matches again behind every match (refuted)"
  },
  {
   "property": "C98",
   "status": "proved",
   "theorems": [
    "C98_matches",
    "C98_bad_pattern",
    "C98_agrees",
    "C98_nul_refuted"
   ],
   "note": "texts without NUL (refuted otherwise)"
  },
  {
   "property": "C99",
   "status": "partial",
   "theorems": [
    "C99_unequal_is_not_equal",
    "C99_same_kind_partial",
    "C99_text_number_partial",
    "C99_symmetry_refuted",
    "C99_transitivity_refuted",
    "C99_nan_refuted"
   ],
   "note": "an equivalence within each kind, except for NaN; symmetry fails for every other pair of kinds except Nil and objects, transitivity fails between kinds (refuted)"
  },
  {
   "property": "C100",
   "status": "partial",
   "theorems": [
    "C100_connectives_partial",
    "C100_laws_partial",
    "C100_number_and_back",
    "C100_wrong_answer",
    "C100_text_and_back_refuted",
    "C100_number_refuted"
   ],
   "note": "whole numbers in the range of int; fractions below one are false and numbers out of the range undefined (refuted)"
  },
  {
   "property": "C101",
   "status": "proved",
   "theorems": [
    "C101_text",
    "C101_same_text",
    "C101_autumn_refuted",
    "C101_number",
    "C101_number_refuted",
    "C101_new_and_back"
   ],
   "note": "C locale; the number of a moment only in languages with the word \"time\" (refuted for the others)"
  },
  {
   "property": "C102",
   "status": "partial",
   "theorems": [
    "C102_order_partial",
    "C102_english_refuted",
    "C102_far_refuted"
   ],
   "note": "years of four digits, 106 of 114 languages; others refuted"
  },
  {
   "property": "C103",
   "status": "proved",
   "theorems": [
    "C103_week",
    "C103_next_week",
    "C103_zone_refuted"
   ],
   "note": "in the zone left by the message before (refuted for the zone of the moment)"
  },
  {
   "property": "C104",
   "status": "partial",
   "theorems": [
    "C104_bytes",
    "C104_new",
    "C104_text",
    "C104_free",
    "C104_shifted_refuted",
    "C104_high_byte_refuted",
    "C104_from_zero_refuted",
    "C104_beyond_refuted"
   ],
   "note": "lists from which nothing was removed at the front, bytes -128 to 127, reading from 1 (refuted otherwise); structures (struct:) not modelled"
  },
  {
   "property": "C105",
   "status": "partial",
   "theorems": [
    "C105_whole",
    "C105_double",
    "C105_float",
    "C105_names",
    "C105_pointer",
    "C105_typed",
    "C105_deref",
    "C105_range_refuted",
    "C105_float_refuted",
    "C105_nil_refuted",
    "C105_unknown_type_refuted",
    "C105_bad_pointer_refuted"
   ],
   "note": "out of range not defined (refuted), libffi sizes of a 64-bit Linux, structures not modelled"
  },
  {
   "property": "C106",
   "status": "partial",
   "theorems": [
    "C106_call",
    "C106_too_many",
    "C106_wrong_count",
    "C106_unknown",
    "C106_shifted_refuted",
    "C106_one_more_refuted",
    "C106_called_anyway_refuted"
   ],
   "note": "exactly as many arguments as the function has; any other number is shown to be undefined (C106_wrong_count)"
  },
  {
   "property": "C107",
   "status": "partial",
   "theorems": [
    "C107_link",
    "C107_link_more",
    "C107_errors",
    "C107_reported",
    "C107_hides_refuted",
    "C107_assets_refuted",
    "C107_no_message_refuted"
   ],
   "note": "refuted: a second function for the same name, assets after linking, a missing message"
  },
  {
   "property": "C108",
   "status": "partial",
   "theorems": [
    "C108_same_function",
    "C108_object_names",
    "C108_send_partial",
    "C108_arguments",
    "C108_exceptions_refuted"
   ],
   "note": "fourteen names in eleven languages cannot be written with the arguments of the English message (refuted for each of them)"
  },
  {
   "property": "C109",
   "status": "partial",
   "theorems": [
    "C109_rings_partial",
    "C109_asked",
    "C109_invalid",
    "C109_looked",
    "C109_safe",
    "C109_reset_refuted",
    "C109_reset_meant",
    "C109_timer_100_refuted",
    "C109_early_refuted",
    "C109_lost_refuted",
    "C109_at_once_refuted"
   ],
   "note": "within 2147483647 ms of the start and by the clock of the frames; refuted: timer 100 and loading the plug-in (write outside of the array), ringing early, lost after 24 days, at once after 49 days"
  },
  {
   "property": "C110",
   "status": "partial",
   "theorems": [
    "C110_apart",
    "C110_beside",
    "C110_run_into",
    "C110_told",
    "C110_touch_refuted",
    "C110_through_refuted",
    "C110_fraction_refuted",
    "C110_twice_refuted"
   ],
   "note": "for shapes that are not turned and images whose front has not left the wall on the other side; refuted: touching (pushed back twice), wide images over thin ones, places off the grid, told once per frame"
  },
  {
   "property": "C111",
   "status": "partial",
   "theorems": [
    "C111_inside",
    "C111_pushed_out_refuted",
    "C111_no_frames_refuted"
   ],
   "note": "after the motion; refuted for the end of the frame (a solid image pushes the player out) and for film strips of 0 frames (division by zero)"
  },
  {
   "property": "C112",
   "status": "partial",
   "theorems": [
    "C112_friction",
    "C112_arrives",
    "C112_rests",
    "C112_destination_refuted",
    "C112_frame_rate_refuted"
   ],
   "note": "refuted: after arrival the image is not at its destination, and friction and acceleration depend on the frame rate"
  },
  {
   "property": "C113",
   "status": "partial",
   "theorems": [
    "C113_heading",
    "C113_angle",
    "C113_turns",
    "C113_driven",
    "C113_jump",
    "C113_safe_partial",
    "C113_released_refuted",
    "C113_frozen_refuted",
    "C113_untouched_refuted",
    "C113_up_forever_refuted",
    "C113_shift_click_refuted"
   ],
   "note": "\"no crash\" only if no button is released without focus; refuted: shift and click crash (NULL), a key still held is forgotten, a frozen player keeps running, in mode 4 the first frame turns to 359, in mode 2 a player with gravity goes up forever"
  },
  {
   "property": "C114",
   "status": "partial",
   "theorems": [
    "C114_on_map",
    "C114_finds_partial",
    "C114_drawn",
    "C114_drawn_only",
    "C114_shakes_refuted",
    "C114_apart_refuted",
    "C114_frames_refuted"
   ],
   "note": "rest only for cameras at least three fifths as high as wide; refuted for wider ones (shakes forever), background and images of one frame use different cameras, 0 frames divide by zero"
  },
  {
   "property": "C115",
   "status": "partial",
   "theorems": [
    "C115_told",
    "C115_inside",
    "C115_edge_refuted",
    "C115_camera_refuted",
    "C115_hidden_refuted"
   ],
   "note": "strictly inside; refuted: the first column and row, images seen through the camera, hidden images"
  },
  {
   "property": "C116",
   "status": "partial",
   "theorems": [
    "C116_plain",
    "C116_any",
    "C116_open_partial",
    "C116_parse_partial",
    "C116_parse_long_partial",
    "C116_tokens",
    "C116_open_refuted",
    "C116_percent_refuted",
    "C116_other_path_refuted",
    "C116_cut_refuted"
   ],
   "note": "paths without percent signs, at most 110 bytes (longer: what is before the hint is cut at 249 bytes); refuted: percent signs in the path (format string), cut within a character and before the line, reason missing in hy, ky, ps"
  },
  {
   "property": "C117",
   "status": "partial",
   "theorems": [
    "C117_lines",
    "C117_once_partial",
    "C117_twice_refuted",
    "C117_quotes_refuted",
    "C117_long",
    "C117_long_refuted"
   ],
   "note": "once only if it succeeds; refuted: a failing command is run a second time, commands with quotes are torn, from 495 bytes nothing is run"
  },
  {
   "property": "C118",
   "status": "partial",
   "theorems": [
    "C118_short_partial",
    "C118_nul",
    "C118_collected",
    "C118_overread_refuted"
   ],
   "note": "only replies below 10 bytes (or of 24, 56, 120) end with a NUL inside the block; all others without NUL are proved to be read beyond it (refuted)"
  },
  {
   "property": "C119",
   "status": "partial",
   "theorems": [
    "C119_command_line_partial",
    "C119_memory_partial",
    "C119_plugin_partial",
    "C119_same_plugin_partial",
    "C119_missing_refuted",
    "C119_cut_refuted",
    "C119_prefix_refuted",
    "C119_memory_refuted",
    "C119_plugin_refuted"
   ],
   "note": "names up to 254 bytes (504 for plug-ins, ASCII), limits to 2147 MB, shares 1 to 127; the rest is refuted"
  },
  {
   "property": "C120",
   "status": "proved",
   "theorems": [
    "C120_written",
    "C120_faithful",
    "C120_any_tree"
   ],
   "note": "recursion depth is not modelled"
  },
  {
   "property": "C121",
   "status": "partial",
   "theorems": [
    "C121_generated_partial",
    "C121_mismatch",
    "C121_read",
    "C121_usable",
    "C121_ends",
    "C121_first_modifier_refuted",
    "C121_shorter_refuted",
    "C121_empty_refuted",
    "C121_leak_refuted",
    "C121_keys_refuted",
    "C121_long_refuted",
    "C121_modifiers_refuted"
   ],
   "note": "words below 180 bytes, modifiers only in the second header and not in rows for code generation, one key for texts; the rest is refuted"
  },
  {
   "property": "C122",
   "status": "proved",
   "theorems": [
    "C122_languages",
    "C122_translate",
    "C122_back"
   ],
   "note": "programs as in C76 (well_formed); two languages (cs, hy) have signs for which translate is not proved as the source"
  },
  {
   "property": "C123",
   "status": "partial",
   "theorems": [
    "C123_draw_partial",
    "C123_write_partial",
    "C123_history_partial",
    "C123_pieces",
    "C123_no_font",
    "C123_font_refuted",
    "C123_highlight_refuted",
    "C123_two_refuted",
    "C123_rows_refuted",
    "C123_outside_refuted"
   ],
   "note": "a colour set between writings with different looks, at most 31 lines by default (cache of 400 lines); the rest is refuted: stale fonts, highlights and colours of other images, lines not drawn, a write outside the cache"
  },
  {
   "property": "C124",
   "status": "partial",
   "theorems": [
    "C124_cursor_partial",
    "C124_scrolls_partial",
    "C124_stays_partial",
    "C124_newline_refuted"
   ],
   "note": "lines end with CR LF as write: leaves them; with an inserted LF refuted"
  },
  {
   "property": "C125",
   "status": "partial",
   "theorems": [
    "C125_history_partial",
    "C125_images_refuted",
    "C125_music_refuted",
    "C125_shown_refuted",
    "C125_player_refuted",
    "C125_eleven_fonts_refuted",
    "C125_leak_refuted"
   ],
   "note": "histories within the limits in which the collector takes neither a visible picture nor the player; the rest is refuted: 101st image, 51st piece of music, the eleventh font used, a shown image collected, the player collected, leaks"
  },
  {
   "property": "C126",
   "status": "partial",
   "theorems": [
    "C126_url_partial",
    "C126_decode",
    "C126_query_partial",
    "C126_varlist_partial",
    "C126_keep_refuted",
    "C126_no_name_refuted"
   ],
   "note": "kept letters without a meaning of their own and non-empty names; the rest is refuted"
  },
  {
   "property": "C127",
   "status": "proved",
   "theorems": [
    "C127_base64",
    "C127_decode",
    "C127_hex",
    "C127_unhex"
   ],
   "note": "at most about half a billion bytes (the sizes are computed as int)"
  },
  {
   "property": "C128",
   "status": "proved",
   "theorems": [
    "C128_entities",
    "C128_clean"
   ],
   "note": ""
  },
  {
   "property": "C129",
   "status": "partial",
   "theorems": [
    "C129_film_partial",
    "C129_walk_partial",
    "C129_still",
    "C129_inside",
    "C129_order",
    "C129_asked",
    "C129_place",
    "C129_clock_refuted",
    "C129_zero_refuted",
    "C129_rate_refuted",
    "C129_left_refuted",
    "C129_narrow_refuted"
   ],
   "note": "frames narrower than the strip, rates above 0, positions right of the border, 24 days; the rest is refuted"
  },
  {
   "property": "C130",
   "status": "partial",
   "theorems": [
    "C130_above_partial",
    "C130_racing",
    "C130_platform_partial",
    "C130_hover",
    "C130_plain",
    "C130_asked",
    "C130_frame",
    "C130_above_refuted",
    "C130_platform_refuted",
    "C130_others_refuted",
    "C130_hidden_refuted",
    "C130_forgets_refuted"
   ],
   "note": "main directions seen from above, all directions in mode 4, the hovering player; the rest is refuted"
  },
  {
   "property": "C131",
   "status": "partial",
   "theorems": [
    "C131_whole_partial",
    "C131_beginning",
    "C131_missing",
    "C131_error_refuted"
   ],
   "note": "an error of reading is taken for the end of the file (refuted)"
  },
  {
   "property": "C132",
   "status": "partial",
   "theorems": [
    "C132_png_partial",
    "C132_other_partial",
    "C132_exactly",
    "C132_missing",
    "C132_jpeg_never",
    "C132_jpeg_refuted",
    "C132_empty_refuted"
   ],
   "note": "no JPEG file is accepted (proved for all of them); signatures without a picture are (refuted)"
  },
  {
   "property": "C133",
   "status": "partial",
   "theorems": [
    "C133_draw_partial",
    "C133_follows",
    "C133_place",
    "C133_stays",
    "C133_colour_partial",
    "C133_transparency",
    "C133_opaque",
    "C133_new",
    "C133_new_point",
    "C133_until_nil",
    "C133_alias_refuted",
    "C133_no_ends_refuted",
    "C133_screen_refuted",
    "C133_bright_refuted",
    "C133_no_list_refuted"
   ],
   "note": "images with a texture, whole numbers in range, numbers of colours that nobody changes; the rest is refuted"
  },
  {
   "property": "C134",
   "status": "partial",
   "theorems": [
    "C134_settings",
    "C134_player",
    "C134_apart",
    "C134_place_partial",
    "C134_place_refuted",
    "C134_freeze_refuted",
    "C134_jump_refuted",
    "C134_half_refuted",
    "C134_mode_refuted"
   ],
   "note": "settings and player for every history with listeners that send no messages (what listeners say would be further messages); y?, freeze: and jump-height: refuted"
  },
  {
   "property": "C135",
   "status": "partial",
   "theorems": [
    "C135_axes",
    "C135_quarters_partial",
    "C135_destination",
    "C135_here_refuted"
   ],
   "note": "how near the angle is within the quarter is up to atan2"
  },
  {
   "property": "C136",
   "status": "partial",
   "theorems": [
    "C136_environment_partial",
    "C136_lookup_partial",
    "C136_any_partial",
    "C136_length_refuted",
    "C136_forged_refuted",
    "C136_malformed_refuted",
    "C136_short_refuted"
   ],
   "note": "numbers up to 2147483599 and variables of at least four bytes together; names without = for the lookup; the rest is refuted"
  },
  {
   "property": "C137",
   "status": "partial",
   "theorems": [
    "C137_limits_partial",
    "C137_limits_refuted",
    "C137_counts",
    "C137_truth_partial",
    "C137_enough",
    "C137_kill",
    "C137_stuck_partial",
    "C137_wakes",
    "C137_hang_refuted",
    "C137_kill_refuted",
    "C137_truth_refuted"
   ],
   "note": "SIGTERM to the parent is left out; the refutations show a server that hangs, a busy child that is killed and a number used again"
  },
  {
   "property": "C138",
   "status": "partial",
   "theorems": [
    "C138_round_partial",
    "C138_genuine",
    "C138_safe_partial",
    "C138_empty_refuted"
   ],
   "note": "no claim that the cipher hides anything; nothing can be sealed that is empty (refuted)"
  },
  {
   "property": "C139",
   "status": "partial",
   "theorems": [
    "C139_languages",
    "C139_heard_partial",
    "C139_all_partial",
    "C139_no_more",
    "C139_error",
    "C139_leave",
    "C139_object_refuted",
    "C139_nil_refuted",
    "C139_end_refuted",
    "C139_click_refuted",
    "C139_nested_refuted"
   ],
   "note": "for programs that give listeners to Media objects and do not catch the error of taking one away; otherwise refuted. Nested screens are refuted"
  },
  {
   "property": "C140",
   "status": "partial",
   "theorems": [
    "C140_rows_partial",
    "C140_parameters_partial",
    "C140_close",
    "C140_parameters_refuted",
    "C140_capital_refuted",
    "C140_other_refuted",
    "C140_twice_refuted",
    "C140_missing_refuted"
   ],
   "note": "parameters are wrong unless there are none (proved exactly, refuted); names with capitals or quotes, names used twice and missing values are refuted"
  },
  {
   "property": "C141",
   "status": "partial",
   "theorems": [
    "C141_equal",
    "C141_prototype",
    "C141_from_hash_partial",
    "C141_loaded_refuted",
    "C141_thing_refuted",
    "C141_shared_refuted"
   ],
   "note": "hashes without a zero byte, things that are no texts, and sharing are refuted; no claim that hashes hide anything"
  },
  {
   "property": "C142",
   "status": "partial",
   "theorems": [
    "C142_brew_partial",
    "C142_variable_refuted",
    "C142_same_refuted",
    "C142_add_refuted"
   ],
   "note": "for two different numbers; sharing with variables and with one another, and pouring twice, are refuted"
  },
  {
   "property": "C143",
   "status": "partial",
   "theorems": [
    "C143_one_layout",
    "C143_structures_partial",
    "C143_unknown_refuted",
    "C143_shifted_refuted",
    "C143_early_refuted",
    "C143_value_refuted",
    "C143_twice_refuted",
    "C143_answer_refuted",
    "C143_nolist_refuted",
    "C143_release"
   ],
   "note": "libffi is trusted to lay out as its source says and to read the elements again in a call; unknown names, shifted lists, copies before linking, small Blobs, numbers, releasing twice, and answers that are structures are refuted"
  },
  {
   "property": "C144",
   "status": "partial",
   "theorems": [
    "C144_shown",
    "C144_images",
    "C144_on_background_partial",
    "C144_whole_partial",
    "C144_pace",
    "C144_finds_partial",
    "C144_enlarged",
    "C144_steady",
    "C144_off_refuted",
    "C144_grow_refuted",
    "C144_speed_refuted",
    "C144_corner_refuted",
    "C144_stays_refuted"
   ],
   "note": "SDL scales and clips; a camera that changes its size or is switched off during a screen, its speed, a corner of 0,0 and the enlarging that outlives its screen are refuted"
  },
  {
   "property": "C145",
   "status": "partial",
   "theorems": [
    "C145_settings",
    "C145_click_partial",
    "C145_cursor_partial",
    "C145_back_partial",
    "C145_negative_refuted",
    "C145_between_refuted",
    "C145_huge_refuted"
   ],
   "note": "the width of texts is that of the font library; alignments below 0, images between pixels and huge heights are refuted"
  },
  {
   "property": "C146",
   "status": "partial",
   "theorems": [
    "C146_kept_partial",
    "C146_words",
    "C146_shared_refuted",
    "C146_copy_refuted",
    "C146_arguments_refuted"
   ],
   "note": "the words must be no messages of numbers; changing a text that is a unit, and unknown messages with four or more arguments, are refuted"
  },
  {
   "property": "C147",
   "status": "partial",
   "theorems": [
    "C147_same_function_partial",
    "C147_object_names",
    "C147_send_partial",
    "C147_arguments",
    "C147_events",
    "C147_events_written",
    "C147_spanish_refuted",
    "C147_send_refuted"
   ],
   "note": "one message is hidden in Spanish and six cannot be written in Hindi, Persian and Italian, all refuted"
  },
  {
   "property": "C148",
   "status": "partial",
   "theorems": [
    "C148_dictionaries",
    "C148_texts_partial",
    "C148_collision_refuted",
    "C148_end_refuted",
    "C148_full_stop_refuted"
   ],
   "note": "the texts collision: and end are not translated, and the text of a full stop is, all refuted"
  },
  {
   "property": "C149",
   "status": "partial",
   "theorems": [
    "C149_messages",
    "C149_send",
    "C149_name",
    "C149_loaded_partial",
    "C149_dutch_json_refuted"
   ],
   "note": "the Json of Dutch is compiled without its flag and cannot be reached, refuted"
  },
  {
   "property": "C150",
   "status": "partial",
   "theorems": [
    "C150_same_program_partial",
    "C150_languages",
    "C150_single_refuted"
   ],
   "note": "programs properly written in both languages, texts without the signs for new lines and tabs, message names that keep one or several characters; without that refuted"
  }
 ]
}
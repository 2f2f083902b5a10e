{
 "claims": [
  {
   "property": "C01",
   "status": "proved",
   "theorems": [
    "C01_static_text_literal_roundtrip",
    "C01_static_text_emitted",
    "C01_repr_roundtrip",
    "C01_repr_one_line"
   ],
   "note": "Full statement: for every text of code points <= 0x10FFFF and any printability table."
  },
  {
   "property": "C02",
   "status": "proved",
   "theorems": [
    "C02_token_free_verbatim"
   ],
   "note": "For all settings and all sources; the rendering is what the literals of the generated write statements denote (specification of Python literals of C01)."
  },
  {
   "property": "C03",
   "status": "partial",
   "theorems": [
    "C03_escaped_text_partial",
    "C03_unescape",
    "C03_other_backslashes_stay",
    "C03_hash_at_eol_refuted",
    "C03_psp_refuted"
   ],
   "note": "Proved for the default tokens and texts without the PSP token and without a hash sign at the end of a line; both exclusions are necessary (two refutations). Unescaping is characterised exactly for all one-character tokens."
  },
  {
   "property": "C04",
   "status": "proved",
   "theorems": [
    "C04_first_namespace_wins",
    "C04_later_namespaces_irrelevant"
   ],
   "note": "First namespace having the first chunk decides (value or failure); later namespaces irrelevant. Assumes introspection attributes raise nothing but AttributeError (introspectable) and objects have __class__/__init__ (modern, true of every Python 3 object)."
  },
  {
   "property": "C05",
   "status": "proved",
   "theorems": [
    "C05_dotted_lookup",
    "C05_lookup_deterministic"
   ],
   "note": "Lookup agrees with an inductive specification of the walk (keys before attributes, autocalling after every step) and that relation is functional."
  },
  {
   "property": "C06",
   "status": "proved",
   "theorems": [
    "C06_notfound_iff",
    "C06_notfound_iff_any_code",
    "C06_value_iff"
   ],
   "note": "NotFound iff; general version (any user code) and the clean one assuming user code raises no NotFound of its own; value iff."
  },
  {
   "property": "C07",
   "status": "proved",
   "theorems": [
    "C07_frame_lookup_is_concatenated_search",
    "C07_frame_lookup_c_version",
    "C07_lookup_order"
   ],
   "note": "Python and C frame lookups equal the search through locals, search list, globals, builtins; order spelled out."
  },
  {
   "property": "C08",
   "status": "partial",
   "theorems": [
    "C08_c_version_agrees_partial",
    "C08_c_valueForName_agrees_partial",
    "C08_c_frame_lookup_agrees_partial",
    "C08_trailing_dot_refuted",
    "C08_many_chunks_refuted",
    "C08_empty_name_refuted",
    "C08_duck_mapping_refuted",
    "C08_defaultdict_refuted",
    "C08_failing_property_refuted",
    "C08_class_named_function_refuted"
   ],
   "note": "The three entry points proved equal for names of 1 to 14 chunks not ending in a dot and objects both versions classify alike; seven disagreements refuted by witness."
  },
  {
   "property": "C09",
   "status": "proved",
   "theorems": [
    "C09_exists_iff_getvar",
    "C09_not_exists_iff_notfound",
    "C09_same_other_exceptions",
    "C09_default_used_iff_missing"
   ],
   "note": "varExists/getVar agree in value, NotFound and other exceptions; default used iff varExists is false."
  },
  {
   "property": "C10",
   "status": "proved",
   "theorems": [
    "C10_html_roundtrip",
    "C10_html_no_raw",
    "C10_html_ampersands",
    "C10_html_injective"
   ],
   "note": "Full statement plus injectivity."
  },
  {
   "property": "C11",
   "status": "partial",
   "theorems": [
    "C11_websafe_safe",
    "C11_websafe_ampersands",
    "C11_websafe_lossless",
    "C11_websafe_also_partial",
    "C11_websafe_also_ampersands_partial",
    "C11_websafe_also_lossless_partial",
    "C11_websafe_also_refuted",
    "C11_websafe_also_entity_refuted"
   ],
   "note": "Proved for the filter without 'also'. With 'also' proved when no listed character occurs in entity notation (& # ; digits and letters of entity names); refuted by witness otherwise (also='1e', also=';')."
  },
  {
   "property": "C12",
   "status": "proved",
   "theorems": [
    "C12_maxlen_prefix",
    "C12_maxlen_length",
    "C12_maxlen_negative"
   ],
   "note": "Prefix for every limit, min(n,len) for every n>=0; a negative limit drops characters from the end (separate theorem)."
  },
  {
   "property": "C13",
   "status": "proved",
   "theorems": [
    "C13_strip_lines",
    "C13_lines_unique",
    "C13_trimmed_unique",
    "C13_strip_idempotent",
    "C13_stripsqueeze_words",
    "C13_stripsqueeze_blanks",
    "C13_stripsqueeze_idempotent"
   ],
   "note": "Line-by-line relation (lines and trimming specified relationally, both proved functional), word sequence kept, isolated single spaces, idempotence."
  },
  {
   "property": "C14",
   "status": "partial",
   "theorems": [
    "C14_store_refines_map_partial",
    "C14_get_returns_last_write",
    "C14_replace_refuted",
    "C14_replace_present_refuted",
    "C14_add_expired_refuted"
   ],
   "note": "Reading proved for all histories (get returns the last successful unexpired write). Full map contract proved without replace and without add/delete on keys past their expiry; refuted for replace (inverted test) and for add on an expired unread key."
  },
  {
   "property": "C15",
   "status": "proved",
   "theorems": [
    "C15_serve_or_execute",
    "C15_never_stale",
    "C15_served_while_fresh"
   ],
   "note": "Soundness and liveness over all histories of renderings and refreshes of all templates sharing a store; assumes collision-free digest on the ids used, colon-free distinct prefixes, positive intervals, non-decreasing positive clock. Body does not itself use the template's cache."
  },
  {
   "property": "C16",
   "status": "partial",
   "theorems": [
    "C16_keys_distinct",
    "C16_items_isolated",
    "C16_colon_prefix_refuted",
    "C16_varyby_values_refuted"
   ],
   "note": "Isolation for colon-free distinct prefixes (the default str(id)); refuted for custom prefixes containing a colon and for varyBy values with equal str."
  },
  {
   "property": "C17",
   "status": "partial",
   "theorems": [
    "C17_refreshed_is_not_served",
    "C17_unaffected_still_served",
    "C17_refresh_never_raises_partial",
    "C17_unknown_item_refuted",
    "C17_refresh_after_item_refuted"
   ],
   "note": "Refreshed items are re-executed, others still served (full). Never raises: proved without failed renderings and single-item refreshes, refuted otherwise (KeyError), also leaving the remaining regions cached."
  },
  {
   "property": "C18",
   "status": "partial",
   "theorems": [
    "C18_merge_refines_trees",
    "C18_merge_lookup",
    "C18_new_leaves_win",
    "C18_old_values_kept",
    "C18_empty_identity",
    "C18_idempotent",
    "C18_associative_refuted",
    "C18_associative_partial",
    "C18_update_without_merge"
   ],
   "note": "Heap-level code refines the merge of trees (termination included) when the arguments share nothing; lookup, path, identity and idempotence laws; associativity refuted in general and proved when the middle argument replaces no dictionary by something else."
  },
  {
   "property": "C19",
   "status": "partial",
   "theorems": [
    "C19_deepcopy_keeps_arguments",
    "C19_second_argument_kept",
    "C19_copy_partial",
    "C19_copy_refuted",
    "C19_result_aliases_second_refuted",
    "C19_two_updates_refuted"
   ],
   "note": "Plain merge leaves dict2 and everything outside dict1 alone; deepcopy leaves the whole caller heap alone. Refuted: copy=True modifies nested dictionaries of dict1; nested dictionaries of dict2 become shared with the result, so a second updateSettings modifies the dictionary given to the first."
  },
  {
   "property": "C20",
   "status": "partial",
   "theorems": [
    "C20_same_options_partial",
    "C20_repeat_hits",
    "C20_class_and_module_refuted",
    "C20_nested_settings_refuted"
   ],
   "note": "For every history of calls: a returned class was built by an earlier call of the history, and the two calls agree on all options when their keys differ in at most one component (hash collisions excluded); a repeated call hits. The unrestricted statement is false: components are concatenated without separators (class a/module bc vs ab/c) and settings {} and [] hash alike."
  },
  {
   "property": "C21",
   "status": "proved",
   "theorems": [
    "C21_own_module",
    "C21_one_call_inside",
    "C21_interrupt_refuted",
    "C21_import_replaced_refuted"
   ],
   "note": "All schedules of any number of threads, nested calls and imports by other code. Excluded and refuted separately: a KeyboardInterrupt while waiting for the lock (acquire is inside the try). Also shown: a module imported meanwhile under the chosen name is replaced."
  },
  {
   "property": "C22",
   "status": "partial",
   "theorems": [
    "C22_lock_held_iff_inside",
    "C22_failure_frees_lock",
    "C22_nested_compile_refuted",
    "C22_interrupt_refuted"
   ],
   "note": "Lock held iff a call is inside; every exception inside leads to the release. Refuted: a compile call made by the module code being compiled deadlocks (threading.Lock is not reentrant); an interrupt during the wait releases somebody else's lock."
  },
  {
   "property": "C23",
   "status": "partial",
   "theorems": [
    "C23_exclusion_partial",
    "C23_released_at_outermost_partial",
    "C23_reentrant_partial",
    "C23_exclusion_refuted",
    "C23_exception_keeps_lock_refuted"
   ],
   "note": "Proved only under the assumption that nobody moves between obtaining the lock and writing locker/lockcount and that no import raises inside; both assumptions are necessary (refutations). On Python 3 the threaded mode is never entered (no module named thread)."
  },
  {
   "property": "C24",
   "status": "partial",
   "theorems": [
    "C24_pool",
    "C24_success_means_success_partial",
    "C24_killed_child_refuted"
   ],
   "note": "All pool sizes, bundle lists, choices of os.wait and child endings (children identified with bundles; fork failures not modelled). Refuted: a child killed by a signal has WEXITSTATUS 0 and counts as success."
  },
  {
   "property": "C25",
   "status": "partial",
   "theorems": [
    "C25_flat_checked",
    "C25_plain_sources_partial",
    "C25_extension_refuted",
    "C25_outside_idir_refuted",
    "C25_absolute_sources_refuted",
    "C25_same_source_twice_refuted",
    "C25_destination",
    "C25_flat_destination",
    "C25_extension_dot",
    "C25_outside_odir_refuted",
    "C25_output_path_refuted"
   ],
   "note": "With --flat the collision check is complete and exact. Without --flat only plain sources (below idir, with the input extension, relative base) are proved collision free; other sources can collide silently (refuted), a repeated source aborts a flat run, and the output-directory search can crash or loop (refuted)."
  },
  {
   "property": "C26",
   "status": "proved",
   "theorems": [
    "C26_failed_compile_touches_nothing",
    "C26_backup_safe",
    "C26_done",
    "C26_nobackup_refuted"
   ],
   "note": "All crash prefixes and all chunkings of copy and write; proved for runs with backups; the nobackup run is refuted. The model has no partial rename or disk-full failures other than stopping."
  },
  {
   "property": "C27",
   "status": "proved",
   "theorems": [
    "C27_makes_package_dirs",
    "C27_file_in_place_refuted",
    "C27_interrupted_refuted"
   ],
   "note": "File system of places (no symbolic links, no . and .. components). Proved: result directories, marker files, nothing else touched, termination. Refuted: a file already at the path counts as success; an interrupted call is not repaired by a second one."
  },
  {
   "property": "C28",
   "status": "proved",
   "theorems": [
    "C28_roman_value",
    "C28_roman_standard",
    "C28_roman_injective",
    "C28_nonpositive_raises"
   ],
   "note": "Roman numerals for every integer n >= 1; n < 1 raises TypeError instead of the intended ValueError (finding)."
  },
  {
   "property": "C29",
   "status": "proved",
   "theorems": [
    "C29_name_parts_exist",
    "C29_short_name",
    "C29_multi",
    "C29_single",
    "C29_conversion_total",
    "C29_unknown_suffix",
    "C29_webinput_dictionary",
    "C29_webinput_failure"
   ],
   "note": "Lookup specified relationally; int()/float() are oracles (the converter function). Source selection modelled (select_source). Finding: an unknown src letter raises TypeError although the docstring promises ValueError; a bad element after the first makes a single-valued lookup fail."
  },
  {
   "property": "C30",
   "status": "partial",
   "theorems": [
    "C30_include_partial",
    "C30_first_wins",
    "C30_raw_and_not_refuted",
    "C30_source_after_file_refuted",
    "C30_stale_search_list_refuted",
    "C30_raw_file_object_refuted"
   ],
   "note": "Proved for #includes whose earlier namesakes are of the same kind and text; exact first-wins law proved; refuted for mixed kinds, source after file, later web input and raw file objects (memo keyed only by the argument)."
  },
  {
   "property": "C31",
   "status": "partial",
   "theorems": [
    "C31_version_order",
    "C31_check_rejects_older",
    "C31_unreadable_version_refuted"
   ],
   "note": "Order and check proved for the documented forms; other forms switch the check off (C31_unreadable_version_refuted). int() on non-ASCII digits not modelled."
  },
  {
   "property": "C32",
   "status": "partial",
   "theorems": [
    "C32_identifier_characters_partial",
    "C32_identifier_characters_refuted",
    "C32_distinct_paths_partial",
    "C32_distinct_paths_refuted"
   ],
   "note": "Proved for characters below 256 / one separator; false in general (both refuted with witnesses). POSIX splitdrive."
  },
  {
   "property": "C33",
   "status": "partial",
   "theorems": [
    "C33_window_partial",
    "C33_outside_raises",
    "C33_inside_moves",
    "C33_failure_changes_nothing",
    "C33_reads_between",
    "C33_getc_reads_one",
    "C33_white_space_maximal",
    "C33_non_white_space_maximal",
    "C33_read_to_eol",
    "C33_startswith_here",
    "C33_clear_line",
    "C33_ungetc_refuted",
    "C33_break_point_refuted",
    "C33_beyond_break_point_refuted",
    "C33_read_back_refuted"
   ],
   "note": "All operation sequences except the two operations that leave the window (refuted separately); reads, errors, maximal white space, end of line, startswith and clear-line tests are exact."
  },
  {
   "property": "C34",
   "status": "partial",
   "theorems": [
    "C34_row_col",
    "C34_recover_position",
    "C34_row_col_unique",
    "C34_when_defined",
    "C34_total_refuted",
    "C34_line_partial",
    "C34_line_refuted"
   ],
   "note": "Row/column characterised exactly for every source and position; not total (refuted at three kinds of positions); the line text needs sources without exotic line boundaries (refuted otherwise)."
  },
  {
   "property": "C35",
   "status": "proved",
   "theorems": [
    "C35_whole_names"
   ],
   "note": "Exact characterisation of matchDirective for all settings, names and positions."
  },
  {
   "property": "C36",
   "status": "partial",
   "theorems": [
    "C36_nesting",
    "C36_errors",
    "C36_first_word_refuted",
    "C36_first_word_crash_refuted",
    "C36_first_word_level_refuted",
    "C36_short_block_refuted",
    "C36_end_prefix_refuted"
   ],
   "note": "Proved for all event sequences the parser can hand over, short forms included (C36_nesting; C36_errors says which ParseError). Excluded by 'regular', and refuted separately: #echo/#silent whose first word is a directive name, one-line #block inside #def; #end accepts any name that starts with a directive name."
  },
  {
   "property": "C37",
   "status": "partial",
   "theorems": [
    "C37_layout",
    "C37_layout_unique",
    "C37_level_floor",
    "C37_indentation_text",
    "C37_grammar",
    "C37_empty_body_refuted",
    "C37_stray_else_refuted",
    "C37_crossing_refuted",
    "C37_short_closure_refuted",
    "C37_header_colon"
   ],
   "note": "Proved for all templates given as trees (all directives, short and long forms, regions, nested defs): exact layout, unique reading, floor of the level, grammaticality. Excluded by 'sane' and refuted: one-line closures ending in text; sequences that are no trees (stray #else, crossing one-line forms)."
  },
  {
   "property": "C38",
   "status": "partial",
   "theorems": [
    "C38_capture_partial",
    "C38_exception_refuted",
    "C38_stop_refuted",
    "C38_same_id_refuted"
   ],
   "note": "C38_capture_partial: for every body (any nesting of regions, loops, ...) that ends normally. Bodies left by an exception, #stop, #return: refuted (C38_exception_refuted, C38_stop_refuted). Identifiers of nested regions must differ (C38_same_id_refuted)."
  },
  {
   "property": "C39",
   "status": "partial",
   "theorems": [
    "C39_filter_class_partial",
    "C39_filter_known_partial",
    "C39_filter_new_partial",
    "C39_none_refuted",
    "C39_exception_refuted"
   ],
   "note": "Three forms: class, name used before, name used first. Missing: bodies left by an exception (C39_exception_refuted) and #filter None (C39_none_refuted)."
  },
  {
   "property": "C40",
   "status": "partial",
   "theorems": [
    "C40_call_partial",
    "C40_call_args_partial",
    "C40_exception_refuted"
   ],
   "note": "Without and with #arg parts. Missing: bodies left by an exception (C40_exception_refuted)."
  },
  {
   "property": "C41",
   "status": "partial",
   "theorems": [
    "C41_args",
    "C41_first_close",
    "C41_subscript",
    "C41_expression",
    "C41_errors",
    "C41_placeholder_errors",
    "C41_copied",
    "C41_own_bracket_refuted"
   ],
   "note": "Proved for every source and every tokenizer that gives non-empty tokens and single opening brackets: arguments, subscripts and expressions end at balanced positions, code is balanced (sources without c-strings), errors point at the responsible bracket. Refuted: a subscript stops at its own bracket - a bracket directly after it is read too."
  },
  {
   "property": "C42",
   "status": "partial",
   "theorems": [
    "C42_comment_vanishes_partial",
    "C42_comment_alone",
    "C42_adjacent_end_refuted",
    "C42_unclosed_refuted",
    "C42_nested_at_end_refuted"
   ],
   "note": "Whole documents text/comment/text with arbitrarily nested comments, and the exact white space for a comment alone on its lines. Refuted: nested comment ending directly before the outer end, unclosed comment, nested end at the end of the source."
  },
  {
   "property": "C43",
   "status": "partial",
   "theorems": [
    "C43_comment_lines",
    "C43_comment_line",
    "C43_slurp_line",
    "C43_expression_line",
    "C43_block_line",
    "C43_raw_refuted",
    "C43_last_line_refuted"
   ],
   "note": "Whole documents of text and comment lines; per-directive theorems for comments, slurp, expression directives and block directives with the expression reader as an oracle. Refuted: text before a #raw block is lost, block directive at the very end of the source."
  },
  {
   "property": "C44",
   "status": "partial",
   "theorems": [
    "C44_order",
    "C44_prioritised_partial",
    "C44_prioritised_tuple_refuted",
    "C44_both",
    "C44_history",
    "C44_included"
   ],
   "note": "Order, second initialisation, both arguments, history with web input and nested lists proved; prioritised namespaces given as a tuple are a TypeError (refuted)."
  },
  {
   "property": "C45",
   "status": "proved",
   "theorems": [
    "C45_interval_seconds",
    "C45_interval_not_misread",
    "C45_grammar_accepts_only_numbers_refuted",
    "C45_timer_argument",
    "C45_other_argument"
   ],
   "note": "float() is modelled on digit/point strings with exact rationals (rounding of doubles not modelled); regex matching of the token itself is stated as a grammar. The grammar accepts strings float() refuses (refuted part: crash, never a misreading)."
  },
  {
   "property": "C46",
   "status": "partial",
   "theorems": [
    "C46_writes_in_order",
    "C46_transform_whole_text",
    "C46_same_response",
    "C46_transformer_same_response_refuted",
    "C46_none_contributes_nothing_refuted",
    "C46_empty_chunk_list_refuted"
   ],
   "note": "Ordering, repeated reads and memoised response proved. Refuted parts: None written directly makes getvalue raise (templates write through a filter that maps None to the empty string); empty chunk list means everything; TransformerTransaction does not memoise."
  },
  {
   "property": "C47",
   "status": "partial",
   "theorems": [
    "C47_level_nonnegative",
    "C47_push_pop_restores",
    "C47_indent_text",
    "C47_isolation_partial",
    "C47_isolation_refuted"
   ],
   "note": "Proved except isolation, which holds without push/pop and is refuted with them (class-level stack)."
  },
  {
   "property": "C48",
   "status": "partial",
   "theorems": [
    "C48_full_page_partial",
    "C48_pages_partition_partial",
    "C48_negative_start_first_page",
    "C48_all_records",
    "C48_short_page_raises",
    "C48_short_page_refuted"
   ],
   "note": "False for the last partial page: page() raises IndexError (C48_short_page_raises/_refuted). Proved for pages inside the list and for all()."
  },
  {
   "property": "C49",
   "status": "proved",
   "theorems": [
    "C49_crumbs_lead_to_page",
    "C49_unknown_page_no_crumbs",
    "C49_menu_lists_open_pages",
    "C49_current_page_bold",
    "C49_prefixed_url_refuted"
   ],
   "note": "Hierarchies as the module documents them. Proved for all trees and URLs; the URL given together with the prefix is refuted (bold link but no crumbs)."
  },
  {
   "property": "C50",
   "status": "partial",
   "theorems": [
    "C50_tokens",
    "C50_errors",
    "C50_in_order",
    "C50_one",
    "C50_shared_settings_refuted"
   ],
   "note": "Explicit settings win, gaps filled, errors characterised, order proved; a settings dictionary shared by two preprocessors is changed in place (refuted)."
  },
  {
   "property": "C51",
   "status": "partial",
   "theorems": [
    "C51_refused_partial",
    "C51_nothing_generated_partial",
    "C51_others_unaffected_partial",
    "C51_capitals_refuted"
   ],
   "note": "Over all runs of the parse loop; names with capital letters are excluded, with a refutation (the list entry has no effect)."
  },
  {
   "property": "C52",
   "status": "proved",
   "theorems": [
    "C52_key_order_ignored",
    "C52_hash_defined",
    "C52_unhashable_value_refuted"
   ],
   "note": "Key order never matters, at any nesting (hash of tuples as an oracle respecting equality); values that are hashable give a hash. Refuted part: an unhashable value (a set) makes compile raise TypeError."
  },
  {
   "property": "C53",
   "status": "partial",
   "theorems": [
    "C53_complete",
    "C53_keeps_partial",
    "C53_only",
    "C53_twice",
    "C53_str",
    "C53_unicode_refuted"
   ],
   "note": "Complete, only, keeps, idempotent proved; __unicode__ of a class without __str__ is replaced (refuted)."
  },
  {
   "property": "C54",
   "status": "partial",
   "theorems": [
    "C54_name_split_join_partial",
    "C54_name_split_join_refuted",
    "C54_package_name",
    "C54_path_extension",
    "C54_split_package_agree",
    "C54_extension_crosses_directory_refuted"
   ],
   "note": "nameSplit loses a trailing dot; getPathExt ignores directory separators (finding)."
  },
  {
   "property": "C55",
   "status": "proved",
   "theorems": [
    "C55_escaped_is_literal",
    "C55_escape_injective"
   ],
   "note": "Patterns read by a small independent reader of re syntax (metacharacters and escapes)."
  },
  {
   "property": "C56",
   "status": "proved",
   "theorems": [
    "C56_file_counts_add_up",
    "C56_summary_adds_up",
    "C56_lines_hold_the_text"
   ],
   "note": "On the text of the files; reading files is not modelled."
  },
  {
   "property": "C57",
   "status": "partial",
   "theorems": [
    "C57_dict_method_names_refuted",
    "C57_variable_reachable_partial"
   ],
   "note": "Refuted: dict methods of the local scope shadow search-list variables such as items. Positive version when no earlier namespace has an attribute of that name."
  },
  {
   "property": "C58",
   "status": "partial",
   "theorems": [
    "C58_first_last_number",
    "C58_last_of_run",
    "C58_first_of_run_partial",
    "C58_first_of_run_refuted",
    "C58_median_halves",
    "C58_sum_of_parts",
    "C58_letter_refuted"
   ],
   "note": "firstValue is wrong at index 0 (compares with the last record), Letter leaves the alphabet after 26 records: both refuted. mean and percentOfTotal (floats) not modelled."
  },
  {
   "property": "C59",
   "status": "partial",
   "theorems": [
    "C59_blank_line_refuted",
    "C59_comment_line_refuted",
    "C59_counted_partial"
   ],
   "note": "False in general: refuted with witnesses (the regular expressions lack a star). C59_counted_partial says exactly which lines are counted as comments and as blank."
  },
  {
   "property": "C60",
   "status": "partial",
   "theorems": [
    "C60_class_name_valid",
    "C60_distinct_names_refuted"
   ],
   "note": "Proved for all identifiers (ASCII letters, digits, underscore). The second half is false: _page and page give one class name."
  },
  {
   "property": "C61",
   "status": "proved",
   "theorems": [
    "C61_remove_counts",
    "C61_keywords_accepted_iff_legal"
   ],
   "note": "Python list/dict equality modelled on strings."
  },
  {
   "property": "C62",
   "status": "partial",
   "theorems": [
    "C62_report_partial",
    "C62_report_refuted",
    "C62_first_line_refuted"
   ],
   "note": "Proved where the adjusted position is not on the newline of a CRLF and the source is not empty; refuted otherwise; first line never shown as context."
  },
  {
   "property": "C63",
   "status": "proved",
   "theorems": [
    "C63_comments_stay_comments"
   ],
   "note": "Invariant over all runs of the parse loop; the parsers of other constructs are assumed to keep it (keeps_safe)."
  },
  {
   "property": "C64",
   "status": "proved",
   "theorems": [
    "C64_expressions",
    "C64_arguments",
    "C64_placeholders",
    "C64_parsing_ends"
   ],
   "note": "Every eater modelled makes progress; parsers of other constructs are assumed to (progresses)."
  },
  {
   "property": "C65",
   "status": "proved",
   "theorems": [
    "C65_variable_start",
    "C65_expression_start",
    "C65_slurp_start",
    "C65_literal_dollars",
    "C65_price_list"
   ],
   "note": "The model's single-pass scanners are proved equal to the grammar of the regular expressions (all splits), for all tokens; whole-source theorem for the default tokens."
  },
  {
   "property": "C66",
   "status": "proved",
   "theorems": [
    "C66_run",
    "C66_returns",
    "C66_writes",
    "C66_block",
    "C66_grows",
    "C66_placeholder"
   ],
   "note": "C66_run is the simulation; C66_returns and C66_writes put it together with the compiler (C37_layout) and the set-up/clean-up code of a method. User code is an arbitrary oracle. The meaning is left open (no claim) for regions left abnormally, nested functions (#closure) and #filter None; C38-C40 refute the natural claim there."
  },
  {
   "property": "C67",
   "status": "partial",
   "theorems": [
    "C67_miss_partial",
    "C67_hit",
    "C67_direct_refuted",
    "C67_twice_refuted",
    "C67_same_id_refuted"
   ],
   "note": "C67_hit in full; C67_miss_partial: cache calls without exceptions and bodies that end normally. Refuted: output of called methods bypasses the cache, double output when the cache is reset in between, nested regions with the same id."
  },
  {
   "property": "C68",
   "status": "proved",
   "theorems": [
    "C68_set_global"
   ],
   "note": "set_global_text against all targets; C68_set_global."
  },
  {
   "property": "C69",
   "status": "proved",
   "theorems": [
    "C69_name_code",
    "C69_plain_code"
   ],
   "note": "Proved by evaluation of the generated code in the name mapper model. Refuted: letters directly after an argument list or subscript are taken as a further name; comprehension targets and nested keyword arguments written with a dollar sign inside call arguments give invalid code."
  },
  {
   "property": "C70",
   "status": "partial",
   "theorems": [
    "C70_long_placeholder_partial",
    "C70_swallows_text_refuted",
    "C70_unclosed_refuted"
   ],
   "note": "Proved when no bracket opens directly after the closing one; otherwise refuted: ${a + 1}(foo) swallows the text (foo) and generates unbalanced code. Refuted: ${a at the end of the source raises IndexError."
  },
  {
   "property": "C71",
   "status": "partial",
   "theorems": [
    "C71_short_placeholder_partial",
    "C71_glued_text_refuted"
   ],
   "note": "Proved for dotted names without arguments and subscripts; refuted for names glued to an argument list or subscript ($count()items)."
  },
  {
   "property": "C72",
   "status": "partial",
   "theorems": [
    "C72_keyword_partial",
    "C72_target_partial",
    "C72_target_in_call_refuted",
    "C72_keyword_in_call_refuted"
   ],
   "note": "Proved for keyword arguments directly after the bracket of an argument list and for for-targets in expressions and brackets; refuted for comprehensions in call arguments and for keyword arguments of a nested call."
  },
  {
   "property": "C73",
   "status": "partial",
   "theorems": [
    "C73_functions",
    "C73_cache_arguments",
    "C73_cache_brackets_refuted",
    "C73_arg_indentation_refuted",
    "C73_translated",
    "C73_returned",
    "C73_expressions",
    "C73_ternary",
    "C73_targets",
    "C73_lvalues",
    "C73_arguments",
    "C73_placeholders",
    "C73_def_cuts_text_refuted",
    "C73_raw_cuts_text_refuted",
    "C73_set_names_refuted",
    "C73_indented_else_refuted",
    "C73_nested_else_refuted"
   ],
   "note": "Front_Model.v models the whole of Parser.parse with all eat* methods; a trailing colon, #arg with the value on its line, text before the first #arg, nested #def in #def, argument lists over several lines and block markers are outside the class of C73_translated (the generator part of them is C66). Refuted without its side conditions: text before #def, text before a #raw whose #end raw is alone on its line, #set of names starting with local/global/module, an indented short #else, a conditional expression inside the ternary #if, arguments of #cache in brackets; the indentation of a #arg is not cut off."
  },
  {
   "property": "C74",
   "status": "proved",
   "theorems": [
    "C74_ends",
    "C74_reads_everything"
   ],
   "note": "Directives that are parameters of the whole-parser model (#extends, #import, #include, #attr, macros ...) are assumed to come to an end and to read at least one character; Python's tokenizer is assumed to read at least one character."
  },
  {
   "property": "C75",
   "status": "partial",
   "theorems": [
    "C75_brackets_partial",
    "C75_line_partial",
    "C75_open",
    "C75_equals_refuted",
    "C75_colon_refuted",
    "C75_commas_refuted"
   ],
   "note": "Proved for lists of any length whose default values have no colon or equals sign outside brackets (false for those: refuted) and for the default delimiters."
  },
  {
   "property": "C76",
   "status": "proved",
   "theorems": [
    "C76_signature_valid",
    "C76_signature_valid_trans_refuted",
    "C76_call_same",
    "C76_call_rejected_refuted",
    "C76_transaction",
    "C76_no_transaction",
    "C76_result",
    "C76_static_keywords_refuted"
   ],
   "note": "Proved for argument names outside a small list of names the generated code uses itself. Refuted by witnesses: an argument called trans is added a second time (invalid signature), unknown keywords are accepted silently, a static method with its own ** parameter reads the unbound name KWS on every call. The code of class and static methods is modelled but only the signature and call theorems speak about them."
  },
  {
   "property": "C77",
   "status": "partial",
   "theorems": [
    "C77_evaluates_own_code",
    "C77_code_refuted",
    "C77_same_text_refuted",
    "C77_page",
    "C77_key_error_refuted",
    "C77_option_refuted",
    "C77_unselected"
   ],
   "note": "Refuted without conditions: the code is pasted between three single quotes without escaping (backslashes, quotes at its end); same source text with different code shares the first code; KeyError.warn raises TypeError; the errorCatcher option is registered under 'str'."
  },
  {
   "property": "C78",
   "status": "partial",
   "theorems": [
    "C78_kinds",
    "C78_method_doc",
    "C78_method_doc_quotes",
    "C78_method_percent_refuted",
    "C78_class_doc",
    "C78_module_doc",
    "C78_quotes_refuted",
    "C78_backslash_refuted",
    "C78_header",
    "C78_variables",
    "C78_variable_name_refuted"
   ],
   "note": "Refuted without conditions: method documentation doubles percent signs; three double quotes end the documentation of a class or module; backslashes are not escaped; variable names may hold brackets (pattern [a-zA-z_])."
  },
  {
   "property": "C79",
   "status": "partial",
   "theorems": [
    "C79_imports",
    "C79_parentheses_refuted",
    "C79_no_import_refuted",
    "C79_extends",
    "C79_bound",
    "C79_known",
    "C79_through_refuted",
    "C79_module_refuted",
    "C79_replace_refuted",
    "C79_object_refuted",
    "C79_strict_refuted"
   ],
   "note": "Proved for the default legacy import mode and for paths that do not go through a module imported before; refuted for those that do (the module prefix is removed and unbound), for two-part paths of an imported module, for object inside a list, for parenthesised imports and for the strict mode."
  },
  {
   "property": "C80",
   "status": "partial",
   "theorems": [
    "C80_layout",
    "C80_main",
    "C80_main_recorded",
    "C80_found",
    "C80_no_key_error",
    "C80_implements_refuted",
    "C80_order_refuted",
    "C80_twice_refuted",
    "C80_closure_refuted",
    "C80_init_refuted"
   ],
   "note": "Proved when no definition has a name the main method has before #implements or #extends; refuted otherwise (the definition is renamed instead of the main method), for #extends after #implements, for two blocks of one name, for decorators in front of #closure and for a definition called __init__."
  },
  {
   "property": "C81",
   "status": "partial",
   "theorems": [
    "C81_cstring",
    "C81_escapes_refuted",
    "C81_empty_refuted"
   ],
   "note": "Text without backslashes and the token; names plain or in braces. Refuted with escapes (taken as they stand) and for the empty string (TypeError)."
  },
  {
   "property": "C82",
   "status": "partial",
   "theorems": [
    "C82_value",
    "C82_sections",
    "C82_failure",
    "C82_last_directive",
    "C82_reset",
    "C82_reset_refuted",
    "C82_empty_refuted",
    "C82_lost_refuted",
    "C82_import_never"
   ],
   "note": "proved: the value of every option, what a list of sections sets, when reading fails, the last directive decides, reset restores the defaults. Refuted: an empty value is an IndexError; settings that are not among the defaults survive a reset; an option named globals in the section globals is lost. importSettings never works."
  },
  {
   "property": "C83",
   "status": "partial",
   "theorems": [
    "C83_rows",
    "C83_following_refuted",
    "C83_first_refuted",
    "C83_beyond",
    "C83_caret",
    "C83_caret_refuted",
    "C83_position",
    "C83_guess",
    "C83_unknown",
    "C83_guess_refuted",
    "C83_printed",
    "C83_printed_refuted",
    "C83_message"
   ],
   "note": "proved: which rows are shown and under which numbers, the order, where the caret stands, which position is taken, when the report can be printed. Refuted: the line after the error is left out and the lines after it carry numbers one too small; an error in the first line shows no line; the caret is one column to the left; a guess takes the mark of the line before; a text that looks like a mark makes printing fail. Simplified: ASCII digits only."
  },
  {
   "property": "C84",
   "status": "partial",
   "theorems": [
    "C84_once",
    "C84_import",
    "C84_from",
    "C84_again",
    "C84_missing",
    "C84_notfound_refuted",
    "C84_from_attribute_refuted",
    "C84_relative_refuted",
    "C84_level_refuted",
    "C84_failed_refuted"
   ],
   "note": "Proved: each module started at most once over all import sequences with nested and cyclic imports, consistency kept, results of import and from-import, repeated import, missing module. Refuted: import below a module that is no package is a KeyError; from-import below an attribute gives the first part; relative imports fall back to absolute and ignore the level; a module that failed stays. Not modelled: threads, fallback on RecursionError."
  },
  {
   "property": "C85",
   "status": "partial",
   "theorems": [
    "C85_place",
    "C85_fresh",
    "C85_template",
    "C85_path",
    "C85_same_second_refuted",
    "C85_removed_refuted",
    "C85_older_refuted",
    "C85_broken_cache_refuted",
    "C85_template_edit_refuted",
    "C85_late_directory_refuted"
   ],
   "note": "Proved: place of a module, freshness over all paced operation sequences (invariant on times and contents), templates with a cache directory always current, order of the path. Refuted: edit in the same second, older replacement, removed source still found, unreadable cache is a TypeError, template edits ignored without a cache directory, directory created later ignored. Not modelled: builtin, frozen and registry directors."
  },
  {
   "property": "C86",
   "status": "partial",
   "theorems": [
    "C86_untouched",
    "C86_unicode_removed",
    "C86_unicode_line_refuted",
    "C86_unicode_text_refuted",
    "C86_encoding_no_effect",
    "C86_encoding_unknown",
    "C86_both",
    "C86_indent_lines",
    "C86_indent_off",
    "C86_indent_newline_refuted",
    "C86_indent_trigger_refuted",
    "C86_indent_chars_refuted",
    "C86_indent_space_refuted"
   ],
   "note": "Proved for lines with a name in ASCII and text after it that does not begin with white space. Refuted: removing only the directive's own line (lines are joined); #unicode without a name (the next line is lost); the final newline and untouched text under #indent; #indent chars; other leading white space."
  },
  {
   "property": "C87",
   "status": "partial",
   "theorems": [
    "C87_raw",
    "C87_raw_text",
    "C87_raw_line",
    "C87_end_prefix_refuted",
    "C87_end_end_refuted",
    "C87_unclosed_refuted",
    "C87_macro",
    "C87_macro_line",
    "C87_i18n",
    "C87_inline_refuted",
    "C87_last_line_refuted",
    "C87_nested_refuted"
   ],
   "note": "Proved: #raw in whole templates (C87_raw), in the whole parser (C87_raw_text) and on one line; macro calls in both forms (what the macro is told, where its result is parsed, where parsing goes on) and what #i18n returns. False: a block ended by a longer name, missed behind a nameless #end, unclosed without an error; the result of a macro is parsed as at the start of a line, so text before an inline call can be lost; #i18n loses the last line break; nested calls of one macro. Not modelled: macros with parse/parseArgs methods, #defmacro, macros that replace built-in directives."
  },
  {
   "property": "C88",
   "status": "partial",
   "theorems": [
    "C88_declared",
    "C88_plain",
    "C88_plain_iff",
    "C88_written",
    "C88_module",
    "C88_utf8",
    "C88_ascii",
    "C88_directive",
    "C88_undeclared_refuted",
    "C88_latin1_refuted",
    "C88_locale_refuted",
    "C88_cached_refuted",
    "C88_colon_refuted",
    "C88_stdout_refuted"
   ],
   "note": "Proved: bytes returned by the compiler read back (C88_declared, C88_plain), the file has exactly those bytes with --encoding or utf-8 files (C88_written, C88_module), total success for utf-8 and for ASCII, agreement of the two readings of #encoding. False: modules with other characters and no #encoding; latin-1 modules without --encoding; files not in utf-8; modules already cached; #encoding with a colon; printing without --encoding."
  },
  {
   "property": "C89",
   "status": "partial",
   "theorems": [
    "C89_reads",
    "C89_extends",
    "C89_no_name",
    "C89_names_apart_refuted",
    "C89_names_given_refuted",
    "C89_names_rest_refuted",
    "C89_attr_operator_refuted",
    "C89_attr_error_refuted",
    "C89_attr_literal_refuted",
    "C89_include_raw_refuted",
    "C89_include_source_refuted",
    "C89_set_names_refuted",
    "C89_super_values_refuted",
    "C89_super_looked_up_refuted",
    "C89_transform_end_refuted"
   ],
   "note": "Reading and handing over proved for every directive whose expressions meet the conditions of C73; the base classes of an extends composed with C79. Refuted: names without a comma run together, empty places and rests of lines are accepted, the operator of attr is dropped, a placeholder in attr is an AttributeError, include takes names starting with raw or source for its keywords, set takes names starting with global, local or module for them, super cannot take values, transform at the end of the source is an IndexError."
  },
  {
   "property": "C90",
   "status": "partial",
   "theorems": [
    "C90_recursive",
    "C90_outputs",
    "C90_compile",
    "C90_named",
    "C90_answered",
    "C90_parallel",
    "C90_parallel_all",
    "C90_commands",
    "C90_only",
    "C90_detour_refuted",
    "C90_root_refuted",
    "C90_linked_refuted",
    "C90_twice_refuted",
    "C90_missing_refuted",
    "C90_stops_refuted",
    "C90_line_feed_refuted",
    "C90_killed_refuted",
    "C90_test_refuted",
    "C90_dashes_refuted"
   ],
   "note": "-R, named files, the module names, parallel runs and the choice of the command are proved as stated for input directories without detours. Refuted: ./ in the input directory, the root, links to directories, files named twice, missing files as failures, files after a bad name, names with a line feed, killed children, the initial of test, an empty command. The file system is a fixed tree; optparse is a parameter."
  },
  {
   "property": "C91",
   "status": "partial",
   "theorems": [
    "C91_prints",
    "C91_last_wins",
    "C91_others",
    "C91_help",
    "C91_load_fails",
    "C91_wrong",
    "C91_set_global_refuted",
    "C91_ignored_refuted",
    "C91_help_late_refuted",
    "C91_class",
    "C91_class_dotted",
    "C91_inner_refuted"
   ],
   "note": "Proved as stated, in both directions, for a model of the library's getopt. Refuted: #set global under a dictionary that has the name, options after another argument, help after a missing file, classes in classes for --templateAPIClass. Attributes of the dictionaries ($keys) are not modelled."
  },
  {
   "property": "C92",
   "status": "partial",
   "theorems": [
    "C92_misfit",
    "C92_both",
    "C92_fit",
    "C92_made",
    "C92_alias",
    "C92_either",
    "C92_unknown_filter",
    "C92_unknown_catcher",
    "C92_warns",
    "C92_quiet",
    "C92_any_class_refuted",
    "C92_any_filter_refuted",
    "C92_string_lib_refuted",
    "C92_object_refuted",
    "C92_tuple_refuted",
    "C92_no_warning_refuted"
   ],
   "note": "Proved as stated, with the error in both directions, if classes are subclasses of what they must be. Refuted: any class passes as a filter or error catcher, filtersLib as a string, one object as searchList, tuples with prioritizeSearchListOverSelf, warnings for namespaces and for one dictionary."
  },
  {
   "property": "C93",
   "status": "partial",
   "theorems": [
    "C93_kept",
    "C93_others",
    "C93_itself",
    "C93_fails",
    "C93_unbound",
    "C93_methods_refuted",
    "C93_recompiled_refuted",
    "C93_classmethods_refuted",
    "C93_false_refuted",
    "C93_inherited_refuted",
    "C93_property_refuted"
   ],
   "note": "Proved for true values of the class itself and for everything the class does not have; exceptions characterised exactly. Refuted: methods (always lose the instance), classmethods, staticmethods, properties, false values, inherited attributes, compiled templates given another source."
  },
  {
   "property": "C94",
   "status": "partial",
   "theorems": [
    "C94_prev_none",
    "C94_prev_is_itself",
    "C94_prev_refuted",
    "C94_next_never",
    "C94_next_refuted",
    "C94_window_forward",
    "C94_window_backward",
    "C94_window_default",
    "C94_windows_partition",
    "C94_window_both",
    "C94_window_past_the_end_refuted"
   ],
   "note": "Windows proved for a start or an end alone, exact for both, and the partition for every list. Refuted: prev describes the record itself with a negative index, next is None for the first record and an IndexError for all others, a window with both ends given may run past the end."
  },
  {
   "property": "C95",
   "status": "partial",
   "theorems": [
    "C95_path",
    "C95_hidden",
    "C95_template",
    "C95_extension_optional",
    "C95_missing",
    "C95_other_modules",
    "C95_registered",
    "C95_root_refuted",
    "C95_period_refuted",
    "C95_replaces_refuted",
    "C95_two_directories_refuted",
    "C95_failed_stays_refuted",
    "C95_no_directory_refuted",
    "C95_extension_module_refuted",
    "C95_python_first_refuted"
   ],
   "note": "Proved for paths with a plain name and at least one directory or none. Refuted: templates in the root directory, names with periods, modules of the same name are replaced (string, os), templates of one name in two directories, modules that fail stay registered, missing directories, extension modules, older Python files of the name."
  },
  {
   "property": "C96",
   "status": "partial",
   "theorems": [
    "C96_current",
    "C96_arguments",
    "C96_never_again",
    "C96_mended_refuted",
    "C96_second_attempt_refuted",
    "C96_same_time_refuted",
    "C96_extension_refuted"
   ],
   "note": "Proved for all histories whose edits are later each time and can be compiled. After one failed compilation an instance never loads the template again (proved); refuted: mending, errors every time when another instance has loaded it, edits that keep the time, other extensions."
  },
  {
   "property": "C97",
   "status": "partial",
   "theorems": [
    "C97_switch",
    "C97_owners",
    "C97_cache_dir",
    "C97_set_again_refuted",
    "C97_undone_refuted",
    "C97_wrapped",
    "C97_uninstall_refuted",
    "C97_other_hook_refuted",
    "C97_install_refuted",
    "C97_owners_refuted"
   ],
   "note": "C97_switch, C97_owners and C97_cache_dir (the first directory set is used) are proved. False: a second setCacheDir has an effect; uninstall takes back builtin.reload and the extensions; uninstall after a function was put over the hook; uninstall leaves a foreign method alone; install over a method; owner types when somebody else puts a class in front."
  },
  {
   "property": "C98",
   "status": "partial",
   "theorems": [
    "C98_counts",
    "C98_ordered",
    "C98_time",
    "C98_errors",
    "C98_order",
    "C98_display",
    "C98_same_counts",
    "C98_display_refuted",
    "C98_stop_refuted",
    "C98_reset_refuted"
   ],
   "note": "Proved over all histories of start, stop, reset and signals: counts and time equal those computed from the history; errors only from a reset at a level other than 0; the report is ordered, and exists exactly if no two rows have the same times. False as stated: a report for every session (two functions with the same counts raise a TypeError), samples after a start that follows a stop too many, reset then. Times are whole numbers; the sort is an insertion sort."
  },
  {
   "property": "C99",
   "status": "partial",
   "theorems": [
    "C99_tag",
    "C99_tag_refuted",
    "C99_meta",
    "C99_styles",
    "C99_styles_refuted",
    "C99_scripts",
    "C99_code_refuted",
    "C99_short_refuted",
    "C99_image",
    "C99_image_found",
    "C99_image_alone",
    "C99_image_error",
    "C99_image_refuted",
    "C99_spacer"
   ],
   "note": "Values are strings. False in the code, and refuted: a script with code has its version in the place of the code, imgTag is always an AttributeError (normalizePath does not exist), quotation marks in values are not escaped, unknown style sheets put a warning into the style element."
  },
  {
   "property": "C100",
   "status": "proved",
   "theorems": [
    "C100_file",
    "C100_total",
    "C100_found",
    "C100_order",
    "C100_error",
    "C100_suffix_refuted",
    "C100_both_refuted"
   ],
   "note": "The parser is a parameter (the directives of which eatDirective is called). Refuted: the suffix is not an extension; with -f and -d the file's result is thrown away."
  },
  {
   "property": "C101",
   "status": "partial",
   "theorems": [
    "C101_nothing_lost",
    "C101_replacement",
    "C101_no_group",
    "C101_backslash_refuted",
    "C101_number_refuted",
    "C101_optional_refuted",
    "C101_function_refuted"
   ],
   "note": "A chunk of code is modelled by what it evaluates to. Refuted: doubled backslashes, numbers in angle brackets and groups that took no part are not as in re.sub; subberFunc is a NameError on Python 3."
  },
  {
   "property": "C102",
   "status": "partial",
   "theorems": [
    "C102_chain",
    "C102_equal",
    "C102_truth_refuted"
   ],
   "note": "Refuted on Python 3: its truth is a TypeError, and so is the comparison with itself."
  },
  {
   "property": "C103",
   "status": "partial",
   "theorems": [
    "C103_found",
    "C103_files_refuted",
    "C103_once_refuted",
    "C103_root_refuted"
   ],
   "note": "Proved as a set of names (C103_found). Refuted: only files, each once, and the root left out. glob is a predicate on names; names of directories with characters of patterns are left out."
  },
  {
   "property": "C104",
   "status": "partial",
   "theorems": [
    "C104_replaced",
    "C104_untouched",
    "C104_count",
    "C104_once_refuted",
    "C104_python3_refuted"
   ],
   "note": "Proved for lists without repetitions (C104_replaced); untouched files and the counts for all lists. Refuted: once for a file listed twice; anything at all on Python 3 (os.popen3). The regular expression is the list of its matches; pgrep is left out."
  }
 ]
}
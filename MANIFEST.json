{
 "claims": [
  {
   "property": "C01",
   "status": "partial",
   "theorems": [
    "C01_irreflexive",
    "C01_transitive",
    "C01_incomparable_iff",
    "C01_trichotomy_partial",
    "C01_total_refuted",
    "C01_url_refuted"
   ],
   "note": "The full claim is false of the code: REFUTED by C01_total_refuted (1.0+1 vs 1.0+2) and C01_url_refuted. Irreflexivity and transitivity hold for all versions; incomparable pairs are characterised exactly; trichotomy proved outside the clashes."
  },
  {
   "property": "C02",
   "status": "partial",
   "theorems": [
    "C02_equality_meaning",
    "C02_equivalence",
    "C02_congruence_partial",
    "C02_hash_iff",
    "C02_hash_refuted",
    "C02_url_hash_refuted"
   ],
   "note": "Equivalence and congruence proved (congruence except url versions). Hash contract REFUTED for explicit epoch 0 and url versions; C02_hash_iff says exactly when it holds for standard versions."
  },
  {
   "property": "C03",
   "status": "partial",
   "theorems": [
    "C03_pep440_partial",
    "C03_release_decides",
    "C03_post_dev_refuted",
    "C03_pre_dev_refuted",
    "C03_local_refuted"
   ],
   "note": "REFUTED in general (three witnesses). Agreement with an independent PEP 440 order proved when dev releases are not combined with pre/post parts and numeric label segments do not clash, and unconditionally when epoch/release differ."
  },
  {
   "property": "C04",
   "status": "proved",
   "theorems": [
    "C04_roundtrip",
    "C04_roundtrip_in_context"
   ],
   "note": ""
  },
  {
   "property": "C05",
   "status": "partial",
   "theorems": [
    "C05_total",
    "C05_case_partial",
    "C05_pre_spelling_partial",
    "C05_post_spelling_partial",
    "C05_dev_spelling_partial",
    "C05_separator_refuted",
    "C05_discards_text_refuted",
    "C05_alpha_refuted"
   ],
   "note": "Totality proved. 'Never discards text' REFUTED."
  },
  {
   "property": "C06",
   "status": "partial",
   "theorems": [
    "C06_forward_partial",
    "C06_backward",
    "C06_prerelease_refuted",
    "C06_unknown_particle_refuted"
   ],
   "note": "REFUTED for pre-release particles on final versions (always goes backwards, C06_backward) and for unknown particles (accepted). Strictly forward in all other cases."
  },
  {
   "property": "C07",
   "status": "partial",
   "theorems": [
    "C07_intersection_partial",
    "C07_exact_partial",
    "C07_named_excluded_partial",
    "C07_local_refuted",
    "C07_local_exclusion_refuted",
    "C07_post_refuted",
    "C07_blacklist_refuted",
    "C07_named_refuted"
   ],
   "note": "REFUTED in general: intersection with '!=' lists loses exclusions against unions, post-release bounds leak, named versions disappear. Proved: on specifiers without '!=' (incl. unions of separated ranges/'==') and on specifiers without unions, for every final/pre/dev version, intersect_with does not raise, stays in the fragment and allows exactly the common versions."
  },
  {
   "property": "C08",
   "status": "partial",
   "theorems": [
    "C08_union_partial",
    "C08_same_start_partial",
    "C08_apart_partial",
    "C08_nested_refuted",
    "C08_segment_refuted",
    "C08_exclusion_refuted"
   ],
   "note": "REFUTED in general: uniting a range with one nested in it, a range with one segment of a union, or two exclusion lists loses versions. Proved for staggered ranges, '==', '!=', everything/nothing and for unions of ranges that keep their distance."
  },
  {
   "property": "C09",
   "status": "partial",
   "theorems": [
    "C09_inverse_partial",
    "C09_match",
    "C09_difference_partial",
    "C09_post_refuted"
   ],
   "note": "REFUTED for post-releases (allowed neither by '>=1' nor by its inverse). Proved for everything/nothing, ranges, unions of separated ranges, '==' and '!=' on final/pre/dev versions; difference follows."
  },
  {
   "property": "C10",
   "status": "partial",
   "theorems": [
    "C10_all_sound_partial",
    "C10_any_sound_partial",
    "C10_ranges_included",
    "C10_post_refuted",
    "C10_empty_refuted"
   ],
   "note": "REFUTED: allows_all yes for '>=1' over '>=1.post1'; allows_all(everything, nothing) is no. Proved: a yes of allows_all / a no of allows_any is right on both fragments; allows_all recognises every included range."
  },
  {
   "property": "C11",
   "status": "partial",
   "theorems": [
    "C11_argument_refuted"
   ],
   "note": "REFUTED: union_with of two unions empties the list of its argument object."
  },
  {
   "property": "C12",
   "status": "partial",
   "theorems": [
    "C12_conjunction_partial",
    "C12_parse_refuted",
    "C12_union_refuted"
   ],
   "note": "REFUTED: parsing '!=2.*, !=4.*, !=6' raises AssertionError, a union raises KeyError. Proved: conjunctions of any number of specifiers of either fragment never raise and mean the conjunction."
  },
  {
   "property": "C13",
   "status": "partial",
   "theorems": [
    "C13_clauses_partial",
    "C13_ignored_tail_refuted"
   ],
   "note": "Proved for every list of >=,>,<=,<,==,!=,~=,==*,!=* clauses over versions without label and explicit epoch 0 (no mix of '!=v' and '!=v.*'), judged on final/pre/dev versions. REFUTED in general: text after a clause is dropped silently."
  },
  {
   "property": "C14",
   "status": "partial",
   "theorems": [
    "C14_roundtrip_partial",
    "C14_union_refuted",
    "C14_compat_refuted"
   ],
   "note": "REFUTED for unions ('<1.2; >=1.3' reads as '<1.2') and for ranges ending in a pre-release that print as '~='. Proved for everything, '==', '!=' and every other range."
  },
  {
   "property": "C19",
   "status": "proved",
   "theorems": [
    "C19_others_untouched",
    "C19_own_entries",
    "C19_entries",
    "C19_idempotent",
    "C19_save_load"
   ],
   "note": "For every lock reachable by init/update/unlock/save+load."
  },
  {
   "property": "C20",
   "status": "proved",
   "theorems": [
    "C20_unlock",
    "C20_unlocked_not_preferred"
   ],
   "note": "For every reachable lock."
  },
  {
   "property": "C21",
   "status": "partial",
   "theorems": [
    "C21_reorders",
    "C21_repository",
    "C21_one_per_env",
    "C21_epoch_refuted"
   ],
   "note": "Proved with version equality as used by python sets (equal and same hash) and at most one version per package and environment, which updates preserve. REFUTED for plain version equality: a lock on '0!1' does not prefer candidate '1'."
  },
  {
   "property": "C40",
   "status": "proved",
   "theorems": [
    "C40_unordered_seq",
    "C40_unordered_mapping",
    "C40_ordered",
    "C40_ordered_sensitive"
   ],
   "note": "Item hashes are an arbitrary function."
  },
  {
   "property": "C41",
   "status": "partial",
   "theorems": [
    "C41_groupby",
    "C41_groupby_keys_once",
    "C41_groupby_all",
    "C41_distinct",
    "C41_distinct_once",
    "C41_partition",
    "C41_argmax",
    "C41_index_of",
    "C41_pop",
    "C41_single",
    "C41_suffix_partial",
    "C41_prefix",
    "C41_remove_by_value",
    "C41_get_or_put",
    "C41_get_or_default_refuted",
    "C41_empty_suffix_refuted",
    "C41_to_list_refuted"
   ],
   "note": "REFUTED for get_or_default (never returns the default), without_suffix with an empty suffix, and Seq.to_list(into=[]); the others proved."
  },
  {
   "property": "C45",
   "status": "proved",
   "theorems": [
    "C45_only_when_asked",
    "C45_otherwise",
    "C45_all_when_asked"
   ],
   "note": "'Mentions one' is the inductive predicate asks."
  },
  {
   "property": "C22",
   "status": "partial",
   "theorems": [
    "C22_rollback_partial",
    "C22_copy_tree_rollback_partial",
    "C22_copy_twice_refuted",
    "C22_set_order_refuted",
    "C22_partial_write_refuted",
    "C22_touch_refuted",
    "C22_custom_copy_refuted"
   ],
   "note": "REFUTED in general (five witnesses); proved for all initial file systems, all failure points and all mkdir/copy/rm sequences that do not replace their own results, with an inner-first iteration order of the set; copy_tree sequences are shown to qualify"
  },
  {
   "property": "C23",
   "status": "partial",
   "theorems": [
    "C23_copied_files_partial",
    "C23_removed_file_refuted",
    "C23_touch_refuted",
    "C23_file_copy_ignored_below_refuted"
   ],
   "note": "REFUTED in general (removed and touched files are reported); proved for mkdir/copy/rm sequences that do not replace their own results"
  },
  {
   "property": "C24",
   "status": "partial",
   "theorems": [
    "C24_path_to",
    "C24_root_refuted"
   ],
   "note": "REFUTED for the root directory as destination (loops forever); proved for every other destination"
  },
  {
   "property": "C25",
   "status": "partial",
   "theorems": [
    "C25_contained_is_relative_partial",
    "C25_exact_partial",
    "C25_sibling_refuted"
   ],
   "note": "REFUTED (siblings sharing a name prefix); contained paths are always recognised, and the exact relation decided is characterised"
  },
  {
   "property": "C30",
   "status": "partial",
   "theorems": [
    "C30_settled_once",
    "C30_second_raises",
    "C30_at_most_once",
    "C30_sees_the_settled_state",
    "C30_exactly_once",
    "C30_value_was_given",
    "C30_await_partial",
    "C30_false_exception_refuted"
   ],
   "note": "Proved for all interleavings of any number of threads, with callbacks that do not settle other promises themselves; awaiting REFUTED for exceptions whose truth value is False"
  },
  {
   "property": "C31",
   "status": "partial",
   "theorems": [
    "C31_await_all",
    "C31_await_all_failure",
    "C31_cancel_partial",
    "C31_cancel_success",
    "C31_late_notice_refuted",
    "C31_base_exception_refuted"
   ],
   "note": "await_all proved; REFUTED for await_all_or_cancel: promises are awaited in list order, so a failure behind an unsettled promise is not noticed and nothing is cancelled; proved for the calls that end"
  },
  {
   "property": "C26",
   "status": "partial",
   "theorems": [
    "C26_one_download_at_a_time",
    "C26_nobody_waits_forever_partial",
    "C26_waits_for_somebody_partial",
    "C26_waiter_after_interrupt_refuted"
   ],
   "note": "One download at a time proved for every schedule of any number of callers; every caller ends unless a download is interrupted by an exception that is not an Exception, for which it is REFUTED"
  },
  {
   "property": "C27",
   "status": "partial",
   "theorems": [
    "C27_refreshing_requests_ask_the_server_partial",
    "C27_update_ignored_after_a_hit_refuted",
    "C27_stale_entry_is_final"
   ],
   "note": "REFUTED: a request answered from the cache leaves its in-progress entry behind and no later request contacts the server; proved while no request is answered from the cache"
  },
  {
   "property": "C28",
   "status": "partial",
   "theorems": [
    "C28_contacts_bounded",
    "C28_always_ends",
    "C28_headers_stay_home_partial",
    "C28_credentials_leave_refuted"
   ],
   "note": "Bound and termination proved for every server; REFUTED for credentials: an absolute redirect to another host receives the same headers"
  },
  {
   "property": "C29",
   "status": "partial",
   "theorems": [
    "C29_exclusive_use_partial",
    "C29_pooled_connections_open_and_distinct_partial",
    "C29_limit",
    "C29_closed_keeps_nothing",
    "C29_racing_double_close_refuted"
   ],
   "note": "Limit and closing proved for all operation sequences; exclusive use when each proxy is closed once, REFUTED for two threads closing the same proxy"
  },
  {
   "property": "C56",
   "status": "partial",
   "theorems": [
    "C56_print_parse",
    "C56_reparse_partial",
    "C56_schemeless_refuted",
    "C56_opaque_refuted"
   ],
   "note": "Proved for every url with a scheme and an absolute or empty path; REFUTED for urls without scheme or with a relative path"
  },
  {
   "property": "C57",
   "status": "partial",
   "theorems": [
    "C57_body_is_the_parts_in_order_partial",
    "C57_no_closing_delimiter_refuted"
   ],
   "note": "REFUTED: the closing delimiter is missing; the rest of the body is proved independent of the chunking"
  },
  {
   "property": "C32",
   "status": "partial",
   "theorems": [
    "C32_exactly_the_resolution",
    "C32_right_ones_untouched",
    "C32_no_needless_operation",
    "C32_requests_recorded",
    "C32_store_mode_partial",
    "C32_store_mode_refuted",
    "C32_unrelated_removed_refuted"
   ],
   "note": "Proved for all installed sets, resolutions and execution orders: exactly the resolved versions, no needless operation, right packages untouched. REFUTED: packages outside the resolution are removed, and a store mode change of a package resolved to the installed one is ignored"
  },
  {
   "property": "C33",
   "status": "partial",
   "theorems": [
    "C33_orphans_end",
    "C33_orphans_exact_partial",
    "C33_inapplicable_refuted",
    "C33_uninstall_partial",
    "C33_resolved_partial",
    "C33_spelling_refuted"
   ],
   "note": "Orphans proved exact for every graph with all published dependencies, REFUTED for inapplicable ones; uninstall proved given the resolver's answer and names spelled as installed, REFUTED for other spellings"
  },
  {
   "property": "C34",
   "status": "partial",
   "theorems": [
    "C34_ends",
    "C34_own_files_gone",
    "C34_other_files_stay_partial",
    "C34_removed_directories",
    "C34_no_empty_directory_left",
    "C34_shared_pycache_refuted",
    "C34_escape_refuted"
   ],
   "note": "REFUTED for records leading out of the target and for shared __pycache__ directories; proved otherwise for all file systems, record lists and visiting orders"
  },
  {
   "property": "C35",
   "status": "partial",
   "theorems": [
    "C35_normalize_idempotent",
    "C35_key_idempotent",
    "C35_same_key_same_package",
    "C35_same_package_same_key_partial",
    "C35_runs_refuted"
   ],
   "note": "REFUTED for runs of separators in keys (see C35_runs_refuted); proved otherwise"
  },
  {
   "property": "C36",
   "status": "proved",
   "theorems": [
    "C36_best_wheel",
    "C36_source_last",
    "C36_nothing_usable"
   ],
   "note": "For every list of artifacts and every scoring function"
  },
  {
   "property": "C37",
   "status": "partial",
   "theorems": [
    "C37_tampered_rejected_partial",
    "C37_unrecorded_rejected",
    "C37_installed_record_partial",
    "C37_metadata_tampered_refuted",
    "C37_missing_file_refuted",
    "C37_unlisted_file_refuted"
   ],
   "note": "REFUTED: dist-info files are not verified, recorded files may be missing, files of the dist-info need no record; proved: files outside dist-info with a wrong hash or without record are rejected"
  },
  {
   "property": "C15",
   "status": "partial",
   "theorems": [
    "C15_resolution_is_solution_partial",
    "C15_required_twice_refuted",
    "C15_shared_requirements_refuted",
    "C15_post_release_refuted"
   ],
   "note": "Proved for every problem, pick order and number of rounds, given specifier operations that compute the right sets, one requirement per package and no equal requirements of two versions; REFUTED for repeated requirements, equal requirements and (with pkm's specifiers) post releases"
  },
  {
   "property": "C16",
   "status": "partial",
   "theorems": [
    "C16_windows_partition_partial",
    "C16_post_release_refuted"
   ],
   "note": "Proved for final, pre- and development releases; REFUTED for post releases"
  },
  {
   "property": "C17",
   "status": "proved",
   "theorems": [
    "C17_backtrack_replays",
    "C17_backtrack_exact"
   ],
   "note": "For every history of assignments, requirements and backtracking in which no package is decided twice and the root is decided first, as the solver does"
  },
  {
   "property": "C18",
   "status": "partial",
   "theorems": [
    "C18_no_solution_refuted",
    "C18_no_solution_real_refuted",
    "C18_complete_refuted",
    "C18_complete_real_refuted",
    "C18_difference_partial"
   ],
   "note": "REFUTED, with idealised specifiers and with pkm's own, even if every package has a version that fits (the simplest case: a, b, d are wanted, a 2 wants b >= 2, a 1 wants nothing, d wants b < 4, b is there in version 1). Proved: if a choice of versions for all reachable packages meets all requirements, a wrong report only comes from the difference that conflict resolution computes from the accumulated constraint (pubgrub.py 664-671); without this step the report is never wrong. Missing: problems in which only some packages have a version that fits"
  },
  {
   "property": "C61",
   "status": "partial",
   "theorems": [
    "C61_assertion_error_refuted",
    "C61_index_error_refuted"
   ],
   "note": "REFUTED: solvable problems that end in an AssertionError and in an IndexError"
  },
  {
   "property": "C60",
   "status": "partial",
   "theorems": [
    "C60_round_trip_partial",
    "C60_line_break_refuted",
    "C60_blank_refuted",
    "C60_empty_import_refuted"
   ],
   "note": "Proved for absolute paths without line breaks or trailing blanks and non-empty trimmed imports; REFUTED for the others"
  },
  {
   "property": "C55",
   "status": "partial",
   "theorems": [
    "C55_computed_once_partial",
    "C55_invalidated_refuted"
   ],
   "note": "Proved for any number of threads and every schedule without invalidation (failing computations included); REFUTED across an invalidation"
  },
  {
   "property": "C49",
   "status": "partial",
   "theorems": [
    "C49_environment_partial",
    "C49_zoo_partial",
    "C49_nested_partial",
    "C49_empty_path_refuted",
    "C49_deleted_path_refuted"
   ],
   "note": "Proved for every body that does not delete a variable that was unset before, and for all nestings with failures; REFUTED for an empty PATH in a zoo and for bodies that delete PATH"
  },
  {
   "property": "C50",
   "status": "partial",
   "theorems": [
    "C50_accepted_is_compatible",
    "C50_compatible_is_accepted_partial",
    "C50_single_tag",
    "C50_malformed_alternative_refuted",
    "C50_musl_refuted"
   ],
   "note": "Soundness and best score proved for all tags and machines; completeness for well formed tag sets; REFUTED with a malformed alternative and for musl platforms"
  },
  {
   "property": "C44",
   "status": "partial",
   "theorems": [
    "C44_first_match_answers",
    "C44_bound_repository_answers",
    "C44_bound_to_unknown",
    "C44_url_answer_partial",
    "C44_composite_is_lawful",
    "C44_unmatched_url_refuted",
    "C44_spelling_refuted",
    "C44_failing_repository_refuted"
   ],
   "note": "The answering repository is characterised for bound, unbound and url dependencies; REFUTED for urls nobody answers (TypeError), other spellings of a bound package and repositories that raise"
  },
  {
   "property": "C46",
   "status": "partial",
   "theorems": [
    "C46_chain_terminates",
    "C46_chain_partial",
    "C46_nearest_first_partial",
    "C46_global_refuted",
    "C46_same_directory_refuted"
   ],
   "note": "Termination on every finite context graph, no configuration twice, the context first, complete and nearest first for distinct directories; REFUTED for the mode global and for contexts that share a directory"
  },
  {
   "property": "C47",
   "status": "partial",
   "theorems": [
    "C47_own_names_partial",
    "C47_distinct_partial",
    "C47_binding_by_name_partial",
    "C47_same_definition_refuted",
    "C47_bind_only_refuted",
    "C47_inline_refuted"
   ],
   "note": "Proved for bindings by name when no two definitions are the same; REFUTED for equal definitions, bind-only definitions built before under another name and bindings in place"
  },
  {
   "property": "C48",
   "status": "partial",
   "theorems": [
    "C48_operation_exact",
    "C48_removed_has_no_binding",
    "C48_operations_partial",
    "C48_after_loading_refuted",
    "C48_instance_binding_refuted"
   ],
   "note": "Exact effect of each operation on memory and file and of sequences of them; REFUTED after the repositories were loaded (bindings in place lose their type) and for bindings to an instance"
  },
  {
   "property": "C62",
   "status": "partial",
   "theorems": [
    "C62_composite_answers_fit_partial",
    "C62_projects_refuted"
   ],
   "note": "Proved for composite repositories; REFUTED for the repository of projects"
  },
  {
   "property": "C51",
   "status": "partial",
   "theorems": [
    "C51_terminates",
    "C51_cycle_rejected",
    "C51_exact_partial",
    "C51_unpublished",
    "C51_exact_refuted"
   ],
   "note": "REFUTED in general: a source distribution whose metadata is not published by the repository is built twice in one build environment (metadata, then wheel) and the second build is reported as a cycle although there is none. Proved: builds always end; a real cycle is always rejected; with published metadata a cycle error occurs exactly for real cycles. Threads of an installation are modelled one after the other."
  },
  {
   "property": "C52",
   "status": "partial",
   "theorems": [
    "C52_key",
    "C52_whole_partial",
    "C52_hit",
    "C52_metadata_kind_refuted",
    "C52_crash_refuted",
    "C52_version_refuted"
   ],
   "note": "Proved for every history of requests and crashes: a reply comes from a build with the same directory key and archive digest, possibly truncated. REFUTED: a crash during the copy leaves a truncated METADATA or wheel that is served afterwards; the key of the version is not injective; a metadata request may be answered with a wheel path."
  },
  {
   "property": "C42",
   "status": "partial",
   "theorems": [
    "C42_precedence_partial",
    "C42_inside",
    "C42_print_parse",
    "C42_errors",
    "C42_extra",
    "C42_version_atom",
    "C42_text_atom",
    "C42_text_order",
    "C42_in_atom",
    "C42_letter_refuted",
    "C42_arbitrary_refuted",
    "C42_in_extra_refuted",
    "C42_text_equality_refuted"
   ],
   "note": "Proved for every text of the PEP 508 grammar (any nesting, blanks, quotes) without the letter J and the operator ===, for all environments; printing and reading again is exact for everything that was read; reading always ends with a marker, a ValueError or a TypeError. Comparisons with extras, of versions and of words are characterised. REFUTED: texts with J, ===, 'in extra' (looks into the printed list), equality of texts that begin like versions"
  },
  {
   "property": "C43",
   "status": "partial",
   "theorems": [
    "C43_parsed_partial",
    "C43_constructed_partial",
    "C43_shape",
    "C43_url_marker_refuted",
    "C43_union_refuted",
    "C43_digit_name_refuted",
    "C43_case_refuted"
   ],
   "note": "Proved for every text that parses to a dependency on one version, its exclusion or a range, and for constructed ones up to the blanks of the marker. REFUTED: the marker of an url dependency is lost, unions do not parse again, names that begin with a digit, upper case pre-releases are cut off"
  },
  {
   "property": "C53",
   "status": "partial",
   "theorems": [
    "C53_clean_partial",
    "C53_referenced_stays",
    "C53_unreferenced_goes",
    "C53_outside",
    "C53_only_removes",
    "C53_container_refuted",
    "C53_spelling_refuted",
    "C53_shadowed_refuted"
   ],
   "note": "Exact effect of the cleaning on every path for the environments that are looked at, when no environment has two dist-infos of one package; nothing outside of the store changes. REFUTED: references of package containers are not looked at, a zoo opened under another spelling does not recognise the references, of two dist-infos with one name only the last counts. Symbolic links and failing removals are not modelled."
  },
  {
   "property": "C63",
   "status": "partial",
   "theorems": [
    "C63_never_reused",
    "C63_second_install_fails",
    "C63_reuse_refuted",
    "C63_first_install"
   ],
   "note": "REFUTED for every store with an artifact of the version: the code reads an attribute that does not exist and fails with AttributeError; an artifact is never reused"
  },
  {
   "property": "C39",
   "status": "partial",
   "theorems": [
    "C39_write_read",
    "C39_write_others",
    "C39_write_above_partial",
    "C39_write_fails_iff",
    "C39_pop",
    "C39_pop_fails_iff",
    "C39_write_pop",
    "C39_false_value_refuted"
   ],
   "note": "Proved for all tables, keys and values: a written value is read back, paths beside it do not change, popping returns the value and only removes it, and both fail exactly when the path is blocked. REFUTED only for a value above the path that counts as false (0, empty text): writing below it replaces it."
  },
  {
   "property": "C64",
   "status": "partial",
   "theorems": [
    "C64_load_save_partial",
    "C64_tool_table_refuted",
    "C64_tool_table_always",
    "C64_unknown_setting_refuted",
    "C64_contact_stable_iff",
    "C64_contact_grows_refuted"
   ],
   "note": "Proved for every class without dotted keys whose leftovers are kept. REFUTED: a project file with a [tool] table loses all tool.pkm settings when saved, settings unknown to a class without leftovers are dropped, and contact names get another pair of quotes on each load."
  },
  {
   "property": "C65",
   "status": "partial",
   "theorems": [
    "C65_dependencies",
    "C65_plain_partial",
    "C65_marker_unguarded",
    "C65_marker_refuted",
    "C65_letter_refuted"
   ],
   "note": "Proved for dependencies without a marker. REFUTED for every dependency with a marker of its own: the guard is cut off when the combined text is parsed, so it applies without the extra; a group with the letter J in its name is an error."
  },
  {
   "property": "C66",
   "status": "partial",
   "theorems": [
    "C66_clean_partial",
    "C66_total",
    "C66_spelling_refuted"
   ],
   "note": "Exact effect on every path, for versions compared by their text. REFUTED: a version to keep whose directory spells it differently (1.0 and 1.0.0) is removed. Symbolic links and failing removals are not modelled."
  },
  {
   "property": "C67",
   "status": "partial",
   "theorems": [
    "C67_existing",
    "C67_place",
    "C67_outside_partial",
    "C67_deletes_always",
    "C67_deletes_refuted"
   ],
   "note": "An existing environment stays as it is and nothing outside of the path changes. REFUTED: any other directory configured as the path is deleted with all its contents, even when creating the environment then fails."
  },
  {
   "property": "C68",
   "status": "partial",
   "theorems": [
    "C68_file_partial",
    "C68_reference_partial",
    "C68_extras_grow",
    "C68_extras_refuted",
    "C68_tables_refuted",
    "C68_scripts",
    "C68_gui_refuted",
    "C68_same_name_refuted"
   ],
   "note": "Proved for entries with distinct group and name and references without extras. REFUTED: references with extras grow a blank each time, a table of entry points ends in endless recursion, gui scripts become console scripts and may replace them."
  },
  {
   "property": "C69",
   "status": "partial",
   "theorems": [
    "C69_built_iff",
    "C69_ends",
    "C69_missing_refuted",
    "C69_twice_refuted",
    "C69_root_refuted",
    "C69_group_of",
    "C69_parent"
   ],
   "note": "The set of built projects and the group of a project are exact, and the walk ends without cycles. REFUTED: missing directories are passed over, a project listed twice is built twice, root is always None."
  },
  {
   "property": "C70",
   "status": "partial",
   "theorems": [
    "C70_remove_partial",
    "C70_add_remove_partial",
    "C70_relative_refuted"
   ],
   "note": "Proved when paths are understood in the directory of the group. REFUTED: relative paths are removed relative to the current directory."
  },
  {
   "property": "C38",
   "status": "partial",
   "theorems": [
    "C38_string_partial",
    "C38_backslash_refuted",
    "C38_value_partial",
    "C38_document_partial",
    "C38_number_at_end_refuted",
    "C38_empty_table_refuted"
   ],
   "note": "Strings, keys, inline values and whole documents (nested tables, arrays of tables, inline values) are read back as the same data when no string ends with a backslash or contains NUL and no nested table is empty. REFUTED: strings ending with a backslash, every document that ends with a number, empty tables. Floats, times, strings over several lines and rewriting with kept styles are not modelled."
  },
  {
   "property": "C71",
   "status": "partial",
   "theorems": [
    "C71_line_end_partial",
    "C71_comment_at_end_refuted"
   ],
   "note": "Proved for every text that ends with a line end. REFUTED: a comment at the end of the file without a line end is an endless loop."
  },
  {
   "property": "C72",
   "status": "partial",
   "theorems": [
    "C72_literal_partial",
    "C72_call_refuted"
   ],
   "note": "Proved for strings without two backslashes in a row. REFUTED: a string whose quote follows two backslashes is cut at the wrong quote, and the python code behind it is evaluated."
  },
  {
   "property": "C54",
   "status": "partial",
   "theorems": [
    "C54_bounded_partial",
    "C54_once_partial",
    "C54_settled_partial",
    "C54_cancel_too_late_partial",
    "C54_cancel_refuted",
    "C54_cancel_kills_refuted"
   ],
   "note": "Proved over all interleavings of submitters, cancellers, workers and worker processes: at most max_workers workers, no task executed twice, no promise settled twice, a promise gets the answer to its own task, and at rest every task is settled, running, or queued behind max_workers running tasks (when every worker process starts). REFUTED for cancelling: a task cancelled before it starts is executed, and cancelling a finished task kills the worker while it runs another task."
  },
  {
   "property": "C73",
   "status": "partial",
   "theorems": [
    "C73_queue_kept_partial",
    "C73_close_hangs_refuted",
    "C73_churn_refuted"
   ],
   "note": "REFUTED: close() waits for ever for a worker that was busy, since that worker leaves its loop without ending its process, and the pool then starts worker processes without end while the queued task stays; proved that a closed pool keeps its queue."
  },
  {
   "property": "C59",
   "status": "partial",
   "theorems": [
    "C59_nothing_lost_partial",
    "C59_refused_partial",
    "C59_failure_partial",
    "C59_doubled_refuted",
    "C59_escape_refuted"
   ],
   "note": "REFUTED as stated: a template file named like a directory of the target is copied into that directory and silently replaces the file of the same name there, and a rendered name with .. or an absolute one leaves the temporary directory and replaces files unchecked. Proved for plain names: nothing else is ever lost (any outcome), a clash with an existing file fails before any change, a failed rendering changes nothing."
  },
  {
   "property": "C74",
   "status": "partial",
   "theorems": [
    "C74_exact_partial",
    "C74_in_place_partial",
    "C74_preserved_refuted",
    "C74_control_files_refuted"
   ],
   "note": "REFUTED as stated: _render returns after the first preserved directory, so later siblings are dropped, and a .templateignore replaces the list of control files, so render.py itself is put into the target. Proved: without preserved directories, with plain names and room in the target, the execution succeeds and adds exactly the outputs of an independently stated relation, in a temporary directory or in place."
  },
  {
   "property": "C58",
   "status": "partial",
   "theorems": [
    "C58_understood_partial",
    "C58_ends_partial",
    "C58_commands",
    "C58_whole",
    "C58_defaults_partial",
    "C58_field_name",
    "C58_subfields",
    "C58_repeated",
    "C58_empty_word_refuted",
    "C58_dash_refuted",
    "C58_flag_value_refuted",
    "C58_empty_value_refuted",
    "C58_twice_refuted",
    "C58_swallowed_refuted"
   ],
   "note": "REFUTED: an empty word ends parsing and drops the rest, a lone dash is dropped, a value given to a flag sets it and becomes the next word, '--opt=' takes the next word, a second value of a non-repeatable option replaces the first, a '*' positional takes later options as values. Proved for definitions in which flags have no fields and positionals are not flags: on command lines without empty words, lone dashes and values for flags, parsing succeeds exactly when the words split into uses of declared commands, options, fields and positionals, with that result; parsing ends; every understood command has a value for exactly the declared arguments; defaults, required arguments and mutex groups are as declared. Missing: dynamic commands, dynamic arguments and field providers."
  },
  {
   "property": "C75",
   "status": "proved",
   "theorems": [
    "C01_irreflexive",
    "C01_transitive",
    "C01_incomparable_iff"
   ],
   "note": "for the model of standard versions"
  },
  {
   "property": "C76",
   "status": "proved",
   "theorems": [
    "C02_equality_meaning",
    "C02_equivalence"
   ],
   "note": ""
  },
  {
   "property": "C77",
   "status": "proved",
   "theorems": [
    "C05_total"
   ],
   "note": ""
  },
  {
   "property": "C78",
   "status": "proved",
   "theorems": [
    "C03_release_decides"
   ],
   "note": ""
  },
  {
   "property": "C79",
   "status": "proved",
   "theorems": [
    "C56_print_parse"
   ],
   "note": "wf_url spells out which parts can stand in a url"
  },
  {
   "property": "C80",
   "status": "proved",
   "theorems": [
    "C26_one_download_at_a_time"
   ],
   "note": ""
  },
  {
   "property": "C81",
   "status": "proved",
   "theorems": [
    "C28_contacts_bounded",
    "C28_always_ends"
   ],
   "note": ""
  },
  {
   "property": "C82",
   "status": "proved",
   "theorems": [
    "C29_limit",
    "C29_closed_keeps_nothing"
   ],
   "note": ""
  },
  {
   "property": "C83",
   "status": "proved",
   "theorems": [
    "C30_settled_once",
    "C30_second_raises",
    "C30_at_most_once",
    "C30_sees_the_settled_state",
    "C30_exactly_once",
    "C30_value_was_given"
   ],
   "note": "threads interleave at the locks of the code"
  },
  {
   "property": "C84",
   "status": "proved",
   "theorems": [
    "C31_await_all",
    "C31_await_all_failure",
    "C31_cancel_success"
   ],
   "note": ""
  },
  {
   "property": "C85",
   "status": "proved",
   "theorems": [
    "C32_exactly_the_resolution",
    "C32_right_ones_untouched",
    "C32_no_needless_operation",
    "C32_requests_recorded"
   ],
   "note": "plan_input: no key installed or resolved twice"
  },
  {
   "property": "C86",
   "status": "proved",
   "theorems": [
    "C34_ends",
    "C34_own_files_gone",
    "C34_removed_directories",
    "C34_no_empty_directory_left"
   ],
   "note": ""
  },
  {
   "property": "C87",
   "status": "proved",
   "theorems": [
    "C35_normalize_idempotent",
    "C35_key_idempotent",
    "C35_same_key_same_package"
   ],
   "note": ""
  },
  {
   "property": "C88",
   "status": "proved",
   "theorems": [
    "C50_accepted_is_compatible",
    "C50_single_tag"
   ],
   "note": ""
  },
  {
   "property": "C89",
   "status": "proved",
   "theorems": [
    "C44_first_match_answers",
    "C44_bound_repository_answers",
    "C44_bound_to_unknown",
    "C44_composite_is_lawful"
   ],
   "note": "lawful: what the base class AbstractRepository ensures for every repository"
  },
  {
   "property": "C90",
   "status": "proved",
   "theorems": [
    "C46_chain_terminates"
   ],
   "note": ""
  },
  {
   "property": "C91",
   "status": "proved",
   "theorems": [
    "C48_operation_exact",
    "C48_removed_has_no_binding"
   ],
   "note": ""
  },
  {
   "property": "C92",
   "status": "proved",
   "theorems": [
    "C51_terminates",
    "C51_cycle_rejected"
   ],
   "note": ""
  },
  {
   "property": "C93",
   "status": "proved",
   "theorems": [
    "C52_hit",
    "C52_key"
   ],
   "note": ""
  },
  {
   "property": "C94",
   "status": "proved",
   "theorems": [
    "C42_print_parse",
    "C42_errors"
   ],
   "note": ""
  },
  {
   "property": "C95",
   "status": "proved",
   "theorems": [
    "C42_extra",
    "C42_version_atom",
    "C42_text_atom"
   ],
   "note": "versions: the clauses that PEP 440 defines on candidates without local part, as in C13"
  },
  {
   "property": "C96",
   "status": "proved",
   "theorems": [
    "C53_referenced_stays",
    "C53_unreferenced_goes",
    "C53_outside",
    "C53_only_removes"
   ],
   "note": ""
  },
  {
   "property": "C97",
   "status": "proved",
   "theorems": [
    "C39_write_read",
    "C39_write_others",
    "C39_write_fails_iff",
    "C39_pop",
    "C39_pop_fails_iff",
    "C39_write_pop"
   ],
   "note": ""
  },
  {
   "property": "C98",
   "status": "proved",
   "theorems": [
    "C69_built_iff",
    "C69_ends",
    "C69_group_of"
   ],
   "note": ""
  },
  {
   "property": "C99",
   "status": "proved",
   "theorems": [
    "C67_existing"
   ],
   "note": ""
  },
  {
   "property": "C100",
   "status": "proved",
   "theorems": [
    "C41_groupby",
    "C41_groupby_keys_once",
    "C41_groupby_all",
    "C41_distinct",
    "C41_distinct_once",
    "C41_partition",
    "C41_argmax",
    "C41_index_of",
    "C41_pop",
    "C41_single",
    "C41_prefix",
    "C41_remove_by_value",
    "C41_get_or_put"
   ],
   "note": ""
  },
  {
   "property": "C101",
   "status": "proved",
   "theorems": [
    "C58_commands",
    "C58_whole"
   ],
   "note": ""
  },
  {
   "property": "C102",
   "status": "proved",
   "theorems": [
    "C21_reorders",
    "C21_repository",
    "C21_one_per_env"
   ],
   "note": "for packages of one name, as the repository returns them"
  },
  {
   "property": "C103",
   "status": "proved",
   "theorems": [
    "C24_path_to"
   ],
   "note": "for a destination without '..', as resolved paths are"
  },
  {
   "property": "C104",
   "status": "proved",
   "theorems": [
    "C37_unrecorded_rejected"
   ],
   "note": ""
  },
  {
   "property": "C105",
   "status": "proved",
   "theorems": [
    "C43_shape"
   ],
   "note": ""
  },
  {
   "property": "C106",
   "status": "partial",
   "theorems": [
    "C106_opened_partial",
    "C106_works_partial"
   ],
   "note": "For an answer of the solver that is a solution (C15), when no package comes up under two spellings, no version has a local label and no url requirements are involved"
  },
  {
   "property": "C107",
   "status": "partial",
   "theorems": [
    "C107_one_version_partial",
    "C107_one_version_refuted"
   ],
   "note": "REFUTED when requirements spell a name differently (foo_bar and foo-bar); proved when each package comes up under one spelling"
  },
  {
   "property": "C108",
   "status": "partial",
   "theorems": [
    "C108_visible",
    "C108_prerelease_refuted"
   ],
   "note": "REFUTED: the resolver lists versions without the requirement, so pre-releases are hidden as soon as there is one final release; which versions it hears of is characterised exactly"
  },
  {
   "property": "C109",
   "status": "partial",
   "theorems": [
    "C109_lower_case_partial",
    "C109_name_refuted"
   ],
   "note": "REFUTED: names are lowered before they are looked up, so a project with upper case letters is never found"
  },
  {
   "property": "C110",
   "status": "proved",
   "theorems": [
    "C110_required"
   ],
   "note": ""
  },
  {
   "property": "C111",
   "status": "partial",
   "theorems": [
    "C111_consumed",
    "C111_twice",
    "C111_same_refuted"
   ],
   "note": "REFUTED: settings are popped from the dictionary; the second object has only defaults, or a required setting is missed"
  },
  {
   "property": "C112",
   "status": "proved",
   "theorems": [
    "C112_match",
    "C112_offered",
    "C112_artifacts"
   ],
   "note": "the order is proved for versions without local labels and urls, on which the order is an order"
  },
  {
   "property": "C113",
   "status": "partial",
   "theorems": [
    "C113_only_one",
    "C113_metadata_refuted"
   ],
   "note": "REFUTED: the dictionary with the metadata is emptied by the first package, so all other versions have no metadata and the first one has that of the latest release"
  },
  {
   "property": "C114",
   "status": "partial",
   "theorems": [
    "C114_fails_iff",
    "C114_other_versions_refuted"
   ],
   "note": "REFUTED; when the answer fails is characterised exactly"
  },
  {
   "property": "C115",
   "status": "partial",
   "theorems": [
    "C115_wheel",
    "C115_sdist_partial",
    "C115_dash_refuted"
   ],
   "note": "wheels proved; source distributions if the version has no dash, REFUTED otherwise"
  },
  {
   "property": "C116",
   "status": "partial",
   "theorems": [
    "C116_links_partial",
    "C116_links_refuted"
   ],
   "note": "proved for http(s) urls and links that start with one slash; REFUTED for relative links, links to other servers without a scheme, and files whose name starts with http"
  },
  {
   "property": "C117",
   "status": "proved",
   "theorems": [
    "C117_verified"
   ],
   "note": ""
  },
  {
   "property": "C118",
   "status": "partial",
   "theorems": [
    "C118_stuck",
    "C118_retry_refuted"
   ],
   "note": "REFUTED: the rejected file stays in the cache; proved that every later attempt fails"
  },
  {
   "property": "C119",
   "status": "partial",
   "theorems": [
    "C119_inside",
    "C119_apart",
    "C119_outside_refuted"
   ],
   "note": "proved if there is no dot-dot in the url, and apart from md5 collisions; REFUTED for urls with dot-dot"
  },
  {
   "property": "C120",
   "status": "partial",
   "theorems": [
    "C120_files",
    "C120_page",
    "C120_spelling_refuted"
   ],
   "note": "proved per spelling of the version; REFUTED when files spell the version differently"
  },
  {
   "property": "C121",
   "status": "proved",
   "theorems": [
    "C121_csv",
    "C121_records"
   ],
   "note": ""
  },
  {
   "property": "C122",
   "status": "partial",
   "theorems": [
    "C122_saved_iff",
    "C122_loses",
    "C122_again_refuted"
   ],
   "note": "REFUTED: rows without hash or length raise KeyError and leave a truncated RECORD; exact condition proved"
  },
  {
   "property": "C123",
   "status": "partial",
   "theorems": [
    "C123_rows",
    "C123_empty_line_refuted"
   ],
   "note": "REFUTED: an empty line gives a record without a file; proved that the files are exactly the first columns"
  },
  {
   "property": "C124",
   "status": "partial",
   "theorems": [
    "C124_lines_partial",
    "C124_fails_iff",
    "C124_colon_refuted"
   ],
   "note": "proved for values without colons, line ends and blanks at the edges; REFUTED for values with a colon and for repeated keys"
  },
  {
   "property": "C125",
   "status": "partial",
   "theorems": [
    "C125_isolated_refuted"
   ],
   "note": "REFUTED for every home and version without an equals sign: the file is written with colons, and python reads settings with equals signs"
  },
  {
   "property": "C126",
   "status": "partial",
   "theorems": [
    "C126_read_partial",
    "C126_missing",
    "C126_folded",
    "C126_shapes_refuted"
   ],
   "note": "proved for fields without the description whose values fit on their lines; broken values come back with the line breaks; REFUTED for lists of one text"
  },
  {
   "property": "C127",
   "status": "partial",
   "theorems": [
    "C127_description_refuted"
   ],
   "note": "REFUTED: never read back"
  },
  {
   "property": "C128",
   "status": "partial",
   "theorems": [
    "C128_lines_refuted"
   ],
   "note": "REFUTED: texts are left out silently; only entries of lists are errors"
  },
  {
   "property": "C129",
   "status": "partial",
   "theorems": [
    "C129_authors_partial",
    "C129_maintainers_refuted",
    "C129_address_refuted"
   ],
   "note": "names and addresses of authors proved; REFUTED for maintainers and for who has which address"
  },
  {
   "property": "C130",
   "status": "partial",
   "theorems": [
    "C130_upload_partial",
    "C130_source",
    "C130_fields",
    "C130_build_refuted"
   ],
   "note": "proved for wheels without a build number; REFUTED with one"
  },
  {
   "property": "C131",
   "status": "partial",
   "theorems": [
    "C131_right_partial",
    "C131_order_refuted",
    "C131_shared_refuted"
   ],
   "note": "proved when no directory of a request is inside that of another; REFUTED: a branch makes later requests for the default branch fail, and a branch of one repository can share the directory of another repository or of another port"
  },
  {
   "property": "C132",
   "status": "partial",
   "theorems": [
    "C132_stale_refuted",
    "C132_pulled"
   ],
   "note": "REFUTED: with the layout of git no checkout is ever updated"
  },
  {
   "property": "C133",
   "status": "proved",
   "theorems": [
    "C133_nothing_left"
   ],
   "note": ""
  },
  {
   "property": "C134",
   "status": "partial",
   "theorems": [
    "C134_url_partial",
    "C134_port_refuted",
    "C134_user_refuted",
    "C134_case_refuted"
   ],
   "note": "proved for urls without at signs; REFUTED: other schemes get port 443, users are taken for servers, capital letters are lost"
  },
  {
   "property": "C135",
   "status": "partial",
   "theorems": [
    "C135_inside_partial",
    "C135_outside_refuted"
   ],
   "note": "proved without dot-dot and absolute branches; REFUTED with them"
  },
  {
   "property": "C136",
   "status": "partial",
   "theorems": [
    "C136_group_refuted"
   ],
   "note": "REFUTED: always an error"
  },
  {
   "property": "C137",
   "status": "partial",
   "theorems": [
    "C137_verifies_partial",
    "C137_installs_partial",
    "C137_dist_info_refuted"
   ],
   "note": "proved for every project whose package directories do not end in .dist-info, with the files of the site; REFUTED when one does: the wheel is built but cannot be opened"
  },
  {
   "property": "C138",
   "status": "partial",
   "theorems": [
    "C138_contents",
    "C138_again_partial",
    "C138_modules_refuted",
    "C138_flat_refuted"
   ],
   "note": "the packages are copied exactly, and building again is proved to give the same for projects with a src directory; REFUTED: modules that are single files are left out, and without a src directory everything is packed, also earlier results"
  },
  {
   "property": "C139",
   "status": "partial",
   "theorems": [
    "C139_anywhere_partial",
    "C139_readme_refuted",
    "C139_license_refuted"
   ],
   "note": "proved without files of texts; REFUTED with them: the description is lost or the build fails"
  },
  {
   "property": "C140",
   "status": "partial",
   "theorems": [
    "C140_sdist_partial",
    "C140_nested_refuted",
    "C140_license_refuted",
    "C140_readme_refuted"
   ],
   "note": "proved for found packages and no files of texts; REFUTED for listed packages below other directories and for files of texts, which are not in the archive"
  },
  {
   "property": "C141",
   "status": "partial",
   "theorems": [
    "C141_accepted_partial",
    "C141_unbounded_partial",
    "C141_major_refuted",
    "C141_upper_refuted"
   ],
   "note": "proved within the major version of the lower bound; REFUTED across major versions, and for a requirement with only an upper bound"
  },
  {
   "property": "C142",
   "status": "partial",
   "theorems": [
    "C142_round",
    "C142_file",
    "C142_name_refuted"
   ],
   "note": "proved for tables; REFUTED for the plain name of a file, which becomes the description itself"
  },
  {
   "property": "C143",
   "status": "partial",
   "theorems": [
    "C143_none",
    "C143_place_partial",
    "C143_project_partial",
    "C143_wheel_partial",
    "C143_case_refuted"
   ],
   "note": "proved for paths of lower-case letters, digits and the signs of plain_path; REFUTED with capital letters, which are made small: another directory is used or none is found"
  },
  {
   "property": "C144",
   "status": "partial",
   "theorems": [
    "C144_name_refuted",
    "C144_missing_refuted"
   ],
   "note": "REFUTED: the name of the project is not compared with the request, and a wheel that does not exist is a package"
  },
  {
   "property": "C145",
   "status": "proved",
   "theorems": [
    "C145_every",
    "C145_group",
    "C145_single",
    "C145_only",
    "C145_answer"
   ],
   "note": ""
  },
  {
   "property": "C146",
   "status": "partial",
   "theorems": [
    "C146_found_partial",
    "C146_spelling_refuted"
   ],
   "note": "proved for the name of the file with dashes; REFUTED for underscores, dots and capital letters"
  },
  {
   "property": "C147",
   "status": "partial",
   "theorems": [
    "C147_usable_partial",
    "C147_spoiled_refuted"
   ],
   "note": "proved when every distribution file has a name with a dash; REFUTED: a file named backup.whl makes the repository fail with IndexError"
  },
  {
   "property": "C148",
   "status": "partial",
   "theorems": [
    "C148_wheel",
    "C148_sdist_partial",
    "C148_local_refuted",
    "C148_dash_refuted"
   ],
   "note": "proved for wheels, and for source distributions without a local label; REFUTED: a local label swallows .tar.gz, and a dash in a name ends it"
  },
  {
   "property": "C149",
   "status": "partial",
   "theorems": [
    "C149_made_up_refuted",
    "C149_bounds_partial"
   ],
   "note": "REFUTED: a directory without pyproject.toml gives a package with the name of the directory; requirements with a lower bound never choose it"
  },
  {
   "property": "C150",
   "status": "partial",
   "theorems": [
    "C150_project",
    "C150_distribution_refuted"
   ],
   "note": "proved for projects; REFUTED for all distribution files, whose dependencies end in AttributeError"
  },
  {
   "property": "C151",
   "status": "partial",
   "theorems": [
    "C151_one_partial",
    "C151_none",
    "C151_case_refuted"
   ],
   "note": "proved for urls that are in small letters; REFUTED with capital letters, which are lost"
  },
  {
   "property": "C152",
   "status": "partial",
   "theorems": [
    "C152_stay_partial",
    "C152_removed_refuted"
   ],
   "note": "proved for installations that can be met by adding packages; REFUTED otherwise: packages that nobody requested and nobody needs are removed"
  },
  {
   "property": "C153",
   "status": "partial",
   "theorems": [
    "C153_healthy_partial",
    "C153_prefers",
    "C153_updates_refuted"
   ],
   "note": "proved without overrides and updates, for resolvers whose answers work together (C106) and when nobody uses the name installation-request; REFUTED with a list of updates, which leaves the requests of the others aside"
  },
  {
   "property": "C154",
   "status": "partial",
   "theorems": [
    "C154_asked_partial",
    "C154_recorded",
    "C154_twice_refuted",
    "C154_reserved_refuted"
   ],
   "note": "proved for requests with distinct names, without overrides; REFUTED: of two requests for one package only the last counts, and a package named installation-request is silently not installed"
  },
  {
   "property": "C155",
   "status": "partial",
   "theorems": [
    "C155_added_partial",
    "C155_forgotten_refuted"
   ],
   "note": "proved for installations that can be met by adding packages; REFUTED otherwise: the second attempt forgets the overrides"
  },
  {
   "property": "C156",
   "status": "partial",
   "theorems": [
    "C156_asked_partial",
    "C156_vanishes_refuted"
   ],
   "note": "proved for updated packages that are requested again; REFUTED for others, which are removed together with their request"
  },
  {
   "property": "C157",
   "status": "partial",
   "theorems": [
    "C157_newest_partial"
   ],
   "note": "proved for packages that are not installed, for installations that can be met by adding packages; otherwise the resolver decides"
  },
  {
   "property": "C158",
   "status": "partial",
   "theorems": [
    "C158_specified_partial",
    "C158_unknown_refuted"
   ],
   "note": "proved for requests with a version; REFUTED for a name alone: max() of nothing is a ValueError"
  },
  {
   "property": "C159",
   "status": "partial",
   "theorems": [
    "C159_kept_partial",
    "C159_broken_refuted"
   ],
   "note": "proved when the resolver answers; REFUTED: in an environment with a version conflict or a package for another python nothing can be removed"
  },
  {
   "property": "C160",
   "status": "partial",
   "theorems": [
    "C160_self",
    "C160_major_partial",
    "C160_post_refuted",
    "C160_local_refuted"
   ],
   "note": "proved for final versions without post release and local label; REFUTED for these, which allow the next major version"
  },
  {
   "property": "C161",
   "status": "partial",
   "theorems": [
    "C161_keys_partial",
    "C161_self_update_refuted"
   ],
   "note": "proved for normalised keys; REFUTED for names as they are written: pkm does not update itself, because pkm-cli is compared with pkm_cli"
  },
  {
   "property": "C162",
   "status": "partial",
   "theorems": [
    "C162_placed_partial",
    "C162_twice_refuted"
   ],
   "note": "proved for paths that nothing else of the same installation is put at or above; REFUTED for wheels that have a file for the same path twice"
  },
  {
   "property": "C163",
   "status": "partial",
   "theorems": [
    "C163_recorded_partial",
    "C163_complete_partial",
    "C163_installer_refuted"
   ],
   "note": "proved for all files but those that pkm writes into the dist-info directory; REFUTED for these (INSTALLER, REQUESTED, INSTALLATION_MODE are not listed)"
  },
  {
   "property": "C164",
   "status": "partial",
   "theorems": [
    "C164_computed_partial",
    "C164_verified_partial",
    "C164_compiled_refuted"
   ],
   "note": "proved when there was no RECORD before, for files the wheel's RECORD does not mention and for its verified files; REFUTED for compiled files that the wheel ships: they are overwritten but keep the old hash"
  },
  {
   "property": "C165",
   "status": "proved",
   "theorems": [
    "C165_untouched",
    "C165_new_files"
   ],
   "note": ""
  },
  {
   "property": "C166",
   "status": "partial",
   "theorems": [
    "C166_files_partial",
    "C166_directories_partial",
    "C166_no_new_directories_partial",
    "C166_overwritten_refuted",
    "C166_scripts_directory_refuted",
    "C166_empty_directory_refuted"
   ],
   "note": "files and the directories they are in are proved to return when nothing of the package was there and others have no compiled files in its directories; REFUTED for files that are overwritten, for the directory of scripts and for empty directories"
  },
  {
   "property": "C167",
   "status": "partial",
   "theorems": [
    "C167_mismatch",
    "C167_copy_partial",
    "C167_left_behind_refuted",
    "C167_script_lost_refuted"
   ],
   "note": "the refusal is proved for all wheels, the return for failures while files are copied (no data directory, iteration orders that meet content first); REFUTED later: RECORD and directories stay, a script that was there is lost"
  },
  {
   "property": "C168",
   "status": "partial",
   "theorems": [
    "C168_kept",
    "C168_twice_refuted",
    "C168_foreign_record_refuted"
   ],
   "note": "REFUTED: entries are doubled, and a RECORD with an entry without hash is cut off; proved: the old entries stay in front"
  },
  {
   "property": "C169",
   "status": "partial",
   "theorems": [
    "C169_scripts_partial",
    "C169_others_partial",
    "C169_nested_refuted"
   ],
   "note": "proved for files directly in the directory of scripts that nothing else is put at; REFUTED for scripts in directories below"
  },
  {
   "property": "C170",
   "status": "partial",
   "theorems": [
    "C170_launchers_partial",
    "C170_reference",
    "C170_same_name_refuted"
   ],
   "note": "proved for launchers whose place no other launcher and no compiled file takes; REFUTED for two entry points of one name in console_scripts and gui_scripts: the launcher of the first is overwritten; missing: launchers at a path where a compiled file is put"
  },
  {
   "property": "C171",
   "status": "partial",
   "theorems": [
    "C171_known_parts",
    "C171_headers_refuted"
   ],
   "note": "the first half is proved; REFUTED for headers, which the standard names"
  },
  {
   "property": "C172",
   "status": "partial",
   "theorems": [
    "C172_version",
    "C172_short_refuted"
   ],
   "note": "the first two parts are proved; REFUTED for Wheel-Version: 1, which is an IndexError"
  },
  {
   "property": "C173",
   "status": "partial",
   "theorems": [
    "C173_subdir_partial",
    "C173_own_platform",
    "C173_apple_silicon_refuted",
    "C173_i686_refuted"
   ],
   "note": "that no other system is asked for is proved; REFUTED for machines named arm64 and i686, which are not known"
  },
  {
   "property": "C174",
   "status": "partial",
   "theorems": [
    "C174_offered_partial",
    "C174_noarch_refuted",
    "C174_conda_files_refuted"
   ],
   "note": "proved for the table of older files of the subdirectory of the platform; REFUTED for noarch packages and for files of the newer format"
  },
  {
   "property": "C175",
   "status": "partial",
   "theorems": [
    "C175_series_partial",
    "C175_alternatives_partial",
    "C175_next_pre_release_refuted",
    "C175_glued_star_refuted",
    "C175_letter_refuted",
    "C175_any_alternative_refuted"
   ],
   "note": "proved for series of final versions and alternatives other than *; REFUTED: 1.2.* allows 1.3a1, 2.7* refuses 2.7.18, what follows 1.1.1g is not read, 1.8|* is an AssertionError"
  },
  {
   "property": "C176",
   "status": "partial",
   "theorems": [
    "C176_builds_found",
    "C176_none_found",
    "C176_only_builds_partial",
    "C176_longer_build_refuted",
    "C176_several_builds_refuted"
   ],
   "note": "all builds that follow the pattern are proved to be found, and only builds that begin like it; REFUTED: h_1 also takes h_10, and if several builds follow the pattern the dependency finds none"
  },
  {
   "property": "C177",
   "status": "partial",
   "theorems": [
    "C177_not_newer_partial",
    "C177_upper_bound_refuted",
    "C177_exact_python_refuted",
    "C177_above_refuted"
   ],
   "note": "the lower bound is proved; REFUTED: the upper bound is not looked at, a file for exactly one version makes the whole name fail, >3 is taken for python 4"
  },
  {
   "property": "C178",
   "status": "proved",
   "theorems": [
    "C178_best",
    "C178_nothing_usable"
   ],
   "note": ""
  },
  {
   "property": "C179",
   "status": "partial",
   "theorems": [
    "C179_found_partial",
    "C179_capitals_refuted"
   ],
   "note": "proved for urls without capital letters; REFUTED with capital letters, which are made small"
  },
  {
   "property": "C180",
   "status": "partial",
   "theorems": [
    "C180_newest_first_partial",
    "C180_letters_refuted"
   ],
   "note": "proved for versions without local label; REFUTED for versions that differ in a letter (1.1.1g, 1.1.1k), which are read as equal"
  },
  {
   "property": "C181",
   "status": "partial",
   "theorems": [
    "C181_written_partial",
    "C181_extras_refuted",
    "C181_marker_refuted"
   ],
   "note": "proved for requests with a version, and for the range of the others; REFUTED: a request without version loses its extras, and one whose marker does not hold fails after the installation"
  },
  {
   "property": "C182",
   "status": "partial",
   "theorems": [
    "C182_lists",
    "C182_file_partial",
    "C182_lock_refuted",
    "C182_remembered_refuted",
    "C182_group_refuted"
   ],
   "note": "the lists are proved to be as before, and the files if the lock file can be written; REFUTED: the lock file fails after pyproject.toml was written, the failed request is remembered, a new group stays as an empty one"
  },
  {
   "property": "C183",
   "status": "partial",
   "theorems": [
    "C183_removed",
    "C183_file_partial",
    "C183_memory_refuted"
   ],
   "note": "the first half is proved; REFUTED: after a failed removal the dependency is gone from the object in memory"
  },
  {
   "property": "C184",
   "status": "partial",
   "theorems": [
    "C184_installed_partial",
    "C184_again_refuted"
   ],
   "note": "proved for the first request; REFUTED for the second one by the same object, which does not see its own dependency"
  },
  {
   "property": "C185",
   "status": "partial",
   "theorems": [
    "C185_sent_partial",
    "C185_stale_refuted",
    "C185_resumed_refuted"
   ],
   "note": "what is sent is proved to be what is in the directory of the version; REFUTED: files built from older code are sent, and a publication that broke off cannot be completed"
  },
  {
   "property": "C186",
   "status": "partial",
   "theorems": [
    "C186_kept",
    "C186_forgotten",
    "C186_password",
    "C186_lost_refuted",
    "C186_used_refuted"
   ],
   "note": "the first two parts are proved; REFUTED: two open stores lose the changes of each other, and what is stored is never used"
  },
  {
   "property": "C187",
   "status": "partial",
   "theorems": [
    "C187_plain",
    "C187_attached",
    "C187_before_refuted",
    "C187_after_refuted",
    "C187_executor_refuted"
   ],
   "note": "commands without tasks are proved to be undisturbed; REFUTED for all attached tasks: the command line that starts them names no module"
  },
  {
   "property": "C188",
   "status": "partial",
   "theorems": [
    "C188_own",
    "C188_found",
    "C188_installed_partial",
    "C188_dotted_refuted"
   ],
   "note": "proved for tasks of the project and installed tasks without a dot; REFUTED for installed tasks with a dot"
  },
  {
   "property": "C189",
   "status": "partial",
   "theorems": [
    "C189_nearest",
    "C189_refused",
    "C189_named",
    "C189_global",
    "C189_alone_refuted",
    "C189_site_refuted",
    "C189_without_tasks_refuted"
   ],
   "note": "the choice of the directory is proved; REFUTED: pkm without a command fails, the option --site is ignored and so is --without-tasks"
  },
  {
   "property": "C190",
   "status": "partial",
   "theorems": [
    "C190_project_partial",
    "C190_bound",
    "C190_environment_refuted",
    "C190_app_refuted"
   ],
   "note": "proved for projects; REFUTED for environments: the packages are removed if that is forced and then the command fails; a refused request leaves its binding behind"
  },
  {
   "property": "C191",
   "status": "partial",
   "theorems": [
    "C191_distinct",
    "C191_named",
    "C191_help_refuted"
   ],
   "note": "proved that no two options share a name; REFUTED: an option may take -h away from the help"
  },
  {
   "property": "C192",
   "status": "partial",
   "theorems": [
    "C192_called_partial",
    "C192_defaults",
    "C192_read",
    "C192_varargs_refuted",
    "C192_required_refuted",
    "C192_underscore_refuted",
    "C192_bool_refuted",
    "C192_help_refuted"
   ],
   "note": "proved for functions without *args whose names have no leading or double underscores; REFUTED for functions with *args, with required keywords only, with such names, with a parameter help, and False is read as true"
  },
  {
   "property": "C193",
   "status": "partial",
   "theorems": [
    "C193_documented_partial",
    "C193_first_line_refuted"
   ],
   "note": "proved for texts whose lines share a margin; REFUTED for all texts that begin right after the quotes"
  },
  {
   "property": "C194",
   "status": "partial",
   "theorems": [
    "C194_parsed_partial",
    "C194_order",
    "C194_called_partial",
    "C194_surplus_refuted",
    "C194_words_refuted"
   ],
   "note": "proved for words that fit the parameters; REFUTED: surplus words are dropped, names with dashes are not understood and False is read as true"
  },
  {
   "property": "C195",
   "status": "partial",
   "theorems": [
    "C195_nested_partial",
    "C195_read",
    "C195_attributes",
    "C195_text_partial",
    "C195_void_refuted",
    "C195_open_refuted",
    "C195_text_refuted"
   ],
   "note": "proved for well nested pages, and which others are read; REFUTED for pages with elements that are not closed, and for texts with other elements in them"
  },
  {
   "property": "C196",
   "status": "partial",
   "theorems": [
    "C196_found",
    "C196_along",
    "C196_no_matchers",
    "C196_order_refuted"
   ],
   "note": "proved that exactly the right elements are found; REFUTED: they are found from the last to the first"
  },
  {
   "property": "C197",
   "status": "partial",
   "theorems": [
    "C197_row",
    "C197_backup",
    "C197_remembered_partial",
    "C197_known_partial",
    "C197_compatible",
    "C197_empty_refuted",
    "C197_void_refuted",
    "C197_driver_refuted",
    "C197_module_refuted"
   ],
   "note": "proved for rows of three cells, for unreadable pages and for tables that can be printed; REFUTED: a page without table erases what was known, a void element makes the page unreadable, without driver there is no repository, and the resource is looked for in a module that does not exist"
  },
  {
   "property": "C198",
   "status": "partial",
   "theorems": [
    "C198_answered",
    "C198_all",
    "C198_order",
    "C198_cuda_partial",
    "C198_cuda_refuted",
    "C198_old_refuted",
    "C198_patch_refuted",
    "C198_named_refuted"
   ],
   "note": "proved which builds are offered and their order; REFUTED: cuda 9.2 is before 10.0, old builds for cuda are before new ones without label, cuda 11.0.3 has no builds, and a version that is not standard is an error"
  },
  {
   "property": "C199",
   "status": "partial",
   "theorems": [
    "C199_found_partial",
    "C199_all",
    "C199_hidden_refuted",
    "C199_name_refuted"
   ],
   "note": "proved for valid names; REFUTED: a package of the same name outside hides the container, and a name that ends with a dash has no container"
  },
  {
   "property": "C200",
   "status": "partial",
   "theorems": [
    "C200_main_partial",
    "C200_own",
    "C200_plugins",
    "C200_underscores_refuted",
    "C200_suffix_refuted"
   ],
   "note": "proved for valid names without two separators in a row; REFUTED for two underscores and for applications whose name ends like a wrapper"
  },
  {
   "property": "C201",
   "status": "partial",
   "theorems": [
    "C201_installed",
    "C201_absent",
    "C201_uninstalled",
    "C201_broken_refuted"
   ],
   "note": "proved for names that are found; REFUTED: a container without its application raises AttributeError"
  },
  {
   "property": "C202",
   "status": "partial",
   "theorems": [
    "C202_scripts_partial",
    "C202_same_refuted",
    "C202_digit_refuted"
   ],
   "note": "proved for names that give different functions; REFUTED for names that differ in a separator, begin with a digit or are keywords"
  },
  {
   "property": "C203",
   "status": "partial",
   "theorems": [
    "C203_first_partial",
    "C203_pth_refuted",
    "C203_path_partial",
    "C203_unset",
    "C203_path_refuted",
    "C203_known_refuted"
   ],
   "note": "proved for sites without .pth files; REFUTED with .pth files, for known sites and for parts of other paths"
  },
  {
   "property": "C204",
   "status": "partial",
   "theorems": [
    "C204_lines",
    "C204_missing",
    "C204_orphan",
    "C204_removed_refuted"
   ],
   "note": "proved what is reported; REFUTED: the orphans of the report are not those that are removed"
  },
  {
   "property": "C205",
   "status": "partial",
   "theorems": [
    "C205_restored_partial",
    "C205_told",
    "C205_others",
    "C205_overlap_refuted",
    "C205_added_refuted"
   ],
   "note": "proved for nested blocks; REFUTED for blocks that overlap, as in threads, and for listeners added inside of a block"
  },
  {
   "property": "C206",
   "status": "partial",
   "theorems": [
    "C206_same_partial",
    "C206_order",
    "C206_enter_refuted",
    "C206_handled_refuted",
    "C206_notify_refuted"
   ],
   "note": "proved for operations entered by with, with harmless and complete listeners; REFUTED: _Monitor.enter hides exceptions, a generator that handles one raises another, a listener to the end makes a notification fail"
  },
  {
   "property": "C207",
   "status": "partial",
   "theorems": [
    "C207_resumed_partial",
    "C207_around",
    "C207_again_refuted",
    "C207_beside_refuted"
   ],
   "note": "proved for operations that are not entered in themselves; REFUTED for these, and beside a listener to the end"
  },
  {
   "property": "C208",
   "status": "partial",
   "theorems": [
    "C208_lines",
    "C208_exact_partial",
    "C208_stripped",
    "C208_closed_refuted"
   ],
   "note": "proved when the process ends when it closes its output; REFUTED: else empty lines are reported that were never printed"
  },
  {
   "property": "C209",
   "status": "partial",
   "theorems": [
    "C209_found_partial",
    "C209_newest",
    "C209_order_partial",
    "C209_started_refuted",
    "C209_chatty_refuted",
    "C209_path_refuted"
   ],
   "note": "proved for interpreters that print two lines or fail; REFUTED: one that cannot be started or prints more, or a file in PATH, hides all"
  },
  {
   "property": "C210",
   "status": "partial",
   "theorems": [
    "C210_names",
    "C210_taken",
    "C210_all",
    "C210_path",
    "C210_sign_refuted",
    "C210_search_refuted"
   ],
   "note": "proved which names count; REFUTED: any sign may stand before exe, and below search paths only files named python are seen"
  },
  {
   "property": "C211",
   "status": "partial",
   "theorems": [
    "C211_newest",
    "C211_none",
    "C211_meaning",
    "C211_same_minor_partial",
    "C211_candidate_refuted",
    "C211_chosen_candidate_refuted"
   ],
   "note": "proved that the newest allowed one is taken and what a chosen final version means; REFUTED: candidates of the next version are taken"
  },
  {
   "property": "C212",
   "status": "proved",
   "theorems": [
    "C09_match"
   ],
   "note": "the part of C09 that holds without restriction"
  },
  {
   "property": "C213",
   "status": "proved",
   "theorems": [
    "C33_orphans_end"
   ],
   "note": "the part of C33 that holds without restriction"
  },
  {
   "property": "C214",
   "status": "proved",
   "theorems": [
    "C42_inside"
   ],
   "note": "the part of C42 that holds without restriction"
  },
  {
   "property": "C215",
   "status": "proved",
   "theorems": [
    "C42_text_order",
    "C42_in_atom"
   ],
   "note": "the part of C42 that holds without restriction"
  },
  {
   "property": "C216",
   "status": "proved",
   "theorems": [
    "C65_dependencies"
   ],
   "note": "the part of C65 that holds without restriction"
  },
  {
   "property": "C217",
   "status": "proved",
   "theorems": [
    "C66_total"
   ],
   "note": "the part of C66 that holds without restriction"
  },
  {
   "property": "C218",
   "status": "proved",
   "theorems": [
    "C67_place"
   ],
   "note": "the part of C67 that holds without restriction"
  },
  {
   "property": "C219",
   "status": "proved",
   "theorems": [
    "C69_parent"
   ],
   "note": "the part of C69 that holds without restriction"
  },
  {
   "property": "C220",
   "status": "proved",
   "theorems": [
    "C58_field_name",
    "C58_subfields",
    "C58_repeated"
   ],
   "note": "the part of C58 that holds without restriction"
  },
  {
   "property": "C221",
   "status": "proved",
   "theorems": [
    "C108_visible"
   ],
   "note": "the part of C108 that holds without restriction"
  },
  {
   "property": "C222",
   "status": "proved",
   "theorems": [
    "C114_fails_iff"
   ],
   "note": "the part of C114 that holds without restriction"
  },
  {
   "property": "C223",
   "status": "proved",
   "theorems": [
    "C115_wheel",
    "C148_wheel"
   ],
   "note": "the part of C115, C148 that holds without restriction"
  },
  {
   "property": "C224",
   "status": "proved",
   "theorems": [
    "C119_inside",
    "C119_apart"
   ],
   "note": "the part of C119 that holds without restriction"
  },
  {
   "property": "C225",
   "status": "proved",
   "theorems": [
    "C120_files",
    "C120_page"
   ],
   "note": "the part of C120 that holds without restriction"
  },
  {
   "property": "C226",
   "status": "proved",
   "theorems": [
    "C122_saved_iff",
    "C123_rows"
   ],
   "note": "the part of C122, C123 that holds without restriction"
  },
  {
   "property": "C227",
   "status": "proved",
   "theorems": [
    "C130_source",
    "C130_fields"
   ],
   "note": "the part of C130 that holds without restriction"
  },
  {
   "property": "C228",
   "status": "proved",
   "theorems": [
    "C142_round",
    "C142_file"
   ],
   "note": "the part of C142 that holds without restriction"
  },
  {
   "property": "C229",
   "status": "proved",
   "theorems": [
    "C150_project"
   ],
   "note": "the part of C150 that holds without restriction"
  },
  {
   "property": "C230",
   "status": "proved",
   "theorems": [
    "C153_prefers"
   ],
   "note": "the part of C153 that holds without restriction"
  },
  {
   "property": "C231",
   "status": "proved",
   "theorems": [
    "C154_recorded"
   ],
   "note": "the part of C154 that holds without restriction"
  },
  {
   "property": "C232",
   "status": "proved",
   "theorems": [
    "C160_self"
   ],
   "note": "the part of C160 that holds without restriction"
  },
  {
   "property": "C233",
   "status": "proved",
   "theorems": [
    "C167_mismatch"
   ],
   "note": "the part of C167 that holds without restriction"
  },
  {
   "property": "C234",
   "status": "proved",
   "theorems": [
    "C171_known_parts",
    "C172_version"
   ],
   "note": "the part of C171, C172 that holds without restriction"
  },
  {
   "property": "C235",
   "status": "proved",
   "theorems": [
    "C173_own_platform"
   ],
   "note": "the part of C173 that holds without restriction"
  },
  {
   "property": "C236",
   "status": "proved",
   "theorems": [
    "C176_builds_found",
    "C176_none_found"
   ],
   "note": "the part of C176 that holds without restriction"
  },
  {
   "property": "C237",
   "status": "proved",
   "theorems": [
    "C182_lists",
    "C183_removed"
   ],
   "note": "the part of C182, C183 that holds without restriction"
  },
  {
   "property": "C238",
   "status": "proved",
   "theorems": [
    "C186_kept",
    "C186_forgotten",
    "C186_password"
   ],
   "note": "the part of C186 that holds without restriction"
  },
  {
   "property": "C239",
   "status": "proved",
   "theorems": [
    "C187_plain",
    "C187_attached",
    "C188_own",
    "C188_found"
   ],
   "note": "the part of C187, C188 that holds without restriction"
  },
  {
   "property": "C240",
   "status": "proved",
   "theorems": [
    "C189_nearest",
    "C189_refused",
    "C189_named",
    "C189_global"
   ],
   "note": "the part of C189 that holds without restriction"
  },
  {
   "property": "C241",
   "status": "proved",
   "theorems": [
    "C190_bound"
   ],
   "note": "the part of C190 that holds without restriction"
  },
  {
   "property": "C242",
   "status": "proved",
   "theorems": [
    "C191_distinct",
    "C191_named",
    "C192_defaults",
    "C192_read"
   ],
   "note": "the part of C191, C192 that holds without restriction"
  },
  {
   "property": "C243",
   "status": "proved",
   "theorems": [
    "C195_read",
    "C195_attributes",
    "C196_found",
    "C196_along"
   ],
   "note": "the part of C195, C196 that holds without restriction"
  },
  {
   "property": "C244",
   "status": "proved",
   "theorems": [
    "C197_row",
    "C197_compatible",
    "C198_answered",
    "C198_all",
    "C198_order"
   ],
   "note": "the part of C197, C198 that holds without restriction"
  },
  {
   "property": "C245",
   "status": "proved",
   "theorems": [
    "C199_all",
    "C200_own",
    "C200_plugins",
    "C201_installed",
    "C201_absent",
    "C201_uninstalled"
   ],
   "note": "the part of C199, C200, C201 that holds without restriction"
  },
  {
   "property": "C246",
   "status": "proved",
   "theorems": [
    "C204_lines",
    "C204_missing",
    "C204_orphan"
   ],
   "note": "the part of C204 that holds without restriction"
  },
  {
   "property": "C247",
   "status": "proved",
   "theorems": [
    "C205_told",
    "C205_others",
    "C206_order",
    "C207_around"
   ],
   "note": "the part of C205, C206, C207 that holds without restriction"
  },
  {
   "property": "C248",
   "status": "proved",
   "theorems": [
    "C208_lines",
    "C208_stripped"
   ],
   "note": "the part of C208 that holds without restriction"
  },
  {
   "property": "C249",
   "status": "proved",
   "theorems": [
    "C209_newest",
    "C210_names",
    "C210_taken",
    "C210_all",
    "C210_path",
    "C211_newest",
    "C211_none",
    "C211_meaning"
   ],
   "note": "the part of C209, C210, C211 that holds without restriction"
  },
  {
   "property": "C250",
   "status": "proved",
   "theorems": [
    "C250_refused",
    "C250_unsigned"
   ],
   "note": "any signed path that is missing or has another hash refuses the package before anything is copied"
  },
  {
   "property": "C251",
   "status": "partial",
   "theorems": [
    "C251_installed_partial",
    "C251_two_versions_refuted"
   ],
   "note": "proved for packages with at most one version of Python and paths without . or ..; REFUTED: with two versions the files of one replace those of the other"
  },
  {
   "property": "C252",
   "status": "partial",
   "theorems": [
    "C252_recorded_partial",
    "C251_two_versions_refuted"
   ],
   "note": "proved for packages with at most one version of Python and paths without . or ..; REFUTED: with two versions the hash in the RECORD may be that of the other file"
  },
  {
   "property": "C253",
   "status": "partial",
   "theorems": [
    "C253_own_partial",
    "C258_new_files_partial",
    "C253_generated_refuted"
   ],
   "note": "proved for packages with their own dist-info directory; REFUTED: the WHEEL and METADATA that pkm generates are not recorded"
  },
  {
   "property": "C254",
   "status": "partial",
   "theorems": [
    "C254_never",
    "C254_refuted"
   ],
   "note": "REFUTED: install_to ignores the request, REQUESTED is never written; proved that it never is (C254_never)"
  },
  {
   "property": "C255",
   "status": "partial",
   "theorems": [
    "C255_kept_partial",
    "C255_leftover_refuted",
    "C255_record_refuted"
   ],
   "note": "proved for tidy packages that whatever was there stays, except for the RECORD, and that only directories and generated files are new; REFUTED: a failure leaves the generated dist-info directory, and loses the RECORD that was there"
  },
  {
   "property": "C256",
   "status": "partial",
   "theorems": [
    "C256_never",
    "C256_refuted"
   ],
   "note": "REFUTED: the build number is put as a number in the environment of the process, so that no package with a hook is installed; proved for all of them (C256_never)"
  },
  {
   "property": "C257",
   "status": "partial",
   "theorems": [
    "C251_installed_partial",
    "C257_refuted"
   ],
   "note": "REFUTED: site-packages of packages for all platforms goes below the environment itself; C251_installed_partial says where files go"
  },
  {
   "property": "C258",
   "status": "partial",
   "theorems": [
    "C258_untouched_partial",
    "C258_new_files_partial",
    "C258_outside_refuted"
   ],
   "note": "proved for packages with at most one version of Python and paths without . or ..; REFUTED: with .. files are read and written outside"
  },
  {
   "property": "C259",
   "status": "partial",
   "theorems": [
    "C259_round_trip_partial",
    "C259_percent_refuted",
    "C259_comment_refuted",
    "C259_name_refuted",
    "C259_default_refuted",
    "C259_lost_refuted"
   ],
   "note": "proved for names and values that the rules of the format leave alone (no percent signs, comments, blanks at the ends of lines, and no = or : in names); REFUTED in general: a doubled percent sign, a line like a comment, a name with a colon and a name outside of the sections are read back differently"
  },
  {
   "property": "C260",
   "status": "partial",
   "theorems": [
    "C260_refused",
    "C260_written_partial",
    "C260_default_refuted"
   ],
   "note": "proved: a single percent sign anywhere refuses the whole dictionary, before the file is opened; missing: the exact condition for values with several percent signs; REFUTED for a section with the name DEFAULT, which cannot be written"
  },
  {
   "property": "C261",
   "status": "partial",
   "theorems": [
    "C261_loaded_partial",
    "C261_colon_refuted",
    "C261_default_refuted"
   ],
   "note": "proved for references without extras and names that can be written; REFUTED: a name with a colon, as the specification allows, is cut at it, and a file with values for all sections raises AttributeError"
  },
  {
   "property": "C262",
   "status": "partial",
   "theorems": [
    "C262_found",
    "C262_no_file",
    "C262_one_bad_refuted"
   ],
   "note": "proved if every file can be read; REFUTED: one package with a file that cannot be read makes the entry points of all packages fail, and with them the loading of repositories"
  },
  {
   "property": "C263",
   "status": "proved",
   "theorems": [
    "C263_twice",
    "C263_option_twice",
    "C263_senseless",
    "C263_percent"
   ],
   "note": "for every section but DEFAULT, which may be opened again"
  },
  {
   "property": "C264",
   "status": "proved",
   "theorems": [
    "C264_zip_inside"
   ],
   "note": "for a target that is a directory reached without links and has none below it (the callers extract to a new temporary directory)"
  },
  {
   "property": "C265",
   "status": "partial",
   "theorems": [
    "C265_tar_inside_partial",
    "C265_up_refuted",
    "C265_absolute_refuted",
    "C265_link_refuted"
   ],
   "note": "proved for archives without links, without absolute names and without .. in names; REFUTED for each of the three, as tarfile is used without a filter (python 3.8 to 3.13)"
  },
  {
   "property": "C266",
   "status": "partial",
   "theorems": [
    "C266_zip_partial",
    "C266_tar_partial",
    "C266_collision_refuted"
   ],
   "note": "proved for members that are files with normal names, none of them at the place of another or above it; REFUTED for zip archives in general: b and ../b are the same file"
  },
  {
   "property": "C267",
   "status": "proved",
   "theorems": [
    "C267_unsupported",
    "C267_mismatch"
   ],
   "note": "for a target that is a directory"
  },
  {
   "property": "C268",
   "status": "partial",
   "theorems": [
    "C268_answer_is_final",
    "C268_endless_refuted",
    "C268_endless_real_refuted"
   ],
   "note": "REFUTED: an index of four packages with a solution on which the resolver repeats the same round for ever, with ideal sets of versions and with the specifiers of pkm, whatever order the set of changed packages has. Proved for every problem: once the number of rounds suffices for an answer, that answer is final"
  },
  {
   "property": "C269",
   "status": "partial",
   "theorems": [
    "C269_over_partial",
    "C269_stays_refuted"
   ],
   "note": "proved when entering and leaving a show are not interrupted by other threads; REFUTED for all schedules: the removal takes no lock, another thread writes back the list it read before, and the component stays when everything is over"
  },
  {
   "property": "C270",
   "status": "partial",
   "theorems": [
    "C270_shown_partial",
    "C270_lost_refuted"
   ],
   "note": "proved when entering and leaving a show are not interrupted by other threads; REFUTED for all schedules: a removal writes back a list that it read before the component was added"
  },
  {
   "property": "C271",
   "status": "partial",
   "theorems": [
    "C271_awake_partial",
    "C271_asleep_refuted"
   ],
   "note": "proved when entering and leaving a show are not interrupted by other threads; REFUTED for all schedules: the length is looked at after another thread wrote a longer list, and nobody is notified"
  },
  {
   "property": "C272",
   "status": "proved",
   "theorems": [
    "C272_displayed"
   ],
   "note": "for every schedule of every number of components"
  },
  {
   "property": "C273",
   "status": "partial",
   "theorems": [
    "C273_shown_partial",
    "C273_long_refuted"
   ],
   "note": "proved if every option or field that takes a value has a name that does not begin with two dashes; REFUTED otherwise: a task with the parameters on, no, non has the option --non without a letter, can be run, and fails when asked for its help"
  },
  {
   "property": "C274",
   "status": "partial",
   "theorems": [
    "C274_listed",
    "C274_taken_refuted"
   ],
   "note": "that everything is listed is proved for all commands; REFUTED: that a listed name stands for what it is listed with, as two options may share a name"
  },
  {
   "property": "C275",
   "status": "partial",
   "theorems": [
    "C275_spelled_partial",
    "C275_field_flag_refuted"
   ],
   "note": "proved for options whose names have no brackets and that are flags or have a name without two dashes; REFUTED for fields: the flag +f is shown as -f, which is refused"
  },
  {
   "property": "C276",
   "status": "partial",
   "theorems": [
    "C276_bars_partial",
    "C276_flags_refuted"
   ],
   "note": "proved for one group of options with a value, a default and no fields; REFUTED for flags: -a and -b, which exclude each other, are shown as -ab, which is refused"
  },
  {
   "property": "C277",
   "status": "partial",
   "theorems": [
    "C277_matched_partial",
    "C277_group_refuted"
   ],
   "note": "proved for commands without exclusive groups and names without brackets; REFUTED for an option with a field in a group, as all brackets at the ends are stripped"
  },
  {
   "property": "C278",
   "status": "proved",
   "theorems": [
    "C278_words",
    "C278_letters"
   ],
   "note": "for all strings of ASCII characters"
  },
  {
   "property": "C279",
   "status": "partial",
   "theorems": [
    "C279_given_refuted",
    "C279_default_partial",
    "C279_empty_refuted",
    "C279_two_refuted"
   ],
   "note": "the place is proved for the default; REFUTED if PKM_HOME is given, which stays a text so that every use raises AttributeError; REFUTED for an empty XDG_DATA_HOME, with which the home depends on the current directory"
  },
  {
   "property": "C280",
   "status": "proved",
   "theorems": [
    "C280_clean",
    "C280_succeeds"
   ],
   "note": "for trees without symbolic links"
  },
  {
   "property": "C281",
   "status": "partial",
   "theorems": [
    "C281_home_refuted",
    "C281_module_refuted",
    "C281_partial"
   ],
   "note": "REFUTED: the build gets the home and makes it, and the name pkm.api.pkm is no longer the module afterwards; proved that the directory of its own is gone afterwards and that with a home nothing is swapped"
  },
  {
   "property": "C282",
   "status": "partial",
   "theorems": [
    "C282_dash_refuted",
    "C282_linked_refuted",
    "C282_project_partial",
    "C282_again_partial",
    "C282_published_refuted",
    "C282_recorded",
    "C282_choices"
   ],
   "note": "proved for projects whose name is their key; REFUTED for names with a dash or a capital, whose mode is not found, and for published packages, which are recorded as linked though they are copied"
  },
  {
   "property": "C283",
   "status": "partial",
   "theorems": [
    "C283_calls_partial",
    "C283_property_refuted",
    "C283_repository_refuted"
   ],
   "note": "proved for methods of the interface that are left abstract; REFUTED for properties, which become functions whose call is a TypeError, so that the repository of an installation has no name and no publisher, and for members that the interface defines, which are not handed on"
  },
  {
   "property": "C284",
   "status": "partial",
   "theorems": [
    "C284_metadata_partial",
    "C284_nothing_else_partial",
    "C284_file_partial",
    "C284_tag_partial",
    "C284_build_refuted",
    "C284_plural_refuted",
    "C284_any_file_refuted",
    "C284_field_names"
   ],
   "note": "proved that every value of the metadata is sent, with right digests and nothing else; REFUTED for the tag of wheels with a build number, for the entries that the index knows by plural names, and for files that are no distributions, which are sent as source distributions"
  },
  {
   "property": "C285",
   "status": "partial",
   "theorems": [
    "C285_credentials_partial",
    "C285_distinct_partial",
    "C285_one_line",
    "C285_colon_refuted",
    "C285_arguments"
   ],
   "note": "proved for names without a colon; REFUTED for names with a colon, which are not refused though they cannot be told from a part of the password"
  },
  {
   "property": "C286",
   "status": "partial",
   "theorems": [
    "C286_nearest_partial",
    "C286_missing",
    "C286_moved_refuted",
    "C286_name_refuted"
   ],
   "note": "proved for the first question; REFUTED afterwards: a change of the configuration of a parent is not noticed, and two names of one place share the publisher of the first"
  },
  {
   "property": "C287",
   "status": "partial",
   "theorems": [
    "C287_order",
    "C287_apart_partial",
    "C287_semicolon_refuted"
   ],
   "note": "proved for markers without a semicolon; REFUTED with one"
  },
  {
   "property": "C288",
   "status": "partial",
   "theorems": [
    "C288_exactly",
    "C288_any_mode",
    "C288_extras_refuted",
    "C288_slash_refuted"
   ],
   "note": "the messages that are shown as they are are characterised exactly: those without a tag and without an escaped bracket; REFUTED for others: a bracket with a word that begins with a small letter vanishes, as extras do, and one with a slash raises an exception"
  },
  {
   "property": "C289",
   "status": "partial",
   "theorems": [
    "C289_shown_partial",
    "C289_complete",
    "C289_extras_refuted",
    "C289_process_refuted"
   ],
   "note": "proved for decisions without extras; REFUTED with extras, which vanish so that two packages look the same, and for commands with a bracket and a slash, which raise an exception instead of being announced"
  },
  {
   "property": "C290",
   "status": "partial",
   "theorems": [
    "C290_written",
    "C290_windows_refuted",
    "C290_launcher_refuted",
    "C290_arm_refuted",
    "C290_kind"
   ],
   "note": "the text for posix systems is written on every system: right there, REFUTED for Windows, which is never recognised, its name being compared in the wrong case; were it recognised, making a launcher always fails and leaves an incomplete file, and for ARM no program of the name exists; elsewhere the program that would be chosen for an entry point is the right one"
  },
  {
   "property": "C291",
   "status": "partial",
   "theorems": [
    "C291_exactly",
    "C291_wheel_scripts",
    "C291_space_refuted",
    "C291_long_refuted",
    "C291_window_scripts_refuted"
   ],
   "note": "characterised exactly: the path has no blank and is seen whole; REFUTED for paths with a space, for long paths, and for scripts for windows, which get a letter after the extension"
  },
  {
   "property": "C292",
   "status": "partial",
   "theorems": [
    "C292_listed",
    "C292_runs_partial",
    "C292_dash_refuted",
    "C292_beside_refuted",
    "C292_installed_refuted",
    "C292_none_installed_refuted"
   ],
   "note": "the names of the project's tasks are characterised, and each runs its file in a tidy directory; REFUTED for names with a dash, for files beside a directory of the same name, for all installed tasks, whose names begin with a point or lack the package, and without installed tasks, when listing fails"
  },
  {
   "property": "C293",
   "status": "partial",
   "theorems": [
    "C293_project",
    "C293_wheel_refuted",
    "C293_platform_refuted"
   ],
   "note": "proved for projects that are installed directly; REFUTED for every application's wheel: its commands name the interpreter of the environment it was built in, which is removed, and its name says that it suits every platform"
  },
  {
   "property": "C294",
   "status": "partial",
   "theorems": [
    "C294_newest_partial",
    "C294_text_order_refuted",
    "C294_prerelease_refuted",
    "C294_no_archive_refuted"
   ],
   "note": "proved if the index answers in the order of versions; REFUTED for the order of texts, in which 0.9 is after 0.10 and 1.0a1 after 1.0, and if the last release has no source archive"
  },
  {
   "property": "C295",
   "status": "partial",
   "theorems": [
    "C295_interpreter",
    "C295_settings",
    "C295_inside",
    "C295_refused",
    "C295_lib64_partial",
    "C295_lib64_refuted",
    "C295_windows"
   ],
   "note": "proved for the commands, the settings and the places, and for lib64 of an environment with an absolute path; REFUTED for lib64 of every environment that is made at a relative path: the link leads nowhere"
  },
  {
   "property": "C296",
   "status": "partial",
   "theorems": [
    "C296_true_partial",
    "C296_moved",
    "C296_once_partial",
    "C296_processes_refuted",
    "C296_replaced_refuted",
    "C296_broken",
    "C296_dictionary_refuted"
   ],
   "note": "proved: what is known is what the interpreter says, as long as it is not replaced; one process runs it once; REFUTED: every further process runs it again, because hashes of texts differ between processes, so that the file is never of use; a process does not notice that the interpreter was replaced; a file with JSON that is no dictionary makes the environment unusable"
  },
  {
   "property": "C297",
   "status": "partial",
   "theorems": [
    "C297_marker",
    "C297_final_partial",
    "C297_candidate_refuted"
   ],
   "note": "the marker is always read back as the version, and is the same as the interpreter's for final ones; REFUTED for others: a candidate counts as the final version for requires-python"
  },
  {
   "property": "C298",
   "status": "partial",
   "theorems": [
    "C298_process",
    "C298_exec_partial",
    "C298_exec_refuted"
   ],
   "note": "proved for run_proc, and for exec_proc with variables; REFUTED for exec_proc without the optional argument: it always fails"
  },
  {
   "property": "C299",
   "status": "partial",
   "theorems": [
    "C299_answers_partial",
    "C299_license_ignored",
    "C299_license_refuted",
    "C299_quote_refuted",
    "C299_backslash_refuted",
    "C299_python",
    "C299_environment_partial",
    "C299_windows_refuted"
   ],
   "note": "proved for answers without quotes, backslashes and line ends; REFUTED for the license, which is always lost, and for answers and paths with quotes or backslashes"
  },
  {
   "property": "C300",
   "status": "partial",
   "theorems": [
    "C300_success",
    "C300_undefined",
    "C300_told",
    "C300_failure_partial",
    "C300_exit_refuted",
    "C300_quote_refuted"
   ],
   "note": "success and missing hooks are characterised; failures are reported as such unless the hook ends the process with code 0 (REFUTED); a quote in the name of the temporary directory makes every hook fail (REFUTED)"
  },
  {
   "property": "C301",
   "status": "partial",
   "theorems": [
    "C301_wheel",
    "C301_sdist",
    "C301_missing",
    "C301_missing_told",
    "C301_editable_refuted",
    "C301_place_partial",
    "C301_place_refuted"
   ],
   "note": "proved for the order and the result; REFUTED for metadata of editable builds, which is asked from the hook for other wheels, and for directories that are not told from the root"
  },
  {
   "property": "C302",
   "status": "partial",
   "theorems": [
    "C302_paragraph_partial",
    "C302_long_word_refuted",
    "C302_endless_refuted"
   ],
   "note": "proved for texts with words of at most 78 characters; REFUTED for longer words: they fail, and after a space the loop never ends"
  },
  {
   "property": "C303",
   "status": "partial",
   "theorems": [
    "C303_ulist",
    "C303_olist",
    "C303_indentation",
    "C303_indentation_numbers",
    "C303_error_refuted",
    "C303_versions"
   ],
   "note": "proved; REFUTED for the indentation after an error in a list"
  },
  {
   "property": "C304",
   "status": "partial",
   "theorems": [
    "C304_made",
    "C304_runs_partial",
    "C304_others",
    "C304_again",
    "C304_imported_refuted",
    "C304_beside_refuted",
    "C304_outside"
   ],
   "note": "the place, the listing and the run are proved for a free place in a tidy tree; REFUTED for the name of a module that is already imported, which is taken instead of the task, and for a place beside a package of its name or below another task"
  },
  {
   "property": "C305",
   "status": "partial",
   "theorems": [
    "C305_requested",
    "C305_fits_partial",
    "C305_python_partial",
    "C305_extras_refuted",
    "C305_request_refuted"
   ],
   "note": "about the lines after the call of the other template, which fails as the code stands (C313); proved for standard versions without local labels and for final interpreters; REFUTED for the extras of a request, which are always lost, and for its versions: the project allows ones that the request rules out"
  },
  {
   "property": "C306",
   "status": "partial",
   "theorems": [
    "C306_lines",
    "C306_state",
    "C306_shown_partial",
    "C306_extras_refuted",
    "C306_unfit_refuted",
    "C306_options",
    "C306_context"
   ],
   "note": "the lines are proved, and shown as they are without brackets; REFUTED for every dependency with extras, which the screen takes for markup, and for installed versions that do not fit"
  },
  {
   "property": "C307",
   "status": "partial",
   "theorems": [
    "C307_exported",
    "C307_all_exported",
    "C307_loaded",
    "C307_template_refuted",
    "C307_created",
    "C307_deleted_partial",
    "C307_delete_refuted"
   ],
   "note": "copies, new environments and deletions under a word are proved; REFUTED for every zoo that was made with the template, which cannot take scripts, and for deletions under other names: the zoo itself, its data and directories outside of it are deleted"
  },
  {
   "property": "C308",
   "status": "partial",
   "theorems": [
    "C308_listed",
    "C308_runs_partial",
    "C308_offered_partial",
    "C308_local_refuted",
    "C308_dash_refuted"
   ],
   "note": "the list, the word and the command are proved for tidy trees of templates; REFUTED for templates in the working directory, which never work and break the installed one of their name and the list of all, and for names with a dash, which are listed but never loaded"
  },
  {
   "property": "C309",
   "status": "partial",
   "theorems": [
    "C309_numbers",
    "C309_text",
    "C309_saved",
    "C309_refused",
    "C309_unsaved",
    "C309_name_refuted",
    "C309_name_cut_refuted"
   ],
   "note": "proved for the documented particles; REFUTED for the particle name: a name that looks like a version, or begins like one, is read back as another version"
  },
  {
   "property": "C310",
   "status": "partial",
   "theorems": [
    "C310_pieces",
    "C310_digest",
    "C310_kept_refuted"
   ],
   "note": "pieces and digests are proved for all patterns of reads; REFUTED for pieces that are kept: they all become the last one, as the documentation of the function warns"
  },
  {
   "property": "C311",
   "status": "partial",
   "theorems": [
    "C311_size",
    "C311_bytes",
    "C311_rounded_up_refuted",
    "C311_directory_partial",
    "C311_directory_refuted"
   ],
   "note": "unit and rounding are proved; REFUTED for the number below 1024 (1048575 bytes are 1024.00K), and for directories, whose own sizes are counted as well"
  },
  {
   "property": "C312",
   "status": "partial",
   "theorems": [
    "C312_flag",
    "C312_apart_partial",
    "C312_parameter_refuted"
   ],
   "note": "proved for setup functions without a parameter named overwrite; REFUTED for those with one: any text as its default allows to overwrite files though nobody asked for it"
  },
  {
   "property": "C313",
   "status": "partial",
   "theorems": [
    "C313_refuted",
    "C313_loadable_refuted",
    "C313_from_env_refuted"
   ],
   "note": "REFUTED: the helper calls _load_template, which the runner does not have (its method is load_template), so it fails for every template; the template project_from_env uses it and never makes a project"
  },
  {
   "property": "C314",
   "status": "partial",
   "theorems": [
    "C314_program_partial",
    "C314_task_partial",
    "C314_outside",
    "C314_nothing",
    "C314_first_refuted"
   ],
   "note": "proved for programs whose name begins with no dash, plus or at sign, and for tasks of the nearest project whose first argument is absent or begins with no dash or plus and is not empty; REFUTED for the rest: an option directly behind a task is refused, and an empty word there drops all that follows. What the task does with the words is not modelled here"
  }
 ]
}
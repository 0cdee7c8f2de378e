{
 "claims": [
  {
   "property": "C01",
   "status": "proved",
   "theorems": [
    "C01_search_parts_roundtrip",
    "C01_roundtrip_refuted"
   ],
   "note": "Full iff; the refuted theorem records that the unconditional round trip is false."
  },
  {
   "property": "C02",
   "status": "proved",
   "theorems": [
    "C02_search_grammar",
    "C02_trailing_separator_kept_refuted"
   ],
   "note": "Grammar given as an inductive relation in SpecPage.v; trailing ';' exception recorded as refuted."
  },
  {
   "property": "C03",
   "status": "proved",
   "theorems": [
    "C03_conjunction",
    "C03_order_irrelevant"
   ],
   "note": ""
  },
  {
   "property": "C04",
   "status": "proved",
   "theorems": [
    "C04_key_search",
    "C04_fuzzy_search",
    "C04_negation"
   ],
   "note": ""
  },
  {
   "property": "C05",
   "status": "proved",
   "theorems": [
    "C05_exact_match",
    "C05_exact_without_quotes",
    "C05_exact_refuted"
   ],
   "note": "Exact characterisation incl. the false positive; x printable ASCII without quote/backslash."
  },
  {
   "property": "C06",
   "status": "proved",
   "theorems": [
    "C06_advanced_search",
    "C06_invalid_selector_is_error",
    "C06_repeated_equality_refuted"
   ],
   "note": "Meaning stated on parsed requirements (req_holds in SpecLabels.v); repeated '=' key is refuted."
  },
  {
   "property": "C07",
   "status": "proved",
   "theorems": [
    "C07_clusters",
    "C07_second_advanced_part_lost_refuted",
    "C07_leading_semicolon_refuted"
   ],
   "note": "Hypotheses (one advanced part, no part with a leading ';') are necessary: both exceptions are refuted with witnesses."
  },
  {
   "property": "C08",
   "status": "proved",
   "theorems": [
    "C08_namespaces",
    "C08_odd_empty_namespaces_refuted"
   ],
   "note": "As C07; odd number >= 3 of empty names refuted."
  },
  {
   "property": "C09",
   "status": "proved",
   "theorems": [
    "C09_clusters_fail",
    "C09_namespaces_fail"
   ],
   "note": "Failure characterised by iff, unchanged on failure."
  },
  {
   "property": "C10",
   "status": "proved",
   "theorems": [
    "C10_base64_round_trip",
    "C10_base64_alphabet"
   ],
   "note": ""
  },
  {
   "property": "C11",
   "status": "proved",
   "theorems": [
    "C11_split_merge",
    "C11_split_merge_text",
    "C11_long_text_scrambled_refuted"
   ],
   "note": "Limit is exact: the 10025-byte witness is refuted."
  },
  {
   "property": "C12",
   "status": "proved",
   "theorems": [
    "C12_selector_print_parse",
    "C12_map_order_irrelevant",
    "C12_odd_empty_values_refuted"
   ],
   "note": "odd_empties exception refuted; map iteration order shown irrelevant."
  },
  {
   "property": "C13",
   "status": "proved",
   "theorems": [
    "C13_list_options_reach_the_server",
    "C13_invalid_utf8",
    "C13_equals_query_wins_refuted",
    "C13_long_query_refuted"
   ],
   "note": "Hypotheses are the Go types' ranges, the length limit and no '=' on the query key; both exceptions refuted with witnesses; C13_invalid_utf8 gives the result for invalid UTF-8."
  },
  {
   "property": "C14",
   "status": "proved",
   "theorems": [
    "C14_wrapping_again_replaces",
    "C14_server_reads_the_same"
   ],
   "note": "Exact text for distinct keys; server-level equality for repeated keys."
  },
  {
   "property": "C15",
   "status": "proved",
   "theorems": [
    "C15_fails_iff",
    "C15_ascii_searches_work",
    "C15_question_mark_refuted"
   ],
   "note": "For encoded queries up to 1000048 bytes (beyond that the offset prefix exceeds a label value)."
  },
  {
   "property": "C16",
   "status": "proved",
   "theorems": [
    "C16_parse_keeps_meaning",
    "C16_parse_fails_iff",
    "C16_written_requirements",
    "C16_repeated_equality_refuted"
   ],
   "note": "Repeated '=' key refuted."
  },
  {
   "property": "C17",
   "status": "proved",
   "theorems": [
    "C17_cache_is_last_event",
    "C17_configured_histories_run"
   ],
   "note": ""
  },
  {
   "property": "C18",
   "status": "proved",
   "theorems": [
    "C18_unpaginated_query",
    "C18_always_answers"
   ],
   "note": ""
  },
  {
   "property": "C19",
   "status": "proved",
   "theorems": [
    "C19_other_types_and_clusters",
    "C19_other_objects"
   ],
   "note": ""
  },
  {
   "property": "C20",
   "status": "proved",
   "theorems": [
    "C20_total_and_page"
   ],
   "note": ""
  },
  {
   "property": "C21",
   "status": "proved",
   "theorems": [
    "C21_pages_of_one_list",
    "C21_concatenated_pages"
   ],
   "note": ""
  },
  {
   "property": "C22",
   "status": "proved",
   "theorems": [
    "C22_sorted_as_requested",
    "C22_valid_sort_accepted"
   ],
   "note": ""
  },
  {
   "property": "C23",
   "status": "proved",
   "theorems": [
    "C23_ties_unstable_refuted"
   ],
   "note": ""
  },
  {
   "property": "C24",
   "status": "proved",
   "theorems": [
    "C24_page_at_most_zero_panics",
    "C24_negative_size",
    "C24_no_answer"
   ],
   "note": ""
  },
  {
   "property": "C25",
   "status": "proved",
   "theorems": [
    "C25_wraps_to_first_page",
    "C25_wraps_to_panic"
   ],
   "note": ""
  },
  {
   "property": "C26",
   "status": "proved",
   "theorems": [
    "C26_builtin_index",
    "C26_same_index_keys"
   ],
   "note": ""
  },
  {
   "property": "C27",
   "status": "proved",
   "theorems": [
    "C27_clean",
    "C27_clean_panics"
   ],
   "note": ""
  },
  {
   "property": "C28",
   "status": "proved",
   "theorems": [
    "C28_gauge_after_event",
    "C28_gauge_without_clean",
    "C28_names_exist",
    "C28_stale_after_clean_refuted"
   ],
   "note": ""
  },
  {
   "property": "C29",
   "status": "proved",
   "theorems": [
    "C29_resync",
    "C29_item_pending",
    "C29_kept",
    "C29_failed_stream_empties",
    "C29_no_panic",
    "C29_listed_twice_refuted"
   ],
   "note": "Arbitrary interleaving of any number of goroutines, with failures and reconnects; each store call is one step. A type listed twice refuted with a witness."
  },
  {
   "property": "C30",
   "status": "proved",
   "theorems": [
    "C30_get",
    "C30_put",
    "C30_clean",
    "C30_values",
    "C30_changes",
    "C30_no_panic",
    "C30_alone_event",
    "C30_alone_clean",
    "C30_alone_get"
   ],
   "note": "Every interleaving of lock-granular steps of any number of calls; puts and cleans are characterised step by step, and each call run alone is the sequential model."
  },
  {
   "property": "C31",
   "status": "proved",
   "theorems": [
    "C31_namespaces",
    "C31_real",
    "C31_present",
    "C31_quiet",
    "C31_not_atomic_refuted"
   ],
   "note": "Stronger than stated: per namespace the result is the exact content in one state during the query. That the whole result is a snapshot is refuted with a witness."
  },
  {
   "property": "C32",
   "status": "proved",
   "theorems": [
    "C32_answered_from_cache",
    "C32_others_forwarded",
    "C32_some_answer"
   ],
   "note": "Answer described for every request the cache may answer; some answer always exists."
  },
  {
   "property": "C33",
   "status": "proved",
   "theorems": [
    "C33_writes_reach_one_cluster"
   ],
   "note": "Full; the panic for other methods is part of the theorem."
  },
  {
   "property": "C34",
   "status": "proved",
   "theorems": [
    "C34_tag_found",
    "C34_spelling",
    "C34_last_dry_run_refuted",
    "C34_tagged_request",
    "C34_tagged_delete",
    "C34_used_options_refused"
   ],
   "note": "QueryXOptions tags for get/create/update/patch (field) and delete (dryRun); the other options arrive unchanged."
  },
  {
   "property": "C35",
   "status": "proved",
   "theorems": [
    "C35_default_cluster_only",
    "C35_plain_list",
    "C35_illegal_default_lists_all",
    "C35_white_space_refuted"
   ],
   "note": "Only-default theorem for all pages, exact content for plain lists, illegal default shown to list everything; the white-space bypass is refuted with a witness."
  },
  {
   "property": "C36",
   "status": "proved",
   "theorems": [
    "C36_remaining_and_total",
    "C36_unpaginated",
    "C36_page_without_size",
    "C36_size_without_page"
   ],
   "note": "Totals below 2^63; the two wrong cases are proved in general as findings."
  },
  {
   "property": "C37",
   "status": "proved",
   "theorems": [
    "C37_out_of_page"
   ],
   "note": "iff, for lists that do not fail with a query error."
  },
  {
   "property": "C38",
   "status": "proved",
   "theorems": [
    "C38_page_of_matching_objects",
    "C38_all_matching_objects"
   ],
   "note": "Case distinction is exhaustive: query error, out of page, or the page; also the table form."
  },
  {
   "property": "C39",
   "status": "proved",
   "theorems": [
    "C39_sent_to_its_cluster",
    "C39_unknown_cluster",
    "C39_default_cluster"
   ],
   "note": "target is a relation: with several tags any of them may win (map order)."
  },
  {
   "property": "C40",
   "status": "proved",
   "theorems": [
    "C40_untagged_options_lost",
    "C40_dry_run_refuted"
   ],
   "note": "General theorem that untagged delete options are lost, and a dry-run witness."
  },
  {
   "property": "C41",
   "status": "proved",
   "theorems": [
    "C41_rectangular",
    "C41_cells",
    "C41_list_as_table"
   ],
   "note": "Rows, cells and never panicking, for every list of objects put by the store; the table form of a list answer is covered as well."
  },
  {
   "property": "C42",
   "status": "proved",
   "theorems": [
    "C42_relayed_unaltered",
    "C42_all_bytes",
    "C42_lines_are_prompt",
    "C42_cancelled",
    "C42_byte_with_error_lost",
    "C42_empty_read_refuted"
   ],
   "note": "Under one-byte reads; the read with a byte and an error is proved lossy, and an empty read is refuted with a witness."
  },
  {
   "property": "C43",
   "status": "proved",
   "theorems": [
    "C43_refused",
    "C43_refused_canonical",
    "C43_accepted",
    "C43_public",
    "C43_data_needs_token",
    "C43_exact_token_refuted"
   ],
   "note": "All routes of the table, including redirects; the exact-token reading is refuted with a witness (substring)."
  },
  {
   "property": "C44",
   "status": "proved",
   "theorems": [
    "C44_services",
    "C44_some_answer",
    "C44_one_answer",
    "C44_candidates",
    "C44_selector",
    "C44_own_pods_refuted",
    "C44_illegal_cluster_refuted"
   ],
   "note": "For deployment names of Kubernetes name characters and legal cluster names; own pods and illegal cluster names refuted with witnesses."
  },
  {
   "property": "C45",
   "status": "proved",
   "theorems": [
    "C45_round_trip",
    "C45_reserved",
    "C45_decoded",
    "C45_stable",
    "C45_members",
    "C45_panics",
    "C45_encoded",
    "C45_exact_numbers_refuted",
    "C45_bad_time_refuted",
    "C45_bad_deletion_refuted"
   ],
   "note": "Float and time text of the Go library are parameters with stated laws and an instance; metadata without managedFields. Three refutations: rounding, unreadable creation time, unreadable deletion time."
  },
  {
   "property": "C46",
   "status": "proved",
   "theorems": [
    "C46_trimmed",
    "C46_kind",
    "C46_first_entry"
   ],
   "note": "Every list kind."
  },
  {
   "property": "C47",
   "status": "proved",
   "theorems": [
    "C47_object_store",
    "C47_request",
    "C47_other_name",
    "C47_other_name_refuted",
    "C47_answer",
    "C47_answer_text_refuted"
   ],
   "note": "For requests whose URL and body names agree. C47_other_name(_refuted): a PUT whose body has another name writes that other object. C47_answer_text_refuted: the text of the answer does not read back as the object."
  },
  {
   "property": "C48",
   "status": "proved",
   "theorems": [
    "C48_watch",
    "C48_stream",
    "C48_chosen_clusters",
    "C48_bad_selector",
    "C48_event"
   ],
   "note": "Events actually received; delivery to a watcher is a non-blocking send, so which events are received is not determined. C48_bad_selector: an unparsable label selector panics."
  },
  {
   "property": "C49",
   "status": "proved",
   "theorems": [
    "C49_selector",
    "C49_value_unchanged",
    "C49_clusters",
    "C49_no_clusters",
    "C49_create",
    "C49_other",
    "C49_panics_refuted",
    "C49_clusters_lost_refuted",
    "C49_empty_name_refuted"
   ],
   "note": "Every argument vector, plus the exact arguments when there is no selector, no cluster, or a create; the panic and the silently lost cluster restriction have witnesses."
  },
  {
   "property": "C50",
   "status": "proved",
   "theorems": [
    "C50_failed_reload",
    "C50_between_reloads",
    "C50_stores",
    "C50_request",
    "C50_pairs",
    "C50_cache_restarts",
    "C50_store_first_refuted",
    "C50_old_clients_new_store",
    "C50_configuration_refuted"
   ],
   "note": "Any number of reloads, requests and watcher steps interleaved; reads and writes of one variable are single steps in program order. C50_store_first_refuted: with the other evaluation order of the literal (open in Go) the property fails; C50_configuration_refuted: the configuration is replaced before both; C50_cache_restarts: the cache starts empty."
  },
  {
   "property": "C51",
   "status": "proved",
   "theorems": [
    "C51_subset"
   ],
   "note": "Every iteration order."
  },
  {
   "property": "C52",
   "status": "proved",
   "theorems": [
    "C52_leading_semicolon_fails"
   ],
   "note": "General: any first plain part with a leading semicolon, non-empty scope."
  },
  {
   "property": "C53",
   "status": "proved",
   "theorems": [
    "C53_meaning_with_default",
    "C53_equality_lists_nothing",
    "C53_space_lists_nothing",
    "C53_second_part_dropped_refuted"
   ],
   "note": "Exact meaning of a search with the default cluster added; nothing is listed for other clusters; dropped part refuted with a witness."
  },
  {
   "property": "C54",
   "status": "proved",
   "theorems": [
    "C54_errors_do_not_depend_on_chance"
   ],
   "note": ""
  },
  {
   "property": "C55",
   "status": "proved",
   "theorems": [
    "C55_numeric_sort_fails_iff"
   ],
   "note": ""
  },
  {
   "property": "C56",
   "status": "proved",
   "theorems": [
    "C56_calls_panic_iff",
    "C56_query_of_unconfigured_type",
    "C56_get_of_unconfigured_type"
   ],
   "note": ""
  },
  {
   "property": "C57",
   "status": "proved",
   "theorems": [
    "C57_unsorted",
    "C57_two_spaces_refuted"
   ],
   "note": ""
  },
  {
   "property": "C58",
   "status": "proved",
   "theorems": [
    "C58_client_options",
    "C58_client_to_items"
   ],
   "note": "Composition of C13, C38 and C36."
  },
  {
   "property": "C59",
   "status": "proved",
   "theorems": [
    "C59_api_paths",
    "C59_group_collection_write"
   ],
   "note": "All route templates, by first match; group collection writes covered separately."
  },
  {
   "property": "C61",
   "status": "proved",
   "theorems": [
    "C61_no_deadlock",
    "C61_terminates",
    "C61_completes"
   ],
   "note": "Deadlock freedom by ranking, termination by a measure; no fairness needed for finitely many calls."
  },
  {
   "property": "C62",
   "status": "proved",
   "theorems": [
    "C62_let_in",
    "C62_turned_away"
   ],
   "note": "Same system as C50, both evaluation orders."
  },
  {
   "property": "C63",
   "status": "proved",
   "theorems": [
    "C63_load",
    "C63_file",
    "C63_default_without_client_refuted"
   ],
   "note": "client-go, yaml and the file system are parameters of the environment. The default cluster may have no client (refuted)."
  },
  {
   "property": "C64",
   "status": "proved",
   "theorems": [
    "C64_noticed",
    "C64_no_kubeconfig"
   ],
   "note": "The operations fsnotify reports are an input; whether a removed file is back in time is an input."
  },
  {
   "property": "C60",
   "status": "proved",
   "theorems": [
    "C60_every_request_answered",
    "C60_status_and_body",
    "C60_statuses",
    "C60_refused",
    "C60_get",
    "C60_list",
    "C60_page",
    "C60_forwarded",
    "C60_write",
    "C60_head_and_options",
    "C60_public",
    "C60_upstream_status_refuted"
   ],
   "note": "net/http ResponseWriter and client-go DoRaw/Stream are modelled from their sources; the message in the status of a failing API server is not modelled. C60_upstream_status_refuted: a successful status of the API server is always answered as 200. C60_head_and_options: the routes accept them and they always fail."
  },
  {
   "property": "C65",
   "status": "proved",
   "theorems": [
    "C65_no_new_stream",
    "C65_ends_only_by_stop",
    "C65_done_is_final",
    "C65_cache_final",
    "C65_can_end"
   ],
   "note": "The select may keep receiving while items are ready, so ending is a possibility at every point, not a bound on the number of items received."
  },
  {
   "property": "C66",
   "status": "proved",
   "theorems": [
    "C66_before_reload",
    "C66_event",
    "C66_stays_right",
    "C66_lost_refuted",
    "C66_stale_refuted"
   ],
   "note": "C66_lost_refuted, C66_stale_refuted: the gauge need not agree with the current cache after a reload. Counting and setting are one step, as only the goroutine itself changes what is counted."
  },
  {
   "property": "C67",
   "status": "proved",
   "theorems": [
    "C67_numbers",
    "C67_help",
    "C67_usage",
    "C67_accepted",
    "C67_server_reads",
    "C67_nothing",
    "C67_fails",
    "C67_ascii_works",
    "C67_clusters",
    "C67_clusters_accepted",
    "C67_clusters_lost_refuted",
    "C67_clusters_lost_page_refuted"
   ],
   "note": "C67_clusters_lost_refuted, C67_clusters_lost_page_refuted: the error of Clusters is ignored. Packages flag and strconv (ParseInt) of Go 1.19 are modelled from their sources; what Printf makes of a '%' is not modelled, and C67_accepted shows that it does not occur. For longer options than the bounds in C67_server_reads see C13."
  },
  {
   "property": "C68",
   "status": "proved",
   "theorems": [
    "C68_groups",
    "C68_no_versions",
    "C68_resources",
    "C68_version",
    "C68_address",
    "C68_watch_param",
    "C68_not_served",
    "C68_unconfigured_type",
    "C68_runs_exist",
    "C68_versions_refuted",
    "C68_groups_listed_refuted",
    "C68_address_refuted",
    "C68_clean_refuted",
    "C68_object_store",
    "C68_list",
    "C68_every_request"
   ],
   "note": "C68_versions_refuted, C68_groups_listed_refuted, C68_address_refuted, C68_clean_refuted: see findings 38 to 41. Requests to one server run one after the other; the text of error messages is not modelled. C68_list is about the default cluster; what a watch then sends is C48."
  },
  {
   "property": "C69",
   "status": "proved",
   "theorems": [
    "C69_cache",
    "C69_get",
    "C69_list",
    "C69_kinds",
    "C69_lost",
    "C69_builtin",
    "C69_custom_kind_refuted",
    "C69_builtin_kind_refuted"
   ],
   "note": "C69_custom_kind_refuted, C69_builtin_kind_refuted: see findings 42 and 43. Numbers and times as in C45 (laws lawful). For types of client-go only the absence of kind and version is proved; their structs are a parameter. C69_list is without selectors and pages; see C60 for those."
  },
  {
   "property": "C71",
   "status": "proved",
   "theorems": [
    "C71_field",
    "C71_items",
    "C71_pieces",
    "C71_pieces_error",
    "C71_document",
    "C71_metadata",
    "C71_cache",
    "C71_search",
    "C71_digits_refuted"
   ],
   "note": "C71_digits_refuted: see finding 45. Expressions of text, fields and [*]; Go templates and other jsonpath are parameters, as are the texts of null and of numbers that are not integers of at most 53 bits. C71_search is for one part of a search; C03 combines parts."
  },
  {
   "property": "C72",
   "status": "proved",
   "theorems": [
    "C72_nearest",
    "C72_order",
    "C72_infinities",
    "C72_numbers_only",
    "C72_documents",
    "C72_missing",
    "C72_large_refuted",
    "C72_nan_refuted"
   ],
   "note": "C72_large_refuted, C72_nan_refuted: see finding 46; C72_missing: finding 47. Texts with digit separators or hexadecimal are a parameter; exact reading is for texts below 10000 characters and exponents below 90000. C72_numbers_only is for lists without page and search."
  },
  {
   "property": "C70",
   "status": "proved",
   "theorems": [
    "C70_log_of_replies",
    "C70_all_logged",
    "C70_failures",
    "C70_no_token",
    "C70_run",
    "C70_status_refuted",
    "C70_length_refuted",
    "C70_length"
   ],
   "note": "C70_status_refuted, C70_length_refuted: see finding 48. The size of each written value is a parameter. Time fields are not modelled."
  },
  {
   "property": "C73",
   "status": "proved",
   "theorems": [
    "C73_template",
    "C73_document",
    "C73_field",
    "C73_default",
    "C73_quote",
    "C73_phase",
    "C73_join",
    "C73_cache",
    "C73_search",
    "C73_absent_refuted",
    "C73_default_refuted"
   ],
   "note": "C73_absent_refuted, C73_default_refuted: see findings 49 and 50. Templates with range, with, variables, methods, parentheses, comparisons, trim markers, comments or other functions are a parameter (e_eval). C73_document is for custom types; C73_template is for the stored map of any object."
  },
  {
   "property": "C74",
   "status": "proved",
   "theorems": [
    "C74_as_fresh",
    "C74_answered",
    "C74_during",
    "C74_old",
    "C74_get",
    "C74_write",
    "C74_restart_refuted",
    "C74_mixed_refuted"
   ],
   "note": "C74_restart_refuted, C74_mixed_refuted: see findings 52 and 53. C74_during is for the order of reads that the Go compiler uses (clients before store) and at most one reload meanwhile; the others are for both orders. The handler's own reads of configuration and store are one step."
  },
  {
   "property": "C75",
   "status": "proved",
   "theorems": [
    "C75_lines",
    "C75_once",
    "C75_lost_only_busy",
    "C75_in_order",
    "C75_no_panic",
    "C75_answers",
    "C75_lost_refuted",
    "C75_order_refuted",
    "C75_cut_refuted",
    "C75_stuck_refuted"
   ],
   "note": "C75_lost_refuted, C75_order_refuted, C75_cut_refuted, C75_stuck_refuted: see findings 54 to 56; they hold for every watch and all wanted events. C75_answers, C75_lost_only_busy and C75_in_order ask that open watches have different addresses (apart)."
  },
  {
   "property": "C76",
   "status": "proved",
   "theorems": [
    "C76_not_skipped",
    "C76_not_twice",
    "C76_exactly_once",
    "C76_skipped_refuted",
    "C76_twice_refuted"
   ],
   "note": "C76_skipped_refuted, C76_twice_refuted: see finding 57; the client gets 200 for every page. The pages are those of any caches that runs of the store reach; C76_exactly_once is for caches that follow each other by events."
  },
  {
   "property": "C77",
   "status": "proved",
   "theorems": [
    "C77_reads",
    "C77_filling",
    "C77_list",
    "C77_forward",
    "C77_catches_up",
    "C77_catches_up_refuted",
    "C77_gap_refuted",
    "C77_own_writes_refuted"
   ],
   "note": "C77_gap_refuted, C77_own_writes_refuted, C77_catches_up_refuted: see finding 58. The API server (ModelFollow) is an assumption about the environment: a watch without resourceVersion sends the state and then the changes. Replies of one store; C74 says which store answers after reloads."
  },
  {
   "property": "C78",
   "status": "proved",
   "theorems": [
    "C78_settles",
    "C78_reads",
    "C78_catches_up"
   ],
   "note": "Composes C50 and C74 (reloads) with C77 (watches). The watches of two loads, and of two types, are behind feeds of their own: that they watch one and the same cluster is not required. As in C77_catches_up, the cluster must have an object of the type or the stream must be the first of its watcher."
  },
  {
   "property": "C79",
   "status": "proved",
   "theorems": [
    "C79_same_reply",
    "C79_same_type",
    "C79_exists",
    "C79_content",
    "C79_process"
   ],
   "note": "No two watches of a load are for the same type and cluster (NoDup). As in C77 and C78, C79_process asks that each cluster has an object of each watched type or that the stream is the one the cache was filled from."
  },
  {
   "property": "C80",
   "status": "proved",
   "theorems": [
    "C80_reads",
    "C80_one_meaning",
    "C80_writes",
    "C80_query",
    "C80_bad_query",
    "C80_delete",
    "C80_config",
    "C80_bad_config",
    "C80_documents"
   ],
   "note": "The grammar is in SpecJson.v. RFC 8259 leaves open what half a surrogate pair and a byte that is no UTF-8 mean; there the specification has what encoding/json does."
  },
  {
   "property": "C81",
   "status": "proved",
   "theorems": [
    "C81_asks",
    "C81_accepted",
    "C81_refused",
    "C81_one_reading",
    "C81_search",
    "C81_list",
    "C81_list_refused",
    "C81_two_empty_values_refuted",
    "C81_nul_refuted"
   ],
   "note": "The grammar is in SpecSelText.v. Texts with a NUL byte are outside (C81_nul_refuted: the rest of the text is not read); lists of values that end in two empty values have a reading and some are refused by the Kubernetes parser (C81_two_empty_values_refuted). Two '=' requirements on one key: C16_repeated_equality_refuted."
  },
  {
   "property": "C82",
   "status": "proved",
   "theorems": [
    "C82_rounds",
    "C82_monotone",
    "C82_idle",
    "C82_wait",
    "C82_fresh",
    "C82_outcome",
    "C82_counted",
    "C82_up",
    "C82_one_more_refuted"
   ],
   "note": "The files are read at one moment of a reload; counters are exact naturals (float64 up to 2^53). That one more success alone is not enough is C82_one_more_refuted."
  },
  {
   "property": "C83",
   "status": "proved",
   "theorems": [
    "C83_paths",
    "C83_reads",
    "C83_only_reads",
    "C83_others",
    "C83_one_place",
    "C83_some_place",
    "C83_get",
    "C83_list",
    "C83_no_credentials",
    "C83_right_token_refuted",
    "C83_watch_y"
   ],
   "note": "nginx and PCRE are modelled from their documentation; the path matched is the decoded and normalised one. Findings: C83_no_credentials, C83_right_token_refuted, C83_watch_y."
  }
 ]
}
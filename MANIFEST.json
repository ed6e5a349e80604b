{"claims": [
{"property": "C01", "status": "proved", "theorems": ["C01_counts_equal_learned_messages"], "note": "Any arithmetic, any set iteration order. 'matched' is the specification of histories whose unlearns undo a current message; outcome of score calls is C08's subject."},
{"property": "C02", "status": "proved", "theorems": ["C02_unlearn_undoes_learn"], "note": "From every state reachable from a fresh in-memory classifier by any calls."},
{"property": "C03", "status": "proved", "theorems": ["C03_training_order_irrelevant"], "note": "For every starting object; tokens_of specifies what a message contributes."},
{"property": "C04", "status": "proved", "theorems": ["C04_counts_nonnegative_no_empty_record"], "note": "Every history, no restriction on unlearn."},
{"property": "C05", "status": "proved", "theorems": ["C05_refused_unlearn_changes_nothing"], "note": "For every object that has its bigram attribute; the cache is emptied, records and totals are not touched."},
{"property": "C06", "status": "proved", "theorems": ["C06_learn_changes_only_the_message", "C06_unlearn_changes_only_the_message"], "note": "One theorem for learn, one for a successful unlearn."},
{"property": "C07", "status": "proved", "theorems": ["C07_only_the_training_counts", "C07_probability_cache_transparent"], "note": "Erasing any marked score calls from a history leaves all other outcomes unchanged."},
{"property": "C08", "status": "proved", "theorems": ["C08_scoring_never_raises_after_matched_training", "C08_unmatched_history_refuted"], "note": "Exact real arithmetic; the refuted theorem shows that the restriction to matched histories is needed, for every arithmetic."},
{"property": "C09", "status": "proved", "theorems": ["C09_probability_is_the_documented_formula", "C09_formula_strictly_between_0_and_1", "C09_formula_compares_ratios", "C09_rounded_probability_in_unit_interval"], "note": "Exact arithmetic for the formula, every monotone idempotent rounding (binary64 is an instance) for the range."},
{"property": "C10", "status": "proved", "theorems": ["C10_more_spam_never_lowers", "C10_more_ham_never_raises", "C10_unbalanced_totals_refuted"], "note": "The unrestricted claim is false; proved under the sharp balance condition, with the counterexample just beyond it."},
{"property": "C11", "status": "proved", "theorems": ["C11_clues_are_the_strongest"], "note": "Every arithmetic with a total order, every reachable in-memory classifier."},
{"property": "C12", "status": "proved", "theorems": ["C12_score_depends_on_word_set_only"], "note": "Every arithmetic with a total order."},
{"property": "C13", "status": "proved", "theorems": ["C13_bigram_clues_use_disjoint_positions"], "note": "Every arithmetic with a total order."},
{"property": "C14", "status": "proved", "theorems": ["C14_score_in_unit_interval"], "note": "Every rounding; binary64 without exponent overflow is proved to be an instance."},
{"property": "C15", "status": "proved", "theorems": ["C15_no_clues_scores_one_half", "C15_untrained_scores_one_half"], "note": "Every arithmetic in which 1/2 is not a strong probability and 0 < 1 (proved for exact and binary64)."},
{"property": "C16", "status": "proved", "theorems": ["C16_exchanging_labels_mirrors_the_score"], "note": "Exact arithmetic, no bigrams, at most 150 strong words."},
{"property": "C17", "status": "proved", "theorems": ["C17_score_monotone_in_the_clues"], "note": "Exact arithmetic; stated on the evidence lists of two scoring calls on arbitrary reachable classifiers."},
{"property": "C18", "status": "proved", "theorems": ["C18_chi2Q_is_the_chi_squared_tail", "C18_tail_range_and_monotonicity", "C18_odd_degrees_raise"], "note": "Exact arithmetic; derivative argument for monotonicity."},
{"property": "C19", "status": "proved", "theorems": ["C19_underflow_guard_is_exact", "C19_score_is_fisher_of_the_evidence"], "note": "Exact arithmetic; once for the combining loop on lists of any length, once for the public call."},
{"property": "C20", "status": "proved", "theorems": ["C20_evidence_is_complete_and_ordered", "C20_evidence_does_not_change_the_score"], "note": "Every arithmetic with a total order."},
{"property": "C21", "status": "proved", "theorems": ["C21_list_learns_all_but_the_last_word", "C21_one_word_learns_nothing", "C21_iterator_learns_every_third_word", "C21_documented_tokens_refuted"], "note": "Positive theorems say exactly what is learned; the refuted theorem is the documentation's claim."},
{"property": "C22", "status": "proved", "theorems": ["C22_lists_of_bytes_with_bigrams_raise", "C22_generators_of_bytes_with_bigrams_raise", "C22_type_error_exactly_on_mixed_ties", "C22_two_byte_tokens_with_bigrams_raise"], "note": "Exact characterisation plus the bigram witness for all pairs of byte tokens."},
{"property": "C23", "status": "proved", "theorems": ["C23_database_classifier_refines_memory_classifier"], "note": "Any arithmetic, any set iteration order; 'tidy' asks for a store before each load or re-open, 'plain' words are encodable text other than the reserved key."},
{"property": "C24", "status": "proved", "theorems": ["C24_store_and_reopen_lose_nothing"], "note": "Every state reachable on every database any earlier crash may have left behind."},
{"property": "C25", "status": "proved", "theorems": ["C25_listing_after_store_is_exact", "C25_listing_before_store_is_exact_refuted", "C25_listing_an_untrained_database_raises"], "note": "Exact listing after a store; the two failures before it as theorems."},
{"property": "C26", "status": "proved", "theorems": ["C26_counts_consistent_at_every_crash_point", "C26_scoring_works_at_every_crash_point", "C26_crash_after_unlearn_refuted", "C26_training_on_after_a_crash_refuted"], "note": "Every prefix of the write log of every history without unlearn; two refuted extensions (unlearn, training on after a crash)."},
{"property": "C27", "status": "proved", "theorems": ["C27_learning_the_reserved_word_raises", "C27_trained_databases_list_their_words", "C27_byte_words_raise_but_count", "C27_other_databases_are_refused", "C27_words_with_surrogates_raise_but_count"], "note": "Every reachable state of every database; that the listing works is the observable sign that the database was trained."},
{"property": "C28", "status": "proved", "theorems": ["C28_store_and_load_round_trip", "C28_pickled_classifier_refines_memory_classifier"], "note": "Over any pickle codec with the round-trip law; also whole histories with store, load and re-open against the in-memory class."},
{"property": "C29", "status": "proved", "theorems": ["C29_failed_load_is_silent_and_store_wipes", "C29_slow_reader_destroys_the_database"], "note": "Every failure of the read, including an unknown version (it is raised inside the swallowed read); plus a schedule in which a slow reader causes it."},
{"property": "C30", "status": "proved", "theorems": ["C30_rename_is_atomic", "C30_completed_write_is_complete", "C30_copying_passes_through_every_prefix", "C30_copying_is_atomic_refuted", "C30_crash_while_copying_loses_everything", "C30_no_temporary_file_is_left", "C30_crash_leaves_a_temporary_file"], "note": "Every old and new contents, every division into writes, every crash point; crash means death of the process, not loss of buffered disk writes."},
{"property": "C31", "status": "proved", "theorems": ["C31_mutual_exclusion", "C31_file_is_an_atomic_register", "C31_no_update_is_lost_refuted", "C31_serial_updates_arrive", "C31_dead_holder_blocks_everybody"], "note": "Any number of processes running arbitrary read/write programs, any schedule with deaths and timeouts; the lock library is modelled as an atomic test-and-set whose lock survives its holder."},
{"property": "C32", "status": "proved", "theorems": ["C32_cdb_classifier_cannot_persist", "C32_format_swaps_ham_and_spam", "C32_missing_file_is_an_empty_classifier"], "note": "Every state, every order of the dictionary; the hypothetical working module is any pair of functions with the round-trip law."},
{"property": "C33", "status": "proved", "theorems": ["C33_unpickled_classifier_cannot_be_used", "C33_unknown_version_raises"], "note": "Every state; the attribute that is not restored is modelled as absent."},
{"property": "C34", "status": "proved", "theorems": ["C34_items_of_a_written_cdb", "C34_non_ascii_round_trip_refuted"], "note": "Every list of ASCII pairs within 4 GiB; the refuted theorem is the same claim for text that encodes to more bytes than characters."},
{"property": "C35", "status": "proved", "theorems": ["C35_cdb_make_writes_a_correct_database"], "note": "The reader of the specification is written from Bernstein's description, independently of the code; linear probing by an invariant on the tables."},
{"property": "C36", "status": "proved", "theorems": ["C36_lookup_never_succeeds", "C36_get_returns_the_default", "C36_get_hides_only_the_key_error"], "note": "Every file and key; get returns its default for every text key of every written file."},
{"property": "C37", "status": "proved", "theorems": ["C37_in_memory_cache_is_bounded"], "note": "Every history of put, pop and get from a new cache; limit read as max(0, limit)."},
{"property": "C38", "status": "proved", "theorems": ["C38_first_in_first_out", "C38_distinct_keys_keep_the_last", "C38_putting_a_cached_key_again"], "note": "Against a queue written in the specification; plus, for every limit, the full cache in which the oldest key is put again."},
{"property": "C39", "status": "proved", "theorems": ["C39_empty_cache_is_ignored", "C39_file_corpus_on_an_empty_directory_writes_nothing"], "note": "Every later history of the corpus, with any trainers attached; the corpus is an unlimited dictionary and the directory never changes."},
{"property": "C40", "status": "proved", "theorems": ["C40_at_most_the_limit_of_put_files_survive", "C40_eviction_deletes_the_oldest_files", "C40_put_stores_the_file", "C40_pop_removes_the_file", "C40_other_files_are_kept"], "note": "Limit at least 1; limit 0 is excluded because the file just put stays on disk."},
{"property": "C41", "status": "proved", "theorems": ["C41_lookup_succeeds_for_the_files_of_the_directory", "C41_lookup_returns_the_last_contents", "C41_rejected_put_changes_nothing"], "note": "The email package is any pair of functions with bytes(parse(bytes(m))) = bytes(m)."},
{"property": "C42", "status": "proved", "theorems": ["C42_length_is_frozen", "C42_length_and_iteration_disagree"], "note": "Every history; disagreement for every new name, directory and limit."},
{"property": "C43", "status": "proved", "theorems": ["C43_corpus_is_a_dictionary_and_sends_each_signal_once", "C43_message_added_under_another_id_is_not_removed"], "note": "Every history on any number of unlimited corpora, whatever the receivers do."},
{"property": "C44", "status": "proved", "theorems": ["C44_every_add_and_every_remove_trains", "C44_removing_trains_a_second_time", "C44_remove_untrains_refuted", "C44_messages_of_the_package_are_never_trained"], "note": "The classifier is the one obtained by direct learn calls, one per add or remove and trainer; the documentation's claim is refuted; package messages raise. One classifier, receivers called in connection order."},
{"property": "C45", "status": "proved", "theorems": ["C45_expiry_never_removes", "C45_reopened_directory_always_raises"], "note": "Every arithmetic with a total order, every clock, every order of the keys."},
{"property": "C46", "status": "proved", "theorems": ["C46_id_set_only_once", "C46_which_ids_are_accepted", "C46_id_from_payload", "C46_ids_in_raw_bytes_raise", "C46_ids_are_always_acceptable", "C46_which_messages_can_be_made"], "note": "Every sequence of id assignments and payload lookups from a new message; which ids are accepted, exactly."},
{"property": "C47", "status": "proved", "theorems": ["C47_thresholds", "C47_setting_the_classification", "C47_cutoffs", "C47_cutoffs_in_exact_arithmetic"], "note": "Every arithmetic with a total order; is_unsure disagrees with the classification exactly at the two cutoffs."},
{"property": "C48", "status": "proved", "theorems": ["C48_names_in_lower_case", "C48_removal_is_complete_and_nothing_else", "C48_no_spelling_remains", "C48_spellings"], "note": "Header list with case-insensitive names; header values are text, undecoded bytes or absent."},
{"property": "C49", "status": "proved", "theorems": ["C49_adding_then_removing_restores", "C49_subject_notation_left_behind", "C49_to_notation_left_behind"], "note": "Every score, option set and evidence; the left-behind notation survives any number of removals."},
{"property": "C50", "status": "proved", "theorems": ["C50_options_exchanged"], "note": "Every header list carrying both notations."},
{"property": "C51", "status": "proved", "theorems": ["C51_first_classification_reported"], "note": "Any number of repeated classifications."},
{"property": "C52", "status": "proved", "theorems": ["C52_only_crlf", "C52_idempotent", "C52_lines_preserved", "C52_lines_are_unique"], "note": "Result contains only CRLF line ends, idempotent, same lines; the decomposition into lines is unique."},
{"property": "C53", "status": "proved", "theorems": ["C53_lines_of_clues", "C53_no_clue_is_lost", "C53_line_limit_exceeded_refuted"], "note": "Clues are plain when they contain no semicolon or white space at the ends; the line limit is refuted for every list of six or more ten-character clues."},
{"property": "C54", "status": "proved", "theorems": ["C54_line_breaks_of_the_exception_field", "C54_exception_header_in_header_section", "C54_body_kept_for_any_exception_text", "C54_header_lands_in_the_body"], "note": "The email Header class is any function; the header-section theorem assumes it leaves the joined traceback unchanged, the body theorem assumes nothing."},
{"property": "C55", "status": "proved", "theorems": ["C55_level_header_added", "C55_stars_in_binary64", "C55_stars_in_exact_arithmetic", "C55_level_header_in_binary64"], "note": "Binary64 with round to nearest even, and exact arithmetic."},
{"property": "C56", "status": "proved", "theorems": ["C56_style_sections", "C56_comments", "C56_noframes_sections", "C56_urls", "C56_what_is_kept_is_determined", "C56_no_comment_survives_refuted"], "note": "Every text, for the style, comment, noframes and URL strippers; sections are specified on characters, independently of the matcher; that nothing strippable is left is refuted."},
{"property": "C57", "status": "proved", "theorems": ["C57_tokens_of_a_url", "C57_chunks_are_determined", "C57_trailing_punctuation_adds_an_empty_token", "C57_trailing_punctuation_is_lost_refuted", "C57_slurping_changes_nothing"], "note": "Every URL; the chunks are determined by the URL; the slurping variant yields the same."},
{"property": "C58", "status": "proved", "theorems": ["C58_body_word", "C58_bad_body_word_raises", "C58_text_word", "C58_text_without_bad_words", "C58_text_with_a_bad_word_raises"], "note": "Every word of bytes and every text word; words of a text are its maximal non-blank runs."},
{"property": "C59", "status": "proved", "theorems": ["C59_begin_line_raises"], "note": "Every text; the begin line is specified on characters."},
{"property": "C60", "status": "proved", "theorems": ["C60_host_tokens_are_the_suffixes", "C60_address_tokens_are_the_prefixes", "C60_top_two_labels"], "note": "Every text, also with empty labels; the suffix relation is stated on characters, independently of splitting."},
{"property": "C61", "status": "proved", "theorems": ["C61_texts_that_are_no_addresses", "C61_clues_of_an_address", "C61_equal_clues_exactly_for_equal_leading_octets", "C61_subnets_are_nested_blocks", "C61_same_subnet_exactly_for_same_leading_bits", "C61_prefix_lengths_are_ignored"], "note": "All octets, all prefix lengths up to 32; ip_network on other texts is a parameter."},
{"property": "C62", "status": "proved", "theorems": ["C62_timeout_restored", "C62_reverse_lookup", "C62_lookup", "C62_properly_nested_calls_restore_the_timeout", "C62_no_third_timeout_under_any_schedule", "C62_overlapping_calls_restore_the_timeout_refuted"], "note": "Any wrapped function, also one that changes the timeout itself; any number of threads and any schedule, with reading, setting and restoring the timeout as atomic steps; the concurrent claim is refuted."},
{"property": "C63", "status": "proved", "theorems": ["C63_pure_functions_unchanged", "C63_pure_functions_unchanged_in_sequences", "C63_first_result_is_kept"], "note": "Functions of their arguments alone may call themselves; functions acting on a world may do anything except call the memoised function. The dictionary is per function."},
{"property": "C64", "status": "proved", "theorems": ["C64_every_call_raises_and_only_scoring_touches_the_object", "C64_records_and_totals_unchanged", "C64_training_exception_and_directory", "C64_scoring_exception", "C64_a_new_classifier_raises_TypeError_for_ever"], "note": "Any backend and arithmetic for the history theorem; setup never completes, so the lines after it are unreachable and not modelled."},
{"property": "C65", "status": "proved", "theorems": ["C65_message_read_from_disk_cannot_be_removed"], "note": "Every state of a directory-backed corpus."},
{"property": "C66", "status": "proved", "theorems": ["C66_raw_bytes_make_removal_raise"], "note": "Raising characterised exactly; C48 shows the headers are gone in either case."},
{"property": "C67", "status": "proved", "theorems": ["C67_saved_headers_can_be_restored"], "note": "Header values plain text; every option pair."},
{"property": "C68", "status": "proved", "theorems": ["C68_nntp_headers", "C68_what_an_ipv4_address_is"], "note": "Any resolver; which texts are IPv6 addresses is a parameter, IPv4 is exact."},
{"property": "C69", "status": "proved", "theorems": ["C69_base_of_a_url", "C69_only_the_host_matters", "C69_taking_the_base_twice"], "note": "Every text; hosts are compared as texts, labels may be empty."},
{"property": "C70", "status": "proved", "theorems": ["C70_body_outcome", "C70_body_tokens_are_determined", "C70_case_does_not_matter", "C70_plain_text", "C70_html_raises", "C70_every_body_is_tokenized_refuted"], "note": "Every byte string; tokens and failures are specified on characters, independently of the matcher, and determined by the text."},
{"property": "C71", "status": "proved", "theorems": ["C71_repair", "C71_leading_base64_is_determined", "C71_undecodable_part_raises"], "note": "The base64 decoder is any function; lines are specified on characters."},
{"property": "C72", "status": "proved", "theorems": ["C72_body_outcome", "C72_order_of_parts"], "note": "Every list of parts; decoding of payloads by the email package is input."},
{"property": "C73", "status": "proved", "theorems": ["C73_stream_that_ends", "C73_failed_learn_counts_the_message", "C73_failed_unlearn_uncounts_the_message", "C73_every_attempt_counts", "C73_failed_undo_restores_the_totals", "C73_untokenizable_body_is_counted", "C73_failed_learn_changes_nothing_refuted"], "note": "Any storage backend and arithmetic; learn and unlearn with bigrams or without."},
{"property": "C74", "status": "proved", "theorems": ["C74_tokens_of_a_part", "C74_part_raises", "C74_ordinary_names_are_not_bogus_refuted"], "note": "Every part; what the email package returns for type, parameters, charsets, disposition and file name is input."},
{"property": "C75", "status": "proved", "theorems": ["C75_subject", "C75_subject_tokens_are_determined", "C75_long_word", "C75_decoding_raises", "C75_every_subject_is_tokenized_refuted"], "note": "Every subject; the header decoder is any function; that every subject is tokenized is refuted."},
{"property": "C76", "status": "proved", "theorems": ["C76_no_header", "C76_addresses", "C76_parser_raises"], "note": "Every message; address parser and header decoder are any functions."},
{"property": "C77", "status": "proved", "theorems": ["C77_header_counts", "C77_no_token_twice", "C77_order_of_headers", "C77_absence_recorded_refuted"], "note": "Every list of headers and options; that absence is recorded is refuted."},
{"property": "C78", "status": "proved", "theorems": ["C78_message_id", "C78_invalid", "C78_raises", "C78_host_is_determined"], "note": "Every text; ids are specified on characters and the host is unique for Unicode tables that agree with ASCII."},
{"property": "C79", "status": "proved", "theorems": ["C79_recipients", "C79_recipients_raise", "C79_logarithm_is_determined", "C79_mailer", "C79_mailer_raises"], "note": "Every message; rounding of log2 is specified by integer powers (C145: what floating point makes of it)."},
{"property": "C80", "status": "proved", "theorems": ["C80_summaries", "C80_order_of_addresses", "C80_parser_raises"], "note": "Every list of addresses; integer division as in the code."},
{"property": "C81", "status": "proved", "theorems": ["C81_received", "C81_raises", "C81_received_is_determined", "C81_only_dotted_addresses_refuted"], "note": "Every text; the three patterns are specified on characters, independently of the matcher; determined for Unicode tables that agree with ASCII."},
{"property": "C82", "status": "proved", "theorems": ["C82_only_bytes", "C82_headers_raise", "C82_body_raises", "C82_tokens", "C82_long_subject", "C82_long_subject_is_counted", "C82_what_is_yielded", "C82_everything_is_yielded", "C82_which_messages_can_be_tokenized", "C82_tokens_are_determined", "C82_order_of_text_parts"], "note": "Any email package whose decoder returns no None, any Unicode tables agreeing with ASCII, any base64 decoder and options; the specification of the whole message is put together from those of its sections; learning uses any storage backend."},
{"property": "C83", "status": "proved", "theorems": ["C83_what_is_yielded", "C83_everything_is_yielded", "C83_each_word", "C83_long_word_raises", "C83_names_without_blank", "C83_skipping_refuted", "C83_arguments_of_the_call_refuted", "C83_call_ignores_its_arguments"], "note": "Both directions for every message and argument; skipping of Received, Date and X- headers and the arguments of the call are refuted."},
{"property": "C84", "status": "proved", "theorems": ["C84_habeas_tokens_are_added", "C84_habeas_tokens_are_determined"], "note": "Every header list; the nine headers and values are restated in the specification."},
{"property": "C85", "status": "proved", "theorems": ["C85_octets_and_images_are_added", "C85_image_tokens_are_determined"], "note": "Every list of parts; the payloads the email package returns are input."},
{"property": "C86", "status": "proved", "theorems": ["C86_short_token_is_added", "C86_same_parts_raise", "C86_short_token_is_determined", "C86_trailing_run_refuted"], "note": "Every text; log2 rounded down is computed exactly (C145: what floating point makes of it); counting of a run at the end is refuted."},
{"property": "C87", "status": "proved", "theorems": ["C87_text_part", "C87_tokens_are_determined", "C87_url_raises", "C87_picking_apart_raises", "C87_part_makes_body_raise", "C87_replacing_raises", "C87_fancy_recognition_refuted"], "note": "Every text and setting; urls are those met by the scan from left to right; that recognition of URLs without protocol keeps texts tokenizable is refuted."},
{"property": "C88", "status": "proved", "theorems": ["C88_what_is_yielded", "C88_everything_is_yielded", "C88_which_messages_can_be_tokenized", "C88_tokens_are_determined", "C88_options_as_set"], "note": "Any email package whose decoder returns no None, any Unicode tables agreeing with ASCII; all settings of the options but image cracking, DNS lookup and news headers."},
{"property": "C89", "status": "proved", "theorems": ["C89_scoring_in_doubles_never_raises"], "note": "For every arithmetic (class machine) that rounds as IEEE doubles do, with gradual underflow, below 2^1023, and does anything above; math.log and math.exp have an error of at most one unit in the last place. Fewer than 2^48 messages."},
{"property": "C90", "status": "proved", "theorems": ["C90_double_probability_is_the_formula", "C90_double_evidence_is_the_formula"], "note": "As C89; relative error at most 2e-15; evidence is stated for matched histories, the method for all."},
{"property": "C91", "status": "proved", "theorems": ["C91_double_score_is_fishers"], "note": "As C89; against Fisher's combination of the reported double probabilities, not of the real ones, since the choice of clues may differ."},
{"property": "C92", "status": "proved", "theorems": ["C92_double_score_monotone"], "note": "As C89; exact monotonicity in doubles is not claimed."},
{"property": "C93", "status": "proved", "theorems": ["C93_call_raises_iff_untrainable", "C93_corpora_ignore_exceptions"], "note": "Corpora with the default unlimited cache; observers are trainers that stay alive; tokenizing a message is a fixed stream that ends or raises."},
{"property": "C94", "status": "proved", "theorems": ["C94_label_of_the_last_training", "C94_removed_message_is_untrained_refuted"], "note": "As C93. The claim of the class documentation that removal untrains is refuted."},
{"property": "C95", "status": "proved", "theorems": ["C95_classifier_learns_what_is_trainable"], "note": "As C93; in-memory classifiers with their word pairs option set."},
{"property": "C96", "status": "proved", "theorems": ["C96_untrain_undoes_train", "C96_untokenizable", "C96_untrain_untrained_raises"], "note": "As C93."},
{"property": "C97", "status": "proved", "theorems": ["C97_moved_message_stays_ham"], "note": "As C93; consequence of both signals being connected to train."},
{"property": "C98", "status": "proved", "theorems": ["C98_failed_url_is_not_tried_again"], "note": "slurp called directly on an object whose caches exist (learning and scoring never get there, C64); surroundings are an arbitrary function per call."},
{"property": "C99", "status": "proved", "theorems": ["C99_http_error_is_answered_with_a_text", "C99_same_answer_for_the_same_url_refuted"], "note": "As C98; no quotation mark is a digit."},
{"property": "C100", "status": "proved", "theorems": ["C100_tokens_of_stored_pages_only", "C100_retrieved_page_raises_and_is_not_stored", "C100_urls_with_one_key_share_a_page", "C100_which_urls_have_one_key"], "note": "As C98; what tokenizing a page gives is a parameter."},
{"property": "C101", "status": "proved", "theorems": ["C101_a_copy_has_no_contents", "C101_training_on_a_copy_only_counts"], "note": "The copy and pickle modules are represented by what they do with __getstate__ and __setstate__; operations on contents raise at the first missing attribute."},
{"property": "C102", "status": "proved", "theorems": ["C102_failed_add_leaves_an_empty_file", "C102_observers_are_told_of_written_messages", "C102_files_after_any_history", "C102_same_caches", "C102_failed_add_changes_no_file_refuted"], "note": "Conversion to bytes is an arbitrary function that may raise; other I/O succeeds. Other files stay: stated for a cache without limit (with a limit the oldest entry is evicted, C40)."},
{"property": "C103", "status": "proved", "theorems": ["C103_reading_agrees", "C103_values_of_the_default_corpus", "C103_values_of_a_directory", "C103_a_file_with_a_reserved_name_blocks_values"], "note": "Single process; nobody else changes the directory."},
{"property": "C104", "status": "proved", "theorems": ["C104_values_empty_a_directory", "C104_lookups_do_not_empty_a_reopened_directory", "C104_default_corpus", "C104_message_under_another_key_stays"], "note": "As C103."},
{"property": "C105", "status": "proved", "theorems": ["C105_tokens", "C105_training", "C105_scores"], "note": "Default options (the optional tokens of OptModel.v off). What the email package reports of a part is given with it. Without bigrams."},
{"property": "C106", "status": "proved", "theorems": ["C106_parts_are_read_one_by_one", "C106_containers_have_no_text"], "note": "As C105. Sets of tokens; for the order of tokens see C107."},
{"property": "C107", "status": "proved", "theorems": ["C107_training", "C107_scores", "C107_training_with_bigrams_refuted"], "note": "As C105."},
{"property": "C108", "status": "proved", "theorems": ["C108_learning_a_message_once_decides_it", "C108_any_message_of_such_words", "C108_one_word_learned_as_ham_once", "C108_one_word_learned_as_spam_twice", "C108_one_word_learned_as_spam_once_refuted"], "note": "Without bigrams; None is not a word. Arithmetic as in C89. The exception (one word, learned as spam once) is a theorem as well."},
{"property": "C109", "status": "proved", "theorems": ["C109_learning_as_spam_never_lowers_the_score_refuted"], "note": "The natural claim is refuted; see C10 for the condition under which the probability of a word rises."},
{"property": "C110", "status": "proved", "theorems": ["C110_even_words_are_never_clues", "C110_messages_of_even_words_score_one_half"], "note": "As C90."},
{"property": "C111", "status": "proved", "theorems": ["C111_tokens", "C111_training", "C111_scores", "C111_each_value_matters", "C111_each_count_matters"], "note": "Default header counting (COUNT_ALL_HEADER_LINES off), basic header tokens and Habeas headers off. What the email package reports of the content headers of a part is given with the part, so Content-* headers are not covered by the difference. The two theorems on minimality are finite: one witness per name."},
{"property": "C112", "status": "proved", "theorems": ["C112_training_on_a_filtered_message", "C112_scoring_a_filtered_message", "C112_scoring_after_removing_the_headers", "C112_with_notations_refuted", "C112_when_all_headers_are_counted_refuted"], "note": "As C111. The two exceptions are theorems."},
{"property": "C113", "status": "proved", "theorems": ["C113_words_of_one_side", "C113_learned_messages_are_recognised"], "note": "As C108 and C111; a classifier without bigrams."},
{"property": "C114", "status": "proved", "theorems": ["C114_no_message_is_learned", "C114_only_the_totals_grow"], "note": "As C27 and C105. ``Opens'' is a hypothesis: shelve_open returns. Only the shelve database is modelled."},
{"property": "C115", "status": "proved", "theorems": ["C115_words_of_one_side", "C115_delivered_messages_are_recognised"], "note": "As C95, C28 and C113. The classifier of the trainer is new and without bigrams; the words of untokenizable messages are not learned, they only change the totals. The pickle module is assumed to load what it dumped (codec_ok)."},
{"property": "C116", "status": "proved", "theorems": ["C116_tokens", "C116_training", "C116_score", "C116_every_wrapping_is_harmless_refuted", "C116_same_sequence_same_token_list", "C116_same_sequence_same_calls", "C116_order_of_words_with_bigrams_refuted"], "note": "As C105 and C70. Without bigrams and without counting all headers; the headers of the two messages agree where they are read (C111)."},
{"property": "C117", "status": "proved", "theorems": ["C117_weak_words", "C117_even_words", "C117_added_parts", "C117_weak_words_between_pairs_refuted"], "note": "Without bigrams (with them refuted over exact arithmetic). Even words in double precision for fewer than 2^48 messages; weak words for every arithmetic with a total order."},
{"property": "C118", "status": "proved", "theorems": ["C118_other_words_exact", "C118_other_words_double", "C118_one_message_outweighs_many"], "note": "As C09 and C90. The last sentence of the statement is the theorem C118_one_message_outweighs_many."},
{"property": "C119", "status": "proved", "theorems": ["C119_learning_again_exact", "C119_learning_again_double"], "note": "As C09 and C90."},
{"property": "C120", "status": "proved", "theorems": ["C120_score_in_terms_of_the_learned_messages", "C120_a_further_spam_word_never_lowers_the_score_refuted"], "note": "As C09, C11 and C17; exact arithmetic. The last sentence is refuted by a witness with two words."},
{"property": "C121", "status": "proved", "theorems": ["C121_same_score_on_every_machine", "C121_stored_classifier_on_another_machine", "C121_same_verdict_on_every_machine"], "note": "As C89 and C28 (codec_ok). The examples exhibit two machines that differ in overflow and in the logarithm."},
{"property": "C122", "status": "proved", "theorems": ["C122_double_score_in_terms_of_the_learned_messages"], "note": "As C89, C90. The bound grows with the number of messages because 1 - p can be as small as 1/(7n)."},
{"property": "C123", "status": "proved", "theorems": ["C123_words_of_one_side_never_decide_for_the_other", "C123_moved_message_is_not_classified_as_spam", "C123_message_moved_to_spam_is_classified_as_spam_refuted"], "note": "As C89; the corpora as in C97. The refuted theorem is the expectation that a message moved to a spam corpus is classified as spam."},
{"property": "C124", "status": "proved", "theorems": ["C124_message_with_a_word_new_to_the_other_side_is_recognised_in_the_end", "C124_message_of_words_in_all_messages_of_the_other_side_is_never_recognised", "C124_message_learned_often_enough_as_spam_is_classified_as_spam_refuted"], "note": "The first theorem is about exact real arithmetic, as C120; the number of repetitions is not bounded in terms of the message. The second and the refuted one are about doubles, as C123."},
{"property": "C125", "status": "proved", "theorems": ["C125_processes_taking_turns_work_as_one_after_the_other", "C125_processes_that_only_score_do_not_disturb_each_other", "C125_overlapping_processes_work_as_in_some_order_refuted", "C125_database_trained_by_overlapping_processes_can_be_used_refuted"], "note": "The database is taken to offer atomic operations on single keys whose effect is visible at once; dbm back ends that lock the file or buffer an index behave differently. The same holds for two objects in one process."},
{"property": "C126", "status": "proved", "theorems": ["C126_shared_database_stays_well_kept_and_can_be_opened", "C126_operations_beside_other_processes_end_as_expected", "C126_scoring_beside_a_training_process_returns_refuted", "C126_learning_beside_an_unlearning_process_returns_refuted"], "note": "Assumption about the database as for C125. The theorem about the calls is about exact real arithmetic."},
{"property": "C127", "status": "proved", "theorems": ["C127_load_makes_an_object_like_a_freshly_opened_one_unless_the_totals_changed", "C127_load_shows_what_other_processes_trained_refuted"], "note": "The positive theorem holds for any arithmetic; the refuted one is about exact real arithmetic. Later calls are restricted as in C23: load() and re-opening only when everything trained was stored."},
{"property": "C128", "status": "proved", "theorems": ["C128_text_form_ends_every_line_with_crlf", "C128_text_form_has_the_lines_the_email_package_writes", "C128_refused_message_is_written_as_the_lines_of_its_parts", "C128_own_headers_and_mangling_do_not_matter_for_a_refused_message", "C128_text_form_raises_only_for_a_reason", "C128_text_form_keeps_the_headers_refuted", "C128_text_form_without_mangling_adds_no_mark_refuted"], "note": "The email package's Generator is a parameter; the theorems hold for every behaviour of it. List payloads are taken to contain messages only."},
{"property": "C129", "status": "proved", "theorems": ["C129_number_and_size_of_the_tokens_of_a_text", "C129_number_of_records_of_a_classifier", "C129_number_of_records_after_learning_texts", "C129_size_of_the_tokens_of_a_received_header_is_linear_refuted"], "note": "About the default options for bodies; texts whose tokenization raises are excluded by the hypothesis (they can raise in the middle). The constants are not the best possible."},
{"property": "C130", "status": "proved", "theorems": ["C130_exchanging_labels_mirrors_the_double_score", "C130_exchanging_labels_always_mirrors_the_double_score_refuted"], "note": "As C89 and C122. C16 is the statement in exact arithmetic. Without bigrams."},
{"property": "C131", "status": "proved", "theorems": ["C131_trainers_train_what_reaches_them_while_they_live", "C131_messages_that_reach_no_trainer_change_no_classifier", "C131_message_added_after_creating_a_trainer_is_learned_refuted", "C131_message_already_in_the_corpus_is_learned_refuted"], "note": "blinker is represented by its documented behaviour: receivers of a signal for a sender form a set of weak references. Trainers go away when the last reference does (CPython). Messages that cannot be tokenized are C93 and C95."},
{"property": "C132", "status": "proved", "theorems": ["C132_150_stronger_words_decide_alone", "C132_good_words_turn_any_message", "C132_spam_stays_spam_with_further_words_refuted"], "note": "The first theorem concludes from the padded message being scored (words of one type always are); the second shows that it is. Without bigrams."},
{"property": "C133", "status": "proved", "theorems": ["C133_score_of_joined_messages", "C133_joined_messages_are_not_classified_the_other_way", "C133_joined_spam_is_spam_refuted"], "note": "Whether two spam messages without common clues are always spam together is not claimed."},
{"property": "C134", "status": "proved", "theorems": ["C134_learning_once_decides_with_bigrams", "C134_any_message_of_such_words", "C134_two_words_refuted", "C134_iterator_refuted", "C134_three_learned_words_decide_with_bigrams", "C134_learning_a_message_once_with_bigrams_decides_it", "C134_short_generators_are_not_learned", "C134_three_different_words_learned_once_refuted"], "note": "Words of the form of a pair are excluded: such a word can be hidden by the clue for the pair."},
{"property": "C135", "status": "proved", "theorems": ["C135_exactly_the_overdrawn_words_raise", "C135_excess_is_at_most_the_unlearned_messages", "C135_learning_other_messages_repairs"], "note": "The two exceptions are kept apart in the model; which is raised when several words are over their totals depends on the order in which Python iterates the set."},
{"property": "C136", "status": "proved", "theorems": ["C136_text_with_invisible_sections", "C136_tokens", "C136_training", "C136_score", "C136_every_comment_is_invisible_refuted"], "note": "Comments and noframes sections without a further opening angle bracket; style sections with anything up to the first end tag."},
{"property": "C137", "status": "proved", "theorems": ["C137_items_of_any_file", "C137_truncated_file", "C137_truncation_is_noticed_refuted", "C137_file_without_header_is_empty"], "note": "items, keys and values build lists; a caller of iteritems sees the records before the damage first."},
{"property": "C138", "status": "proved", "theorems": ["C138_labels_are_told_apart", "C138_header_tokens_depend_on_their_header", "C138_other_tokens_depend_on_the_texts", "C138_texts_without_colons_are_honest", "C138_headers_are_learned_apart", "C138_texts_are_learned_apart", "C138_words_of_texts_are_tokens", "C138_texts_do_not_yield_header_tokens_refuted"], "note": "BASIC_HEADER_TOKENIZE and the other options of OptModel are off; SUMMARIZE_EMAIL_*, MINE_RECEIVED_HEADERS, COUNT_ALL_HEADER_LINES and RECORD_HEADER_ABSENCE are arbitrary."},
{"property": "C139", "status": "proved", "theorems": ["C139_evidence_changes_nothing", "C139_convenience_methods_count_messages"], "note": "The program of calls uses the in-memory classifier; the statement on the evidence flag is for every store."},
{"property": "C140", "status": "proved", "theorems": ["C140_headers_for_a_score", "C140_headers_for_a_classification", "C140_headers_read_back", "C140_indicators_are_always_shown"], "note": "The texts of scores and clues (formatting) and of header objects are parameters; lower-casing of names is that of ASCII."},
{"property": "C141", "status": "proved", "theorems": ["C141_pairs_of_byte_words_are_told_apart", "C141_pairs_are_no_byte_words", "C141_pairs_of_text_words_without_blanks_are_told_apart", "C141_records_count_neighbours", "C141_all_words_are_told_apart_refuted", "C141_name_of_a_pair", "C141_name_is_determined"], "note": "repr of bytes is modelled in Py.v (printable ASCII kept, the quote and the backslash escaped, everything else in hexadecimal)."},
{"property": "C142", "status": "proved", "theorems": ["C142_what_a_message_yields", "C142_never_both", "C142_every_text_without_surrogates_has_bytes", "C142_one_encoding", "C142_nothing_is_lost", "C142_databases_of_texts_with_surrogates"], "note": "The specification of UTF-8 is the inverse reading (from bytes to characters) and does not use the encoder of the model."},
{"property": "C143", "status": "proved", "theorems": ["C143_nothing_is_asked_for_these", "C143_hosts_are_resolved_first", "C143_pictures_styles_and_scripts", "C143_everything_else_is_asked_for_once", "C143_every_url_has_a_last_piece_and_one_host"], "note": "slurp called directly on an object whose caches exist (learning and scoring never get there, C64); the digits are those of the regular expression, an arbitrary predicate."},
{"property": "C144", "status": "proved", "theorems": ["C144_learned_in_part_and_taken_back", "C144_scoring_raises", "C144_the_part_depends_on_the_order_of_the_set"], "note": "Messages containing the reserved word are excluded (C27); the order of the set is an arbitrary function of the words, the same for both calls."},
{"property": "C145", "status": "proved", "theorems": ["C145_rounded_logarithm_is_nearest", "C145_model_rounds_like_the_code", "C145_truncated_logarithm", "C145_model_truncates_like_the_code", "C145_truncated_logarithm_of_a_power_of_two_refuted", "C145_powers_of_two_differ_between_machines"], "note": "Counts below 2^32; math.log as in the machines of C121 (relative error at most 2^-52)."},
{"property": "C146", "status": "proved", "theorems": ["C146_same_tokens_each_time", "C146_unread_headers_do_not_matter", "C146_unlearning_after_reading_again", "C146_unlearning_after_filtering", "C146_unlearning_without_bigrams", "C146_two_texts_refuted", "C146_what_two_texts_leave"], "note": "As C105 and C111. Scores with bigrams: of generators that do not raise. What two texts leave is a theorem about one message and two orders."},
{"property": "C147", "status": "proved", "theorems": ["C147_how_a_run_ends", "C147_undisturbed_run", "C147_database_over_any_file", "C147_failed_run_leaves_an_empty_database", "C147_value_that_cannot_be_encoded", "C147_old_database_survives_refuted"], "note": "One call of write is carried out as a whole or not at all; what is in the buffer of the file counts as written (as after closing it)."}
]}

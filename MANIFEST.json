{
 "claims": [
  {
   "property": "C01",
   "status": "proved",
   "theorems": [
    "C01_append_optimized_file_is_a_plain_file"
   ],
   "note": "Writes must be non-empty (see C53)."
  },
  {
   "property": "C02",
   "status": "proved",
   "theorems": [
    "C02_appends_survive_as_a_prefix",
    "C02_synced_bytes_survive_crash",
    "C02_synced_bytes_survive_power_loss"
   ],
   "note": "Power loss for Sync; process crash for Sync or ReadAt; append-only suffix survives as a prefix."
  },
  {
   "property": "C03",
   "status": "proved",
   "theorems": [
    "C03_create_zeros",
    "C03_read_whole_file",
    "C03_word_file_is_an_array"
   ],
   "note": ""
  },
  {
   "property": "C04",
   "status": "partial",
   "theorems": [
    "C04_damage_ends_with_next_fitting_write_partial",
    "C04_oversized_write_damages_only_its_word_refuted",
    "C04_reduction_is_identity_on_fitting"
   ],
   "note": "REFUTED: after writing e.g. -1 to a 5-byte word, reads of other words return stale high bytes. Proved: the damage ends with the next write of a fitting value."
  },
  {
   "property": "C05",
   "status": "proved",
   "theorems": [
    "C05_shadowed_word_file_is_an_array"
   ],
   "note": ""
  },
  {
   "property": "C06",
   "status": "proved",
   "theorems": [
    "C06_appends_number_consecutively",
    "C06_hash_file_is_a_list"
   ],
   "note": ""
  },
  {
   "property": "C07",
   "status": "proved",
   "theorems": [
    "C07_varint_round_trip",
    "C07_varint_sequence",
    "C07_varint_strict_prefix_rejected"
   ],
   "note": ""
  },
  {
   "property": "C08",
   "status": "proved",
   "theorems": [
    "C08_array_file_round_trip",
    "C08_arrays_are_append_histories",
    "C08_eight_byte_elements_unchanged",
    "C08_fitting_elements_unchanged"
   ],
   "note": ""
  },
  {
   "property": "C09",
   "status": "proved",
   "theorems": [
    "C09_file_number_is_the_base_of_the_slot",
    "C09_folders_show_ever_more_digits",
    "C09_key_from_file_and_index",
    "C09_path_string_determines_slot",
    "C09_same_file_iff_same_slot"
   ],
   "note": ""
  },
  {
   "property": "C10",
   "status": "partial",
   "theorems": [
    "C10_first_file_folder_always_exists",
    "C10_flush_and_reads_succeed_refuted",
    "C10_folders_form_a_tree",
    "C10_no_errors_when_folders_exist_partial",
    "C10_returned_arrays_are_exact_partial"
   ],
   "note": "REFUTED: the folder of the 'older' file is never created, so after appending under 500 then 300 every flush and read fails for ever. Proved: returned arrays are always exact and nothing panics; no errors while the folders exist."
  },
  {
   "property": "C11",
   "status": "partial",
   "theorems": [
    "C11_append_returns_below_limit_partial",
    "C11_append_returns_evicting_partial",
    "C11_append_terminates_refuted",
    "C11_cached_arrays_are_exact",
    "C11_eviction_choice_is_unique",
    "C11_least_recently_used_go_first"
   ],
   "note": "Arrays exact for every history and limit: proved. Termination of append REFUTED for every cache limit (hang after `limit` appends); proved below the limit. C11_append_returns_evicting_partial says when an append that has to evict returns: when the appends since the last flush, the elements of the wanted file and those of the file used last stay below the limit together. C11_least_recently_used_go_first: files are evicted in the order of their last use."
  },
  {
   "property": "C12",
   "status": "proved",
   "theorems": [
    "C12_display_is_reversed",
    "C12_hash_text_hash",
    "C12_other_lengths_rejected",
    "C12_text_hash_text"
   ],
   "note": ""
  },
  {
   "property": "C13",
   "status": "proved",
   "theorems": [
    "C13_linear_store_is_an_index_of_first_occurrences"
   ],
   "note": ""
  },
  {
   "property": "C14",
   "status": "proved",
   "theorems": [
    "C14_chained_store_answers_like_the_list"
   ],
   "note": "For 1..7 byte entries, 2..8 collisions per chunk, chunks of at most 32 bytes, up to 62 bits of partial hash and at most 2^(8*bytes-1)-1 hashes; what happens outside this range is C15."
  },
  {
   "property": "C15",
   "status": "partial",
   "theorems": [
    "C15_accepted_parameters",
    "C15_eight_byte_entries_refuted",
    "C15_every_success_is_found_refuted",
    "C15_found_below_the_last_index_partial",
    "C15_large_chunks_panic_refuted",
    "C15_last_accepted_index_is_found_refuted",
    "C15_one_collision_per_chunk_refuted"
   ],
   "note": "REFUTED: the hash at the last accepted index is reported absent; one collision per chunk loses the colliding hash; eight byte entries accept nothing but store everything; chunks over 32 bytes panic. Positive part proved inside the range of C14."
  },
  {
   "property": "C16",
   "status": "proved",
   "theorems": [
    "C16_lookup_returns_an_index_of_the_hash"
   ],
   "note": ""
  },
  {
   "property": "C17",
   "status": "proved",
   "theorems": [
    "C17_abbreviations_are_partitioned",
    "C17_accepted_parameters",
    "C17_in_range_iff_bins_divide",
    "C17_other_even_bin_counts_refuted",
    "C17_shipped_settings_fit"
   ],
   "note": "For powers of two of bins, which all shipped settings use. An even bin count that does not divide 2^64 is accepted but leaves the last abbreviations without a bin (C17_other_even_bin_counts_refuted)."
  },
  {
   "property": "C18",
   "status": "proved",
   "theorems": [
    "C18_entry_round_trip",
    "C18_shipped_settings_store_every_hash",
    "C18_too_large_values_refused"
   ],
   "note": ""
  },
  {
   "property": "C19",
   "status": "partial",
   "theorems": [
    "C19_absent_hash_not_found",
    "C19_float_absent_hash_not_found",
    "C19_float_lookup_finds_lone_sort_numbers_partial",
    "C19_float_shared_sort_number_refuted",
    "C19_lookup_finds_lone_sort_numbers_partial",
    "C19_lookup_is_sound",
    "C19_shared_sort_number_refuted"
   ],
   "note": "REFUTED: when several hashes of a bin share a sort number the search may stop inside the run and miss an entry. Proved: never panics, never a wrong index, absent hashes not found, sort numbers held once always found, for any interpolation inside the range. Also proved with the actual double-precision interpolation formula (Flocq)."
  },
  {
   "property": "C20",
   "status": "partial",
   "theorems": [
    "C20_duplicate_kept_refuted",
    "C20_every_hash_kept_partial",
    "C20_hash_lost_refuted",
    "C20_no_hash_twice_partial",
    "C20_sorted_and_nothing_new"
   ],
   "note": "REFUTED: with two hashes sharing a sort number a duplicate can stay; with two hashes sharing the truncated part one is lost. Proved without such collisions; ordering and nothing-new always."
  },
  {
   "property": "C21",
   "status": "partial",
   "theorems": [
    "C21_bins_load_back_partial",
    "C21_padding_counted_exactly",
    "C21_stale_overflow_refuted",
    "C21_zero_entry_refuted"
   ],
   "note": "REFUTED: an all-zero last entry loads as an empty bin; stale overflow files of an earlier index are appended. Proved for bins whose last entry in the bin start is not all zero, from fresh files."
  },
  {
   "property": "C22",
   "status": "proved",
   "theorems": [
    "C22_every_schedule_ends",
    "C22_every_schedule_fills_the_bins",
    "C22_needs_room_for_one_bin",
    "C22_parallel_sort",
    "C22_passes_cover_the_bins"
   ],
   "note": "Proved for every schedule, worker count and pass range under settings whose fields hold the values (all shipped settings); a memory allowance below one bin makes the run panic."
  },
  {
   "property": "C23",
   "status": "proved",
   "theorems": [
    "C23_buffers_do_not_overlap",
    "C23_counts_are_exact",
    "C23_plan_is_a_partition",
    "C23_work_is_shared_out"
   ],
   "note": "Bins may come in any order (the sort by count is a quantified permutation); 64-bit overflow of the total count excluded."
  },
  {
   "property": "C24",
   "status": "proved",
   "theorems": [
    "C24_close_is_clean_iff_nothing_missing",
    "C24_every_item_once_in_order",
    "C24_flag_tells_whether_bloated",
    "C24_never_out_of_sequence",
    "C24_sends_up_to_the_first_missing"
   ],
   "note": ""
  },
  {
   "property": "C25",
   "status": "proved",
   "theorems": [
    "C25_awaited_item_is_past_the_gate",
    "C25_bound_is_reached",
    "C25_every_run_completes",
    "C25_parked_items_are_bounded"
   ],
   "note": "Assumes fetching and parsing a block succeeds (the code panics after three failures), threshold >= 1, threads >= 1, and a consumer that keeps receiving. The bound threshold+threads+1 is shown to be reached."
  },
  {
   "property": "C26",
   "status": "partial",
   "theorems": [
    "C26_mutual_exclusion",
    "C26_no_lost_wakeup_refuted",
    "C26_no_lost_wakeup_with_one_waiter_partial",
    "C26_returns_only_after_seeing_spare_memory"
   ],
   "note": "REFUTED for several waiters: MemoryWasFreed signals one waiter only and the woken waiter does not pass the signal on, so with two waiters one can sleep for ever although memory is spare (C26_no_lost_wakeup_refuted). Proved: mutual exclusion and return-only-after-seeing-spare-memory for any number of threads and any schedule; no lost wake-up for one waiting thread (the way the repository uses it)."
  },
  {
   "property": "C27",
   "status": "proved",
   "theorems": [
    "C27_every_presented_hash_found",
    "C27_repeated_hash_refused"
   ],
   "note": ""
  },
  {
   "property": "C28",
   "status": "proved",
   "theorems": [
    "C28_answer_agrees_on_examined_bytes",
    "C28_full_reassurance_is_exact"
   ],
   "note": ""
  },
  {
   "property": "C29",
   "status": "proved",
   "theorems": [
    "C29_leaf_reads_back",
    "C29_node_formats_answer_like_the_node"
   ],
   "note": "Guards: the configurations on offer (identifier widths 2..5, at most 64 byte hashes) and identifiers that fit their width."
  },
  {
   "property": "C30",
   "status": "proved",
   "theorems": [
    "C30_chunk_answers_like_the_tree"
   ],
   "note": "Distinct hashes whose indices fit the identifier width; what happens beyond the width is under C33."
  },
  {
   "property": "C31",
   "status": "proved",
   "theorems": [
    "C31_grouping_covers_every_slot_count",
    "C31_identifiers_are_a_numbering",
    "C31_order_of_formats"
   ],
   "note": "No node has exactly one slot (the construction never makes one; the code panics) and the level's bytes fit the byte counter."
  },
  {
   "property": "C32",
   "status": "partial",
   "theorems": [
    "C32_empty_information_file",
    "C32_every_chunk_reads_back_refuted",
    "C32_no_chunk_reads_back",
    "C32_one_chunk_reads_back_partial",
    "C32_reopened_chunks_exact"
   ],
   "note": "REFUTED from two chunks on: the reader keeps overwriting chunk 0, so only the last chunk survives and the rest are empty (proved exactly). One chunk reads back."
  },
  {
   "property": "C33",
   "status": "partial",
   "theorems": [
    "C33_below_the_first_refused",
    "C33_chunk_conversions",
    "C33_chunk_identifiers_come_back",
    "C33_conversions_are_inverse",
    "C33_identifiers_come_back",
    "C33_no_two_indices_alias",
    "C33_range_check",
    "C33_storage_roundtrip",
    "C33_tree_identifiers_agree",
    "C33_unchecked_storage_partial",
    "C33_unchecked_storage_refuted"
   ],
   "note": "Proved for weddingcakeback: conversions inverse, no aliasing, N-byte storage round-trips or refuses. REFUTED for weddingcake's storage: it cuts identifiers off silently (65536 in two bytes reads as no match)."
  },
  {
   "property": "C34",
   "status": "partial",
   "theorems": [
    "C34_answers_are_right_partial",
    "C34_baked_after_reopening_partial",
    "C34_before_first_bake_partial",
    "C34_every_index_answered_refuted",
    "C34_first_tier_partial",
    "C34_unbaked_after_bake_crashes"
   ],
   "note": "REFUTED: once a bake has happened, asking for the hash at an index still in the top tier crashes (the tier's offset is passed with the wrong sign); with the code's sizes, 65536 distinct hashes suffice. Proved: an answer is never a wrong hash (any number of bakes and reopenings); every index before the first bake; every baked index after reopening, and without reopening while the first tier has room."
  },
  {
   "property": "C35",
   "status": "partial",
   "theorems": [
    "C35_before_first_bake_last_index",
    "C35_distinct_hashes_partial",
    "C35_distinct_hashes_refuted",
    "C35_repeated_hash_refuted"
   ],
   "note": "REFUTED: of a hash appended twice the later index is reported (the README promises the first); and even for distinct hashes a hash of the second batch is reported at an index of the first when at most 29 reassurance bytes are kept. Proved for distinct hashes while the first tier has room with 32 reassurance bytes, or for hashes in the first batch or in the top tier; before the first bake the last index is reported and -1 for unknown hashes. Lookups in tiers below the first are a parameter of the model."
  },
  {
   "property": "C36",
   "status": "partial",
   "theorems": [
    "C36_after_reopening_partial",
    "C36_changed_later_refuted",
    "C36_other_answers_unchanged_partial",
    "C36_reused_variable_refuted"
   ],
   "note": "REFUTED: the top tier keeps the caller's slice: changing it changes what is read back, and a caller that reuses one variable for all hashes crashes at the first bake. Proved: what was appended is what is read after reopening, whatever the caller did; lookups by hash and reads of baked indices are unaffected."
  },
  {
   "property": "C37",
   "status": "partial",
   "theorems": [
    "C37_same_place_refuted",
    "C37_short_prefix_same_place_partial",
    "C37_two_byte_prefix_places"
   ],
   "note": "REFUTED for prefixes of two and more bytes: writer and reader order the prefix bytes differently. Holds for prefixes of at most one byte."
  },
  {
   "property": "C38",
   "status": "partial",
   "theorems": [
    "C38_one_tree_answers_like_the_tree_partial",
    "C38_several_trees_refuted"
   ],
   "note": "REFUTED: with two trees of different node sizes in a forest, a stored hash is not found. Holds for forests of one tree (the first tier below the top)."
  },
  {
   "property": "C39",
   "status": "partial",
   "theorems": [
    "C39_lone_hash_found_exactly_when",
    "C39_lone_hash_refuted",
    "C39_lone_hash_without_prefix_partial"
   ],
   "note": "REFUTED for tiers with a prefix: the leaf keeps the hash's first bytes while the lookup compares the bytes after the prefix. Exact condition proved; holds without prefix."
  },
  {
   "property": "C40",
   "status": "partial",
   "theorems": [
    "C40_distinct_hashes_found",
    "C40_few_hashes_lowest_number",
    "C40_lookup_never_crashes",
    "C40_lowest_number_or_unknown_partial",
    "C40_not_found_means_never_presented",
    "C40_repeated_hash_not_found_refuted",
    "C40_small_batches_fit"
   ],
   "note": "REFUTED: with 34 hashes, one of them presented twice and 32 near misses, the repeated hash is answered with -1 whichever bytes the entropies choose. Proved: distinct hashes are all found under their own number; with fewer than 34 hashes (repeats allowed) the lowest number and the duplicate mark are right; in general the answer is the lowest number or -1 with the duplicate mark; no lookup crashes; 'not found' is never said of a presented hash; up to 3855 hashes always fit. Hashes are taken to be presented with consecutive numbers."
  },
  {
   "property": "C41",
   "status": "partial",
   "theorems": [
    "C41_configuration_is_the_codes",
    "C41_deep_tree_crashes_refuted",
    "C41_distinct_hashes_found_partial",
    "C41_empty_tree_crashes_refuted",
    "C41_full_tree_answers_wrongly_refuted",
    "C41_lone_hash_lost_refuted",
    "C41_same_answers_partial",
    "C41_writing_succeeds"
   ],
   "note": "REFUTED in four cases: a single hash whose first byte is zero is lost (padding read as an entry), 34 hashes with a repeat make a level-32 node for which there is no spec (panic), a tree that uses exactly all 65536 numbers has a link that reads as a presentation index, and the empty tree cannot be written (panic). Otherwise (two hashes or a single one with non-zero first byte, one number to spare) every answer is preserved, and writing succeeds for distinct hashes or fewer than 34."
  },
  {
   "property": "C42",
   "status": "proved",
   "theorems": [
    "C42_block_is_read_back",
    "C42_transaction_is_read_back"
   ],
   "note": "For well-formed blocks whose output scripts total under 2^31 bytes; pre-segwit transactions without inputs but with outputs are ambiguous in the protocol itself and excluded (C42_guard_needed)."
  },
  {
   "property": "C43",
   "status": "proved",
   "theorems": [
    "C43_identifiers_and_sizes",
    "C43_stripped_drops_exactly_the_witness"
   ],
   "note": ""
  },
  {
   "property": "C44",
   "status": "proved",
   "theorems": [
    "C44_blocks_read_back",
    "C44_ints_read_back",
    "C44_parents_and_satoshis_read_back",
    "C44_transactions_read_back"
   ],
   "note": "For chains whose numbers fit the files (storable), hash stores faithful to the chain, distinct block hashes, and distinct transaction hashes unless the source indexes the transactions; sequential writer order (C46 covers the interleavings); package variables at most 0 at the start. The handles interface drops coinbase inputs, as documented."
  },
  {
   "property": "C45",
   "status": "partial",
   "theorems": [
    "C45_address_history_partial",
    "C45_address_history_reported_refuted"
   ],
   "note": "REFUTED: an address whose group of 100,000 address numbers contains no address paid twice has no file of additional outputs, and the reader turns that into an error, so such histories cannot be read. Proved: whenever a history is reported it is exact, and exactly when it is reported."
  },
  {
   "property": "C46",
   "status": "proved",
   "theorems": [
    "C46_schedule_does_not_matter"
   ],
   "note": ""
  },
  {
   "property": "C47",
   "status": "proved",
   "theorems": [
    "C47_median_is_the_middle_of_the_last_eleven",
    "C47_rank_determines_the_value"
   ],
   "note": "For chains shorter than 2^32 blocks."
  },
  {
   "property": "C48",
   "status": "partial",
   "theorems": [
    "C48_always_sends_n_hashes",
    "C48_last_block_is_sent_as_zeroes",
    "C48_only_existing_blocks_refuted",
    "C48_stream_is_the_prefix_partial"
   ],
   "note": "REFUTED at the end of the chain: the error of ReadFull is overwritten and the buffer always has full length, so the end of the chain is never noticed and 32 zero bytes are sent in place of the last block's hash (C48_last_block_is_sent_as_zeroes, C48_only_existing_blocks_refuted). Proved: exactly the first n hashes whenever the chain has more than n blocks, for every n; always n hashes are sent. Network errors are not modelled."
  },
  {
   "property": "C49",
   "status": "proved",
   "theorems": [
    "C49_recorded_heights",
    "C49_stale_handles_refused",
    "C49_visited_iff_linked"
   ],
   "note": "For chains shorter than 2^32 blocks (the handle is a uint32); indexer calls taken to succeed."
  },
  {
   "property": "C50",
   "status": "proved",
   "theorems": [
    "C50_address_number_is_first_output",
    "C50_hashes_in_storage_order"
   ],
   "note": ""
  },
  {
   "property": "C51",
   "status": "partial",
   "theorems": [
    "C51_float_index_answers_partial",
    "C51_index_answers_partial",
    "C51_near_hashes_lost_refuted",
    "C51_repeated_hash_reads_zeroes_refuted",
    "C51_runs_exist"
   ],
   "note": "REFUTED as stated: the position of a repeated hash reads as zeroes, and of two hashes differing only in the first 8 bytes one can be lost. Proved end to end (partition, sort, dedup, overflow, search; bins in memory or not) when hashes differ in the first 8 and last 24 bytes and the first hash is not stored as zeroes; also proved with the actual double-precision interpolation formula (Flocq)."
  },
  {
   "property": "C52",
   "status": "partial",
   "theorems": [
    "C52_read_all_on_fresh_file_partial",
    "C52_read_all_returns_the_content_refuted"
   ],
   "note": "REFUTED after an append or a second call (reads from the seek position). Proved for a freshly opened file."
  },
  {
   "property": "C53",
   "status": "partial",
   "theorems": [
    "C53_zero_length_write_is_a_no_op_refuted"
   ],
   "note": "REFUTED: a zero-length write past the end moves the recorded size, later writes land at the wrong place."
  },
  {
   "property": "C54",
   "status": "partial",
   "theorems": [
    "C54_killed_word_appends_reopen_partial",
    "C54_killed_word_appends_reopen_refuted"
   ],
   "note": "REFUTED for word sizes not dividing the 4096-byte buffer (5 and 7 are used by chainstorage). Proved for word sizes dividing the buffer."
  },
  {
   "property": "C55",
   "status": "partial",
   "theorems": [
    "C55_non_hex_text_rejected_refuted"
   ],
   "note": "REFUTED: the parser looks each pair of characters up in a table that is zero for anything but hexadecimal digits, so a malformed text silently yields a hash."
  },
  {
   "property": "C56",
   "status": "partial",
   "theorems": [
    "C56_lookup_in_a_reopened_store_refuted"
   ],
   "note": "REFUTED: after opening on existing hashes the map is empty and numbering restarts at 0, so a newly appended hash is looked up at the index of another one."
  },
  {
   "property": "C57",
   "status": "proved",
   "theorems": [],
   "note": "The floating point amount conversion is an abstract function here; C58 discharges it."
  },
  {
   "property": "C58",
   "status": "proved",
   "theorems": [
    "C58_json_amounts_are_exact",
    "C58_json_and_binary_agree_on_amounts"
   ],
   "note": "Uses the standard library's real numbers (ClassicalDedekindReals, functional extensionality, classic)."
  },
  {
   "property": "C59",
   "status": "partial",
   "theorems": [
    "C59_blocks_before_the_last_read_back_partial",
    "C59_earlier_blocks_read_back_in_full_partial",
    "C59_last_stored_block_readable_refuted",
    "C59_last_stored_transaction_readable_refuted"
   ],
   "note": "REFUTED: with a block limit the transaction count of the last stored block cannot be read, the last stored transaction cannot be read, and the latest block reported is not stored. Proved: every block before the last stored one reads back in full (as long as a stored block after it has a transaction)."
  },
  {
   "property": "C60",
   "status": "partial",
   "theorems": [
    "C60_second_chain_same_process_refuted"
   ],
   "note": "REFUTED: the package variables PrevFirstTxo/PrevTrans left by the first chain make the second one panic. With the variables reset every chain is stored properly (C44)."
  },
  {
   "property": "C61",
   "status": "partial",
   "theorems": [
    "C61_parents_in_process_refuted"
   ],
   "note": "REFUTED: the parents files are never handed to the in-process reader; after reopening the parents are right (C44_parents_and_satoshis_read_back)."
  },
  {
   "property": "C62",
   "status": "partial",
   "theorems": [
    "C62_unknown_source_rejected_refuted"
   ],
   "note": "REFUTED: an unknown source is stored as -1 and reads back as transaction 4294967295. Known sources: C44."
  },
  {
   "property": "C63",
   "status": "partial",
   "theorems": [
    "C63_idle_worker_never_finishes_refuted",
    "C63_more_workers_than_bins_refuted",
    "C63_passes_with_work_for_all_partial"
   ],
   "note": "REFUTED: a worker without bins has its channel closed twice; the pass never finishes normally and a schedule panicking is shown. Proved when every worker has a bin."
  },
  {
   "property": "C64",
   "status": "partial",
   "theorems": [
    "C64_unreadable_hash_file_refuted",
    "C64_whole_files_are_planned_partial"
   ],
   "note": "REFUTED: the error of the counting stage is overwritten; an unreadable or truncated hash file gives success with nothing indexed. Well-formed files are planned completely."
  },
  {
   "property": "C65",
   "status": "partial",
   "theorems": [
    "C65_appends_to_a_preloaded_index_partial",
    "C65_created_index_refuses_most_hashes_refuted"
   ],
   "note": "REFUTED for a freshly created index: its starts file is one bin long, so any hash outside bin 0 fails to append, after its bin number was already written. Proved for a preloaded index and any sequence of new hashes that differ in the first 8 and in the last 24 bytes."
  },
  {
   "property": "C66",
   "status": "proved",
   "theorems": [
    "C66_single_tree_exact"
   ],
   "note": ""
  },
  {
   "property": "C67",
   "status": "partial",
   "theorems": [
    "C67_deep_forest_refused",
    "C67_empty_information_file_refuted",
    "C67_every_forest_reads_back_refuted",
    "C67_forests_read_back_partial"
   ],
   "note": "REFUTED: a forest of more than ten levels cannot be reopened (file names written in decimal, read in hexadecimal), and a folder whose information file is empty makes the reader panic instead of opening as an empty tier. Forests of at most ten levels read back."
  },
  {
   "property": "C68",
   "status": "partial",
   "theorems": [
    "C68_unknown_hash_crashes_refuted",
    "C68_unknown_hash_found_refuted",
    "C68_unknown_hash_partial"
   ],
   "note": "REFUTED: with at most 29 reassurance bytes an unknown hash is reported at index 0 after one bake; with whole hashes in the leaves, any unknown hash crashes the lookup after two bakes in one session (the closed object of the old tier stays in the chain). Proved: -1 with 32 reassurance bytes right after reopening while the first tier has room, and without reopening before the second bake."
  },
  {
   "property": "C69",
   "status": "partial",
   "theorems": [
    "C69_appending_works_partial",
    "C69_indices_are_consecutive",
    "C69_repeat_in_a_batch_refuted",
    "C69_repeat_in_the_first_tier_refuted"
   ],
   "note": "REFUTED: a repeat among the 65535 hashes of a batch crashes the append that completes it, and a repeat anywhere among the first 327675 hashes crashes the append that fills the first tier at the latest; no history that contains either can succeed. Proved: appends succeed while the first tier has room for batches without repeats that differ only in their first nine bytes; indices are consecutive."
  },
  {
   "property": "C70",
   "status": "proved",
   "theorems": [
    "C70_truncated_answers_right_or_unloaded"
   ],
   "note": "Under the guards of C41 (two hashes or a lone one with non-zero first byte; a number to spare)."
  },
  {
   "property": "C71",
   "status": "proved",
   "theorems": [
    "C71_answer_depends_on_reported_bytes"
   ],
   "note": ""
  },
  {
   "property": "C72",
   "status": "partial",
   "theorems": [
    "C72_all_hashes_found_refuted",
    "C72_damaged_file_refused",
    "C72_first_index_partial",
    "C72_no_memory_refuted",
    "C72_power_of_two_divider",
    "C72_uncovered_hashes_refused"
   ],
   "note": "REFUTED: the number of bins is 2^64 divided by the divider rounded to nearest in floating point, so for some dividers (e.g. the one for 10^9 hashes used by the job) the topmost bin does not exist and a stored hash there cannot be looked up; with no memory allowed the indexer divides by zero. For every hash whose bin exists (all of them with a power-of-two divider) the answer is the first index or 'not found'; a file that is not a whole number of hashes is refused. Guards: divider >= 1664, memory for one bin."
  },
  {
   "property": "C73",
   "status": "partial",
   "theorems": [
    "C73_append_then_lookup_refuted",
    "C73_appended_hashes_not_found",
    "C73_failed_append_still_stores",
    "C73_found_after_indexing_again_partial"
   ],
   "note": "REFUTED: a hash appended after indexing is stored but lookups report it absent (the overflow folder is made in the wrong place and the bin start is never updated), and an append that reports an error has stored the hash. Indexing again finds all of them."
  },
  {
   "property": "C74",
   "status": "partial",
   "theorems": [
    "C74_passing_store_finds_its_hashes",
    "C74_self_test_partial",
    "C74_self_test_refuted"
   ],
   "note": "REFUTED: with 1 to 99 hashes the self test divides by zero although every lookup is right. With no hash or at least 100 it accepts, provided every hash's bin exists (C72)."
  },
  {
   "property": "C75",
   "status": "partial",
   "theorems": [
    "C75_create_on_posix_refuted",
    "C75_create_where_allowed",
    "C75_other_estimate_refuted",
    "C75_same_estimate_partial"
   ],
   "note": "REFUTED: making a creator with another estimate overwrites the parameters file, after which stored hashes are reported absent; CreateHashStore writes through a file opened read-only, so where the system refuses that it always reports an error. With the same estimate answers are unchanged."
  },
  {
   "property": "C76",
   "status": "partial",
   "theorems": [
    "C76_at_most_one_file_per_list",
    "C76_calls_succeed",
    "C76_draining_ends",
    "C76_nothing_lost_partial",
    "C76_overlapping_calls_refuted"
   ],
   "note": "REFUTED for overlapping calls: a hash for the same bin delegated between taking the bin's list out of memory and marking its file starts a new list that later overwrites the file. As long as calls do not overlap, for every order of delegating and extracting and every choice of lists, no call fails, draining ends, and the files are complete. The file bit array is modelled as a set."
  },
  {
   "property": "C77",
   "status": "partial",
   "theorems": [
    "C77_after_pressure_refuted",
    "C77_job_writes_everything_partial",
    "C77_job_writes_everything_refuted",
    "C77_no_pressure_writes_nothing"
   ],
   "note": "REFUTED: if memory never runs low the job ends without writing any file (proved for every list of hashes); after memory ran low, hashes are lost too if the extracting goroutine had just found nothing when the last ones were sent. If it still had something to write then, the files are complete (calls of the preloader taken not to overlap)."
  },
  {
   "property": "C78",
   "status": "proved",
   "theorems": [
    "C78_bad_bits_refused",
    "C78_bits_read_exactly"
   ],
   "note": ""
  },
  {
   "property": "C79",
   "status": "proved",
   "theorems": [
    "C79_same_as_core"
   ],
   "note": ""
  },
  {
   "property": "C80",
   "status": "partial",
   "theorems": [
    "C80_stored_difficulty_error_partial",
    "C80_stored_difficulty_partial",
    "C80_stored_difficulty_refuted",
    "C80_zero_target"
   ],
   "note": "REFUTED: bits 0x17009b48 (difficulty about 4.6e14, the size of recent ones) store ...075 although the true quotient is ...074.4858; the quotient is first rounded to 53 bits. Proved: exact for exponents 25 to 34; in general the error is at most 1/2 plus 2^-53 of the difficulty."
  },
  {
   "property": "C81",
   "status": "partial",
   "theorems": [
    "C81_answers_like_a_list_partial",
    "C81_distinct_hashes_partial",
    "C81_first_index_refuted",
    "C81_negative_index_panics"
   ],
   "note": "REFUTED: a hash appended twice is found at its last index, and a negative index panics. Proved: everything else, for every history of appends and reopens; distinct hashes are found at their index."
  },
  {
   "property": "C82",
   "status": "partial",
   "theorems": [
    "C82_failed_append_changes_answers_refuted",
    "C82_torn_file_never_appends"
   ],
   "note": "REFUTED: on a file that is not a whole number of hashes every append fails, yet counts and finds the hash until the store is closed. Proved: the file itself never changes and every later append fails too."
  },
  {
   "property": "C83",
   "status": "partial",
   "theorems": [
    "C83_empty_file_refuted",
    "C83_far_offset_refuted",
    "C83_negative_offset_panics",
    "C83_negative_offset_refuted",
    "C83_same_answers_partial",
    "C83_words_read_back_partial"
   ],
   "note": "REFUTED: an empty file cannot be mapped, a negative offset panics instead of erring, and a far offset wraps around into the file (either way of opening). Proved: identical answers for non-empty files and positions that are not negative."
  },
  {
   "property": "C84",
   "status": "partial",
   "theorems": [
    "C84_coinbases_only",
    "C84_in_ram_partial",
    "C84_opens_in_ram_refuted"
   ],
   "note": "REFUTED: a chain without stored inputs (only coinbase transactions) does not open in RAM. Proved: it opens exactly when there is a stored input and an output, and is then identical to the chain opened ordinarily."
  },
  {
   "property": "C85",
   "status": "proved",
   "theorems": [
    "C85_stored_chain_says_what_the_blocks_say"
   ],
   "note": ""
  },
  {
   "property": "C86",
   "status": "proved",
   "theorems": [
    "C86_handles_and_objects_store_the_same"
   ],
   "note": ""
  },
  {
   "property": "C87",
   "status": "partial",
   "theorems": [
    "C87_repeated_id_lost_refuted",
    "C87_repeated_ids_read_as_zeroes",
    "C87_reused_bins_are_empty",
    "C87_runs_exist",
    "C87_whole_job_partial"
   ],
   "note": "REFUTED: a transaction whose identifier occurred before (Bitcoin has two such pairs) reads back as 32 zero bytes, without any error (C87_repeated_id_lost_refuted; C87_repeated_ids_read_as_zeroes says exactly what is shown). Proved when all identifiers differ, from the bytes of the blocks through parsing, gathering, indexing (multi-pass or adaptive) under every schedule, opening and storing (C87_whole_job_partial). The adaptive variant needs one worker or a non-empty bin per worker in every pass (C88); hashes must not collide in their first 8 or last 24 bytes (C51)."
  },
  {
   "property": "C88",
   "status": "partial",
   "theorems": [
    "C88_adaptive_index_answers_partial",
    "C88_adaptive_runs_exist",
    "C88_few_hashes_never_finish_refuted",
    "C88_one_worker_answers"
   ],
   "note": "REFUTED for few hashes: with at least two more workers than hashes no adaptive run finishes (closing a closed channel panics). Proved for one worker without conditions, and for more workers when every pass has as many non-empty bins as workers; hypotheses no_collisions and first_hash_visible as in C51."
  },
  {
   "property": "C89",
   "status": "partial",
   "theorems": [
    "C89_addresses_partial",
    "C89_after_the_end_comes_the_start_refuted",
    "C89_by_hash_leads_there_partial",
    "C89_by_height_and_neighbours",
    "C89_handle_by_hash_crashes_refuted",
    "C89_outputs_by_transaction"
   ],
   "note": "REFUTED: a block or transaction handle obtained by hash does not carry its chain, so asking that handle for its hash crashes; and the handle after the invalid one is the genesis block, so a walk that does not stop at the end starts over. Proved: what such a handle leads to is right (its number is), handles by number and their neighbours, outputs and inputs named either way, sources of inputs, and addresses under every sequence of questions (counting and fetching fail where C45 says the history cannot be read; asking for output n past the end crashes)."
  },
  {
   "property": "C90",
   "status": "partial",
   "theorems": [
    "C90_index_past_the_end_reported_refuted",
    "C90_past_the_chain_is_reported_partial",
    "C90_past_the_end_is_the_neighbour"
   ],
   "note": "REFUTED: positions are not checked. A block asked for transaction n past its end hands out the next block's transactions (and position -1 the previous block's last), a transaction the next one's outputs, without any error; C90_past_the_end_is_the_neighbour says so for every chain. Proved: past the end of the whole chain, and for negative numbers, an error is reported."
  },
  {
   "property": "C91",
   "status": "partial",
   "theorems": [
    "C91_first_tier_gives_up_its_hashes_partial",
    "C91_next_tier_mixed_up_refuted",
    "C91_tiers_have_room"
   ],
   "note": "REFUTED: from the second tier on, collecting takes the children of the wrong tree (the leaves come from the place one before, or it crashes), so a third tier cannot be baked from the example forest. Proved for the first tier: whatever batches it was baked from, collecting it gives every hash once with its index."
  },
  {
   "property": "C92",
   "status": "partial",
   "theorems": [
    "C92_whole_read_after_opening_partial",
    "C92_whole_read_gives_all_words_refuted",
    "C92_whole_read_is_right_refused_or_empty_partial"
   ],
   "note": "REFUTED: after a buffered append the whole read misses the buffered word or reports an error; a second whole read on the same file reports an error; the memory mapped variant panics, and the file-with-size variant never returns. Proved: a whole read that succeeds is right (or empty for a file that was empty when opened), and it succeeds as long as nothing has moved the read position since the file was opened."
  },
  {
   "property": "C93",
   "status": "partial",
   "theorems": [
    "C93_memory_file_is_the_file_partial",
    "C93_nothing_saved_before_close",
    "C93_sync_and_growth_refuted"
   ],
   "note": "REFUTED: Sync saves nothing (C93_nothing_saved_before_close); a write just past the end is read back but lost on Close, further past it panics. Proved: for accesses inside the file every answer is the one the file gives, and after Close the disk holds everything."
  },
  {
   "property": "C94",
   "status": "proved",
   "theorems": [
    "C94_each_task_at_most_once_in_order",
    "C94_every_run_stops",
    "C94_every_task_gets_done",
    "C94_without_workers_nothing_is_taken"
   ],
   "note": "Process is assumed to return. C94_without_workers_nothing_is_taken states the boundary: a pool of zero or fewer workers is created without complaint and takes nothing."
  },
  {
   "property": "C95",
   "status": "partial",
   "theorems": [
    "C95_finished_is_an_attempt",
    "C95_other_settings_refuted",
    "C95_run_again_partial",
    "C95_runs_exist"
   ],
   "note": "REFUTED for changed settings: overflow files of the earlier settings are read as part of a bin that exactly fills its start, and an indexed hash is reported as absent (C95_other_settings_refuted). Proved for unchanged settings: any number of earlier runs, stopped anywhere. The hypotheses of C51 and C88 (no colliding hashes, visible first hash, enough work for the adaptive workers) remain."
  },
  {
   "property": "C96",
   "status": "partial",
   "theorems": [
    "C96_finished_index_passes",
    "C96_read_error_goes_unnoticed_refuted",
    "C96_silence_means_right",
    "C96_success_means_right_refuted"
   ],
   "note": "REFUTED: wrong answers are only printed, so with any repeated hash the check succeeds although the index does not give the hash back there; a read error ends the check with success. Proved: a check of the whole file that succeeds without printing means every hash is given back and found at its position, for any files; a finished index passes, and prints remarks about repeated hashes only."
  },
  {
   "property": "C97",
   "status": "proved",
   "theorems": [
    "C97_bins_as_if_fresh",
    "C97_pass_does_not_see_the_past"
   ],
   "note": ""
  },
  {
   "property": "C98",
   "status": "proved",
   "theorems": [
    "C98_every_node_counted_once",
    "C98_numbers_fit_together",
    "C98_too_deep_stops"
   ],
   "note": ""
  },
  {
   "property": "C99",
   "status": "partial",
   "theorems": [
    "C99_created_chain_opens",
    "C99_creation_can_be_repeated_refuted",
    "C99_everything_stored_to_is_made",
    "C99_existing_files_untouched",
    "C99_failed_creation_blocks_later_ones",
    "C99_half_made_chain_is_noticed_refuted",
    "C99_ints_that_can_be_asked_for",
    "C99_proper_creation_succeeds",
    "C99_success_means_exactly_the_files"
   ],
   "note": "REFUTED: an unknown integer name is noticed after the files were made, and any failure after the first file makes every later creation fail; the half-made chain opens without an error, lacking integers asked for. Proved: success means exactly the files asked for, all empty, nothing else touched; a proper creation succeeds; an existing chain is never touched; the created chain opens with the integers asked for."
  },
  {
   "property": "C100",
   "status": "partial",
   "theorems": [
    "C100_first_phase_starts_from_nothing",
    "C100_mistyped_method_blocks_later_runs",
    "C100_mistyped_method_can_be_corrected_refuted",
    "C100_phases_one_by_one",
    "C100_refused_run_leaves_files_alone_refuted",
    "C100_stored_chain_is_not_stored_again",
    "C100_wrong_years_leave_files_alone"
   ],
   "note": "REFUTED: the indexing method is looked at after the first phase removed everything and the third made its files; after a mistyped method the third phase is refused for good. Proved, whatever the phases do: one call equals three; the first phase starts from nothing; a year out of range changes nothing; storing over a stored chain is refused without a change."
  },
  {
   "property": "C101",
   "status": "partial",
   "theorems": [
    "C101_copy_shows_the_same",
    "C101_every_stored_chain_can_be_copied_refuted",
    "C101_hashes_gathered_from_stored_chain_refuted",
    "C101_repeated_transaction_stops_the_copy",
    "C101_stored_chain_gives_no_hashes"
   ],
   "note": "REFUTED: (1) the hashes of a stored chain cannot be gathered from it: its address handles do not carry the hash, and AppendHashesCri panics at the first output (C101_stored_chain_gives_no_hashes, for every stored chain with an output); (2) a stored chain in which a transaction hash occurs twice cannot be copied, because the number of the second occurrence differs from the index of its hash (C101_repeated_transaction_stops_the_copy, for all such chains). Proved: given hash stores from elsewhere, every chain without repeated transactions copies completely and the copy shows the same (C101_copy_shows_the_same)."
  },
  {
   "property": "C102",
   "status": "partial",
   "theorems": [
    "C102_blocks_with_outputs_are_refused",
    "C102_built_in_chain_can_be_stored_refuted",
    "C102_built_in_chain_is_sound",
    "C102_handles_lead_back",
    "C102_inputs_spend_the_past_refuted",
    "C102_neighbours_of_the_invalid_handle_refuted",
    "C102_new_chain_takes_no_block",
    "C102_stored_or_refused",
    "C102_walks_see_everything"
   ],
   "note": "REFUTED: the built-in chain (and any in-memory chain with an output) cannot be stored by AppendBlock: Txo.Address always errors, leaving an amount without an address; a newly made chain refuses every first block. Also refuted: inputs spend only earlier outputs; neighbours of the invalid handle are invalid. Proved: walks in both directions see everything once in order, handles lead back, the built-in chain is sound and conserves amounts."
  }
 ]
}
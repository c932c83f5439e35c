{
 "claims": [
  {
   "property": "C01",
   "status": "partial",
   "theorems": [
    "C01_get_exact_calm_partial",
    "C01_get_exact_before_wrap_partial",
    "C01_get_exact_puts_then_gets_partial",
    "C01_get_never_wrong_data_partial",
    "C01_stale_cache_refuted",
    "C01_large_page_refuted"
   ],
   "note": "exact for all calm histories, all histories before wrap-around, and puts-then-gets with any number of wraps; returned data always right without restriction; refuted in general (stale read cache, >255 records per page)"
  },
  {
   "property": "C02",
   "status": "proved",
   "theorems": [
    "C02_retained_is_newest_suffix",
    "C02_drop_only_when_full",
    "C02_var_retained_is_newest_suffix_partial"
   ],
   "note": "for puts with ascending keys, flushes and gets on a reset database, and over the lifetimes of databases with variable data (calls, stops, crashes inside puts); without record-level consistency"
  },
  {
   "property": "C03",
   "status": "partial",
   "theorems": [
    "C03_small_key_refused_partial",
    "C03_smaller_key_after_flush_refuted"
   ],
   "note": "proved on calm histories; refuted after a flush of a partly filled page"
  },
  {
   "property": "C04",
   "status": "partial",
   "theorems": [
    "C04_scan_exact_calm_partial",
    "C04_scan_exact_before_wrap_partial",
    "C04_scan_exact_after_puts_partial",
    "C04_binary_mode_refuted",
    "C04_stale_cache_refuted",
    "C04_next_var_refuted"
   ],
   "note": "exact on calm histories, before wrap-around, and after any number of puts; refuted in binary-search mode and with a stale read cache"
  },
  {
   "property": "C05",
   "status": "partial",
   "theorems": [
    "C05_bitmap_scan_exact_partial",
    "C05_int8_bitmap_scan_exact_partial",
    "C05_int16_bitmap_scan_exact_partial",
    "C05_data_scan_exact_without_bitmap_partial",
    "C05_bitmap_scan_after_reopen_partial",
    "C05_flush_breaks_index_refuted",
    "C05_int64_bitmap_refuted",
    "C05_reopen_breaks_index_refuted",
    "C05_stale_index_buffer_refuted"
   ],
   "note": "exact on calm histories without bitmap skipping, and with the bitmap index (all sound bitmap functions, int8 and int16 instantiated) when flushes are aligned with the index pages, also in databases closed and reopened any number of times at the end of an index page, while no index page replaces the one in the read buffer; refuted for the index after other flushes, after other reopenings, with a stale index read buffer, and for the int64 bitmap functions"
  },
  {
   "property": "C06",
   "status": "partial",
   "theorems": [
    "C06_reopen_serves_partial",
    "C06_flush_reopen_exact_partial",
    "C06_index_reopen_serves_partial",
    "C06_index_flush_reopen_exact_partial",
    "C06_var_reopen_partial",
    "C06_var_flush_reopen_partial",
    "C06_reopen_drops_block_refuted",
    "C06_reopen_spline_division_refuted",
    "C06_dataflash_old_pages_refuted",
    "C06_var_key_zero_refuted",
    "C06_var_reopen_drops_payload_refuted"
   ],
   "note": "reopening proved to serve all written pages in any lifetime of sessions; after a flush exact except when the write position is at an inner block boundary after wrap-around (refuted there); spline error above 1 after wrap-around refuted; with variable data: payloads recovered over lifetimes of several sessions while their pages lie within the area minus a block and two pages (payloads on the first kept page, and an area whose only page has key 0, refuted); with a bitmap index gets and scans without bitmaps proved, whatever is in the index file (bitmap scans: exact when reopened at the end of an index page, refuted otherwise, see C05); variable data also together with an index"
  },
  {
   "property": "C07",
   "status": "partial",
   "theorems": [
    "C07_crash_recovers_partial",
    "C07_storage_states_partial",
    "C07_index_crash_recovers_partial",
    "C07_index_storage_states_partial",
    "C07_var_put_crash_partial",
    "C07_crash_after_erase_refuted",
    "C07_var_flush_crash_refuted"
   ],
   "note": "every crash point of put and flush proved recoverable, in any lifetime of sessions and crashes, except between the visible erase of block 0 and the next page write (refuted); with a bitmap index also crashes between the storage operations on the index file; with variable data every crash point inside embedDBPutVar proved recoverable with whole payloads, in any lifetime, also with an index; a crash inside flush is refuted there"
  },
  {
   "property": "C08",
   "status": "partial",
   "theorems": [
    "C08_recovery_loses_one_block_partial",
    "C08_index_recovery_loses_one_block_partial",
    "C08_var_recovery_loses_one_block_partial"
   ],
   "note": "loses nothing or exactly the oldest erase block; served log proved, also with a bitmap index or variable data"
  },
  {
   "property": "C09",
   "status": "proved",
   "theorems": [
    "C09_storage_discipline_lifetime",
    "C09_index_storage_discipline_lifetime",
    "C09_storage_discipline",
    "C09_var_storage_discipline_partial"
   ],
   "note": "in every session of a lifetime, before and after recovery; also with variable data; without record-level consistency"
  },
  {
   "property": "C10",
   "status": "partial",
   "theorems": [
    "C10_find_range_contains_page_partial",
    "C10_product_overflow_refuted",
    "C10_start_page_refuted",
    "C10_build_find_range_partial"
   ],
   "note": "proved for histories whose key range times page range fits 2^63 and (error bound <= 1 or index starting at page 0); refuted outside both"
  },
  {
   "property": "C11",
   "status": "proved",
   "theorems": [
    "C11_points_bounded_and_ordered",
    "C11_build_points"
   ],
   "note": "under the same key/page range as C10"
  },
  {
   "property": "C12",
   "status": "proved",
   "theorems": [
    "C12_clean_keeps_keys_findable"
   ],
   "note": "under the same key/page range as C10"
  },
  {
   "property": "C13",
   "status": "proved",
   "theorems": [
    "C13_search_page_exact"
   ],
   "note": "all layouts, all estimates"
  },
  {
   "property": "C14",
   "status": "partial",
   "theorems": [
    "C14_modes_agree_before_wrap_partial",
    "C14_evicted_key_found_refuted"
   ],
   "note": "proved before wrap-around; refuted after it (evicted keys are still found in binary mode)"
  },
  {
   "property": "C15",
   "status": "partial",
   "theorems": [
    "C15_var_round_trip_partial",
    "C15_lookup_decides_partial",
    "C15_var_lifetime_round_trip_partial",
    "C15_var_lifetime_lookup_partial",
    "C15_stale_cache_refuted",
    "C15_buffered_lookup_breaks_get_refuted",
    "C15_many_records_refuted"
   ],
   "note": "round trip proved for all payload sizes and wrap-arounds on calm histories when the variable read cache is coherent and no read starts at a page boundary; refuted with a stale cache, with >127 records per page, and for lookups of buffered records followed by gets; over several sessions: payloads of earlier sessions come back whole after reopenings and after crashes inside puts; with record-level consistency see C19_var_*"
  },
  {
   "property": "C16",
   "status": "partial",
   "theorems": [
    "C16_overwritten_reported_partial",
    "C16_var_lifetime_reported_partial",
    "C16_empty_pages_refuted",
    "C16_destructive_erase_refuted"
   ],
   "note": "full-or-reported, reported once overwritten, delivered while intact: proved when every put carries data; refuted with empty variable pages and with destructive erase; the same over several sessions"
  },
  {
   "property": "C17",
   "status": "partial",
   "theorems": [
    "C17_stream_reads_compose_partial",
    "C17_page_end_refuted"
   ],
   "note": "proved for request sizes that do not make a read start at a page boundary; refuted there"
  },
  {
   "property": "C18",
   "status": "partial",
   "theorems": [
    "C18_no_data_no_stream_partial",
    "C18_sticky_flag_refuted"
   ],
   "note": "proved for embedDBPutVar with and without data; refuted for embedDBPut after embedDBPutVar"
  },
  {
   "property": "C19",
   "status": "partial",
   "theorems": [
    "C19_rlc_lifetime_partial",
    "C19_acknowledged_survives_partial",
    "C19_var_lifetime_partial",
    "C19_var_payload_survives_partial",
    "C19_flush_at_block_end_refuted",
    "C19_stale_read_buffer_refuted",
    "C19_var_crash_no_payload_refuted",
    "C19_var_crash_wrong_payload_refuted"
   ],
   "note": "every lifetime of puts, flushes, gets, stops and crashes (also inside recovery) proved to lose at most the operation cut off, for storage with and without destructive erase; with variable data (C19_var_*): every payload whose put returned survives every stop and every crash inside later calls and inside openings; no index or binary search; refuted when a flush completes an erase block or the read buffer is stale, and for the payload of the put that was cut off (missing, or an older one)"
  },
  {
   "property": "C20",
   "status": "partial",
   "theorems": [
    "C20_put_flush_keep_pages_partial",
    "C20_recovery_keeps_pages_partial",
    "C20_flush_at_block_end_refuted"
   ],
   "note": "no storage operation of put, flush or recovery changes a byte of a retained page, in every lifetime; refuted when a flush completes an erase block"
  },
  {
   "property": "C21",
   "status": "proved",
   "theorems": [
    "C21_compare_is_integer_comparison"
   ],
   "note": "all column widths, signed and unsigned, all six operators"
  },
  {
   "property": "C22",
   "status": "proved",
   "theorems": [
    "C22_plans_are_exact_partial",
    "C22_queries_do_not_disturb_partial",
    "C22_plans_are_inputs",
    "C22_selection_is_filter"
   ],
   "note": "every input operator known to yield a list of records, all columns and operators; whole plans over reachable tables (no bitmap scans, no binary-search mode)"
  },
  {
   "property": "C23",
   "status": "proved",
   "theorems": [
    "C23_projection_is_column_selection"
   ],
   "note": "every input operator known to yield a list of records, all column lists whose descriptors form a schema"
  },
  {
   "property": "C24",
   "status": "partial",
   "theorems": [
    "C24_join_is_merge_join",
    "C24_join_pairs",
    "C24_join_ascending",
    "C24_join_after_end_refuted"
   ],
   "note": "all pairs of ascending inputs with unsigned key columns, up to the first end report; refuted after it for inputs that are scans with bounds"
  },
  {
   "property": "C25",
   "status": "partial",
   "theorems": [
    "C25_aggregate_is_group_by",
    "C25_runs_partition",
    "C25_runs_group",
    "C25_runs_maximal",
    "C25_count_of_join_refuted",
    "C25_signed_wide_sum_refuted"
   ],
   "note": "counts, sums (modulo 2^64), minima, maxima; means as an arbitrary function of the exact sum and count; refuted for signed columns of more than 4 bytes and over joins of bounded scans"
  },
  {
   "property": "C26",
   "status": "proved",
   "theorems": [
    "C26_create_schema",
    "C26_record_size",
    "C26_column_offset",
    "C26_column_inside_buffer"
   ],
   "note": "record sizes below 65536 bytes (uint16_t in the code)"
  },
  {
   "property": "C27",
   "status": "partial",
   "theorems": [
    "C27_int8_range_never_misses",
    "C27_int16_range_never_misses",
    "C27_int64_range_misses_refuted",
    "C27_inBitmapInt16_refuted",
    "C27_updateBitmapInt16_overflow_refuted"
   ],
   "note": "int8 and int16 bitmaps proved (int16 for values below 2^31-17); the int64 builder and inBitmapInt16 are refuted"
  },
  {
   "property": "C28",
   "status": "partial",
   "theorems": [
    "C28_int32Comparator",
    "C28_int64Comparator",
    "C28_int32Comparator_large_keys_refuted",
    "C28_int32Comparator_overflow_refuted"
   ],
   "note": "proved for keys below 2^31 / 2^63; refuted above"
  },
  {
   "property": "C29",
   "status": "partial",
   "theorems": [
    "C29_init_checks_areas",
    "C29_accepted_is_usable_partial",
    "C29_usable_is_accepted_partial",
    "C29_record_size_overflow_refuted",
    "C29_no_record_fits_refuted",
    "C29_no_variable_pages_refuted"
   ],
   "note": "areas proved for all configurations, storage contents and faults; usability proved for the sizes that fit int8_t and the page (the code does not check them: four refutations); usable configurations proved accepted"
  },
  {
   "property": "C30",
   "status": "partial",
   "theorems": [
    "C30_flush_reports_failures",
    "C30_failed_flush_keeps_buffer_partial",
    "C30_rlc_put_is_on_storage",
    "C30_get_reports_failures",
    "C30_next_can_be_repeated",
    "C30_scan_can_be_continued",
    "C30_gets_on_failing_storage_partial",
    "C30_scan_on_failing_storage_partial",
    "C30_getvar_reports_failures_partial",
    "C30_stream_read_reports_failures",
    "C30_stream_read_can_be_repeated_partial",
    "C30_payloads_on_failing_storage_partial",
    "C30_put_ignores_failed_write_refuted",
    "C30_flush_retry_loses_records_refuted",
    "C30_get_after_failed_flush_refuted",
    "C30_failed_read_ends_scan_refuted",
    "C30_failed_read_admits_old_key_refuted",
    "C30_failed_read_while_opening_refuted",
    "C30_failed_stream_read_refuted",
    "C30_getvar_ignores_failed_write_refuted",
    "C30_nextvar_skips_record_refuted"
   ],
   "note": "embedDBFlush proved to report every failed operation in all states, to keep the buffered records, and to act as on sound storage otherwise; puts with record-level consistency proved to be on storage when they return 0; gets, iterator steps and scans on failing reads proved to return only correct results, to change nothing but read buffers and to be repeatable; payload lookups of stored records and stream reads on failing reads proved to deliver right bytes or to report the failure; refuted for embedDBPut without it, for a flush repeated after a failure, and for failed reads in the order check of a put, while opening, at the end of a scan and within a stream, for a failed write in the lookup of a buffered payload (another record's payload is returned), and for embedDBNextVar (the record is skipped)"
  },
  {
   "property": "C31",
   "status": "partial",
   "theorems": [
    "C31_scan_stays_in_buffers_partial",
    "C31_lifetime_defined_partial",
    "C31_index_lifetime_defined_partial",
    "C31_put_flush_get_stay_in_buffers_partial",
    "C31_var_history_defined_partial",
    "C31_var_lifetime_defined_partial",
    "C31_binary_missing_return_refuted",
    "C31_binary_wrap_cleans_null_spline_refuted",
    "C31_flush_full_index_refuted",
    "C31_bitmap_scan_without_index_refuted",
    "C31_rlc_flush_get_refuted"
   ],
   "note": "proved for put, flush, get, scans and recovery over whole lifetimes, also with a bitmap index (no flush of a full index page); refuted by several witnesses"
  },
  {
   "property": "C32",
   "status": "partial",
   "theorems": [
    "C32_reads_change_nothing",
    "C32_scan_changes_nothing",
    "C32_get_changes_nothing",
    "C32_reads_commute_partial",
    "C32_read_order_refuted"
   ],
   "note": "gets, iterator steps and stream reads proved to change nothing but read buffers in every state, configuration and fault schedule; gets and scans commute on calm histories; refuted in general (stale read cache)"
  },
  {
   "property": "C33",
   "status": "partial",
   "theorems": [
    "C33_interleaved_iterators_partial",
    "C33_exhausted_iterator_skips_refuted"
   ],
   "note": "any interleaving of puts, flushes, gets and several iterators on calm executions; refuted for an iterator that already reported the end"
  },
  {
   "property": "C34",
   "status": "partial",
   "theorems": [
    "C34_scan_terminates_partial",
    "C34_operations_terminate_partial",
    "C34_every_call_terminates_partial",
    "C34_opening_terminates",
    "C34_get_page_reads",
    "C34_next_page_reads",
    "C34_put_storage_calls",
    "C34_flush_storage_calls",
    "C34_binary_after_failed_writes_refuted"
   ],
   "note": "every call proved to end in every state and with any faults, with bounds on the storage calls, except binary search before the first overwrite, where failed writes make it loop for ever (refuted)"
  },
  {
   "property": "C35",
   "status": "partial",
   "theorems": [
    "C35_page_summaries_exact_partial",
    "C35_summary_overwrites_record_refuted"
   ],
   "note": "proved for layouts whose summary lies inside the header (data comparator must be an order); refuted for summaries without an 8-byte bitmap, which embedDBInit accepts"
  },
  {
   "property": "C36",
   "status": "partial",
   "theorems": [
    "C36_reset_is_empty",
    "C36_reset_var_lookup_is_empty",
    "C36_reset_scan_is_empty_partial",
    "C36_reset_var_scan_is_empty_partial",
    "C36_reset_scan_binary_refuted",
    "C36_reset_scan_bitmap_refuted"
   ],
   "note": "proved for gets, variable-data lookups and scans of every configuration, any previous contents and faults; refuted where starting or advancing an iterator is undefined (scans in binary-search mode, bitmap scans without index)"
  },
  {
   "property": "C37",
   "status": "partial",
   "theorems": [
    "C37_flush_neutral_for_scans_partial",
    "C37_second_flush_is_noop",
    "C37_flush_neutral_for_gets_partial",
    "C37_flush_neutral_for_payloads_partial"
   ],
   "note": "second flush is a no-op; gets, scans and payload lookups unaffected on calm histories"
  },
  {
   "property": "C38",
   "status": "partial",
   "theorems": [
    "C38_retained_pages_immutable",
    "C38_read_yields_page_partial"
   ],
   "note": "bytes never change (proved for all histories); reading through the cache yields page i on calm histories; refuted in general (C32_read_order_refuted)"
  },
  {
   "property": "C39",
   "status": "partial",
   "theorems": [
    "C39_flash_discipline",
    "C39_flash_discipline_rlc_partial",
    "C39_no_overwrite",
    "C39_no_overwrite_rlc_partial",
    "C39_lifetime_partial",
    "C39_lifetime_no_overwrite_partial",
    "C39_reopen_refuted",
    "C39_rlc_flush_refuted",
    "C39_rlc_single_page_blocks_refuted",
    "C39_failed_write_refuted"
   ],
   "note": "proved for all call sequences of a session that starts empty, for all three areas; over whole lifetimes of reopenings and crashes for the data area (no index, variable data or record-level consistency) when no session stops at an inner block boundary of a wrapped area; with record-level consistency for erase blocks of at least two pages and without embedDBFlush; refuted after reopening at an inner block boundary, with flushes or single-page blocks under record-level consistency, and after a failed write"
  },
  {
   "property": "C40",
   "status": "partial",
   "theorems": [
    "C40_desktop_failed_transfer",
    "C40_sd_failures_confined",
    "C40_sd_failed_gap",
    "C40_sd_failed_read",
    "C40_desktop_interface",
    "C40_sd_interface_partial",
    "C40_dataflash_interface",
    "C40_desktop_offset_refuted",
    "C40_desktop_seek_failure_refuted",
    "C40_mock_erase_failure_refuted",
    "C40_sd_read_behind_end_refuted",
    "C40_sd_lost_write_refuted",
    "C40_sd_size16_refuted",
    "C40_sd_large_page_refuted"
   ],
   "note": "refinement to page files proved for every call sequence without library failures: desktop and mock erase below 4 GiB, DataFlash for any contents, SD card for pages of 4 to 32767 bytes, areas within size_t and reads that do not start behind the end; refuted for larger offsets, SD reads behind the end, 16-bit size_t, pages of 32768 bytes, and for failing library calls that are not reported (desktop seeks, SD page writes); proved for failing calls: short desktop transfers are reported by 0 and stay inside the pages of the call, failing SD calls change no other page, and incomplete gap writes and failed reads on SD are reported"
  },
  {
   "property": "C41",
   "status": "partial",
   "theorems": [
    "C41_query_lifecycle",
    "C41_next_on_heap",
    "C41_init_on_heap",
    "C41_close_frees",
    "C41_free_without_close",
    "C41_recursive_free_refuted",
    "C41_init_twice_refuted",
    "C41_close_twice_refuted",
    "C41_free_instead_of_close_refuted",
    "C41_failed_schema_refuted",
    "C41_out_of_memory_refuted",
    "C41_next_after_failed_init_refuted"
   ],
   "note": "proved: the whole life of every plan over reachable databases on the heap (create, init, next to the end, close, free one by one or recursively), one next call, init and close of any represented tree at any time, recursive free without close; refuted: recursive free after close leaks operators below aggregates and in second inputs of joins, second init of a join leaks, second close of aggregates and joins follows NULL, failed schema creation leaks, failed allocations and failed init lead to leaks or NULL accesses"
  },
  {
   "property": "C42",
   "status": "partial",
   "theorems": [
    "C42_opening_any_contents",
    "C42_writing_any_contents",
    "C42_writes_any_contents",
    "C42_get_any_contents_partial",
    "C42_next_any_contents_partial",
    "C42_stream_any_contents",
    "C42_nextvar_any_contents_partial",
    "C42_rlc_opening_any_contents",
    "C42_rlc_session_any_contents",
    "C42_scan_any_contents_partial",
    "C42_getvar_any_contents_partial",
    "C42_get_any_contents_refuted",
    "C42_next_any_contents_refuted",
    "C42_equal_first_keys_refuted",
    "C42_rlc_put_refuted",
    "C42_opening_reads_refuted",
    "C42_getvar_any_contents_refuted"
   ],
   "note": "proved for all contents and faults: opening (all parameters), every sequence of puts and flushes (with record-level consistency if every page of the data file that does not look erased claims no more records than fit), stream reads; gets, iterator steps and whole scans if every stored page claims between one record and as many as fit and the spline lookup is defined, payload lookups if moreover every stored location leaves room for a length and a page holds at most 127 records, and iterating with payloads if this holds for every record slot; refuted: gets, scans and payload lookups otherwise, puts with record-level consistency otherwise, and a bound on the reads of opening"
  },
  {
   "property": "C43",
   "status": "partial",
   "theorems": [
    "C43_opening",
    "C43_programs",
    "C43_opening_any_contents",
    "C43_close_twice_refuted",
    "C43_iterator_closed_twice_refuted",
    "C43_iterator_again_refuted",
    "C43_example_scan_refuted",
    "C43_stream_not_found_refuted",
    "C43_failed_init_refuted",
    "C43_init_twice_refuted",
    "C43_no_memory_init_refuted",
    "C43_no_memory_iterator_refuted"
   ],
   "note": "proved for every program of client calls that keeps the rules of SpecResource.v, with any number of iterators and streams, closing and reopening, and failing allocations of streams; refuted for failing allocations of the spline and of query bitmaps, for a failed embedDBInit (leaks, cannot be closed), and for clients that break a rule (closing twice, reusing an unclosed iterator, freeing after a lookup that found nothing; the scan of embedDBExample.h leaks its streams)"
  },
  {
   "property": "C44",
   "status": "partial",
   "theorems": [
    "C44_nearest_is_a_rounding",
    "C44_conversion_truncates",
    "C44_estimate_in_page",
    "C44_estimate_below_page",
    "C44_getvar_older_key",
    "C44_max_error_constant",
    "C44_find_exact",
    "C44_find_off_by_one",
    "C44_histories_partial",
    "C44_reopen_full_pages_partial",
    "C44_first_page_lookup_refuted",
    "C44_short_long_double_loses_key_refuted",
    "C44_double_misses_page_refuted",
    "C44_reopen_partial_page_refuted",
    "C44_reopen_long_keys_refuted",
    "C44_binary_search_miss_refuted"
   ],
   "note": "proved: estimates inside the page, the error statistic of full pages, the learned index exact when keys times pages fit the precision of long double and at most one page off otherwise, whole histories with the learned index, reopening over full pages; undefined for every embedDBGetVar of a key older than the write buffer (proved for all histories); refuted: lookups outside the first page before it is written, a missed binary search, reopening over a partly filled page or with 8-byte keys, and a stored key lost with a 24-bit long double (53-bit with 8-byte keys)"
  },
  {
   "property": "C45",
   "status": "partial",
   "theorems": [
    "C45_buffers_separate_partial",
    "C45_buffers_represented",
    "C45_one_block_refuted",
    "C45_overrun_refuted"
   ],
   "note": "proved for every sequence of accesses to the buffers in use, given two blocks for the data buffers; the reduction of each modelled function to such a sequence is missing; refuted: embedDBInit accepts a buffer of one block, and an overrun of a page inside the array goes unnoticed"
  },
  {
   "property": "C46",
   "status": "partial",
   "theorems": [
    "C46_file_objects_partial",
    "C46_setup_without_memory_refuted",
    "C46_open_twice_refuted",
    "C46_closed_object_refuted",
    "C46_torn_down_refuted"
   ],
   "note": "proved for every program of calls that keeps the rules of SpecFileObj.v, with library calls that work except refused fopen calls; setup is assumed to get its memory (refuted otherwise: the results of malloc and calloc are not checked); refuted for clients that break a rule (opening twice leaks the handle, closing a closed file on the desktop, flushing a closed file on an SD card, use after tear-down)"
  },
  {
   "property": "C47",
   "status": "partial",
   "theorems": [
    "C47_reads_honest_partial",
    "C47_sd_reads_honest_partial",
    "C47_short_read_refuted",
    "C47_incomplete_page_refuted",
    "C47_failed_seek_refuted"
   ],
   "note": "proved for the desktop and SD interfaces and the data read buffer, for files of whole pages below 4 GiB (SD: pages below 32768 bytes, reads not behind the end) when seeks work and failing transfers have moved no byte; refuted for short reads, for an incomplete last page (no failing call needed) and for failing seeks"
  }
 ]
}
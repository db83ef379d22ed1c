{
 "claims": [
  {
   "property": "C01",
   "status": "proved",
   "theorems": [
    "C01_all_years",
    "C01_civil_round_trip",
    "C01_first_years",
    "C01_refuted_year4"
   ],
   "note": "Proved for every valid date of years -5,000,000..5,000,000 (C01_all_years) except 31 Dec of year 4, which the code really maps to 1 Jan year 5 (C01_refuted_year4)."
  },
  {
   "property": "C02",
   "status": "proved",
   "theorems": [
    "C02_all_years",
    "C02_elapsed_days",
    "C02_epoch",
    "C02_gregorian",
    "C02_refuted_year4"
   ],
   "note": "Proved for years -5,000,000..5,000,000 (C02_all_years) except across the boundary of years 4/5, where it is false (C02_refuted_year4)."
  },
  {
   "property": "C03",
   "status": "proved",
   "theorems": [
    "C03_month_carry",
    "C03_month_carry_all"
   ],
   "note": "All months; carried year -5,000,000..5,000,000."
  },
  {
   "property": "C04",
   "status": "proved",
   "theorems": [
    "C04_normalise",
    "C04_refuted_zero",
    "C04_undefined"
   ],
   "note": "All granularities dividing a day. (0,0) is \"undefined\" in this API (C04_undefined, C04_refuted_zero)."
  },
  {
   "property": "C05",
   "status": "proved",
   "theorems": [
    "C05_compose",
    "C05_refuted_zero",
    "C05_short_increment",
    "C05_zero_periods_identity"
   ],
   "note": "Exact addition and composition; the single instant (day 0, second 0) becomes \"undefined\" (C05_refuted_zero)."
  },
  {
   "property": "C06",
   "status": "proved",
   "theorems": [
    "C06_calendar_increment",
    "C06_compose"
   ],
   "note": "All four calendar intervals, all n, years 6..4,999,999."
  },
  {
   "property": "C07",
   "status": "proved",
   "theorems": [
    "C07_compare_is_order_of_instants",
    "C07_refuted_granularity0",
    "C07_refuted_zero"
   ],
   "note": "All granularities >=1 dividing a day; refuted for (0,0) and for granularity 0."
  },
  {
   "property": "C08",
   "status": "proved",
   "theorems": [
    "C08_count_calendar",
    "C08_count_short",
    "C08_refuted_yearly_offset"
   ],
   "note": "Standard starts, short and calendar intervals. For yearly non-standard starts the count is wrong (C08_refuted_yearly_offset)."
  },
  {
   "property": "C09",
   "status": "partial",
   "theorems": [
    "C09_fixed_point_calendar",
    "C09_offset_calendar",
    "C09_refuted_offset_near_end",
    "C09_refuted_week_negative",
    "C09_standard_calendar",
    "C09_standard_regular"
   ],
   "note": "Proved: end of period, fixed point, regular offsets. Missing because false: calendar offset is the distance from period start (C09_refuted_offset_near_end); weekly before 1900 (C09_refuted_week_negative)."
  },
  {
   "property": "C10",
   "status": "partial",
   "theorems": [
    "C10_day_of_week",
    "C10_refuted_negative"
   ],
   "note": "Proved for day numbers >= 0; false for negative day numbers (C10_refuted_negative)."
  },
  {
   "property": "C11",
   "status": "proved",
   "theorems": [
    "C11_civil_round_trip",
    "C11_day_round_trip",
    "C11_iso_length",
    "C11_monthly_styles",
    "C11_refuted_first_century",
    "C11_refuted_long_year",
    "C11_standard_style"
   ],
   "note": "civil dates of years 1..9999 (to 9,999,999 for named months) in 14 named and 5 numeric styles, through the caller's buffer; day numbers from year 5; month-only styles; refuted: first-century month-only text, numeric years above 9999"
  },
  {
   "property": "C12",
   "status": "proved",
   "theorems": [
    "C12_format",
    "C12_minutes",
    "C12_no_overflow",
    "C12_parse",
    "C12_refuted_milliseconds",
    "C12_refuted_unterminated",
    "C12_round_trip"
   ],
   "note": "exact text in the buffer, parse of every second of the day in styles 0-2, no overflow for any argument; refuted: five-byte buffer for hh:mm is left unterminated, style 3 milliseconds round up"
  },
  {
   "property": "C13",
   "status": "proved",
   "theorems": [
    "C13_accepts",
    "C13_enumeration",
    "C13_name_to_seconds",
    "C13_no_shadow",
    "C13_pseudo",
    "C13_refuted_ambiguous",
    "C13_refuted_unknown_rejected",
    "C13_round_trip",
    "C13_seconds_to_name",
    "C13_unknown_seconds"
   ],
   "note": "Both table versions, all operations. C13_refuted_* show what the acceptance rule implies: '1Yearling' and the empty text are accepted as one year, '1m' is one month."
  },
  {
   "property": "C14",
   "status": "proved",
   "theorems": [
    "C14_pack_unpack",
    "C14_unpack_pack",
    "C14_word_machine_independent"
   ],
   "note": "All pairs of 32-bit ints, both byte orders, and the converse."
  },
  {
   "property": "C15",
   "status": "proved",
   "theorems": [
    "C15_form",
    "C15_get",
    "C15_refuted_long_part",
    "C15_refuted_returned_length",
    "C15_refuted_uninitialised",
    "C15_round_trip",
    "C15_seven_slashes"
   ],
   "note": "All part texts and buffer sizes. Findings: returned length counts the NUL; a part over 128 characters is cut when read; a text without a second slash reads an uninitialised position (C15_refuted_*)."
  },
  {
   "property": "C16",
   "status": "partial",
   "theorems": [
    "C16_refuted_overflow",
    "C16_refuted_underread",
    "C16_set_get_partial",
    "C16_set_partial",
    "C16_too_long"
   ],
   "note": "Proved when the result and its NUL fit and the growth is at most the text before the next part. The rest is false of the code: a result of exactly the buffer size writes its NUL past the end, and a larger growth reads in front of the buffer (C16_refuted_*)."
  },
  {
   "property": "C17",
   "status": "partial",
   "theorems": [
    "C17_clean",
    "C17_idempotent",
    "C17_keeps_clean",
    "C17_no_room",
    "C17_refuted_overflow"
   ],
   "note": "Content and idempotence proved for all texts; the bounds clause is false: C17_no_room shows exactly when the NUL lands one past the buffer."
  },
  {
   "property": "C18",
   "status": "proved",
   "theorems": [
    "C18_case",
    "C18_index",
    "C18_no_overflow_short",
    "C18_no_overread",
    "C18_refuted_collection_slot",
    "C18_refuted_signed_overflow",
    "C18_refuted_size_one"
   ],
   "note": "All pathnames, all table sizes >= 2. Findings: size one divides by zero; the pathname hash overflows a signed long long from 13 characters on (wraps on every supported compiler); collection members do not share a slot (C18_refuted_*)."
  },
  {
   "property": "C19",
   "status": "proved",
   "theorems": [
    "C19_repeat_compression_conversion",
    "C19_repeat_compression_lossless"
   ],
   "note": "All arrays, element sizes 1 and 2 words, all sub-ranges, and conversion float/double."
  },
  {
   "property": "C20",
   "status": "partial",
   "theorems": [
    "C20_header_strings",
    "C20_refuted_dropped",
    "C20_refuted_read_overrun",
    "C20_refuted_write_overrun"
   ],
   "note": "Proved for all strings that take at most 200 bytes together (each blank filled to a multiple of 8), for ordinary and profile series: read back without leading/trailing blanks. The full property is false: refuted witnesses for 201-297 bytes (reader over-reads its 200-byte array), 298+ (strings silently dropped) and long profile depth units (stack overflow in the writer)."
  },
  {
   "property": "C21",
   "status": "partial",
   "theorems": [
    "C21_ascending_writes_partial",
    "C21_reads",
    "C21_refuted_gap",
    "C21_refuted_lost_write",
    "C21_refuted_odd_size",
    "C21_refuted_stale_read"
   ],
   "note": "Proved for all buffer sizes (even) and all mixtures of buffered writes, flushes, fill writes and reads in which every write starts at or after the end of the one before (how records are written), and for all sequences of loads and reads. The full property is false: refuted witnesses for gaps inside the buffer, a large write over buffered words (stale read, lost write) and odd buffer sizes (overrun). I/O errors not modelled."
  },
  {
   "property": "C22",
   "status": "partial",
   "theorems": [
    "C22_always_answers",
    "C22_history_partial",
    "C22_never_written_partial",
    "C22_others_unchanged_partial",
    "C22_read_last_write_partial",
    "C22_refused_write_changes_nothing",
    "C22_refuted_new_record_xMIN",
    "C22_refuted_odd_header_rewrite"
   ],
   "note": "Every history of writes/reads/deletes/undeletes/renames/catalogues/reopens refines the map (C22_history_partial and its readable corollaries), for every hash-table size, bin size and bins per block. Restrictions, each needed because the code is wrong outside (see *_refuted_*): a record is not rewritten with more odd-length headers than it has; no xMIN E part; deleted names not longer than created names (W); undelete only of names not in use. Sections above 10,000,000 ints can be written but not read (zput/zget limits)."
  },
  {
   "property": "C23",
   "status": "partial",
   "theorems": [
    "C23_in_place_stays_inside_partial",
    "C23_refuted_inplace_overflow"
   ],
   "note": "Proved for any number of rewrites with at most as many odd-length headers as at creation; otherwise false: C23_refuted_inplace_overflow loses another record with default file sizes."
  },
  {
   "property": "C24",
   "status": "partial",
   "theorems": [
    "C24_delete_partial",
    "C24_refuted_undelete_of_live_name",
    "C24_undelete_partial",
    "C24_undelete_restores"
   ],
   "note": "Delete proved; undelete restores exactly when only reads/catalogues/reopens lie between (C24_undelete_restores), and in general brings back a content deleted under that name. Undelete of a name in use is wrong in the code (C24_refuted_...)."
  },
  {
   "property": "C25",
   "status": "partial",
   "theorems": [
    "C25_refuted_missing_source_deletes_target",
    "C25_refuted_new_name_completed",
    "C25_rename_partial"
   ],
   "note": "Rename proved for all histories (onto a free or an existing name), for new names with seven slashes. The last clause is false in the code: renaming a missing record removes the record under the new name (C25_refuted_missing_source_deletes_target); and a new name without seven slashes is completed, so it is not the name asked for (C25_refuted_new_name_completed). Time-series records, whose D and E parts zrename substitutes, and renames that only change letter case are not modelled."
  },
  {
   "property": "C26",
   "status": "partial",
   "theorems": [
    "C26_always_answers_partial",
    "C26_contents_kept_partial",
    "C26_in_file_partial",
    "C26_moved_record_refuted",
    "C26_no_overlap_partial",
    "C26_own_area_refuted",
    "C26_released_too_much"
   ],
   "note": "Proved for every sequence of allocations, releases and writes with space reclamation on (any number of table segments, splitting, full tables): spaces in use never overlap, lie in the file, keep their contents, and every request is answered, provided callers release exactly what they hold. Refuted: zwriteExisting releases more than a record has (mixed units), so that space is handed out twice; after a failed search the allocator writes its table at the beginning of the file. Missing: the engine's own callers of release are wrong, so the property fails for the whole library when reclamation is on (it is off by default)."
  },
  {
   "property": "C27",
   "status": "partial",
   "theorems": [
    "C27_new_record_keeps_others_partial",
    "C27_refuted_orphaned_bin"
   ],
   "note": "Proved when no deleted name is longer (in words) than a new one; false otherwise: C27_refuted_orphaned_bin."
  },
  {
   "property": "C28",
   "status": "partial",
   "theorems": [
    "C28_added_alias_reads_partial",
    "C28_delete_all_names_partial",
    "C28_history_partial",
    "C28_list_partial",
    "C28_read_any_name_partial",
    "C28_refuted_rename_alias",
    "C28_refuted_rename_longer",
    "C28_refuted_rename_moved",
    "C28_refuted_rename_onto_alias",
    "C28_refuted_stale_status",
    "C28_remove_all_aliases_partial",
    "C28_remove_one_alias_partial",
    "C28_write_shared_partial"
   ],
   "note": "Proved for every history of write, read, delete, alias add/remove/remove-all/number/list, get-primary, zcheck and reopen on a new file (block-level model of the directory, any bin size and hash table), where no deleted primary name is longer in words than a new name (the defect of C27): a record is read, written and deleted by any of its names; removing one alias removes that name only; removing all leaves the record; number and list agree. The specification records one defect (a stale status word makes calls on missing names fail after a look-up of an alias: C28_refuted_stale_status). With zrename the property is false (four C28_refuted_rename_* witnesses). Not modelled: undelete, space reuse on reclaim, multi-user locking, time-series aliases."
  },
  {
   "property": "C29",
   "status": "partial",
   "theorems": [
    "C29_crash_partial"
   ],
   "note": "Proved for every operation of the API (not only write) and every crash point between disk writes: all other records read back unchanged; same request restrictions as C22. A torn disk write is not modelled."
  },
  {
   "property": "C30",
   "status": "partial",
   "theorems": [
    "C30_advisory_section_refuted",
    "C30_error_path_loses_update_refuted",
    "C30_locked_means_owner",
    "C30_locked_sees_all",
    "C30_nested_section_refuted",
    "C30_no_lost_update",
    "C30_same_process_refuted",
    "C30_writers_exclude"
   ],
   "note": "Proved for every interleaving of any number of handles of different processes: a handle about to write holds the lock (any calls); if every section flushes, the header in the file contains every change whenever the lock is free, and a locked handle sees every change. Refuted where the code fails: error path unlocking without flush, two handles in one process, nested sections of the same level, advisory mode's second section. Missing: old lock layout (zlockingOld.c), access modes without OS locks."
  },
  {
   "property": "C31",
   "status": "partial",
   "theorems": [
    "C31_merge",
    "C31_refuted_replace_drops_tail",
    "C31_refuted_replace_overread",
    "C31_replace_exact",
    "C31_replace_partial"
   ],
   "note": "Merge mode fully proved. Replace mode: exact result proved for all inputs (C31_replace_exact); it is the intended one only if at least as many old entries are replaced as are kept before them (C31_replace_partial) - otherwise later stored values are lost: C31_refuted_replace_drops_tail. Text notes not modelled."
  },
  {
   "property": "C32",
   "status": "partial",
   "theorems": [
    "C32_flag2_always_writes",
    "C32_flag3_removes_all_missing",
    "C32_refuted_quality_dropped",
    "C32_refuted_spanning_missing",
    "C32_store_flags",
    "C32_store_spanning"
   ],
   "note": "Proved for all flags, windows, old blocks and quality arrays when the old record is read, and for windows spanning the block. False when a spanning window holds only missing values (C32_refuted_spanning_missing); quality of untouched values is dropped when the new data have none (C32_refuted_quality_dropped). Text notes and profiles are not modelled."
  },
  {
   "property": "C33",
   "status": "proved",
   "theorems": [
    "C33_back_and_forth",
    "C33_block_start",
    "C33_partition",
    "C33_reach",
    "C33_refuted_before_year_0",
    "C33_regular_block",
    "C33_step_and_back"
   ],
   "note": "block starts (regular and irregular), exact partition into days/months/years/decades/centuries, stepping forward/back any number of blocks, in years 200..4,999,899; refuted before year 0"
  },
  {
   "property": "C34",
   "status": "partial",
   "theorems": [
    "C34_encode_roundtrip",
    "C34_raise_roundtrip",
    "C34_refuted_update_hides_error",
    "C34_update_keeps_error_partial",
    "C34_update_keeps_success"
   ],
   "note": "Round trip of raised codes proved for every severity/function/error/status. The propagation part is false in the code: C34_refuted_update_hides_error (for every caller, an INVALID_ARGUMENT error is no longer recognised after zerrorUpdate); C34_update_keeps_error_partial is what holds."
  },
  {
   "property": "C35",
   "status": "partial",
   "theorems": [
    "C35_nothing_to_undelete_partial",
    "C35_one_of_the_names_partial",
    "C35_refuted_cannot_squeeze",
    "C35_refuted_crash_by_rename",
    "C35_refuted_crash_in_place",
    "C35_refuted_phantom_record",
    "C35_refuted_short_name",
    "C35_squeeze_reads_same_partial",
    "C35_squeezed_history_partial"
   ],
   "note": "zsqueeze/zcopyFile (DSS 7) on the word-level file model: for every covered history of proper pathnames in which nothing but record headers looks like a header, the squeezed file answers every read as before, has nothing to undelete, and every later history conforms to the map. Missing: aliases, location records, rewritten unit strings; refuted: header look-alikes in data create phantom records or make squeeze fail, names without seven slashes change, a crash during replacement loses the file name."
  },
  {
   "property": "C36",
   "status": "partial",
   "theorems": [
    "C36_catalogue_partial",
    "C36_refuted_duplicate_after_undelete"
   ],
   "note": "Catalogue = live records, each once, and its length is the record count of the header; names without trailing blanks; same request restrictions as C22 (C36_refuted_... otherwise)."
  },
  {
   "property": "C37",
   "status": "proved",
   "theorems": [
    "C37_refuted_bigendian_overrun",
    "C37_swap_involution",
    "C37_switch_defined",
    "C37_switch_involution",
    "C37_text_portable",
    "C37_times_doubles_roundtrip"
   ],
   "note": "Involutions, odd-length bounds, time+double arrays, and portable text through disk on either byte order; C37_refuted_bigendian_overrun for buffer sizes not a multiple of 8."
  },
  {
   "property": "C38",
   "status": "partial",
   "theorems": [
    "C38_copy_lines",
    "C38_copy_no_source",
    "C38_other_type_refused",
    "C38_pack",
    "C38_refuted_unterminated",
    "C38_table_size",
    "C38_text_record_partial",
    "C38_text_refused",
    "C38_text_request",
    "C38_unpack"
   ],
   "note": "Table packing/unpacking, sizes, line copying and text records (store request and retrieve answer) are proved for all tables; the end-to-end theorem is _partial because it inherits the restrictions of C22. Refuted: copyLines reads one byte past a source that does not end with a NUL."
  },
  {
   "property": "C39",
   "status": "partial",
   "theorems": [
    "C39_compare",
    "C39_compare_plain",
    "C39_not_recognised_partial",
    "C39_recognised",
    "C39_refuted_compare_marker",
    "C39_refuted_compare_other",
    "C39_refuted_eight_digits",
    "C39_refuted_minimal",
    "C39_refuted_other_part",
    "C39_refuted_seven_digits",
    "C39_refuted_short",
    "C39_set_sequence_partial"
   ],
   "note": "Recognition exact for pathnames of >= 12 characters in which no earlier part starts with C:; comparison ignores exactly the sequence; setting the sequence changes only the F part for n <= 999999. Refuted otherwise: shorter pathnames, an earlier part starting with C:, compare accepts a second pathname that is not a collection and markers other than C:, 7-digit sequence overruns the buffer, 8-digit one is ignored."
  },
  {
   "property": "C40",
   "status": "proved",
   "theorems": [
    "C40_idempotent",
    "C40_normal_form",
    "C40_order_irrelevant",
    "C40_refuted_day_zero",
    "C40_rejects",
    "C40_tags_kept",
    "C40_untagged_kept"
   ],
   "note": "Normalising any F part whose pieces are valid succeeds with the normal form (canonical order CNTRV, each tag once, values and untagged text kept); every other text is refused with an error code and no text; idempotent; tag order irrelevant. Day 00 in a time tag is accepted (refutation theorem)."
  },
  {
   "property": "C41",
   "status": "proved",
   "theorems": [
    "C41_window_read"
   ],
   "note": "All arrays, spans, windows and element sizes."
  },
  {
   "property": "C42",
   "status": "partial",
   "theorems": [
    "C42_logical_number_partial",
    "C42_refuted_dense_decade"
   ],
   "note": "Proved for blocks below 370 days and for longer blocks unless there are more values than minutes; false otherwise (C42_refuted_dense_decade)."
  },
  {
   "property": "C43",
   "status": "partial",
   "theorems": [
    "C43_array_record_partial",
    "C43_array_request",
    "C43_other_type_refused"
   ],
   "note": "Request/answer round trip proved for all arrays; the end-to-end theorem inherits the restrictions of C22."
  },
  {
   "property": "C44",
   "status": "partial",
   "theorems": [
    "C44_in_window_partial",
    "C44_refuted_start_truncated"
   ],
   "note": "Proved for windows given in whole units of the block granularity (dividing a day); refuted otherwise: a window start inside a unit is rounded down, so an earlier time is selected."
  },
  {
   "property": "C45",
   "status": "partial",
   "theorems": [
    "C45_instant_round_trip",
    "C45_refuted_default_unit",
    "C45_refuted_long_unit"
   ],
   "note": "Proved for units of one second or whole minutes dividing the day, years 5 to 4,999,999, buffers of 28 and 9 bytes or more. Refuted: granularity below 1 (time text always 0000) and units longer than a day (division by zero)."
  },
  {
   "property": "C46",
   "status": "partial",
   "theorems": [
    "C46_history_calendar",
    "C46_history_short",
    "C46_refuted_day_zero",
    "C46_refuted_gap",
    "C46_refuted_week"
   ],
   "note": "C46_history_short: every interval of at most a day that divides the day, times of years 312 to about 1,995,000, any time within the first period; C46_history_calendar: thirds of a month, half months, months and years, years 310 to 3,999,900, stores starting at the end of a period (reads by start and end: any time). Values up to which of two missing values; quality when every store gives it. False, and refuted, for weekly data (first two weeks of a decade share a slot), for a window given by start and end inside day 0, and for flag 0 with a whole block of missing data inside the window. Missing: times arrays, base dates, 'retrieve all', offsets of calendar series, quality when some stores give none"
  },
  {
   "property": "C47",
   "status": "partial",
   "theorems": [
    "C47_collection",
    "C47_refuted_long",
    "C47_refuted_not_a_pathname",
    "C47_refuted_short",
    "C47_refuted_two_stars",
    "C47_refuted_type",
    "C47_select_partial"
   ],
   "note": "proved for every history when each name in it either is no longer readable or has six parts of at most 128 characters that the code compares soundly (part_safe); collection patterns proved for the comparison. Refuted: *text against a part shorter than text reads before the array (UB), ** does not match an empty part, parts are cut at 128 characters, a malformed pattern lists everything, the record-type selection has no effect."
  },
  {
   "property": "C48",
   "status": "partial",
   "theorems": [
    "C48_century_seconds_refuted",
    "C48_day_zero_refuted",
    "C48_decade_seconds_refuted",
    "C48_granularity_refuted",
    "C48_history_partial",
    "C48_mixed_granularity_refuted",
    "C48_order_partial",
    "C48_replace_append_refuted",
    "C48_replace_tail_refuted",
    "C48_same_time_refuted"
   ],
   "note": "Proved for all histories and windows under explicit conditions (one granularity; no seconds in decade and century blocks; replace flag only where C31 holds; times within 32 bits; years about 340-4364).  Not covered: notes, profiles, quality sizes, retrieve flags 1-3.  What the conditions exclude is refuted by witnesses: mixed granularities lose seconds, decade blocks with dense seconds lose values on a later store, century blocks with seconds overflow, replace reads past its arrays or drops the last value, equal times are kept twice, day 0, other granularities."
  },
  {
   "property": "C49",
   "status": "partial",
   "theorems": [
    "C49_first_label_refuted",
    "C49_history_partial",
    "C49_longer_label_refuted",
    "C49_part_partial",
    "C49_part_taken_for_whole_refuted",
    "C49_rows_lose_labels_refuted",
    "C49_rows_past_the_end_refuted",
    "C49_store_past_the_end_refuted",
    "C49_two_labels_refuted"
   ],
   "note": "Proved for covered requests; stores of several labels at once, labels longer than the room set aside, labels into a record without labels, rows past the end, and parts whose struct counts equal the part are refuted. Units, vertical datum, user header and the file layer are not in this model."
  },
  {
   "property": "C50",
   "status": "partial",
   "theorems": [
    "C50_nothing_partial",
    "C50_refuted_base_date",
    "C50_refuted_missing_profiles",
    "C50_trim_calendar_partial",
    "C50_trim_partial",
    "C50_whole_partial"
   ],
   "note": "Intervals dividing a day, a week, and calendar intervals without offset and base date; refuted: profiles that are all missing (ztsTrim.c:242-261 reads before the values) and calendar intervals with a base date (ztsTrimAdjustTimeWindow.c:56). Irregular series are not trimmed by ztsRetrieve. Memory errors are not modelled."
  },
  {
   "property": "C51",
   "status": "partial",
   "theorems": [
    "C51_array_partial",
    "C51_array_request",
    "C51_catalog",
    "C51_copy_plain",
    "C51_copy_prefix",
    "C51_pd_partial",
    "C51_refuted_blank_removal",
    "C51_refuted_no_nul",
    "C51_refuted_no_quality",
    "C51_refuted_quality_dropped",
    "C51_refuted_trailing_blanks",
    "C51_refuted_utf8",
    "C51_text_partial",
    "C51_text_request",
    "C51_ts_partial"
   ],
   "note": "Catalogue: proved for any catalogue. Texts: plain ASCII text not ending in a blank; refuted for other text: trailing blanks and UTF-8 make the library read past its own copy. Arrays and tables: proved for the histories of C22 and the tables of C49. Series: those of C50, one quality word; refuted: quality of a series without quality is a null pointer read; quality given to hec_dss_tsStoreRegular is not stored. Missing: units, types, time zone names, grids, locations, opening files."
  },
  {
   "property": "C52",
   "status": "partial",
   "theorems": [
    "C52_interface_partial",
    "C52_kept",
    "C52_location_partial",
    "C52_name",
    "C52_nothing",
    "C52_refuted_long_zone",
    "C52_refuted_time_zone",
    "C52_separate"
   ],
   "note": "Proved for every site, all numbers and any supplemental text, for the histories of C22. Time zone names: proved when the length is at most 72 and not a multiple of 4; refuted otherwise (America/New_York runs on past its end; longer names are dropped silently). Interface: plain texts as in C51. Missing: the bounding box kept in memory, version 6."
  },
  {
   "property": "C53",
   "status": "partial",
   "theorems": [
    "C53_distinct",
    "C53_encode",
    "C53_refuted_invalid",
    "C53_refuted_length",
    "C53_refuted_short",
    "C53_round_trip_partial"
   ],
   "note": "Encoding: proved for all bytes. Decoding: proved for four bytes or more; refuted: the text of one to three bytes is refused, the length given back is that of the text, text that is not base 64 is accepted."
  },
  {
   "property": "C54",
   "status": "partial",
   "theorems": [
    "C54_absent",
    "C54_assign_first",
    "C54_assign_new",
    "C54_assign_old",
    "C54_get",
    "C54_get_any_case",
    "C54_get_last",
    "C54_get_last_any_case",
    "C54_header",
    "C54_kept",
    "C54_refuted_empty",
    "C54_refuted_key",
    "C54_refuted_no_room",
    "C54_refuted_note",
    "C54_remove",
    "C54_set_new",
    "C54_set_old"
   ],
   "note": "Proved for entries with a value, ended by the delimiter, when the key and its separator occur in no earlier entry. Refuted otherwise: the value of myunit is found for unit; an empty value takes the next entry with it; a call that fails for want of room spoils the text; a supplemental text without a final delimiter makes ztsStore read past its end. Missing: the vertical datum information itself (gzip, XML, offsets)."
  },
  {
   "property": "C55",
   "status": "partial",
   "theorems": [
    "C55_complete_partial",
    "C55_dates_partial",
    "C55_order_partial",
    "C55_refuted_complete",
    "C55_refuted_dates",
    "C55_refuted_grids",
    "C55_refuted_mixed_intervals",
    "C55_sort"
   ],
   "note": "C55_refuted_grids: the grids of a day do not come in the order of their times. C55_sort is complete (all file sizes). C55_complete_partial: every record once, when the longest parts add up to at most 380 characters, no part has a new-line and the dates do not overflow; false beyond that (C55_refuted_complete). C55_order_partial: names in column order without series and grids, parts within their columns. C55_dates_partial: blocks of one series by date when F is 10 and E 12 characters or more; false otherwise (C55_refuted_dates, C55_refuted_mixed_intervals). Not modelled: the list kept in the file by an earlier sort, failing temporary files."
  },
  {
   "property": "C56",
   "status": "partial",
   "theorems": [
    "C56_decompressed",
    "C56_interface_partial",
    "C56_not_a_grid",
    "C56_precompressed_partial",
    "C56_record_partial",
    "C56_refused",
    "C56_refused_storage",
    "C56_refuted_blank",
    "C56_refuted_unreadable",
    "C56_refuted_utf8",
    "C56_refuted_version",
    "C56_request_partial",
    "C56_struct_version"
   ],
   "note": "Proved: store then retrieve gives back numbers, texts, statistics, ranges and cells (plain, zlib, precompressed; hec_dss calls), refusals write nothing. False in full, refuted with witnesses: version never read back; a trailing blank or a non-ASCII byte in one text shifts all later texts; types and struct versions that cannot be read are accepted. zlib itself is not modelled: hypothesis lossless."
  },
  {
   "property": "C57",
   "status": "partial",
   "theorems": [
    "C57_copy_done_partial",
    "C57_copy_partial",
    "C57_duplicate_missing_partial",
    "C57_duplicate_partial",
    "C57_duplicate_refused_partial",
    "C57_file_partial",
    "C57_file_refused_partial",
    "C57_reached_partial",
    "C57_refuted_duplicate_time",
    "C57_refuted_file_stops",
    "C57_refuted_other_block",
    "C57_refuted_out_of_range",
    "C57_same_block_partial"
   ],
   "note": "Proved: every file that calls, duplicates, copies between files, file copies and squeezes lead to behaves as a map and conforms for every later history (C57_reached); duplicating, copying as-is and copying files change exactly the new name(s), also over existing records; other kinds refused, missing names nothing. Missing: names/units as in C35, fewer odd headers than the record overwritten (C23), the location record copied along, aliases, ELEV names and series whose names differ (they go through retrieve and store: Elsewhere). False in full: C57_refuted_out_of_range, _other_block (offsets of the two names swapped), _file_stops, _duplicate_time."
  },
  {
   "property": "C58",
   "status": "partial",
   "theorems": [
    "C58_changed_partial",
    "C58_crc_partial",
    "C58_refuted_new",
    "C58_refuted_overflow",
    "C58_refuted_refused_write",
    "C58_refuted_renamed",
    "C58_refuted_same_millisecond",
    "C58_refuted_undeleted",
    "C58_since_partial"
   ],
   "note": "Proved: for any history, then any reads, writes, deletes, catalogues and reopenings, the answer has each readable record at most once, and exactly those last written (also by a refused rewrite) after the start or, if not written since, in the answer before (C58_since_partial); for whole such histories exactly the readable records last written after the start (C58_changed_partial); with CRC values exactly the records whose hash the first catalogue has with another CRC, without overflow if its hashes differ (C58_crc_partial). False in full: a write in the millisecond of the start is missed, a refused write is reported, a renamed or undeleted record is not, and the CRC comparison omits new records and overflows its array for equal hashes (the _refuted theorems). Not covered: the start time is an argument (the header word is not modelled), patterns and collections in this theorem, names that end with a blank."
  },
  {
   "property": "C59",
   "status": "partial",
   "theorems": [
    "C59_first_partial",
    "C59_last_note_partial",
    "C59_last_partial",
    "C59_refuted_before_the_first",
    "C59_refuted_double_note",
    "C59_refuted_float_note"
   ],
   "note": "Proved for floats and doubles: the first time is exact, all missing is answered exactly when nothing is there, the last time is a time of the block (or -1) and no time after it holds a value, quality or number note (C59_first_partial); the last time is exact when it holds more than a text (C59_last_partial), for doubles also when it holds only a text and the time before it holds no data (C59_last_note_partial). False in full, proved for every such block: a last time that holds only a text is missed by one for floats (C59_refuted_float_note) and for doubles if data stands before it (C59_refuted_double_note); -1 if it is the very first (C59_refuted_before_the_first). Text notes are assumed to be one ended text for each time; which values are missing is a parameter."
  },
  {
   "property": "C60",
   "status": "partial",
   "theorems": [
    "C60_never_overruns",
    "C60_paired_strings_partial",
    "C60_refuted_garbage",
    "C60_refuted_read_overrun"
   ],
   "note": "proved for strings that take at most 397 bytes together; storing never overruns for any strings; refuted beyond: the strings are dropped silently and uninitialised memory is read back as units, or the reader overruns"
  },
  {
   "property": "C61",
   "status": "partial",
   "theorems": [
    "C61_completed_partial",
    "C61_distinct_partial",
    "C61_fits",
    "C61_quotes_partial",
    "C61_refuted_bare",
    "C61_refuted_empty",
    "C61_refuted_long",
    "C61_same_file_partial"
   ],
   "note": "proved for names of 1 to 1019 characters (four-character names without the quotes claim); refuted for the empty name, the name .dss, and longer names, which are cut without a report; realpath/stat/access not modelled"
  },
  {
   "property": "C62",
   "status": "partial",
   "theorems": [
    "C62_grid_time_partial",
    "C62_no_colon",
    "C62_refuted_followed",
    "C62_refuted_no_such_time"
   ],
   "note": "every date and time in the styles is decoded; a text without a colon never is; refuted: 01JAN2000:9999 is accepted, and text after the time changes it, as in the sorted catalogue"
  },
  {
   "property": "C63",
   "status": "partial",
   "theorems": [
    "C63_in_place_partial",
    "C63_refuted_in_place",
    "C63_two_arrays"
   ],
   "note": "separate arrays: complete; in place: complete for shorter entries and one-word entries, refuted for longer entries made of two words or more; 32-bit overflow of positions not modelled"
  },
  {
   "property": "C64",
   "status": "partial",
   "theorems": [
    "C64_grouped_partial",
    "C64_refuted_cut",
    "C64_refuted_least",
    "C64_refuted_overrun"
   ],
   "note": "proved: for every number but the least long long there is one text, grouped and reading back as the number, and every buffer with room for it gets it and its length. Refuted: a buffer too small for the digits gets the first digits with no -1; a negative number whose digits just fit is written one byte past the buffer; the least long long overflows"
  },
  {
   "property": "C65",
   "status": "partial",
   "theorems": [
    "C65_fresh",
    "C65_passes_partial",
    "C65_refuses_partial",
    "C65_refuted_closed",
    "C65_refuted_size",
    "C65_refuted_version6",
    "C65_use"
   ],
   "note": "proved: blocks as obtained are guarded and stay so under any write of their data words; with the sizes of the blocks right, the check passes exactly for a sound table, changing nothing, and otherwise gives an error and sets the file to read only. Refuted: a written-over size makes the check read outside of the block; a closed table is called corrupt by the second check; a version 6 table is called corrupt and its word 6 overwritten"
  }
 ]
}
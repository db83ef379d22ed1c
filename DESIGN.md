# Formal model of hec-dss in Rocq (Coq 8.16.1)

## 1. What this is

`/verif/rocq/theories` contains an executable Gallina model of parts of the C library in
`/repo/heclib/heclib_c/src`, and theorems about it.  Nothing in /repo is run: the tie between model and code is
the citation (file:lines) carried by each model definition.

* `Base.v`      – conventions: C integers, undefined behaviour, arrays.
* `*Model.v`    – model definitions only (no proofs), each citing the C source.
* `*Spec.v`     – small independent specifications (no reference to the model's helpers).
* `*Proofs.v` and the `File*.v` files between `FileModel.v` and `FileProps.v` – lemmas.
* `*Props.v`    – the property theorems (`Cnn_...`), examples that show the hypotheses are met.
* `*Refute.v`   – concrete executions: examples that the hypotheses are met by real histories, and `_refuted_` theorems.

Naming: a theorem `Cnn_x` states (part of) property Cnn; suffix `_partial` marks a theorem with restrictions that the
full property does not have; `Cnn_refuted_x` proves that the code (as modelled) violates the unrestricted property.

## 2. Modelling conventions

* C `int`/`long long` are `Z`.  C `/` and `%` are `Z.quot` and `Z.rem` (truncation).  Arithmetic that can leave
  the 32-bit range in the range of inputs considered goes through `chk32` and produces the distinct outcome
  `Undef` (undefined behaviour); a theorem that concludes `= Ok v` therefore also proves absence of overflow.
* A buffer is a list of cells with its real capacity; reading or writing outside is `Undef`.
* A C function writing through pointers becomes a function returning the new values.
* Loops become structural recursion, or recursion on fuel that returns a distinct out-of-fuel/`Undef` outcome.
* Strings are lists of byte values (`Z`), without the terminating NUL unless a buffer is being modelled.
* The file is a map from word address to a 64-bit word (signed or unsigned representative, compared modulo 2^64 where
  it matters); a disk write is one zput; a crash happens between two disk writes; handles of other processes appear
  only in `LockModel.v`.
* Messages/diagnostics (`zmessage*`), progress reporting and memory-allocation failure are not modelled.

## 3. Plan and result per property

For each property: what is modelled, how it is proved, what is proved, what is missing.  `_refuted_` theorems are
proofs, by computation in the model, that the code does not have the full property.

### C01 Civil date to day number and back (proved)

* Model: `DateModel.v`.
* Proof: independent calendar (next-day function, `DateSpec.v`); algebra by `lia` over 400-year cycles; the float estimate of julianToYearMonthDay computed exactly with SpecFloat over one cycle and lifted.
* Result: Proved for every valid date of years -5,000,000..5,000,000 (C01_all_years) except 31 Dec of year 4, which the code really maps to 1 Jan year 5 (C01_refuted_year4).
* Theorems in `DateNeg.v`, `DateProps.v`: `C01_all_years`, `C01_civil_round_trip`, `C01_first_years`, `C01_refuted_year4`.

### C02 Day numbers are the Gregorian calendar (proved)

* Model: `DateModel.v`.
* Proof: as C01.
* Result: Proved for years -5,000,000..5,000,000 (C02_all_years) except across the boundary of years 4/5, where it is false (C02_refuted_year4).
* Theorems in `DateNeg.v`, `DateProps.v`: `C02_all_years`, `C02_elapsed_days`, `C02_epoch`, `C02_gregorian`, `C02_refuted_year4`.

### C03 Month overflow arithmetic (proved)

* Model: `DateModel.v`.
* Proof: as C01.
* Result: All months; carried year -5,000,000..5,000,000.
* Theorems in `DateNeg.v`, `DateProps.v`: `C03_month_carry`, `C03_month_carry_all`.

### C04 Time normalisation preserves the instant (proved)

* Model: `DateModel.v`.
* Proof: instant = day*86400+second; `lia`.
* Result: All granularities dividing a day. (0,0) is "undefined" in this API (C04_undefined, C04_refuted_zero).
* Theorems in `DateProps.v`: `C04_normalise`, `C04_refuted_zero`, `C04_undefined`.

### C05 Adding short intervals is exact addition (proved)

* Model: `DateModel.v`.
* Proof: as C04.
* Result: Exact addition and composition; the single instant (day 0, second 0) becomes "undefined" (C05_refuted_zero).
* Theorems in `DateProps.v`: `C05_compose`, `C05_refuted_zero`, `C05_short_increment`, `C05_zero_periods_identity`.

### C06 Adding calendar intervals follows the calendar (proved)

* Model: `DateModel.v`.
* Proof: case analysis over months, induction on the number of periods.
* Result: All four calendar intervals, all n, years 6..4,999,999.
* Theorems in `DateProps.v`: `C06_calendar_increment`, `C06_compose`.

### C07 Time comparison is the order of instants (proved)

* Model: `DateModel.v`.
* Proof: order of instants; `lia`.
* Result: All granularities >=1 dividing a day; refuted for (0,0) and for granularity 0.
* Theorems in `DateProps.v`: `C07_compare_is_order_of_instants`, `C07_refuted_granularity0`, `C07_refuted_zero`.

### C08 Period counting inverts period increment (proved)

* Model: `DateModel.v`.
* Proof: inverse of C05/C06.
* Result: Standard starts, short and calendar intervals. For yearly non-standard starts the count is wrong (C08_refuted_yearly_offset).
* Theorems in `DateProps.v`: `C08_count_calendar`, `C08_count_short`, `C08_refuted_yearly_offset`.

### C09 Standardising a time finds the end of its period (partial)

* Model: `DateModel.v`.
* Proof: calendar case analysis.
* Result: Proved: end of period, fixed point, regular offsets. Missing because false: calendar offset is the distance from period start (C09_refuted_offset_near_end); weekly before 1900 (C09_refuted_week_negative).
* Theorems in `DateProps.v`, `OffsetProps.v`: `C09_fixed_point_calendar`, `C09_offset_calendar`, `C09_refuted_offset_near_end`, `C09_refuted_week_negative`, `C09_standard_calendar`, `C09_standard_regular`.

### C10 Day of week (partial)

* Model: `DateModel.v`.
* Proof: arithmetic modulo 7.
* Result: Proved for day numbers >= 0; false for negative day numbers (C10_refuted_negative).
* Theorems in `DateProps.v`: `C10_day_of_week`, `C10_refuted_negative`.

### C11 Date strings round-trip (proved)

* Model: `DateTextModel.v`, `CStr.v`.
* Proof: decimal digit lemmas on byte buffers (`CStr.v`).
* Result: civil dates of years 1..9999 (to 9,999,999 for named months) in 14 named and 5 numeric styles, through the caller's buffer; day numbers from year 5; month-only styles; refuted: first-century month-only text, numeric years above 9999
* Theorems in `DateTextProps.v`, `InstantProps.v`: `C11_civil_round_trip`, `C11_day_round_trip`, `C11_iso_length`, `C11_monthly_styles`, `C11_refuted_first_century`, `C11_refuted_long_year`, `C11_standard_style`.

### C12 Time strings round-trip (proved)

* Model: `DateTextModel.v`, `CStr.v`.
* Proof: as C11, and a sweep over the seconds of a day lifted to all.
* Result: exact text in the buffer, parse of every second of the day in styles 0-2, no overflow for any argument; refuted: five-byte buffer for hh:mm is left unterminated, style 3 milliseconds round up
* Theorems in `TimeTextProps.v`: `C12_format`, `C12_minutes`, `C12_no_overflow`, `C12_parse`, `C12_refuted_milliseconds`, `C12_refuted_unterminated`, `C12_round_trip`.

### C13 Interval names and seconds agree (proved)

* Model: `IntervalModel.v`.
* Proof: finite sweep over the tables, lifted by a prefix-compare lemma.
* Result: Both table versions, all operations. C13_refuted_* show what the acceptance rule implies: '1Yearling' and the empty text are accepted as one year, '1m' is one month.
* Theorems in `IntervalProps.v`: `C13_accepts`, `C13_enumeration`, `C13_name_to_seconds`, `C13_no_shadow`, `C13_pseudo`, `C13_refuted_ambiguous`, `C13_refuted_unknown_rejected`, `C13_round_trip`, `C13_seconds_to_name`, `C13_unknown_seconds`.

### C14 Integer pair packing round-trips (proved)

* Model: `PackModel.v`.
* Proof: byte arithmetic.
* Result: All pairs of 32-bit ints, both byte orders, and the converse.
* Theorems in `PackProps.v`: `C14_pack_unpack`, `C14_unpack_pack`, `C14_word_machine_independent`.

### C15 Forming a pathname and reading back its parts (proved)

* Model: `PathModel.v`.
* Proof: list induction, loop invariants on the buffer.
* Result: All part texts and buffer sizes. Findings: returned length counts the NUL; a part over 128 characters is cut when read; a text without a second slash reads an uninitialised position (C15_refuted_*).
* Theorems in `PathProps.v`: `C15_form`, `C15_get`, `C15_refuted_long_part`, `C15_refuted_returned_length`, `C15_refuted_uninitialised`, `C15_round_trip`, `C15_seven_slashes`.

### C16 Replacing one pathname part (partial)

* Model: `PathModel.v`.
* Proof: as C15.
* Result: Proved when the result and its NUL fit and the growth is at most the text before the next part. The rest is false of the code: a result of exactly the buffer size writes its NUL past the end, and a larger growth reads in front of the buffer (C16_refuted_*).
* Theorems in `PathProps.v`: `C16_refuted_overflow`, `C16_refuted_underread`, `C16_set_get_partial`, `C16_set_partial`, `C16_too_long`.

### C17 Cleaning a pathname (partial)

* Model: `PathModel.v`.
* Proof: as C15.
* Result: Content and idempotence proved for all texts; the bounds clause is false: C17_no_room shows exactly when the NUL lands one past the buffer.
* Theorems in `PathProps.v`: `C17_clean`, `C17_idempotent`, `C17_keeps_clean`, `C17_no_room`, `C17_refuted_overflow`.

### C18 Hashing respects pathname identity (proved)

* Model: `HashModel.v`.
* Proof: list induction.
* Result: All pathnames, all table sizes >= 2. Findings: size one divides by zero; the pathname hash overflows a signed long long from 13 characters on (wraps on every supported compiler); collection members do not share a slot (C18_refuted_*).
* Theorems in `HashProps.v`: `C18_case`, `C18_index`, `C18_no_overflow_short`, `C18_no_overread`, `C18_refuted_collection_slot`, `C18_refuted_signed_overflow`, `C18_refuted_size_one`.

### C19 Repeat compression is lossless (proved)

* Model: `RepeatModel.v`.
* Proof: induction on the array; decoder inverts the encoder.
* Result: All arrays, element sizes 1 and 2 words, all sub-ranges, and conversion float/double.
* Theorems in `RepeatProps.v`: `C19_repeat_compression_conversion`, `C19_repeat_compression_lossless`.

### C20 Time-series header strings round-trip (partial)

* Model: `HdrModel.v`.
* Proof: list induction on the packed words.
* Result: Proved for all strings that take at most 200 bytes together (each blank filled to a multiple of 8), for ordinary and profile series: read back without leading/trailing blanks. The full property is false: refuted witnesses for 201-297 bytes (reader over-reads its 200-byte array), 298+ (strings silently dropped) and long profile depth units (stack overflow in the writer).
* Theorems in `HdrProps.v`: `C20_header_strings`, `C20_refuted_dropped`, `C20_refuted_read_overrun`, `C20_refuted_write_overrun`.

### C21 Buffered I/O is transparent (partial)

* Model: `BufModel.v`.
* Proof: refinement to an unbuffered file; invariant on the buffer.
* Result: Proved for all buffer sizes (even) and all mixtures of buffered writes, flushes, fill writes and reads in which every write starts at or after the end of the one before (how records are written), and for all sequences of loads and reads. The full property is false: refuted witnesses for gaps inside the buffer, a large write over buffered words (stale read, lost write) and odd buffer sizes (overrun). I/O errors not modelled.
* Theorems in `BufProps.v`: `C21_ascending_writes_partial`, `C21_reads`, `C21_refuted_gap`, `C21_refuted_lost_write`, `C21_refuted_odd_size`, `C21_refuted_stale_read`.

### C22 A file behaves as a map from pathname to record (partial)

* Model: `FileModel.v`.
* Proof: representation invariant on the words of the file (ownership tags per word), preserved by every operation, and refinement to a finite map (`FileSpec.v`).
* Result: Every history of writes/reads/deletes/undeletes/renames/catalogues/reopens refines the map (C22_history_partial and its readable corollaries), for every hash-table size, bin size and bins per block. Restrictions, each needed because the code is wrong outside (see *_refuted_*): a record is not rewritten with more odd-length headers than it has; no xMIN E part; deleted names not longer than created names (W); undelete only of names not in use. Sections above 10,000,000 ints can be written but not read (zput/zget limits).
* Theorems in `FileProps.v`, `FileRefute.v`: `C22_always_answers`, `C22_history_partial`, `C22_never_written_partial`, `C22_others_unchanged_partial`, `C22_read_last_write_partial`, `C22_refused_write_changes_nothing`, `C22_refuted_new_record_xMIN`, `C22_refuted_odd_header_rewrite`.

### C23 Rewriting a record in place stays inside its space (partial)

* Model: `FileModel.v`.
* Proof: part of the representation invariant: a rewrite stays in words owned by the record.
* Result: Proved for any number of rewrites with at most as many odd-length headers as at creation; otherwise false: C23_refuted_inplace_overflow loses another record with default file sizes.
* Theorems in `FileRefute.v`, `SpaceProps.v`: `C23_in_place_stays_inside_partial`, `C23_refuted_inplace_overflow`.

### C24 Delete and undelete (partial)

* Model: `FileModel.v`.
* Proof: corollaries of the refinement.
* Result: Delete proved; undelete restores exactly when only reads/catalogues/reopens lie between (C24_undelete_restores), and in general brings back a content deleted under that name. Undelete of a name in use is wrong in the code (C24_refuted_...).
* Theorems in `FileProps.v`, `FileRefute.v`: `C24_delete_partial`, `C24_refuted_undelete_of_live_name`, `C24_undelete_partial`, `C24_undelete_restores`.

### C25 Rename (partial)

* Model: `FileModel.v`.
* Proof: corollaries of the refinement.
* Result: Rename proved for all histories (onto a free or an existing name), for new names with seven slashes. The last clause is false in the code: renaming a missing record removes the record under the new name (C25_refuted_missing_source_deletes_target); and a new name without seven slashes is completed, so it is not the name asked for (C25_refuted_new_name_completed). Time-series records, whose D and E parts zrename substitutes, and renames that only change letter case are not modelled.
* Theorems in `FileProps.v`, `FileRefute.v`: `C25_refuted_missing_source_deletes_target`, `C25_refuted_new_name_completed`, `C25_rename_partial`.

### C26 File space is never handed out twice (partial)

* Model: `AllocModel.v`, `FileModel.v`.
* Proof: ownership invariant on the allocator, for any sequence of calls.
* Result: Proved for every sequence of allocations, releases and writes with space reclamation on (any number of table segments, splitting, full tables): spaces in use never overlap, lie in the file, keep their contents, and every request is answered, provided callers release exactly what they hold. Refuted: zwriteExisting releases more than a record has (mixed units), so that space is handed out twice; after a failed search the allocator writes its table at the beginning of the file. Missing: the engine's own callers of release are wrong, so the property fails for the whole library when reclamation is on (it is off by default).
* Theorems in `AllocProps.v`, `AllocRefute.v`: `C26_always_answers_partial`, `C26_contents_kept_partial`, `C26_in_file_partial`, `C26_moved_record_refuted`, `C26_no_overlap_partial`, `C26_own_area_refuted`, `C26_released_too_much`.

### C27 Re-using a deleted pathname slot keeps every other record (partial)

* Model: `FileModel.v`.
* Proof: corollary of the refinement.
* Result: Proved when no deleted name is longer (in words) than a new one; false otherwise: C27_refuted_orphaned_bin.
* Theorems in `FileProps.v`, `FileRefute.v`: `C27_new_record_keeps_others_partial`, `C27_refuted_orphaned_bin`.

### C28 Aliases read the primary record (partial)

* Model: `AliasModel.v`.
* Proof: refinement of the directory to a map of names to primaries, for all histories.
* Result: Proved for every history of write, read, delete, alias add/remove/remove-all/number/list, get-primary, zcheck and reopen on a new file (block-level model of the directory, any bin size and hash table), where no deleted primary name is longer in words than a new name (the defect of C27): a record is read, written and deleted by any of its names; removing one alias removes that name only; removing all leaves the record; number and list agree. The specification records one defect (a stale status word makes calls on missing names fail after a look-up of an alias: C28_refuted_stale_status). With zrename the property is false (four C28_refuted_rename_* witnesses). Not modelled: undelete, space reuse on reclaim, multi-user locking, time-series aliases.
* Theorems in `AliasProps.v`, `AliasRefute.v`: `C28_added_alias_reads_partial`, `C28_delete_all_names_partial`, `C28_history_partial`, `C28_list_partial`, `C28_read_any_name_partial`, `C28_refuted_rename_alias`, `C28_refuted_rename_longer`, `C28_refuted_rename_moved`, `C28_refuted_rename_onto_alias`, `C28_refuted_stale_status`, `C28_remove_all_aliases_partial`, `C28_remove_one_alias_partial`, `C28_write_shared_partial`.

### C29 Crash during a write (partial)

* Model: `FileModel.v`.
* Proof: every disk write of an operation preserves the part of the invariant that other records need; induction on the writes issued.
* Result: Proved for every operation of the API (not only write) and every crash point between disk writes: all other records read back unchanged; same request restrictions as C22. A torn disk write is not modelled.
* Theorems in `FileProps.v`: `C29_crash_partial`.

### C30 Writers exclude each other (partial)

* Model: `LockModel.v`.
* Proof: invariant over all interleavings of a transition system.
* Result: Proved for every interleaving of any number of handles of different processes: a handle about to write holds the lock (any calls); if every section flushes, the header in the file contains every change whenever the lock is free, and a locked handle sees every change. Refuted where the code fails: error path unlocking without flush, two handles in one process, nested sections of the same level, advisory mode's second section. Missing: old lock layout (zlockingOld.c), access modes without OS locks.
* Theorems in `LockLost.v`, `LockProps.v`, `LockRefute.v`: `C30_advisory_section_refuted`, `C30_error_path_loses_update_refuted`, `C30_locked_means_owner`, `C30_locked_sees_all`, `C30_nested_section_refuted`, `C30_no_lost_update`, `C30_same_process_refuted`, `C30_writers_exclude`.

### C31 Irregular merge (partial)

* Model: `IrregModel.v`.
* Proof: induction on the two arrays.
* Result: Merge mode fully proved. Replace mode: exact result proved for all inputs (C31_replace_exact); it is the intended one only if at least as many old entries are replaced as are kept before them (C31_replace_partial) - otherwise later stored values are lost: C31_refuted_replace_drops_tail. Text notes not modelled.
* Theorems in `IrregProps.v`: `C31_merge`, `C31_refuted_replace_drops_tail`, `C31_refuted_replace_overread`, `C31_replace_exact`, `C31_replace_partial`.

### C32 Regular store flags (partial)

* Model: `RegStoreModel.v`.
* Proof: induction on the arrays.
* Result: Proved for all flags, windows, old blocks and quality arrays when the old record is read, and for windows spanning the block. False when a spanning window holds only missing values (C32_refuted_spanning_missing); quality of untouched values is dropped when the new data have none (C32_refuted_quality_dropped). Text notes and profiles are not modelled.
* Theorems in `RegStoreProps.v`: `C32_flag2_always_writes`, `C32_flag3_removes_all_missing`, `C32_refuted_quality_dropped`, `C32_refuted_spanning_missing`, `C32_store_flags`, `C32_store_spanning`.

### C33 Block partition (proved)

* Model: `BlockModel.v`.
* Proof: calendar lemmas.
* Result: block starts (regular and irregular), exact partition into days/months/years/decades/centuries, stepping forward/back any number of blocks, in years 200..4,999,899; refuted before year 0
* Theorems in `BlockProps.v`: `C33_back_and_forth`, `C33_block_start`, `C33_partition`, `C33_reach`, `C33_refuted_before_year_0`, `C33_regular_block`, `C33_step_and_back`.

### C34 Error codes round-trip (partial)

* Model: `PackModel.v`.
* Proof: `lia` with div/mod.
* Result: Round trip of raised codes proved for every severity/function/error/status. The propagation part is false in the code: C34_refuted_update_hides_error (for every caller, an INVALID_ARGUMENT error is no longer recognised after zerrorUpdate); C34_update_keeps_error_partial is what holds.
* Theorems in `PackProps.v`: `C34_encode_roundtrip`, `C34_raise_roundtrip`, `C34_refuted_update_hides_error`, `C34_update_keeps_error_partial`, `C34_update_keeps_success`.

### C35 Squeeze preserves content (partial)

* Model: `SqueezeModel.v`, `FileModel.v`.
* Proof: refinement: the copies are writes to a new file, C22 applies to it.
* Result: zsqueeze/zcopyFile (DSS 7) on the word-level file model: for every covered history of proper pathnames in which nothing but record headers looks like a header, the squeezed file answers every read as before, has nothing to undelete, and every later history conforms to the map. Missing: aliases, location records, rewritten unit strings; refuted: header look-alikes in data create phantom records or make squeeze fail, names without seven slashes change, a crash during replacement loses the file name.
* Theorems in `SqueezeProps.v`, `SqueezeRefute.v`: `C35_nothing_to_undelete_partial`, `C35_one_of_the_names_partial`, `C35_refuted_cannot_squeeze`, `C35_refuted_crash_by_rename`, `C35_refuted_crash_in_place`, `C35_refuted_phantom_record`, `C35_refuted_short_name`, `C35_squeeze_reads_same_partial`, `C35_squeezed_history_partial`.

### C36 Catalogue lists exactly the live records (partial)

* Model: `FileModel.v`.
* Proof: the catalogue walks exactly the bins of the invariant.
* Result: Catalogue = live records, each once, and its length is the record count of the header; names without trailing blanks; same request restrictions as C22 (C36_refuted_... otherwise).
* Theorems in `FileProps.v`, `FileRefute.v`: `C36_catalogue_partial`, `C36_refuted_duplicate_after_undelete`.

### C37 Byte order conversion (proved)

* Model: `PackModel.v`.
* Proof: list induction.
* Result: Involutions, odd-length bounds, time+double arrays, and portable text through disk on either byte order; C37_refuted_bigendian_overrun for buffer sizes not a multiple of 8.
* Theorems in `PackProps.v`: `C37_refuted_bigendian_overrun`, `C37_swap_involution`, `C37_switch_defined`, `C37_switch_involution`, `C37_text_portable`, `C37_times_doubles_roundtrip`.

### C38 Text tables and notes round-trip (partial)

* Model: `TextModel.v`, `FileModel.v`.
* Proof: list induction, then C22.
* Result: Table packing/unpacking, sizes, line copying and text records (store request and retrieve answer) are proved for all tables; the end-to-end theorem is _partial because it inherits the restrictions of C22. Refuted: copyLines reads one byte past a source that does not end with a NUL.
* Theorems in `InstantProps.v`, `TextProps.v`: `C38_copy_lines`, `C38_copy_no_source`, `C38_other_type_refused`, `C38_pack`, `C38_refuted_unterminated`, `C38_table_size`, `C38_text_record_partial`, `C38_text_refused`, `C38_text_request`, `C38_unpack`.

### C39 Collection names (partial)

* Model: `PathModel.v`, `FPartModel.v`.
* Proof: list induction.
* Result: Recognition exact for pathnames of >= 12 characters in which no earlier part starts with C:; comparison ignores exactly the sequence; setting the sequence changes only the F part for n <= 999999. Refuted otherwise: shorter pathnames, an earlier part starting with C:, compare accepts a second pathname that is not a collection and markers other than C:, 7-digit sequence overruns the buffer, 8-digit one is ignored.
* Theorems in `CollProps.v`: `C39_compare`, `C39_compare_plain`, `C39_not_recognised_partial`, `C39_recognised`, `C39_refuted_compare_marker`, `C39_refuted_compare_other`, `C39_refuted_eight_digits`, `C39_refuted_minimal`, `C39_refuted_other_part`, `C39_refuted_seven_digits`, `C39_refuted_short`, `C39_set_sequence_partial`.

### C40 F-part tag normalisation (proved)

* Model: `FPartModel.v`.
* Proof: list induction; canonical sort of tags.
* Result: Normalising any F part whose pieces are valid succeeds with the normal form (canonical order CNTRV, each tag once, values and untagged text kept); every other text is refused with an error code and no text; idempotent; tag order irrelevant. Day 00 in a time tag is accepted (refutation theorem).
* Theorems in `FPartProps.v`: `C40_idempotent`, `C40_normal_form`, `C40_order_irrelevant`, `C40_refuted_day_zero`, `C40_rejects`, `C40_tags_kept`, `C40_untagged_kept`.

### C41 Window reads of a stored block (proved)

* Model: `AggModel.v`.
* Proof: induction on the array.
* Result: All arrays, spans, windows and element sizes.
* Theorems in `AggProps.v`: `C41_window_read`.

### C42 A merge sees the whole stored irregular block (partial)

* Model: `IrregModel.v`.
* Proof: counting argument.
* Result: Proved for blocks below 370 days and for longer blocks unless there are more values than minutes; false otherwise (C42_refuted_dense_decade).
* Theorems in `IrregProps.v`: `C42_logical_number_partial`, `C42_refuted_dense_decade`.

### C43 Array records round-trip (partial)

* Model: `TextModel.v`, `FileModel.v`.
* Proof: list induction, then C22.
* Result: Request/answer round trip proved for all arrays; the end-to-end theorem inherits the restrictions of C22.
* Theorems in `InstantProps.v`, `TextProps.v`: `C43_array_record_partial`, `C43_array_request`, `C43_other_type_refused`.

### C44 Time-window selection of irregular data (partial)

* Model: `DateModel.v`.
* Proof: `lia`.
* Result: Proved for windows given in whole units of the block granularity (dividing a day); refuted otherwise: a window start inside a unit is rounded down, so an earlier time is selected.
* Theorems in `RangeProps.v`: `C44_in_window_partial`, `C44_refuted_start_truncated`.

### C45 An instant is written as a date and a time that name it (partial)

* Model: `DateTextModel.v`, `DateModel.v`.
* Proof: C11, C12 and C04.
* Result: Proved for units of one second or whole minutes dividing the day, years 5 to 4,999,999, buffers of 28 and 9 bytes or more. Refuted: granularity below 1 (time text always 0000) and units longer than a day (division by zero).
* Theorems in `InstantProps.v`: `C45_instant_round_trip`, `C45_refuted_default_unit`, `C45_refuted_long_unit`.

### C46 A regular series reads back as last stored, whatever the blocks (partial)

* Model: `SeriesModel.v`, `RegStoreModel.v`, `BlockModel.v`, `DateModel.v`.
* Proof: induction over blocks for any numbering of periods that fits the blocks; the numberings by seconds and by calendar are shown to fit; then induction over the history.
* Result: C46_history_short: every interval of at most a day that divides the day, times of years 312 to about 1,995,000, any time within the first period; C46_history_calendar: thirds of a month, half months, months and years, years 310 to 3,999,900, stores starting at the end of a period (reads by start and end: any time). Values up to which of two missing values; quality when every store gives it. False, and refuted, for weekly data (first two weeks of a decade share a slot), for a window given by start and end inside day 0, and for flag 0 with a whole block of missing data inside the window. Missing: times arrays, base dates, 'retrieve all', offsets of calendar series, quality when some stores give none
* Theorems in `SeriesProps.v`: `C46_history_calendar`, `C46_history_short`, `C46_refuted_day_zero`, `C46_refuted_gap`, `C46_refuted_week`.

### C47 Catalogue patterns select exactly the matching records (partial)

* Model: `CatModel.v`, `PathModel.v`, `FileModel.v`.
* Proof: string lemmas on the part buffers, then the walk over the bins as in C36.
* Result: proved for every history when each name in it either is no longer readable or has six parts of at most 128 characters that the code compares soundly (part_safe); collection patterns proved for the comparison. Refuted: *text against a part shorter than text reads before the array (UB), ** does not match an empty part, parts are cut at 128 characters, a malformed pattern lists everything, the record-type selection has no effect.
* Theorems in `CatColl.v`, `CatProps.v`, `CatRefute.v`: `C47_collection`, `C47_refuted_long`, `C47_refuted_not_a_pathname`, `C47_refuted_short`, `C47_refuted_two_stars`, `C47_refuted_type`, `C47_select_partial`.

### C48 An irregular time series is one series, however many blocks it spans (partial)

* Model: `IrrSerModel.v`, `IrrSerSpec.v`, `IrrSerProofs.v`, `IrrSerBlock.v`, `IrrSerLoop.v`, `IrrSerStore.v`, `IrrSerRead.v`, `IrrSerProps.v`.
* Proof: Representation relation between a map from instants to values and the records of the blocks; each store keeps it (induction over blocks, with the block calendar of C20 and the merge of C31), each read gives it back (induction over blocks of the window)..
* Result: Proved for all histories and windows under explicit conditions (one granularity; no seconds in decade and century blocks; replace flag only where C31 holds; times within 32 bits; years about 340-4364).  Not covered: notes, profiles, quality sizes, retrieve flags 1-3.  What the conditions exclude is refuted by witnesses: mixed granularities lose seconds, decade blocks with dense seconds lose values on a later store, century blocks with seconds overflow, replace reads past its arrays or drops the last value, equal times are kept twice, day 0, other granularities.
* Theorems in `IrrSerProps.v`: `C48_century_seconds_refuted`, `C48_day_zero_refuted`, `C48_decade_seconds_refuted`, `C48_granularity_refuted`, `C48_history_partial`, `C48_mixed_granularity_refuted`, `C48_order_partial`, `C48_replace_append_refuted`, `C48_replace_tail_refuted`, `C48_same_time_refuted`.

### C49 Paired data is a table (partial)

* Model: `PdModel.v`, `PdSpec.v`.
* Proof: record-holds-table invariant (rep) preserved by each store, read lemma over it; loops over curves and label bytes by induction.
* Result: Proved for covered requests; stores of several labels at once, labels longer than the room set aside, labels into a record without labels, rows past the end, and parts whose struct counts equal the part are refuted. Units, vertical datum, user header and the file layer are not in this model.
* Theorems in `PdProps.v`: `C49_first_label_refuted`, `C49_history_partial`, `C49_longer_label_refuted`, `C49_part_partial`, `C49_part_taken_for_whole_refuted`, `C49_rows_lose_labels_refuted`, `C49_rows_past_the_end_refuted`, `C49_store_past_the_end_refuted`, `C49_two_labels_refuted`.

### C50 Trimming a regular series keeps exactly the part with values, each with its own time (partial)

* Model: `TrimModel.v`, `TrimSpec.v`.
* Proof: a clock abstraction: scans and slices are proved for any clock whose increments compose; the short and calendar clocks are instances through C05, C06, C09.
* Result: Intervals dividing a day, a week, and calendar intervals without offset and base date; refuted: profiles that are all missing (ztsTrim.c:242-261 reads before the values) and calendar intervals with a base date (ztsTrimAdjustTimeWindow.c:56). Irregular series are not trimmed by ztsRetrieve. Memory errors are not modelled.
* Theorems in `TrimProps.v`: `C50_nothing_partial`, `C50_refuted_base_date`, `C50_refuted_missing_profiles`, `C50_trim_calendar_partial`, `C50_trim_partial`, `C50_whole_partial`.

### C51 The calls of the library interface fill the buffers of the caller with what the file holds, and touch nothing else (partial)

* Model: `HecModel.v`, `HecSpec.v`.
* Proof: the copy loops as writing at the start of a buffer, composed with the record theorems C22, C38, C43, C49 and C50; refutations by computation.
* Result: Catalogue: proved for any catalogue. Texts: plain ASCII text not ending in a blank; refuted for other text: trailing blanks and UTF-8 make the library read past its own copy. Arrays and tables: proved for the histories of C22 and the tables of C49. Series: those of C50, one quality word; refuted: quality of a series without quality is a null pointer read; quality given to hec_dss_tsStoreRegular is not stored. Missing: units, types, time zone names, grids, locations, opening files.
* Theorems in `HecProps.v`: `C51_array_partial`, `C51_array_request`, `C51_catalog`, `C51_copy_plain`, `C51_copy_prefix`, `C51_pd_partial`, `C51_refuted_blank_removal`, `C51_refuted_no_nul`, `C51_refuted_no_quality`, `C51_refuted_quality_dropped`, `C51_refuted_trailing_blanks`, `C51_refuted_utf8`, `C51_text_partial`, `C51_text_request`, `C51_ts_partial`.

### C52 The location of a site is stored once and found under every pathname of the site (partial)

* Model: `LocModel.v`, `LocSpec.v`.
* Proof: the name by the part positions of C15, the words by the packing lemmas of C38, composed with C22; refutations by computation.
* Result: Proved for every site, all numbers and any supplemental text, for the histories of C22. Time zone names: proved when the length is at most 72 and not a multiple of 4; refuted otherwise (America/New_York runs on past its end; longer names are dropped silently). Interface: plain texts as in C51. Missing: the bounding box kept in memory, version 6.
* Theorems in `LocProps.v`: `C52_interface_partial`, `C52_kept`, `C52_location_partial`, `C52_name`, `C52_nothing`, `C52_refuted_long_zone`, `C52_refuted_time_zone`, `C52_separate`.

### C53 Base 64 text stands for the bytes it was made from (partial)

* Model: `B64Model.v`, `B64Spec.v`.
* Proof: the shifts and masks checked by computation for every byte and pair of bytes, the loops by induction on groups of three; refutations by computation and as theorems.
* Result: Encoding: proved for all bytes. Decoding: proved for four bytes or more; refuted: the text of one to three bytes is refused, the length given back is that of the text, text that is not base 64 is accepted.
* Theorems in `B64Props.v`: `C53_distinct`, `C53_encode`, `C53_refuted_invalid`, `C53_refuted_length`, `C53_refuted_short`, `C53_round_trip_partial`.

### C54 Keyed values in a text are found again and do not disturb each other (partial)

* Model: `DelimModel.v`, `DelimSpec.v`.
* Proof: search over delimited pieces by induction, buffers as text, NUL and rest; refutations by computation.
* Result: Proved for entries with a value, ended by the delimiter, when the key and its separator occur in no earlier entry. Refuted otherwise: the value of myunit is found for unit; an empty value takes the next entry with it; a call that fails for want of room spoils the text; a supplemental text without a final delimiter makes ztsStore read past its end. Missing: the vertical datum information itself (gzip, XML, offsets).
* Theorems in `DelimProps.v`: `C54_absent`, `C54_assign_first`, `C54_assign_new`, `C54_assign_old`, `C54_get`, `C54_get_any_case`, `C54_get_last`, `C54_get_last_any_case`, `C54_header`, `C54_kept`, `C54_refuted_empty`, `C54_refuted_key`, `C54_refuted_no_room`, `C54_refuted_note`, `C54_remove`, `C54_set_new`, `C54_set_old`.

### C55 A sorted catalogue lists every record once, in order (partial)

* Model: `SortModel.v`, `CatSortModel.v`, `SortSpec.v`, `CatSortSpec.v`.
* Proof: invariants over the fill, sort and merge loops of the file sort (all sizes); the line of a name as columns; permutation of the lines and reading back the index.
* Result: C55_refuted_grids: the grids of a day do not come in the order of their times. C55_sort is complete (all file sizes). C55_complete_partial: every record once, when the longest parts add up to at most 380 characters, no part has a new-line and the dates do not overflow; false beyond that (C55_refuted_complete). C55_order_partial: names in column order without series and grids, parts within their columns. C55_dates_partial: blocks of one series by date when F is 10 and E 12 characters or more; false otherwise (C55_refuted_dates, C55_refuted_mixed_intervals). Not modelled: the list kept in the file by an earlier sort, failing temporary files.
* Theorems in `CatSortProps.v`, `CatSortRefute.v`: `C55_complete_partial`, `C55_dates_partial`, `C55_order_partial`, `C55_refuted_complete`, `C55_refuted_dates`, `C55_refuted_grids`, `C55_refuted_mixed_intervals`, `C55_sort`.

### C56 A grid reads back as it was stored (partial)

* Model: `GridModel.v`, `GridSpec.v`.
* Proof: exact layout of the record (GridProofs), round trip of request and answer, then C22 for the file; zlib enters as two functions with the hypothesis lossless (GridSpec), met by a toy codec.
* Result: Proved: store then retrieve gives back numbers, texts, statistics, ranges and cells (plain, zlib, precompressed; hec_dss calls), refusals write nothing. False in full, refuted with witnesses: version never read back; a trailing blank or a non-ASCII byte in one text shifts all later texts; types and struct versions that cannot be read are accepted. zlib itself is not modelled: hypothesis lossless.
* Theorems in `GridHec.v`, `GridProps.v`: `C56_decompressed`, `C56_interface_partial`, `C56_not_a_grid`, `C56_precompressed_partial`, `C56_record_partial`, `C56_refused`, `C56_refused_storage`, `C56_refuted_blank`, `C56_refuted_unreadable`, `C56_refuted_utf8`, `C56_refuted_version`, `C56_request_partial`, `C56_struct_version`.

### C57 Copying a record, or a file, copies exactly that (partial)

* Model: `CopyModel.v`, `SqueezeModel.v`.
* Proof: the copy request goes through the write of C22 (aimed writes), the info block patched afterwards keeps the invariant; reached files by induction; refutations by computation.
* Result: Proved: every file that calls, duplicates, copies between files, file copies and squeezes lead to behaves as a map and conforms for every later history (C57_reached); duplicating, copying as-is and copying files change exactly the new name(s), also over existing records; other kinds refused, missing names nothing. Missing: names/units as in C35, fewer odd headers than the record overwritten (C23), the location record copied along, aliases, ELEV names and series whose names differ (they go through retrieve and store: Elsewhere). False in full: C57_refuted_out_of_range, _other_block (offsets of the two names swapped), _file_stops, _duplicate_time.
* Theorems in `CopyProps.v`, `CopyRefute.v`, `CopySeries.v`: `C57_copy_done_partial`, `C57_copy_partial`, `C57_duplicate_missing_partial`, `C57_duplicate_partial`, `C57_duplicate_refused_partial`, `C57_file_partial`, `C57_file_refused_partial`, `C57_reached_partial`, `C57_refuted_duplicate_time`, `C57_refuted_file_stops`, `C57_refuted_other_block`, `C57_refuted_out_of_range`, `C57_same_block_partial`.

### C58 What changed since a moment (partial)

* Model: `WhatModel.v`, `WhatSpec.v`.
* Proof: the invariants of the record engine are extended by the last-write time of the directory entry (Stamped): every write path, also a refused rewrite, stamps the entry of its name and no other; the catalogue lemma rep_select turns the scan into the set of live entries later than the start; induction over the history.
* Result: Proved: for any history, then any reads, writes, deletes, catalogues and reopenings, the answer has each readable record at most once, and exactly those last written (also by a refused rewrite) after the start or, if not written since, in the answer before (C58_since_partial); for whole such histories exactly the readable records last written after the start (C58_changed_partial); with CRC values exactly the records whose hash the first catalogue has with another CRC, without overflow if its hashes differ (C58_crc_partial). False in full: a write in the millisecond of the start is missed, a refused write is reported, a renamed or undeleted record is not, and the CRC comparison omits new records and overflows its array for equal hashes (the _refuted theorems). Not covered: the start time is an argument (the header word is not modelled), patterns and collections in this theorem, names that end with a blank.
* Theorems in `WhatProps.v`, `WhatRefute.v`: `C58_changed_partial`, `C58_crc_partial`, `C58_refuted_new`, `C58_refuted_overflow`, `C58_refuted_refused_write`, `C58_refuted_renamed`, `C58_refuted_same_millisecond`, `C58_refuted_undeleted`, `C58_since_partial`.

### C59 The first and last time of a block that holds anything (partial)

* Model: `ValidModel.v`, `TrimModel.v`, `ValidSpec.v`.
* Proof: both scans by induction; the text array is a concatenation of lines, and what the code looks at from its two ends is related to the lines; the cases that go wrong are proved for all blocks, not only shown.
* Result: Proved for floats and doubles: the first time is exact, all missing is answered exactly when nothing is there, the last time is a time of the block (or -1) and no time after it holds a value, quality or number note (C59_first_partial); the last time is exact when it holds more than a text (C59_last_partial), for doubles also when it holds only a text and the time before it holds no data (C59_last_note_partial). False in full, proved for every such block: a last time that holds only a text is missed by one for floats (C59_refuted_float_note) and for doubles if data stands before it (C59_refuted_double_note); -1 if it is the very first (C59_refuted_before_the_first). Text notes are assumed to be one ended text for each time; which values are missing is a parameter.
* Theorems in `ValidProps.v`: `C59_first_partial`, `C59_last_note_partial`, `C59_last_partial`, `C59_refuted_before_the_first`, `C59_refuted_double_note`, `C59_refuted_float_note`.

### C60 Units, types and time zone of paired data are read back (partial)

* Model: `PdHeadModel.v`, `HdrModel.v`.
* Proof: C60_paired_strings_partial: rooms of at most 397 bytes in total, both calls of zpdStore, all contents of the arrays. C60_never_overruns: storing is safe for strings of any length. C60_refuted_garbage / C60_refuted_read_overrun: 398 bytes or more are dropped without a report, and the record then holds what the memory held..
* Result: proved for strings that take at most 397 bytes together; storing never overruns for any strings; refuted beyond: the strings are dropped silently and uninitialised memory is read back as units, or the reader overruns
* Theorems in `PdHeadProps.v`: `C60_never_overruns`, `C60_paired_strings_partial`, `C60_refuted_garbage`, `C60_refuted_read_overrun`.

### C61 A file name means the same file with or without its extension or quotes (partial)

* Model: `NameModel.v`.
* Proof: C61_completed_partial, C61_quotes_partial, C61_same_file_partial, C61_distinct_partial: names of 1 to 1019 characters without quotes inside; C61_fits: any name that is not empty. Refuted: empty name (read before the string), .dss alone, names over 1019 characters. realpath, stat and access are not modelled..
* Result: proved for names of 1 to 1019 characters (four-character names without the quotes claim); refuted for the empty name, the name .dss, and longer names, which are cut without a report; realpath/stat/access not modelled
* Theorems in `NameProps.v`: `C61_completed_partial`, `C61_distinct_partial`, `C61_fits`, `C61_quotes_partial`, `C61_refuted_bare`, `C61_refuted_empty`, `C61_refuted_long`, `C61_same_file_partial`.

### C62 Grids and TINs are dated by the D and E parts of their names (partial)

* Model: `CatSortModel.v`, `DateTextModel.v`.
* Proof: C62_grid_time_partial: composed from the round trips of dates (C11) and times (C12). C62_no_colon. Refuted: times of day that do not exist are accepted, and a text that follows the time is read as part of it (this is how the sorted catalogue passes it: C55_refuted_grids)..
* Result: every date and time in the styles is decoded; a text without a colon never is; refuted: 01JAN2000:9999 is accepted, and text after the time changes it, as in the sorted catalogue
* Theorems in `SpatialProps.v`: `C62_grid_time_partial`, `C62_no_colon`, `C62_refuted_followed`, `C62_refuted_no_such_time`.

### C63 Quality flags and notes keep their values when the element size changes (partial)

* Model: `IntConvModel.v`.
* Proof: C63_two_arrays: separate arrays, all sizes. C63_in_place_partial: the same array, for shorter entries or entries of one word. C63_refuted_in_place: entries of two words made three words long lose a word..
* Result: separate arrays: complete; in place: complete for shorter entries and one-word entries, refuted for longer entries made of two words or more; 32-bit overflow of positions not modelled
* Theorems in `IntConvProps.v`: `C63_in_place_partial`, `C63_refuted_in_place`, `C63_two_arrays`.

### C64 A number printed with commas (partial)

* Model: `CommasModel.v`.
* Proof: induction over the digits from the right; witnesses by computation for the cut, the overrun and the least number.
* Result: proved: for every number but the least long long there is one text, grouped and reading back as the number, and every buffer with room for it gets it and its length. Refuted: a buffer too small for the digits gets the first digits with no -1; a negative number whose digits just fit is written one byte past the buffer; the least long long overflows
* Theorems in `CommasProps.v`: `C64_grouped_partial`, `C64_refuted_cut`, `C64_refuted_least`, `C64_refuted_overrun`.

### C65 Integrity keys of an open file (partial)

* Model: `GuardModel.v`.
* Proof: case analysis of the check against an independent description of a sound table; witnesses by computation for the refuted parts.
* Result: proved: blocks as obtained are guarded and stay so under any write of their data words; with the sizes of the blocks right, the check passes exactly for a sound table, changing nothing, and otherwise gives an error and sets the file to read only. Refuted: a written-over size makes the check read outside of the block; a closed table is called corrupt by the second check; a version 6 table is called corrupt and its word 6 overwritten
* Theorems in `GuardProps.v`: `C65_fresh`, `C65_passes_partial`, `C65_refuses_partial`, `C65_refuted_closed`, `C65_refuted_size`, `C65_refuted_version6`, `C65_use`.

## 4. Trusted base

* Coq 8.16.1's kernel (including its `vm_compute` conversion, used for sweeps and for concrete executions).
* No axioms.  Every property theorem has a `Print Assumptions` line in its file (those of `FileProps.v`, `SpaceProps.v`
  and `SqueezeProps.v` in the `*Refute.v` file that follows); each prints `Closed under the global context`.  The files
  use only Coq's standard library.  (`vcheck` reports names under `Coq.ssr.ssrunder.Under_rel` as library axioms of the
  loaded environment: these are the module-type fields of a standard-library file; no theorem depends on them.)
* No functors, module types, `Admitted`, `Axiom`, `Parameter`, unset kernel checks or plugins.  `Variable` and
  `Hypothesis` occur only inside sections, so they are visible in the closed statements.
* The translation from C to Gallina, by hand; each definition cites the lines it models.  Where code was simplified the
  comment says how.

### Source files modelled (by citation), per model file

* `AggModel.v`: ztsAggregate.c, ztsDisaggregate.c, ztsRegReadBlock.c
* `AliasModel.v`: zaliasAdd.c, zaliasGetPrimary.c, zaliasList.c, zaliasNumber.c, zaliasRemove.c, zaliasRemoveAll.c, zbinUpdate.c, zcheckInternal.c, zdeleteInternal.c, zhash.c, zreadInfo.c, zreadInternal.c, zrename.c, zwriteExisting.c, zwriteInternal.c, zwriteNew.c
* `AllocModel.v`: zdssVals.h, zgetFileSpace.c, zpermCreate.c, zput.c, zreclaimRead.c, zreclaimSet.c, zreclaimWrite.c, zreleaseFileSpace.c
* `B64Model.v`: verticalDatum.c
* `BlockModel.v`: hecdssInternal.h, ztsIncrementBlock.c, ztsIrregGetBlockStart.c, ztsRegGetBlockStart.c
* `BufModel.v`: heclib.h, numberLongsInInts.c, zdssVals.h, zflushBuffers.c, zget.c, zgetBuff.c, zput.c, zputBuff.c, zwriteInternal.c
* `CatModel.v`: zcatComparePath.c, zcatParsePath.c, zcatalog.c, zcatalogInternal.c, zfindString.c, zpathnameCompare.c
* `CatSortModel.v`: getLastInt.c, spatialDateTime.c, toFixedFields.c, zcatInternalSort.c, zcatSortPath.c, zcatalogInternal.c
* `CommasModel.v`: longWithCommas.c
* `CopyModel.v`: verticalDatum.c, zcopyFile.c, zcopyRecord.c, zcopyRecordInternal.c, zdataType.c, zduplicateRecord.c
* `DateModel.v`: addCentury.c, cleanTime.c, compareTimes.c, dayOfWeek.c, hecdssInternal.h, heclibDate.h, incrementTime.c, isLeapYear.c, isTimeDefined.c, isTimeInRange.c, julianToYearMonthDay.c, numberPeriods.c, standardIntervals.h, yearMonthDayToJulian.c, ztsOffset.c, ztsOffsetAdjustToOffset.c, ztsOffsetAdjustToStandard.c
* `DateTextModel.v`: dateToJulian.c, dateToYearMonthDay.c, getDateAndTime.c, heclibDate.h, julianToDate.c, minutesToHourMin.c, secondsToTimeString.c, timeStringToSeconds.c, timeStringToSecondsMills.c, yearMonthDayToDate.c
* `DelimModel.v`: verticalDatum.c, zpdStore.c, ztsStore.c
* `FPartModel.v`: normalizeFPart.c, normalizeFPart.h, zisaCollection.c, zsetCollectionSequence.c
* `FileModel.v`: charLong.c, mallocAndCopyPath.c, stringFortToC.c, zbinNew.c, zbinUpdate.c, zcatalogInternal.c, zcheck.c, zcheckInternal.c, zcompareRecordStatus.c, zdeleteInternal.c, zget.c, zgetFileSpace.c, zlockActive.c, znewFileSize.c, zpermCreate.c, zpermWrite.c, zput.c, zread.c, zreadInfo.c, zreadInternal.c, zreclaimRead.c, zreleaseFileSpace.c, zrename.c, ztsPathCompatible.c, zwrite.c, zwriteEOF.c, zwriteExisting.c, zwriteInternal.c, zwriteNew.c, zwritedisk.c
* `GridModel.v`: hecdss.c, zStructSpatialGrid.h, zlibcompress.c, zspatialGridRetrieve.c, zspatialGridStore.c, zstructSpatialGridNew.c
* `GuardModel.v`: zcheckKeys.c, zdssVals.h, zgetVersion.c, zinit.c, zmemoryGet.c
* `HashModel.v`: zhash.c, zpathnameCompare.c
* `HdrModel.v`: mallocAndCopyTrim.c, stringHeaderUtility.c, trimLength.c, zcharTo8Byte.c, ztsInternalHeaderPack.c, ztsInternalHeaderUnpack.c
* `HecModel.v`: hecdss.c, hecdss.h, mallocAndCopy.c
* `IntConvModel.v`: convertDataLength.c, convertIntArray.c
* `IntervalModel.v`: standardIntervals.h, ztsGetStandardInterval.c
* `IrrSerModel.v`: ztsDisaggregate.c, ztsGetSizesInternal.c, ztsIrregReadBlock.c, ztsIrregStoreBlock.c, ztsProcessTimes.c, ztsRetrieveIrreg7.c, ztsStoreIrreg7.c
* `IrregModel.v`: ztsIrregMergeBlocks.c, ztsIrregStoreBlock.c
* `LocModel.v`: hecdss.c, zStructLocation.h, zlocationPath.c, zlocationRetrieve.c, zlocationStore.c, zlocationStructValid.c
* `LockModel.v`: hecdss7.h, zcatalogInternal.c, zcheckInternal.c, zcheckMultiUser.c, zdssLocking.h, zflushToDisk.c, zget.c, zlockActive.c, zlockdss.c, zlockingOld.c, zpermRead.c, zpermWrite.c, zpidWrite.c, zput.c
* `NameModel.v`: lowerCase.c, stringCat.c, zdssVals.h, zfileName.c
* `PackModel.v`: charLong.c, getEndian.c, i4toi8.c, i8toi4.c, isOdd.c, numberIntsInBytes.c, numberIntsInLongs.c, numberLongsInBytes.c, numberLongsInInts.c, zerrorCodes.h, zerrorDecode.c, zerrorEncode.c, zerrorEncodeHigh.c, zerrorProcessing.c, zerrorSeverity.c, zerrorUpdate.c, zisError.c, zreadDisk.c, zswap.c, zswitchDoubles.c, zswitchInts.c, zwriteDisk.c
* `PathModel.v`: trimPositions.c, zpathnameAddPart.c, zpathnameClean.c, zpathnameCompareCollection.c, zpathnameForm.c, zpathnameGetPart.c, zpathnamePartLengths.c, zpathnamePartPositions.c, zpathnameSetPart.c
* `PdHeadModel.v`: zStructAllocation.h, zpdStore.c, zpdUnitsToHead.c
* `PdModel.v`: charInt.c, convertDataArray.c, convertDataType.c, zStructPairedData.h, zgetBuff.c, zpdRetrieve.c, zpdStore.c, zputBuff.c
* `RegStoreModel.v`: ztsFirstLastValidValues.c, ztsRegStoreBlock.c
* `RepeatModel.v`: convertDataLength.c, convertDataType.c, ztsRegRepeatCompress.c, ztsRegRepeatUncompress.c
* `SeriesModel.v`: zStructTimeSeries.h, ztsProcessTimes.c, ztsRetrieveReg7.c, ztsStoreReg7.c
* `SortModel.v`: sortfiles.c
* `SqueezeModel.v`: copyFile.c, stringHeaderUtility.c, zcopyFile.c, zcopyRecordInternal.c, zreadInternal.c, zsqueeze7.c
* `TextModel.v`: copyLines.c, numberBytesInCharArray.c, strnlen_hec.c, zarrayRetrieve.c, zarrayStore.c, ztextRetrieve.c, ztextStore.c
* `TrimModel.v`: zStructTimeSeries.h, zmissingFlag.c, ztsRegAddTimes.c, ztsRetrieve.c, ztsTrim.c, ztsTrimAdjustTimeWindow.c
* `ValidModel.v`: zmissingFlag.c, ztsFirstLastValidValues.c
* `WhatModel.v`: zwhatChanged.c, zwhatChangedCompare.c, zwhatChangedSetStart.c

### Not modelled

* DSS version 6 files, the Fortran interface, the Java and Python wrappers, big-endian hosts except where `PackModel.v` says so.
* zopen/zclose beyond reading and writing the file header (`reopen`), file access modes, file-system errors.
* ztsStore/ztsRetrieve as a whole: modelled are the block partition, the per-block merge of regular and irregular data,
  the layout of the record, repeat compression, the header strings and the windows, each as its own function.
* Paired data (zpd*), grids (zspatial*), location records (zlocation*), the catalogue and its sort, quality flags and zcopyFile
  beyond the functions in the list above: their store and retrieve calls as a whole, error message texts, copies between versions.
* Time-series renames (zrename changes D and E parts), aliases inside the word-level engine (see C28 for the directory level).
* Torn writes: a crash inside one disk write.

{"id": "C01", "title": "Civil date to day number and back", "statement": "For every valid civil date, converting year/month/day to a DSS Julian day and converting that day back yields the same year, month and day.", "quantifier": "every valid proleptic-Gregorian date, years -5,000,000 to 5,000,000 (year 0 included)", "why_tests_cant": "infinitely many dates; the conversion uses a float estimate followed by a bounded search that could miss for rare days", "anchors": ["heclib/heclib_c/src/Utilities/DateTime/yearMonthDayToJulian.c:yearMonthDayToJulian", "heclib/heclib_c/src/Utilities/DateTime/julianToYearMonthDay.c:julianToYearMonthDay"]}
{"id": "C02", "title": "Day numbers are the Gregorian calendar", "statement": "Day numbers of successive calendar days are consecutive integers, with 01Jan1900 = 1: the number of days between two dates is the difference of their Julian days.", "quantifier": "every valid civil date, years -5,000,000 to 5,000,000", "why_tests_cant": "tests sample years; month/leap/century boundaries exist for every year", "anchors": ["heclib/heclib_c/src/Utilities/DateTime/yearMonthDayToJulian.c:yearMonthDayToJulian", "heclib/heclib_c/src/Utilities/DateTime/isLeapYear.c:isLeapYear"]}
{"id": "C03", "title": "Month overflow arithmetic", "statement": "Passing a month outside 1..12 (any sign) gives the day number of the correctly carried year and month.", "quantifier": "every integer month and year", "why_tests_cant": "unbounded integer month with C truncating division of negatives", "anchors": ["heclib/heclib_c/src/Utilities/DateTime/yearMonthDayToJulian.c:yearMonthDayToJulian"]}
{"id": "C04", "title": "Time normalisation preserves the instant", "statement": "Normalising a (day, time) pair leaves the represented instant unchanged, yields 0 < time <= one day, and is idempotent; undefined times stay undefined.", "quantifier": "every day, every 32-bit time, every granularity that divides the day", "why_tests_cant": "all 2^32 times incl. negatives and exact multiples", "anchors": ["heclib/heclib_c/src/Utilities/DateTime/cleanTime.c:cleanTime"]}
{"id": "C05", "title": "Adding short intervals is exact addition", "statement": "Incrementing a time by n periods of an interval below 10 days moves the instant by exactly n*interval seconds, so +n then -n returns and increments compose.", "quantifier": "every start time, period count and interval < 10 days", "why_tests_cant": "products overflow 32 bits for large counts; boundary handling at midnight", "anchors": ["heclib/heclib_c/src/Utilities/DateTime/incrementTime.c:incrementTime"]}
{"id": "C06", "title": "Adding calendar intervals follows the calendar", "statement": "Incrementing an end-of-period time by n months (years, half-months, thirds of months) gives the end of the period n later, and increments compose.", "quantifier": "every end-of-period start date and every n", "why_tests_cant": "month lengths, leap years and C division of negative counts", "anchors": ["heclib/heclib_c/src/Utilities/DateTime/incrementTime.c:incrementTime", "heclib/heclib_c/src/Public/ztsOffsetAdjustToStandard.c", "heclib/heclib_c/src/Public/ztsOffsetAdjustToOffset.c"]}
{"id": "C07", "title": "Time comparison is the order of instants", "statement": "Comparing two (day,time,base,granularity) values returns the sign of the difference of the instants, whatever granularity or base expresses them, so it is a total order.", "quantifier": "every pair of defined times, any granularities", "why_tests_cant": "pairs of representations are unbounded", "anchors": ["heclib/heclib_c/src/Utilities/DateTime/compareTimes.c:compareTimes"]}
{"id": "C08", "title": "Period counting inverts period increment", "statement": "The number of periods between a standard time and that time incremented by n periods is n.", "quantifier": "every standard start, n and standard interval", "why_tests_cant": "all intervals, counts, calendar boundaries", "anchors": ["heclib/heclib_c/src/Utilities/DateTime/numberPeriods.c:numberPeriods", "heclib/heclib_c/src/Utilities/DateTime/incrementTime.c:incrementTime"]}
{"id": "C09", "title": "Standardising a time finds the end of its period", "statement": "Adjusting a time to standard gives the end of the interval period that contains it: never earlier, less than one interval later, a fixed point of adjustment, with the returned offset the distance from the period start.", "quantifier": "every time and every regular interval up to a week; every calendar interval", "why_tests_cant": "all times and intervals", "anchors": ["heclib/heclib_c/src/Public/ztsOffset.c:ztsOffset", "heclib/heclib_c/src/Public/ztsOffsetAdjustToStandard.c"]}
{"id": "C10", "title": "Day of week", "statement": "Day-of-week is in 1..7 and advances by one (cyclically) from each day to the next.", "quantifier": "every day number", "why_tests_cant": "negative (pre-1900) day numbers use C remainder", "anchors": ["heclib/heclib_c/src/Utilities/DateTime/dayOfWeek.c:dayOfWeek"]}
{"id": "C11", "title": "Date strings round-trip", "statement": "Formatting a day as ddMMMyyyy (or ISO or m/d/y) and parsing the text returns the same day.", "quantifier": "every date of years 1..9999 and every style that writes day, month and full year (styles with two-digit years cannot round-trip)", "why_tests_cant": "all dates and styles", "anchors": ["heclib/heclib_c/src/Utilities/DateTime/julianToDate.c", "heclib/heclib_c/src/Utilities/DateTime/yearMonthDayToDate.c", "heclib/heclib_c/src/Utilities/DateTime/dateToYearMonthDay.c", "heclib/heclib_c/src/Utilities/DateTime/dateToJulian.c"]}
{"id": "C12", "title": "Time strings round-trip", "statement": "Formatting seconds past midnight as hhmm / hh:mm / hh:mm:ss and parsing returns the same time to the precision of the style.", "quantifier": "every second of the day and each style", "why_tests_cant": "state-of-day sweep plus style/buffer variants", "anchors": ["heclib/heclib_c/src/Utilities/DateTime/secondsToTimeString.c", "heclib/heclib_c/src/Utilities/DateTime/timeStringToSecondsMills.c", "heclib/heclib_c/src/Utilities/DateTime/timeStringToSeconds.c"]}
{"id": "C13", "title": "Interval names and seconds agree", "statement": "The E-part of each standard interval maps to its seconds and back; a text is accepted exactly when it begins a standard name or a standard name begins it (ignoring case), and otherwise rejected with nothing changed; seconds of no interval are rejected; enumeration lists each interval exactly once; no standard name is shadowed by a prefix of another.", "quantifier": "every standard interval of both versions and every other string/number", "why_tests_cant": "prefix matching over arbitrary strings", "anchors": ["heclib/heclib_c/src/SemiPublic/ztsGetStandardInterval.c", "heclib/heclib_c/src/Public/ztsGetInterval.c"]}
{"id": "C14", "title": "Integer pair packing round-trips", "statement": "Two 32-bit integers packed into one 64-bit file word are recovered exactly.", "quantifier": "all 2^64 pairs", "why_tests_cant": "exhaustive pairs", "anchors": ["heclib/heclib_c/src/Utilities/i4toi8.c", "heclib/heclib_c/src/Utilities/i8toi4.c"]}
{"id": "C15", "title": "Forming a pathname and reading back its parts", "statement": "The pathname formed from six parts has seven slashes, and reading part k returns the k-th part trimmed of blanks.", "quantifier": "all six-tuples of slash-free parts that fit the buffer", "why_tests_cant": "all strings", "anchors": ["heclib/heclib_c/src/Public/zpathnameForm.c", "heclib/heclib_c/src/Public/zpathnameAddPart.c", "heclib/heclib_c/src/Public/zpathnameGetPart.c", "heclib/heclib_c/src/Public/zpathnamePartPositions.c"]}
{"id": "C16", "title": "Replacing one pathname part", "statement": "Setting part k makes part k read back as the new text and leaves the other five unchanged, and never writes outside the caller's buffer.", "quantifier": "all well-formed pathnames, parts, positions and buffer sizes", "why_tests_cant": "all strings and sizes; in-place shifting", "anchors": ["heclib/heclib_c/src/Public/zpathnameSetPart.c"]}
{"id": "C17", "title": "Cleaning a pathname", "statement": "Cleaning keeps exactly the printable characters up to the seventh slash, is idempotent, and never writes outside the caller's buffer.", "quantifier": "all strings and buffer sizes", "why_tests_cant": "all byte strings and sizes", "anchors": ["heclib/heclib_c/src/Public/zpathnameClean.c"]}
{"id": "C18", "title": "Hashing respects pathname identity", "statement": "Pathnames equal ignoring case have equal table and pathname hashes; the table hash is always a valid hash-table index.", "quantifier": "all pathnames and hash table sizes", "why_tests_cant": "all strings and table sizes; bit-shift loop", "anchors": ["heclib/heclib_c/src/Internal/zhash.c", "heclib/heclib_c/src/Public/zpathnameCompare.c"]}
{"id": "C19", "title": "Repeat compression is lossless", "statement": "Compressing an array by removing repeated values and uncompressing any sub-range gives back the original values of that range.", "quantifier": "all arrays, element sizes and sub-ranges", "why_tests_cant": "all arrays; bit masks across 32-bit words", "anchors": ["heclib/heclib_c/src/Internal/ztsRegRepeatCompress.c", "heclib/heclib_c/src/Internal/ztsRegRepeatUncompress.c"]}
{"id": "C20", "title": "Time-series header strings round-trip", "statement": "Units, type and time-zone name stored in the internal header of a record are read back unchanged.", "quantifier": "all strings", "why_tests_cant": "all strings incl. empty and long", "anchors": ["heclib/heclib_c/src/Internal/ztsInternalHeaderPack.c", "heclib/heclib_c/src/Internal/ztsInternalHeaderUnpack.c", "heclib/heclib_c/src/Utilities/stringHeaderUtility.c"]}
{"id": "C21", "title": "Buffered I/O is transparent", "statement": "A sequence of buffered writes and reads followed by a flush leaves the file, and returns to each read, exactly what the same unbuffered sequence would.", "quantifier": "all operation sequences and buffer sizes", "why_tests_cant": "all interleavings of reads/writes/flushes against buffer geometry", "anchors": ["heclib/heclib_c/src/Internal/zputBuff.c", "heclib/heclib_c/src/Internal/zgetBuff.c", "heclib/heclib_c/src/Internal/zflushBuffers.c"]}
{"id": "C22", "title": "A file behaves as a map from pathname to record", "statement": "After any sequence of record writes, reading a pathname returns exactly the headers and values of the last write to it (ignoring case) and 'not found' if there was none; writing one pathname never changes what is read for another.", "quantifier": "all operation histories, pathnames, record sizes, hash-table and bin sizes", "why_tests_cant": "all histories; collisions, overflow bins, growth and shrinkage of records", "anchors": ["heclib/heclib_c/src/Internal/zwriteInternal.c", "heclib/heclib_c/src/Internal/zwriteNew.c", "heclib/heclib_c/src/Internal/zwriteExisting.c", "heclib/heclib_c/src/Internal/zreadInternal.c", "heclib/heclib_c/src/Internal/zcheckInternal.c", "heclib/heclib_c/src/Internal/zbinNew.c", "heclib/heclib_c/src/Internal/zbinUpdate.c"]}
{"id": "C23", "title": "Rewriting a record in place stays inside its space", "statement": "When an existing record is rewritten in place, the bytes written lie inside the file space that was allocated to that record.", "quantifier": "all combinations of old and new header/data sizes", "why_tests_cant": "sizes are unbounded and rounding differs per section", "anchors": ["heclib/heclib_c/src/Internal/zwriteExisting.c"]}
{"id": "C24", "title": "Delete and undelete", "statement": "After a delete the pathname is not found and every other record is unchanged; undelete restores the record exactly.", "quantifier": "all histories", "why_tests_cant": "all histories", "anchors": ["heclib/heclib_c/src/Internal/zdeleteInternal.c", "heclib/heclib_c/src/DssInterface/v6and7/zdelete.c", "heclib/heclib_c/src/DssInterface/v6and7/zundelete.c"]}
{"id": "C25", "title": "Rename", "statement": "After a rename the old name is not found, the new name reads exactly what the old one did, other records are unchanged; renaming onto an existing record replaces it; if the old name is not found nothing changes.", "quantifier": "all histories and pathname pairs", "why_tests_cant": "all histories", "anchors": ["heclib/heclib_c/src/Public/zrename.c"]}
{"id": "C26", "title": "File space is never handed out twice", "statement": "Space handed out by the allocator never overlaps space in use, including when reclaimed space is re-used.", "quantifier": "all sequences of allocations and releases", "why_tests_cant": "all sequences; table overflow and splitting", "anchors": ["heclib/heclib_c/src/Internal/zgetFileSpace.c", "heclib/heclib_c/src/Internal/zreleaseFileSpace.c", "heclib/heclib_c/src/Internal/zreclaimRead.c"]}
{"id": "C27", "title": "Re-using a deleted pathname slot keeps every other record", "statement": "Writing a new pathname when deleted pathname slots exist never makes another record unreachable.", "quantifier": "all histories with deletes, all pathname lengths", "why_tests_cant": "needs full bins, overflow chains and particular length relations", "anchors": ["heclib/heclib_c/src/Internal/zbinUpdate.c", "heclib/heclib_c/src/Internal/zbinNew.c", "heclib/heclib_c/src/Internal/zcheckInternal.c"]}
{"id": "C28", "title": "Aliases read the primary record", "statement": "Reading an alias returns the primary's data; removing an alias removes only that name; removing all aliases leaves the primary.", "quantifier": "all alias graphs and histories", "why_tests_cant": "all histories", "anchors": ["heclib/heclib_c/src/Public/zaliasAdd.c", "heclib/heclib_c/src/Public/zaliasRemove.c", "heclib/heclib_c/src/Public/zaliasRemoveAll.c", "heclib/heclib_c/src/Public/zaliasGetPrimary.c"]}
{"id": "C29", "title": "Crash during a write", "statement": "If the process stops between any two disk writes of a record write, then after reopening all other records still read back unchanged.", "quantifier": "every crash point of every write", "why_tests_cant": "every prefix of the write sequence", "anchors": ["heclib/heclib_c/src/Internal/zwriteInternal.c", "heclib/heclib_c/src/Internal/zpermWrite.c", "heclib/heclib_c/src/Internal/zlockActive.c"]}
{"id": "C30", "title": "Writers exclude each other", "statement": "In multi-user access at most one handle is between lock and unlock, each locked section starts from the header last written by any handle, so no committed header update is lost.", "quantifier": "all interleavings of any number of handles", "why_tests_cant": "all schedules", "anchors": ["heclib/heclib_c/src/Internal/zlockActive.c", "heclib/heclib_c/src/Internal/zlockPassive.c", "heclib/heclib_c/src/System/zlockdss.c"]}
{"id": "C31", "title": "Irregular merge", "statement": "Merging a new irregular series into a stored block gives times strictly increasing, containing every old and new time exactly once, with the new value where both exist; in replace mode the old values inside the replaced window are removed.", "quantifier": "all pairs of sorted series", "why_tests_cant": "all interleavings of two sorted arrays", "anchors": ["heclib/heclib_c/src/Internal/ztsIrregMergeBlocks.c"]}
{"id": "C32", "title": "Regular store flags", "statement": "For each storage flag, the value kept at each position of a block is exactly the documented function of (old value, new value, missing-ness).", "quantifier": "all arrays, positions and flags", "why_tests_cant": "all combinations", "anchors": ["heclib/heclib_c/src/Internal/ztsRegStoreBlock.c"]}
{"id": "C33", "title": "Block partition", "statement": "Successive blocks of a time series are adjacent: each time belongs to exactly one block and stepping blocks forward and back returns to the same block.", "quantifier": "all dates of years 200 to 4,999,899, all five block sizes, all regular intervals, all step counts that stay in that range (before year 0 the claim is refuted)", "why_tests_cant": "all dates incl. leap years, decades and centuries", "anchors": ["heclib/heclib_c/src/Internal/ztsRegGetBlockStart.c", "heclib/heclib_c/src/Internal/ztsIrregGetBlockStart.c", "heclib/heclib_c/src/Internal/ztsIncrementBlock.c"]}
{"id": "C34", "title": "Error codes round-trip", "statement": "An encoded error status decodes to the same severity, error number, function and subsequent function, and every encoded status is recognised as an error.", "quantifier": "all severities, error numbers, function numbers in range", "why_tests_cant": "all combinations", "anchors": ["heclib/heclib_c/src/Internal/zerrorEncode.c", "heclib/heclib_c/src/Internal/zerrorDecode.c", "heclib/heclib_c/src/Internal/zerrorEncodeHigh.c", "heclib/heclib_c/src/SemiPublic/zisError.c"]}
{"id": "C35", "title": "Squeeze preserves content", "statement": "Squeezing copies every live record: the new file reads the same for every pathname, with no deleted records.", "quantifier": "all file states", "why_tests_cant": "all histories", "anchors": ["heclib/heclib_c/src/Public/zsqueeze7.c", "heclib/heclib_c/src/Public/zcopyFile.c", "heclib/heclib_c/src/Internal/zcopyRecordInternal.c"]}
{"id": "C36", "title": "Catalogue lists exactly the live records", "statement": "The unsorted catalogue lists each live pathname exactly once and nothing else.", "quantifier": "all histories", "why_tests_cant": "all histories", "anchors": ["heclib/heclib_c/src/Internal/zcatalogInternal.c"]}
{"id": "C37", "title": "Byte order conversion", "statement": "Byte/word swapping is an involution and text stored in file words reads back the same on either byte order.", "quantifier": "all words and strings", "why_tests_cant": "all inputs", "anchors": ["heclib/heclib_c/src/System/zswap.c", "heclib/heclib_c/src/System/zswitchInts.c", "heclib/heclib_c/src/System/zswitchDoubles.c", "heclib/heclib_c/src/Internal/charLong.c", "heclib/heclib_c/src/Internal/charInt.c"]}
{"id": "C38", "title": "Text tables and notes round-trip", "statement": "Packing a table of strings (or a list of note lines) into one buffer and rebuilding the pointers gives the same strings.", "quantifier": "all tables", "why_tests_cant": "all strings", "anchors": ["heclib/heclib_c/src/Utilities/numberBytesInCharArray.c", "heclib/heclib_c/src/Utilities/copyLines.c"]}
{"id": "C39", "title": "Collection names", "statement": "The collection marker of an F part is recognised exactly when present, and comparing collection pathnames ignores exactly the sequence.", "quantifier": "all pathnames", "why_tests_cant": "all strings", "anchors": ["heclib/heclib_c/src/Internal/zcollectionsPath.c", "heclib/heclib_c/src/Public/zpathnameCompareCollection.c", "heclib/heclib_c/src/Public/zsetCollectionSequence.c"]}
{"id": "C40", "title": "F-part tag normalisation", "statement": "Normalising an F part yields tags in canonical order, each at most once, and is idempotent.", "quantifier": "all F parts", "why_tests_cant": "all strings", "anchors": ["heclib/heclib_c/src/Utilities/normalizeFPart.c"]}
{"id": "C41", "title": "Window reads of a stored block", "statement": "Reading any window of a stored regular time-series block returns, at each position inside the stored span, exactly the stored value, quality and note (converted to the caller's element sizes), and missing / zero / empty at the others.", "quantifier": "all blocks, windows, element sizes and conversions", "why_tests_cant": "every overlap geometry of stored span and window, with and without repeat compression", "anchors": ["heclib/heclib_c/src/Internal/ztsAggregate.c", "heclib/heclib_c/src/Internal/ztsDisaggregate.c", "heclib/heclib_c/src/Internal/ztsRegReadBlock.c"]}
{"id": "C42", "title": "A merge sees the whole stored irregular block", "statement": "The number of values recorded for an irregular block is never less than the number stored, so that a later store into the block, which reads at most that many, loses none.", "quantifier": "all blocks, times and counts", "why_tests_cant": "depends on average spacing, integer division and block length", "anchors": ["heclib/heclib_c/src/Internal/ztsIrregStoreBlock.c:ztsIrregStoreBlock"]}
{"id": "C43", "title": "Array records round-trip", "statement": "Storing an array record (ints, floats, doubles, header) and retrieving it, with any other operations on other names in between, gives the same arrays.", "quantifier": "all arrays, all histories", "why_tests_cant": "all values, all histories of the file", "anchors": ["heclib/heclib_c/src/Public/zarrayStore.c", "heclib/heclib_c/src/Public/zarrayRetrieve.c"]}
{"id": "C44", "title": "Time-window selection of irregular data", "statement": "Testing the ascending times of an irregular block against a time window selects exactly those times whose instant lies in the window, bounds included.", "quantifier": "all windows, base dates, granularities and ascending time lists", "why_tests_cant": "all inputs; the status carried between calls", "anchors": ["heclib/heclib_c/src/Utilities/DateTime/isTimeInRange.c:isTimeInRange", "heclib/heclib_c/src/Internal/ztsIrregReadBlock.c:ztsIrregReadBlock"]}
{"id": "C45", "title": "An instant is written as a date and a time that name it", "statement": "Writing an instant given as a base day plus a number of time units yields a date text and a time text that parse back to that day and that time of day, the end of a day being 2400 of that day.", "quantifier": "all base days, offsets, time units of one second or whole minutes that divide the day, days of years 5 to 4,999,999", "why_tests_cant": "all inputs", "anchors": ["heclib/heclib_c/src/Utilities/DateTime/getDateAndTime.c:getDateAndTime"]}
{"id": "C46", "title": "A regular series reads back as last stored, whatever the blocks", "statement": "After any history of stores of regular data, a read of any window returns, period by period, the value (and quality) that the documented meaning of the storage flags leaves there, and missing where nothing was stored, no matter how the windows lie across the blocks of the series.", "quantifier": "all histories of stores, all windows, all regular intervals, all storage flags", "why_tests_cant": "every alignment of windows and blocks, all histories", "anchors": ["heclib/heclib_c/src/Internal/ztsStoreReg7.c", "heclib/heclib_c/src/Internal/ztsRetrieveReg7.c", "heclib/heclib_c/src/Internal/ztsProcessTimes.c", "heclib/heclib_c/src/Internal/ztsRegStoreBlock.c"]}
{"id": "C47", "title": "Catalogue patterns select exactly the matching records", "statement": "A catalogue made with a pathname that has wild characters lists each live record whose six parts match the six parts of the pattern (star at the ends of a part, case ignored, an empty part matching only an empty part) exactly once, and no other; a collection pattern stands for every sequence.", "quantifier": "all histories of the file, all patterns of six parts, all names", "why_tests_cant": "all histories, all pairs of pattern and name", "anchors": ["heclib/heclib_c/src/Public/zcatalog.c", "heclib/heclib_c/src/Internal/zcatParsePath.c", "heclib/heclib_c/src/Internal/zcatComparePath.c", "heclib/heclib_c/src/Internal/zcatalogInternal.c", "heclib/heclib_c/src/Utilities/zfindString.c"]}
{"id": "C48", "title": "An irregular time series is one series, however many blocks it spans", "statement": "Start from nothing and make any sequence of stores of an irregular series (times in order; same granularity of a second, minute, hour or day; with the merge flag, or with the replace flag in the cases where C31 holds).  Every store succeeds, and afterwards retrieving any time window, whatever base date the caller proposes, returns in order of time exactly the instants of the window that hold a value by the history of stores (the last value stored at an instant, minus what a replacing store removed), each with its value, and nothing else.", "quantifier": "every block size, every granularity of the four, every sequence of stores of any length with any numbers of values, every window spanning any number of blocks, every proposed base date", "why_tests_cant": "Which blocks a store and a window touch, and whether a value falls first or last in its block, depend on the calendar; the block arithmetic, the time conversions in 32 bit integers and the merging interact only over a history.", "anchors": ["heclib/heclib_c/src/Internal/ztsStoreIrreg7.c: ztsStoreIrreg7", "heclib/heclib_c/src/Internal/ztsRetrieveIrreg7.c: ztsRetrieveIrreg7", "heclib/heclib_c/src/Internal/ztsIrregStoreBlock.c: ztsIrregStoreBlock", "heclib/heclib_c/src/Internal/ztsIrregReadBlock.c: ztsIrregReadBlock", "heclib/heclib_c/src/Internal/ztsProcessTimes.c: ztsProcessTimes", "heclib/heclib_c/src/Internal/ztsGetSizesInternal.c"]}
{"id": "C49", "title": "Paired data is a table", "statement": "Whatever sequence of stores of whole paired-data tables, reservations, and stores of rectangular parts (some rows of some curves, with or without the label of the one curve stored) a client makes on a record, a later retrieve of any part, as stored or converted to floats or doubles, succeeds and returns exactly the ordinates, values and curve labels last put in each row and curve; nothing outside a stored part changes.", "quantifier": "every sequence of covered stores, every table size, every rectangle of rows and curves stored or read, float or double arrays on either side, every content of the padding halves of longs", "why_tests_cant": "The bugs are in address arithmetic for odd/even word positions, partial rectangles and packed labels; the number of shapes and store sequences is unbounded.", "anchors": ["heclib/heclib_c/src/Public/zpdStore.c:zpdStore", "heclib/heclib_c/src/Public/zpdRetrieve.c:zpdRetrieve", "heclib/heclib_c/src/Utilities/convertDataArray.c:convertDataArray", "heclib/heclib_c/src/Internal/charInt.c:charInt"]}
{"id": "C50", "title": "Trimming a regular series keeps exactly the part with values, each with its own time", "statement": "When a regular time series is read and the caller asks for it to be trimmed, what comes back goes from the first time that has a value (for a profile: any value at any depth) to the last one; nothing in between is lost, and quality, note numbers and note texts stay with their values. The start and end dates and the time of every value returned are those the value had before trimming, offset included. Without trimming every value read has its own time. If all is missing, nothing comes back and the caller is told.", "quantifier": "all series read (any number of times, depths, quality and note layouts), intervals of up to a day that divide it, a week, and calendar intervals, all offsets, granularities and which values are missing", "why_tests_cant": "any number of leading and trailing missing values, on any interval, offset and granularity", "anchors": ["heclib/heclib_c/src/Internal/ztsTrim.c:ztsTrim", "heclib/heclib_c/src/Internal/ztsTrimAdjustTimeWindow.c:ztsTrimAdjustTimeWindow", "heclib/heclib_c/src/Internal/ztsRegAddTimes.c:ztsRegAddTimes", "heclib/heclib_c/src/Public/ztsRetrieve.c:ztsRetrieve"]}
{"id": "C51", "title": "The calls of the library interface fill the buffers of the caller with what the file holds, and touch nothing else", "statement": "After any history, a text stored with hec_dss_textStore comes back from hec_dss_textRetrieve in the first bytes of the buffer, cut to its size with a status that says so; hec_dss_arrayRetrieveInfo gives the counts of the arrays stored and hec_dss_arrayRetrieve fills each buffer asked for with exactly that count; a table stored with hec_dss_pdStore comes back from hec_dss_pdRetrieve when the right counts are given, and the call fails and leaves the buffers alone otherwise; hec_dss_tsRetrieve gives as many values as fit, each with its own time and quality; hec_dss_catalog puts as many names as fit, each in its own piece of the buffer, with its type. No byte beyond the sizes given is read or written.", "quantifier": "all texts, arrays, tables, series and catalogues; all buffers and sizes; all histories before and between the calls", "why_tests_cant": "the sizes of what is stored, of the buffers and the arguments are independent of each other; tests use buffers that fit", "anchors": ["heclib/hecdss/hecdss.c:hec_dss_textStore, hec_dss_textRetrieve, hec_dss_arrayStore, hec_dss_arrayRetrieve, hec_dss_pdStore, hec_dss_pdRetrieve, hec_dss_tsRetrieve, hec_dss_tsStoreRegular, hec_dss_catalog", "heclib/heclib_c/src/Utilities/mallocAndCopy.c:mallocAndCopy"]}
{"id": "C52", "title": "The location of a site is stored once and found under every pathname of the site", "statement": "A location stored with zlocationStore (or hec_dss_locationStore) under a pathname is kept in one record per site, named by the first two parts alone; after any history that leaves that record alone it is retrieved under every pathname with the same first two parts but for case, with all its numbers, its supplemental text and its time zone name. Two sites share their location exactly when those parts agree but for case. Storage flag 0 never replaces a location, and a location with nothing in it changes nothing. The buffers of the interface hold the texts cut to their sizes and nothing past the sizes is touched.", "quantifier": "all pathnames of six parts, all locations, all texts and buffer sizes, all histories before and between the calls", "why_tests_cant": "the name of the record is built from the pathname and the texts are packed into words; tests use a few names and short texts", "anchors": ["heclib/heclib_c/src/Public/zlocationStore.c:zlocationStore", "heclib/heclib_c/src/Public/zlocationRetrieve.c:zlocationRetrieve", "heclib/heclib_c/src/Public/zlocationPath.c:zlocationPath", "heclib/heclib_c/src/SemiPublic/zlocationStructValid.c:zlocationStructValid", "heclib/hecdss/hecdss.c:hec_dss_locationStore, hec_dss_locationRetrieve"]}
{"id": "C53", "title": "Base 64 text stands for the bytes it was made from", "statement": "b64Encode turns any sequence of bytes into its base 64 text (RFC 4648, with = for what is missing at the end) and a NUL, and writes nothing outside the buffer it allocates. b64Decode of that text gives the same bytes back, and different bytes never have the same text.", "quantifier": "all sequences of bytes of any length, whatever follows them in memory", "why_tests_cant": "every byte value in every position of a group, and every length modulo 3, goes through different shifts and masks; a test tries a few texts", "anchors": ["heclib/heclib_c/src/Utilities/verticalDatum.c:b64Encode, b64Decode, b64EncodedLen, b64DecodedLen"]}
{"id": "C54", "title": "Keyed values in a text are found again and do not disturb each other", "statement": "In a text of entries key:value; the value of a key is found with extractFromDelimitedString (with or without regard to case) and removed without changing the others; insertIntoDelimitedString adds the value of a new key and replaces that of an existing one, or keeps it when asked to, and every other entry stays as it was; nothing past the given size is written. So the vertical datum information given with a series ends up in the supplemental text of its location, new or replaced, with all else kept. A text put into a user header comes back from it.", "quantifier": "all keys, separators, delimiters, values, other entries, buffer sizes and contents of new memory", "why_tests_cant": "keys and values may contain each other, and the memory behind the text and its size vary; tests use one or two entries", "anchors": ["heclib/heclib_c/src/Utilities/verticalDatum.c:extractFromDelimitedString, insertIntoDelimitedString, dss_strcasestr, stringToUserHeader, userHeaderToString", "heclib/heclib_c/src/Public/ztsStore.c:ztsStore", "heclib/heclib_c/src/Public/zpdStore.c:zpdStore"]}
{"id": "C55", "title": "A sorted catalogue lists every record once, in order", "statement": "A catalogue requested with sorting names every record of the unsorted catalogue exactly once and nothing else; names come in the order of their parts, and the blocks of one time series come in the order of their dates, the grids of one product in the order of their dates and times. The file sort used for it returns the same lines in increasing order for every file, whether it fits in memory or is merged from temporary files.", "quantifier": "every list of record names and data types, every length of the longest parts, every text file size", "why_tests_cant": "the order depends on every name, on the widths kept in the file header and on the scan order, and the merge only runs for files larger than the buffer", "anchors": ["heclib/heclib_c/src/Utilities/sortfiles.c:sortfiles", "heclib/heclib_c/src/Internal/zcatSortPath.c:zcatSortPath", "heclib/heclib_c/src/Internal/zcatInternalSort.c:zcatInternalSort", "heclib/heclib_c/src/Internal/zcatalogInternal.c:zcatalogInternal", "heclib/heclib_c/src/Utilities/toFixedFields.c:toFixedFields", "heclib/heclib_c/src/Utilities/getLastInt.c:getLastInt"]}
{"id": "C56", "title": "A grid reads back as it was stored", "statement": "A spatial grid stored with zspatialGridStore (or hec_dss_gridStore), compressed or not, or already compressed by the caller, reads back with the same cells, numbers, texts, statistics and ranges; what cannot be stored is refused and nothing is written", "quantifier": "every grid (size, cells, ranges, texts), both compression methods, every buffer size of the caller, every history of the file before and after", "why_tests_cant": "the cells, five variable texts and the ranges share packed sections whose layout depends on all the sizes at once; tests only try a few grids with tidy texts", "anchors": ["heclib/heclib_c/src/Public/zspatialGridStore.c:zspatialGridStore_extended", "heclib/heclib_c/src/Public/zspatialGridRetrieve.c:zspatialGridRetrieve", "heclib/heclib_c/src/Public/zlibcompress.c", "heclib/hecdss/hecdss.c:hec_dss_gridStore, hec_dss_gridRetrieve"]}
{"id": "C57", "title": "Copying a record, or a file, copies exactly that", "statement": "zcopyRecord, zduplicateRecord and zcopyFile leave under the new name(s) exactly what a read of the old name(s) answers, and every other name of the target reads as before; a record of another kind in the way is refused and nothing changes; a name that is not there copies nothing; the file stays a file that every later call works on", "quantifier": "every state of both files that calls, duplicates, copies and squeezes lead to, every pair of names, every record", "why_tests_cant": "a copy writes, moves, or overwrites in place depending on the target's whole history (sizes, freed space, bins); a test copies one record into a fresh file", "anchors": ["heclib/heclib_c/src/DssInterface/v6and7/zcopyRecord.c:zcopyRecord", "heclib/heclib_c/src/Internal/zcopyRecordInternal.c:zcopyRecordInternal", "heclib/heclib_c/src/Public/zduplicateRecord.c:zduplicateRecord", "heclib/heclib_c/src/Public/zcopyFile.c:zcopyFile"]}
{"id": "C58", "title": "What changed since a moment", "statement": "zwhatChangedSetStart and zwhatChanged report exactly the records that exist and were written since the start, each once; zwhatChangedCompare with CRC values reports exactly those whose content changed", "quantifier": "every history of writes, reads, deletes and reopenings before and after the start, every start time, every pair of catalogues with CRC values", "why_tests_cant": "the answer is collected from times in the directory that every write path must stamp, wherever the entry ended up", "anchors": ["heclib/heclib_c/src/Public/zwhatChangedSetStart.c", "heclib/heclib_c/src/Public/zwhatChanged.c", "heclib/heclib_c/src/Public/zwhatChangedCompare.c", "heclib/heclib_c/src/Internal/zcatalogInternal.c", "heclib/heclib_c/src/Internal/zwriteInternal.c"]}
{"id": "C59", "title": "The first and last time of a block that holds anything", "statement": "When a block of a regular time series is stored, the dates of its first and last data are those of the first and the last time that holds a value, a quality flag, a number note or a text note, for float and double values alike; it is taken as all missing exactly when no time holds any", "quantifier": "every block: every number of times, profile depth, pattern of missing values, quality, number notes and text notes, floats and doubles", "why_tests_cant": "the text notes are lines of different length in one array, walked from both ends at the same time as the values", "anchors": ["heclib/heclib_c/src/Internal/ztsFirstLastValidValues.c", "heclib/heclib_c/src/Internal/ztsRegStoreBlock.c"]}
{"id": "C60", "title": "Units, types and time zone of paired data are read back", "statement": "When paired data are stored with zpdStore with any units and types of the independent and dependent variables and any time zone name, zpdRetrieve gives each of the five strings back without its leading and trailing blanks (nothing for a null or blank one), and storing and reading never leave the arrays of the library.", "quantifier": "all five strings, of any length, null or not, and any contents of the uninitialised local arrays of zpdStore, zpdUnitsToHead and zpdHeadToUnits", "why_tests_cant": "The strings share one buffer of 400 bytes and one header; only particular total lengths and memory contents reach the branch where nothing is stored.", "anchors": ["heclib/heclib_c/src/Internal/zpdUnitsToHead.c: zpdUnitsToHead, zpdHeadToUnits", "heclib/heclib_c/src/Public/zpdStore.c: zpdStore (two calls)", "heclib/heclib_c/src/Utilities/stringHeaderUtility.c: appendStringToHeader"]}
{"id": "C61", "title": "A file name means the same file with or without its extension or quotes", "statement": "zopen and zgetFileVersion take any file name: a name that ends with .dss or .ds- (upper or lower case) is used as given, any other gets .dss; quotes around the name make no difference; two names give the same file only if they are equal or differ by that extension; and no name makes the library read or write outside its arrays.", "quantifier": "all file names: any length, any characters, with or without extension and quotes", "why_tests_cant": "A test tries a few names; the boundaries are the empty name, a name that is only an extension, and names longer than the buffer of 1024 bytes.", "anchors": ["heclib/heclib_c/src/System/zfileName.c: zfileName", "heclib/heclib_c/src/Utilities/stringCat.c: stringCat", "heclib/heclib_c/src/Utilities/lowerCase.c: lowerCase"]}
{"id": "C62", "title": "Grids and TINs are dated by the D and E parts of their names", "statement": "When a grid or TIN is stored, or listed in a sorted catalogue, a D or E part made of a date, a colon and a time is taken as exactly that day and that time of day; a part that is not made so gives no date.", "quantifier": "all days of years 5 to 4,999,999 in every style that names the month, all times of day in the three styles, and all other texts", "why_tests_cant": "every date and time, and every text around them", "anchors": ["heclib/heclib_c/src/Utilities/DateTime/spatialDateTime.c: spatialDateTime", "heclib/heclib_c/src/Public/zspatialGridStore.c", "heclib/heclib_c/src/Internal/zcatSortPath.c"]}
{"id": "C63", "title": "Quality flags and notes keep their values when the element size changes", "statement": "When quality flags or notes are retrieved or stored with another number of words per entry (ztsRetrieveIrregArgs, ztsRegStoreBlock), every entry keeps its own words, in order, cut to the new size or filled with zeros, and nothing outside the output is changed; this also holds, as documented, when input and output are the same array.", "quantifier": "all numbers of entries, all element sizes, all contents, separate arrays or the same array", "why_tests_cant": "the words an in-place conversion destroys depend on the two sizes and the entry", "anchors": ["heclib/heclib_c/src/Utilities/convertIntArray.c: convertIntArray", "heclib/heclib_c/src/Utilities/convertDataLength.c: convertDataLength"]}
{"id": "C64", "title": "A number printed with commas", "statement": "longWithCommas prints any number in groups of three digits separated by commas, with its sign, so that removing the commas gives the number; it returns the length of the text, or -1 if the buffer is not large enough, and never writes past the buffer", "quantifier": "every 64-bit number and every size of the buffer", "why_tests_cant": "the cut of the digits happens only for buffers shorter than the number, and the overrun only for negative numbers whose digits just fit", "anchors": ["heclib/heclib_c/src/Utilities/longWithCommas.c: longWithCommas"]}
{"id": "C65", "title": "Integrity keys of an open file", "statement": "the integrity check of an open file passes exactly when the table is that of an open version 7 file and no key of the table or of its blocks of memory was written over; otherwise it gives the error that tells what is wrong (closed, another version, corrupt) and stops further writing, without itself reading outside of the memory", "quantifier": "every table and every content of the blocks", "why_tests_cant": "an overrun can hit any key with any value, and a test builds only intact or fully cleared tables", "anchors": ["heclib/heclib_c/src/Internal/zcheckKeys.c: zcheckKeys", "heclib/heclib_c/src/Internal/zmemoryGet.c: zmemoryGet", "heclib/heclib_c/src/Internal/zinit.c: zinit"]}

{"id": "C01", "title": "Get returns exactly what was Put", "statement": "After any sequence of embedDBPut (strictly ascending keys), embedDBFlush and embedDBGet calls on a freshly reset database, embedDBGet(k) returns 0 and the exact data bytes passed to the Put of k whenever that record is still retained, and -1 when k was never put or was evicted.", "quantifier": "all configurations accepted by init whose record layout fits, all operation histories, all keys and data bytes, all storage sizes", "why_tests_cant": "the outcome depends on page boundaries, wrap-around position, spline state and read-buffer contents; the number of histories is unbounded", "anchors": ["src/embedDB/embedDB.c:embedDBPut", "src/embedDB/embedDB.c:embedDBGet", "src/embedDB/embedDB.c:embedDBFlush", "src/embedDB/embedDB.c:writePage", "src/embedDB/embedDB.c:readPage"]}
{"id": "C02", "title": "Ring eviction keeps the newest records", "statement": "At every moment the retained records are a suffix of the accepted records: only whole oldest erase blocks are ever dropped, a drop happens only when the data area is full, and at least numDataPages - eraseSizeInPages full pages (plus the write buffer) are always retained once that many have been written.", "quantifier": "all histories of puts and flushes of any length, all numDataPages / eraseSizeInPages", "why_tests_cant": "wrap-around happens at every multiple of the data area; an off-by-one shows only for particular page counts", "anchors": ["src/embedDB/embedDB.c:writePage", "src/embedDB/embedDB.c:embedDBInit"]}
{"id": "C03", "title": "Non-ascending keys are rejected without effect", "statement": "embedDBPut with a key that is not strictly larger than the largest key already stored returns a non-zero value and changes neither memory-visible records nor storage.", "quantifier": "all database states reachable by any history, all keys", "why_tests_cant": "the comparison key comes from different places (write buffer, last page on storage) depending on history", "anchors": ["src/embedDB/embedDB.c:embedDBPut"]}
{"id": "C04", "title": "A key-range scan is exact", "statement": "An iterator with optional minKey and maxKey, run until embedDBNext returns 0, returns every retained record (on storage or still in the write buffer) whose key is in the range, each exactly once, in ascending key order, with its exact data, and nothing else.", "quantifier": "all reachable states, all range bounds including bounds outside the stored range or between keys", "why_tests_cant": "start page is chosen by the learned index; every stored layout and every bound must be considered", "anchors": ["src/embedDB/embedDB.c:embedDBInitIterator", "src/embedDB/embedDB.c:embedDBNext", "src/spline/spline.c:splineFind"]}
{"id": "C05", "title": "A data-range scan never loses a record", "statement": "An iterator with minData and/or maxData returns exactly the retained records satisfying the data (and key) bounds, whether or not a bitmap index is used to skip pages.", "quantifier": "all histories, all data bounds, with and without the index file and bitmaps", "why_tests_cant": "a page wrongly skipped by the bitmap index silently loses records only for particular data/page combinations", "anchors": ["src/embedDB/embedDB.c:embedDBNext", "src/embedDB/embedDB.c:embedDBFlush", "src/embedDB/embedDB.c:writeIndexPage", "src/embedDB/embedDB.c:bitmapOverlap"]}
{"id": "C06", "title": "Flushed data survives a clean reopen", "statement": "If embedDBFlush returned 0 and the database is closed and reopened without the reset flag, the reopened database retains exactly the records retained at the flush: same Get results, same scans, and further puts continue the same log.", "quantifier": "all histories ending in a flush, any number of wrap-arounds before the flush", "why_tests_cant": "recovery reconstructs its state only from page headers; its branches depend on the alignment of the last page in the ring", "anchors": ["src/embedDB/embedDB.c:embedDBInitDataFromFile", "src/embedDB/embedDB.c:embedDBInitSplineFromFile", "src/embedDB/embedDB.c:embedDBFlush"]}
{"id": "C07", "title": "A crash at any storage operation is recoverable", "statement": "If execution stops after any storage operation (page write or block erase) of any history, reopening the file gives a database whose retained records are a contiguous run of the accepted records that ends with the last page whose write completed.", "quantifier": "all histories, all crash points between storage operations, for storage whose erase is a no-op and for storage whose erase destroys the block", "why_tests_cant": "crash points are unbounded in number; tests can only place a few", "anchors": ["src/embedDB/embedDB.c:writePage", "src/embedDB/embedDB.c:embedDBInitDataFromFile"]}
{"id": "C08", "title": "Recovery after wrap-around loses at most one erase block", "statement": "Reopening after wrap-around recovers at least all pages except possibly the oldest retained erase block; it never resurrects an evicted or partially overwritten block and recovered state equals the state of a database that wrote the same pages and evicted the same block.", "quantifier": "all numbers of pages written, all data area and erase sizes", "why_tests_cant": "the lost block depends on alignment of next page with erase block and area size", "anchors": ["src/embedDB/embedDB.c:embedDBInitDataFromFile"]}
{"id": "C09", "title": "Storage discipline of the data area", "statement": "Every data page write goes to a physical page below numDataPages; ids in page headers increase by one per write and sit at id mod numDataPages; an erase always covers exactly one aligned erase block inside the area, holding only the oldest retained pages; and no retained page is ever overwritten.", "quantifier": "all histories of operations on a reset or recovered database", "why_tests_cant": "requires an invariant over unbounded histories; tests see only the sampled page counts", "anchors": ["src/embedDB/embedDB.c:writePage"]}
{"id": "C10", "title": "Learned index bounds are sound", "statement": "After any sequence of splineAdd calls with strictly increasing keys and consecutive page numbers, splineFind for any key k not below the first retained spline point returns low and high with low <= p <= high where p is the last page whose first key is <= k.", "quantifier": "all key sequences, all maxError values, all numbers of adds, all queried keys (present or absent)", "why_tests_cant": "the error corridor is maintained incrementally with integer cross products; violation needs particular slopes", "anchors": ["src/spline/spline.c:splineAdd", "src/spline/spline.c:splineFind", "src/spline/spline.c:pointsBinarySearch"]}
{"id": "C11", "title": "Learned index stays within its memory", "statement": "The number of spline points never exceeds the configured numSplinePoints, never drops below two once two have been added, and points stay ordered by key and page, under any sequence of adds and cleans.", "quantifier": "all sequences of adds and cleans, all sizes >= 4", "why_tests_cant": "ring-buffer arithmetic over an unbounded number of operations", "anchors": ["src/spline/spline.c:splineAdd", "src/spline/spline.c:splineErase", "src/embedDB/embedDB.c:cleanSpline"]}
{"id": "C12", "title": "Cleaning the learned index loses nothing", "statement": "Discarding spline points (because pages were evicted, or because the point array is full) never makes a key on a retained page unfindable.", "quantifier": "all spline states, all eviction positions", "why_tests_cant": "depends on interaction of eviction, ring position and error bounds", "anchors": ["src/embedDB/embedDB.c:cleanSpline", "src/spline/spline.c:splineErase", "src/embedDB/embedDB.c:splineSearch", "src/embedDB/embedDB.c:linearSearch"]}
{"id": "C13", "title": "In-page search is correct for any estimate", "statement": "Searching a page for a key returns the slot of the record with that key if the page holds it and not-found otherwise, whatever starting slot the floating-point slope estimate yields.", "quantifier": "all sorted pages of any size, all keys, all estimates", "why_tests_cant": "the float estimate depends on the key distribution; tests exercise few distributions", "anchors": ["src/embedDB/embedDB.c:embedDBSearchNode", "src/embedDB/embedDB.c:embedDBEstimateKeyLocation"]}
{"id": "C14", "title": "Binary-search mode agrees with spline mode", "statement": "A database opened with binary search instead of the spline returns the same Get results for the same history.", "quantifier": "all histories and keys", "why_tests_cant": "pages beyond the first probe are visited in data-dependent order; missing return statements depend on the compiler", "anchors": ["src/embedDB/embedDB.c:binarySearch", "src/embedDB/embedDB.c:embedDBGet"]}
{"id": "C15", "title": "Variable-length data round-trips", "statement": "After embedDBPutVar(k,d,bytes) is accepted, embedDBGetVar(k) returns d and a stream whose total length and bytes equal what was passed, as long as the variable data was not overwritten by wrap-around, however the bytes straddle pages.", "quantifier": "all histories of PutVar calls, all payload lengths including zero and multi-page, all page sizes", "why_tests_cant": "payload/page boundary alignment combinations are unbounded", "anchors": ["src/embedDB/embedDB.c:embedDBPutVar", "src/embedDB/embedDB.c:embedDBGetVar", "src/embedDB/embedDB.c:embedDBSetupVarDataStream", "src/embedDB/embedDB.c:embedDBVarDataStreamRead"]}
{"id": "C16", "title": "Overwritten variable data is reported, never returned", "statement": "If any byte of a record's variable data has been overwritten by wrap-around of the variable data area, embedDBGetVar returns 1 with no stream; otherwise it returns 0 with the full data.", "quantifier": "all histories, all variable area sizes, with no-op and destructive erase", "why_tests_cant": "depends on the bookkeeping of the smallest key with intact data across wrap-around", "anchors": ["src/embedDB/embedDB.c:writeVariablePage", "src/embedDB/embedDB.c:embedDBSetupVarDataStream"]}
{"id": "C17", "title": "Stream reads compose", "statement": "Reading a variable-data stream with any sequence of request sizes returns consecutive pieces whose concatenation is the stored payload, and then 0.", "quantifier": "all payloads, all sequences of chunk sizes", "why_tests_cant": "chunk boundaries interact with page boundaries; the number of combinations is unbounded", "anchors": ["src/embedDB/embedDB.c:embedDBVarDataStreamRead"]}
{"id": "C18", "title": "Records without variable data have none", "statement": "A record stored without variable data (embedDBPutVar with NULL, or embedDBPut) is later read with no stream, and a record stored with variable data is never read without one while it is intact.", "quantifier": "all interleavings of Put and PutVar", "why_tests_cant": "depends on a sticky flag across call sequences", "anchors": ["src/embedDB/embedDB.c:embedDBPut", "src/embedDB/embedDB.c:embedDBPutVar"]}
{"id": "C19", "title": "Record-level consistency: every acknowledged put survives a crash", "statement": "With record-level consistency enabled, once embedDBPut returns 0 the record is recovered after a crash at any later storage operation (unless evicted by wrap-around).", "quantifier": "all histories, all crash points, storage with destructive erase", "why_tests_cant": "crash points times histories is unbounded", "anchors": ["src/embedDB/embedDB.c:writeTemporaryPage", "src/embedDB/embedDB.c:shiftRecordLevelConsistencyBlocks", "src/embedDB/embedDB.c:embedDBInitDataFromFileWithRecordLevelConsistency"]}
{"id": "C20", "title": "Record-level consistency pages never destroy data", "statement": "Temporary pages are only written to, and erases only hit, the two reserved blocks or the blocks being retired; no retained permanent page is overwritten.", "quantifier": "all histories of put and flush with record-level consistency", "why_tests_cant": "depends on alignment between reserved blocks and next page over unbounded histories", "anchors": ["src/embedDB/embedDB.c:writeTemporaryPage", "src/embedDB/embedDB.c:shiftRecordLevelConsistencyBlocks"]}
{"id": "C21", "title": "Query comparison is integer comparison", "statement": "The comparison used by Selection and by min/max decides <,<=,=,!=,>=,> exactly as on the integers encoded in the column, signed or unsigned, for every column width from 1 to 8 bytes.", "quantifier": "all pairs of column values of all supported widths and signedness", "why_tests_cant": "2^128 pairs of 64-bit values", "anchors": ["src/query-interface/advancedQueries.c:compare", "src/query-interface/advancedQueries.c:compareSignedNumbers", "src/query-interface/advancedQueries.c:compareUnsignedNumbers"]}
{"id": "C22", "title": "Selection is filtering", "statement": "A selection operator over any input operator yields exactly the input records satisfying the predicate, in the same order, unmodified, and then reports end.", "quantifier": "all inputs, predicates, columns, widths", "why_tests_cant": "inputs are unbounded sequences of records", "anchors": ["src/query-interface/advancedQueries.c:createSelectionOperator"]}
{"id": "C23", "title": "Projection is column selection", "statement": "A projection operator yields for each input record exactly the requested columns' bytes, in order, and its schema describes them (sizes and signedness).", "quantifier": "all schemas, all ascending column lists, all records", "why_tests_cant": "schemas and column subsets are unbounded", "anchors": ["src/query-interface/advancedQueries.c:createProjectionOperator", "src/query-interface/schema.c"]}
{"id": "C24", "title": "Key join is the merge join", "statement": "Joining two operators whose first column is strictly ascending yields exactly one concatenated record per key present in both inputs, in ascending order.", "quantifier": "all pairs of ascending inputs", "why_tests_cant": "relative interleavings of two key sequences are unbounded", "anchors": ["src/query-interface/advancedQueries.c:createKeyJoinOperator"]}
{"id": "C25", "title": "Aggregation is group-by", "statement": "An aggregate operator partitions its input into maximal runs for which the grouping predicate holds between neighbours, and yields one record per run with the exact count, sum, minimum, maximum (and mean) of that run.", "quantifier": "all inputs, all grouping functions, column widths", "why_tests_cant": "run boundaries and end-of-input handling vary over unbounded inputs", "anchors": ["src/query-interface/advancedQueries.c:createAggregateOperator"]}
{"id": "C26", "title": "Schema arithmetic", "statement": "Column offsets are the sums of the absolute widths of the preceding columns, the record size is the sum of all, and the record buffer sized from the schema holds every column.", "quantifier": "all schemas", "why_tests_cant": "unbounded schemas; signed widths encode signedness", "anchors": ["src/query-interface/schema.c"]}
{"id": "C27", "title": "Bitmap buckets are consistent", "statement": "For the supplied bitmap functions, the bitmap built for a data range shares a bit with the bitmap of every value inside that range, so a page holding a matching record is never skipped.", "quantifier": "all values, all ranges (with either bound absent), for the 8, 16 and 64 bit bitmaps", "why_tests_cant": "2^32 values times 2^64 ranges", "anchors": ["lib/EmbedDB-Utility/embedDBUtility.c"]}
{"id": "C28", "title": "Supplied comparators are total orders", "statement": "int32Comparator and int64Comparator return -1, 0, 1 according to the order of the keys for all pairs of keys the database accepts.", "quantifier": "all pairs of 32 and 64 bit keys", "why_tests_cant": "2^64 / 2^128 pairs; subtraction overflow only at extreme differences", "anchors": ["lib/EmbedDB-Utility/embedDBUtility.c:int32Comparator", "lib/EmbedDB-Utility/embedDBUtility.c:int64Comparator"]}
{"id": "C29", "title": "Init accepts only usable configurations", "statement": "If embedDBInit returns 0 then every page-buffer access of later operations stays inside its page, at least one record fits a page, and the areas are whole numbers of erase blocks.", "quantifier": "all configurations", "why_tests_cant": "configuration space is huge; narrow integer types overflow only for particular sizes", "anchors": ["src/embedDB/embedDB.c:embedDBInit", "src/embedDB/embedDB.c:initBufferPage"]}
{"id": "C30", "title": "Storage failures are reported", "statement": "If a storage write or erase needed by embedDBPut or embedDBFlush fails, the call returns non-zero, and no record acknowledged with 0 is lost.", "quantifier": "all fault schedules of the file interface, all histories", "why_tests_cant": "fault schedules are unbounded", "anchors": ["src/embedDB/embedDB.c:embedDBPut", "src/embedDB/embedDB.c:embedDBFlush", "src/embedDB/embedDB.c:writePage"]}
{"id": "C31", "title": "No access outside the page buffers", "statement": "Put, Flush, Get and iteration never read or write outside the buffer page they address.", "quantifier": "all histories in all accepted configurations", "why_tests_cant": "out-of-bounds accesses occur only at particular fill levels and go unnoticed at run time", "anchors": ["src/embedDB/embedDB.c:embedDBPut", "src/embedDB/embedDB.c:embedDBFlush", "src/embedDB/embedDB.c:embedDBNext", "src/embedDB/embedDB.c:writeIndexPage"]}
{"id": "C32", "title": "Reads do not change the database", "statement": "embedDBGet, iterator creation and embedDBNext never change storage or the set of retained records, so any two reads in any order return the same results.", "quantifier": "all states, all interleavings of reads", "why_tests_cant": "needs quantification over all states and interleavings", "anchors": ["src/embedDB/embedDB.c:embedDBGet", "src/embedDB/embedDB.c:embedDBNext", "src/embedDB/embedDB.c:readPage"]}
{"id": "C33", "title": "Iterators are stable under interleaved operations", "statement": "An iterator advanced between arbitrary gets, other iterators' steps and further puts continues to return the records following its position in key order without skipping or repeating one, as long as the page it stands on is not evicted.", "quantifier": "all interleavings", "why_tests_cant": "schedules of interleaved operations are unbounded", "anchors": ["src/embedDB/embedDB.c:embedDBNext"]}
{"id": "C34", "title": "Lookups and scans terminate", "statement": "embedDBGet and embedDBNext always terminate, after a number of page reads bounded by the number of pages, whatever the state and key.", "quantifier": "all reachable states and keys", "why_tests_cant": "unbounded loops; non-termination cannot be observed by a finite test", "anchors": ["src/embedDB/embedDB.c:linearSearch", "src/embedDB/embedDB.c:binarySearch", "src/embedDB/embedDB.c:embedDBNext"]}
{"id": "C35", "title": "Page summaries are exact", "statement": "With the max/min option, the header of every page holds exactly the smallest and largest key and the smallest and largest data value of its records.", "quantifier": "all pages of all histories", "why_tests_cant": "depends on data values in unbounded sequences", "anchors": ["src/embedDB/embedDB.c:embedDBPut", "src/embedDB/embedDB.c:initBufferPage"]}
{"id": "C36", "title": "Reset opens an empty database", "statement": "embedDBInit with the reset flag over any previous file contents gives a database with no records: every Get returns -1 and every scan is empty.", "quantifier": "all previous file contents and configurations", "why_tests_cant": "previous contents are arbitrary", "anchors": ["src/embedDB/embedDB.c:embedDBInit", "src/embedDB/embedDB.c:embedDBInitData"]}
{"id": "C37", "title": "Flush is idempotent and observationally neutral", "statement": "embedDBFlush does not change the results of any later Get or scan (apart from eviction forced by a full area), and a second flush directly after a successful one performs no storage operation.", "quantifier": "all states and later read sequences", "why_tests_cant": "needs all states and all later reads", "anchors": ["src/embedDB/embedDB.c:embedDBFlush"]}
{"id": "C38", "title": "Sealed pages are immutable and uniquely identified", "statement": "The bytes written for a page are never modified until its erase block is reclaimed, and reading page id i always yields the page written as number i.", "quantifier": "all histories", "why_tests_cant": "requires an invariant over unbounded histories including the read buffer", "anchors": ["src/embedDB/embedDB.c:writePage", "src/embedDB/embedDB.c:readPage"]}
{"id": "C39", "title": "Flash storage is used as flash storage", "statement": "Every storage operation of the library programs a page that has not been programmed since its erase block was last erased, or erases exactly one whole, aligned erase block of the area it belongs to; no page that holds data is overwritten in place. This covers the data, index and variable areas and the temporary pages of record-level consistency.", "quantifier": "all sequences of calls with all arguments, all configurations", "why_tests_cant": "The file-backed storage of the test suite ignores erase and allows overwriting, so a violation has no visible effect there; the state that decides which block is free is built up over unbounded histories.", "anchors": ["src/embedDB/embedDB.c:writePage", "src/embedDB/embedDB.c:writeIndexPage", "src/embedDB/embedDB.c:writeVariablePage", "src/embedDB/embedDB.c:writeTemporaryPage", "src/embedDB/embedDB.c:shiftRecordLevelConsistencyBlocks"]}
{"id": "C40", "title": "The storage interfaces provide files of pages", "statement": "Every shipped storage interface (desktop, desktop with mock erase, SD card, DataFlash) answers every sequence of page reads, page writes, block erases and openings as a file of pages does: a read returns the page written last at that number, pages never written but skipped have a fixed content, a read behind the end of the file fails and leaves the buffer, a failed transfer is reported by the value 0, and the areas of different files do not affect each other.", "quantifier": "all call sequences on areas of all sizes, all page sizes, all contents before", "why_tests_cant": "The interfaces for SD cards and DataFlash only run on the boards; on the desktop, offsets beyond 32 bits, failing library calls and reads behind the end of the file are not exercised, and each test uses one page size and one small area.", "anchors": ["lib/Desktop-File-Interface/desktopFileInterface.c:FILE_READ", "lib/Desktop-File-Interface/desktopFileInterface.c:MOCK_FILE_ERASE", "lib/SD-File-Interface/SDFileInterface.c:FILE_WRITE", "lib/SD-Wrapper/sdcard_c_iface.cpp:sd_fread", "lib/Dataflash-File-Interface/dataflashFileInterface.c:DF_WRITE"]}
{"id": "C41", "title": "Query operators use and release memory correctly", "statement": "Creating, initialising, running, closing and freeing a tree of query operators never reads, writes or frees memory that is not allocated to it, yields the same records as the operator tree regardless of where its blocks lie, leaves all other memory alone, and after close and free nothing of it remains allocated except what the client provided. This holds for repeated calls of init and close and when an allocation fails.", "quantifier": "all operator trees, all memory contents, all databases, closing at any time", "why_tests_cant": "The tests check the records of a handful of trees and run without a leak or address checker; most free the operators by hand or leak them, none closes early or twice, and allocations never fail on the desktop.", "anchors": ["src/query-interface/advancedQueries.c:createTableScanOperator", "src/query-interface/advancedQueries.c:closeAggregate", "src/query-interface/advancedQueries.c:closeKeyJoin", "src/query-interface/advancedQueries.c:embedDBFreeOperatorRecursive", "src/query-interface/schema.c:copySchema"]}
{"id": "C42", "title": "Any storage contents are handled without undefined behaviour", "statement": "Opening a database on files with any contents (damaged pages, another program's data, torn writes), with any storage calls failing, returns 0 or -1 and never accesses memory outside the page buffers or divides by zero. After a successful opening, the same holds for every put, flush, get, iterator step and stream read.", "quantifier": "all byte contents of the three files, all configurations with a sound page layout, all fault patterns, all later call sequences", "why_tests_cant": "The recovery tests reopen files that EmbedDB itself wrote; corrupted pages are not generated, and out-of-bounds reads need not crash.", "anchors": ["src/embedDB/embedDB.c:embedDBInitDataFromFile", "src/embedDB/embedDB.c:embedDBInitDataFromFileWithRecordLevelConsistency", "src/embedDB/embedDB.c:embedDBInitSplineFromFile", "src/embedDB/embedDB.c:embedDBSearchNode", "src/embedDB/embedDB.c:embedDBVarDataStreamRead"]}
{"id": "C43", "title": "The core uses and releases memory and file handles correctly", "statement": "A client that calls embedDBInit before use, closes each iterator once, frees each stream once and calls nothing but these after embedDBClose never makes the core use or free an invalid pointer or file handle: its calls answer as they would with unlimited memory without addresses. The client's own memory is left alone, and once the database, its iterators and streams are closed, every block is freed and every file closed. The database can be opened again afterwards, with other parameters. Failing allocations are reported.", "quantifier": "all configurations, all storage contents and faults, all programs of client calls with any number of iterators and streams open at a time, all patterns of failing allocations", "why_tests_cant": "The tests run without a leak or address checker, use one iterator and one stream at a time, exit without closing or close once, and allocations never fail on the desktop; a leaked stream or bitmap shows only after days on a device with a few kilobytes.", "anchors": ["src/embedDB/embedDB.c:embedDBInit", "src/embedDB/embedDB.c:embedDBClose", "src/embedDB/embedDB.c:embedDBInitIterator", "src/embedDB/embedDB.c:embedDBCloseIterator", "src/embedDB/embedDB.c:embedDBSetupVarDataStream", "src/spline/spline.c:splineInit", "src/spline/spline.c:splineClose"]}
{"id": "C44", "title": "Floating-point rounding does not change results", "statement": "The floating-point computations (slope and estimated position of a key in a page, the error statistic of each page, the interpolation of the learned index) never convert a value outside the target integer type, and no rounding they may suffer changes the outcome of a call: estimates fall inside the page, the index returns the range it would return with exact arithmetic, or at worst one page off.", "quantifier": "all roundings with at least 16 bits of precision (so float, double and long double of every platform), all configurations with the learned index, all histories of puts, flushes and gets, all histories of adds and cleans of the index, all lifetimes whose stored pages are full", "why_tests_cant": "Tests run on desktop machines with an 80-bit long double and key sets with nearly constant gaps; rounding errors depend on the platform, appear for rare combinations of keys and page numbers, and an undefined conversion returns a harmless number on x86 and another on ARM.", "anchors": ["src/embedDB/embedDB.c:embedDBCalculateSlope", "src/embedDB/embedDB.c:embedDBEstimateKeyLocation", "src/embedDB/embedDB.c:getMaxError", "src/embedDB/embedDB.c:updateMaxiumError", "src/embedDB/embedDB.c:embedDBGetVar", "src/spline/spline.c:splineFind"]}
{"id": "C45", "title": "The page buffers are separate", "statement": "The write and read buffers for data, index and variable data are slices of one array supplied by the application. Whenever embedDBInit accepts the configuration, every buffer in use lies inside the array and reading, writing, initialising, copying or filling one of them never changes or reads another: the array behaves as independent pages.", "quantifier": "all configurations and page sizes, all combinations of index and variable data, all contents of the array, all sequences of accesses that stay inside their page", "why_tests_cant": "Tests allocate generous buffers and use one combination of features at a time; a wrong buffer number or a buffer one block too small corrupts a neighbouring page or memory behind the array without a visible failure.", "anchors": ["src/embedDB/embedDB.h:EMBEDDB_VAR_WRITE_BUFFER", "src/embedDB/embedDB.c:initBufferPage", "src/embedDB/embedDB.c:embedDBInit", "src/embedDB/embedDB.c:readToWriteBuf", "src/embedDB/embedDB.c:readPage"]}
{"id": "C46", "title": "File objects of the storage interfaces are used and released correctly", "statement": "A client that sets up each file object once from a terminated string, opens it while closed, reads, writes, erases, flushes and closes it while open, and tears it down once, open or closed, never makes the desktop or SD-card interface use or free an invalid pointer or file handle. Each object always refers to the file whose name it was set up with, even if the client changes or frees its string. Opening for reading and writing keeps the contents and fails for a missing file, opening for creation empties it, a refused fopen leaves the object closed. When all objects are torn down all memory is released and all files are closed.", "quantifier": "all programs of calls on any number of file objects, both interfaces, all names, all file contents, all patterns of refused fopen calls", "why_tests_cant": "The tests set up each object from a string literal, open and close it in one fixed order, never tear down an open object, and run without a leak or address checker; the SD-card interface is only run on a device.", "anchors": ["lib/Desktop-File-Interface/desktopFileInterface.c:setupFile", "lib/Desktop-File-Interface/desktopFileInterface.c:tearDownFile", "lib/Desktop-File-Interface/desktopFileInterface.c:FILE_OPEN", "lib/Desktop-File-Interface/desktopFileInterface.c:FILE_CLOSE", "lib/SD-File-Interface/SDFileInterface.c:setupSDFile", "lib/SD-File-Interface/SDFileInterface.c:tearDownSDFile", "lib/SD-Wrapper/sdcard_c_iface.cpp:sd_fopen", "lib/SD-Wrapper/sdcard_c_iface.cpp:sd_fclose"]}
{"id": "C47", "title": "A page read that reports success has delivered the page", "statement": "For every sequence of page reads through a read buffer, over the desktop and SD-card interfaces, whenever readPage returns 0 the read buffer holds the requested page of the file, whether it was transferred or found in the buffer, and whatever earlier reads failed; without failing library calls readPage returns 0 exactly for the pages the file has.", "quantifier": "all sequences of page numbers, all file contents and lengths, all page sizes, all patterns of failing seeks and partial transfers", "why_tests_cant": "Tests never make fseek or fread fail and never leave a file with an incomplete last page; the stale number of the buffered page only matters when the page that was buffered before is read next.", "anchors": ["src/embedDB/embedDB.c:readPage", "src/embedDB/embedDB.c:readIndexPage", "src/embedDB/embedDB.c:readVariablePage", "lib/Desktop-File-Interface/desktopFileInterface.c:FILE_READ"]}

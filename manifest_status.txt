# property | status | note
C01|partial|exact for all calm histories, all histories before wrap-around, and puts-then-gets with any number of wraps; returned data always right without restriction; refuted in general (stale read cache, >255 records per page)
C02|proved|for puts with ascending keys, flushes and gets on a reset database, and over the lifetimes of databases with variable data (calls, stops, crashes inside puts); without record-level consistency
C03|partial|proved on calm histories; refuted after a flush of a partly filled page
C04|partial|exact on calm histories, before wrap-around, and after any number of puts; refuted in binary-search mode and with a stale read cache
C05|partial|exact on calm histories without bitmap skipping, and with the bitmap index (all sound bitmap functions, int8 and int16 instantiated) when flushes are aligned with the index pages, also in databases closed and reopened any number of times at the end of an index page, while no index page replaces the one in the read buffer; refuted for the index after other flushes, after other reopenings, with a stale index read buffer, and for the int64 bitmap functions
C06|partial|reopening proved to serve all written pages in any lifetime of sessions; after a flush exact except when the write position is at an inner block boundary after wrap-around (refuted there); spline error above 1 after wrap-around refuted; with variable data: payloads recovered over lifetimes of several sessions while their pages lie within the area minus a block and two pages (payloads on the first kept page, and an area whose only page has key 0, refuted); with a bitmap index gets and scans without bitmaps proved, whatever is in the index file (bitmap scans: exact when reopened at the end of an index page, refuted otherwise, see C05); variable data also together with an index
C07|partial|every crash point of put and flush proved recoverable, in any lifetime of sessions and crashes, except between the visible erase of block 0 and the next page write (refuted); with a bitmap index also crashes between the storage operations on the index file; with variable data every crash point inside embedDBPutVar proved recoverable with whole payloads, in any lifetime, also with an index; a crash inside flush is refuted there
C09|proved|in every session of a lifetime, before and after recovery; also with variable data; without record-level consistency
C10|partial|proved for histories whose key range times page range fits 2^63 and (error bound <= 1 or index starting at page 0); refuted outside both
C11|proved|under the same key/page range as C10
C12|proved|under the same key/page range as C10
C13|proved|all layouts, all estimates
C14|partial|proved before wrap-around; refuted after it (evicted keys are still found in binary mode)
C21|proved|all column widths, signed and unsigned, all six operators
C26|proved|record sizes below 65536 bytes (uint16_t in the code)
C27|partial|int8 and int16 bitmaps proved (int16 for values below 2^31-17); the int64 builder and inBitmapInt16 are refuted
C28|partial|proved for keys below 2^31 / 2^63; refuted above
C30|partial|embedDBFlush proved to report every failed operation in all states, to keep the buffered records, and to act as on sound storage otherwise; puts with record-level consistency proved to be on storage when they return 0; gets, iterator steps and scans on failing reads proved to return only correct results, to change nothing but read buffers and to be repeatable; payload lookups of stored records and stream reads on failing reads proved to deliver right bytes or to report the failure; refuted for embedDBPut without it, for a flush repeated after a failure, and for failed reads in the order check of a put, while opening, at the end of a scan and within a stream, for a failed write in the lookup of a buffered payload (another record's payload is returned), and for embedDBNextVar (the record is skipped)
C31|partial|proved for put, flush, get, scans and recovery over whole lifetimes, also with a bitmap index (no flush of a full index page); refuted by several witnesses
C32|partial|gets, iterator steps and stream reads proved to change nothing but read buffers in every state, configuration and fault schedule; gets and scans commute on calm histories; refuted in general (stale read cache)
C33|partial|any interleaving of puts, flushes, gets and several iterators on calm executions; refuted for an iterator that already reported the end
C34|partial|every call proved to end in every state and with any faults, with bounds on the storage calls, except binary search before the first overwrite, where failed writes make it loop for ever (refuted)
C35|partial|proved for layouts whose summary lies inside the header (data comparator must be an order); refuted for summaries without an 8-byte bitmap, which embedDBInit accepts
C36|partial|proved for gets, variable-data lookups and scans of every configuration, any previous contents and faults; refuted where starting or advancing an iterator is undefined (scans in binary-search mode, bitmap scans without index)
C37|partial|second flush is a no-op; gets, scans and payload lookups unaffected on calm histories
C38|partial|bytes never change (proved for all histories); reading through the cache yields page i on calm histories; refuted in general (C32_read_order_refuted)
C08|partial|loses nothing or exactly the oldest erase block; served log proved, also with a bitmap index or variable data
C22|proved|every input operator known to yield a list of records, all columns and operators; whole plans over reachable tables (no bitmap scans, no binary-search mode)
C23|proved|every input operator known to yield a list of records, all column lists whose descriptors form a schema
C24|partial|all pairs of ascending inputs with unsigned key columns, up to the first end report; refuted after it for inputs that are scans with bounds
C25|partial|counts, sums (modulo 2^64), minima, maxima; means as an arbitrary function of the exact sum and count; refuted for signed columns of more than 4 bytes and over joins of bounded scans
C15|partial|round trip proved for all payload sizes and wrap-arounds on calm histories when the variable read cache is coherent and no read starts at a page boundary; refuted with a stale cache, with >127 records per page, and for lookups of buffered records followed by gets; over several sessions: payloads of earlier sessions come back whole after reopenings and after crashes inside puts; with record-level consistency see C19_var_*
C16|partial|full-or-reported, reported once overwritten, delivered while intact: proved when every put carries data; refuted with empty variable pages and with destructive erase; the same over several sessions
C17|partial|proved for request sizes that do not make a read start at a page boundary; refuted there
C18|partial|proved for embedDBPutVar with and without data; refuted for embedDBPut after embedDBPutVar
C19|partial|every lifetime of puts, flushes, gets, stops and crashes (also inside recovery) proved to lose at most the operation cut off, for storage with and without destructive erase; with variable data (C19_var_*): every payload whose put returned survives every stop and every crash inside later calls and inside openings; no index or binary search; refuted when a flush completes an erase block or the read buffer is stale, and for the payload of the put that was cut off (missing, or an older one)
C20|partial|no storage operation of put, flush or recovery changes a byte of a retained page, in every lifetime; refuted when a flush completes an erase block
C29|partial|areas proved for all configurations, storage contents and faults; usability proved for the sizes that fit int8_t and the page (the code does not check them: four refutations); usable configurations proved accepted
C39|partial|proved for all call sequences of a session that starts empty, for all three areas; over whole lifetimes of reopenings and crashes for the data area (no index, variable data or record-level consistency) when no session stops at an inner block boundary of a wrapped area; with record-level consistency for erase blocks of at least two pages and without embedDBFlush; refuted after reopening at an inner block boundary, with flushes or single-page blocks under record-level consistency, and after a failed write
C40|partial|refinement to page files proved for every call sequence without library failures: desktop and mock erase below 4 GiB, DataFlash for any contents, SD card for pages of 4 to 32767 bytes, areas within size_t and reads that do not start behind the end; refuted for larger offsets, SD reads behind the end, 16-bit size_t, pages of 32768 bytes, and for failing library calls that are not reported (desktop seeks, SD page writes); proved for failing calls: short desktop transfers are reported by 0 and stay inside the pages of the call, failing SD calls change no other page, and incomplete gap writes and failed reads on SD are reported
C41|partial|proved: the whole life of every plan over reachable databases on the heap (create, init, next to the end, close, free one by one or recursively), one next call, init and close of any represented tree at any time, recursive free without close; refuted: recursive free after close leaks operators below aggregates and in second inputs of joins, second init of a join leaks, second close of aggregates and joins follows NULL, failed schema creation leaks, failed allocations and failed init lead to leaks or NULL accesses
C42|partial|proved for all contents and faults: opening (all parameters), every sequence of puts and flushes (with record-level consistency if every page of the data file that does not look erased claims no more records than fit), stream reads; gets, iterator steps and whole scans if every stored page claims between one record and as many as fit and the spline lookup is defined, payload lookups if moreover every stored location leaves room for a length and a page holds at most 127 records, and iterating with payloads if this holds for every record slot; refuted: gets, scans and payload lookups otherwise, puts with record-level consistency otherwise, and a bound on the reads of opening
C43|partial|proved for every program of client calls that keeps the rules of SpecResource.v, with any number of iterators and streams, closing and reopening, and failing allocations of streams; refuted for failing allocations of the spline and of query bitmaps, for a failed embedDBInit (leaks, cannot be closed), and for clients that break a rule (closing twice, reusing an unclosed iterator, freeing after a lookup that found nothing; the scan of embedDBExample.h leaks its streams)
C44|partial|proved: estimates inside the page, the error statistic of full pages, the learned index exact when keys times pages fit the precision of long double and at most one page off otherwise, whole histories with the learned index, reopening over full pages; undefined for every embedDBGetVar of a key older than the write buffer (proved for all histories); refuted: lookups outside the first page before it is written, a missed binary search, reopening over a partly filled page or with 8-byte keys, and a stored key lost with a 24-bit long double (53-bit with 8-byte keys)
C45|partial|proved for every sequence of accesses to the buffers in use, given two blocks for the data buffers; the reduction of each modelled function to such a sequence is missing; refuted: embedDBInit accepts a buffer of one block, and an overrun of a page inside the array goes unnoticed
C46|partial|proved for every program of calls that keeps the rules of SpecFileObj.v, with library calls that work except refused fopen calls; setup is assumed to get its memory (refuted otherwise: the results of malloc and calloc are not checked); refuted for clients that break a rule (opening twice leaks the handle, closing a closed file on the desktop, flushing a closed file on an SD card, use after tear-down)
C47|partial|proved for the desktop and SD interfaces and the data read buffer, for files of whole pages below 4 GiB (SD: pages below 32768 bytes, reads not behind the end) when seeks work and failing transfers have moved no byte; refuted for short reads, for an incomplete last page (no failing call needed) and for failing seeks

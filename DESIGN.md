# Design of the EmbedDB verification

Subject: ubco-db/EmbedDB at the pinned commit in /repo (C).  Prover: Rocq/Coq 8.16.1.
Nothing in /repo is built or run; the model is written from the source text.
The properties are in `properties.jsonl` (C01 - C47); `MANIFEST.json` says which theorems
speak about which property, and how far they go.

## 1. Structure

The development (`rocq/theories`, logical path `Verif`) has five kinds of files.

| kind | files | content |
|---|---|---|
| model | `Base` `Config` `Spline` `Storage` `DB` `Recovery` `VarData` `Util` `Schema` `Query` `Heap` `Resource` `Drivers` `Fp` `Buffers` `SplineBuild` `FileObj` `DriverRead` | the C code, function by function; every definition cites file and lines; no proofs |
| specification | `Spec` `SpecUtil` `SpecSpline` `SpecPage` `SpecStore` `SpecRun` `SpecIter` `SpecIndex` `SpecQuery` `SpecHeap` `SpecReopen` `SpecReopenIdx` `SpecReopenBm` `SpecVar` `SpecVarReopen` `SpecRlc` `SpecRlcVar` `SpecFault` `SpecInit` `SpecFlash` `SpecFlashLife` `SpecDrivers` `SpecDriverFault` `SpecDriverRead` `SpecTerm` `SpecAny` `SpecAnyRlc` `SpecAnyVar` `SpecAnyNext` `SpecResource` `SpecFp` `SpecBuffers` `SpecFileObj` (and `Run`, which runs histories on the model) | what the properties mean: the ring log, queries, lifetimes, payload tables; no proofs |
| proofs | `*Facts`, `*Ops`, `*Thms` | invariants, refinement, induction over executions |
| theorems | `Props_*` | one theorem per claim, proved by `exact lemma`, with `Print Assumptions` beneath and an `Example` meeting its hypotheses |
| counterexamples | `Refuted*` | properties the code does not have in full generality: `..._refuted`, witness by `vm_compute` |

`Ex*` files hold example configurations and boolean checkers for the hypotheses, so the
Examples beside the theorems are evaluated rather than asserted.

### The abstract specification

* `Spec.v`: a *ring log* - pages of records, a current page, and the number `lo` of the first
  retained page; sealing a page when `numDataPages` are held first forgets the oldest
  `eraseSizeInPages` pages.  `find_key`, `retained`, `accepted` speak about it.
* `SpecRun.v`: put, flush and get on the log (`spec_step`).  The code is proved to refine it.
* `SpecIter.v`: the answer to a query is the filter of the retained records.
* `SpecQuery.v`: selection, projection, aggregation, merge join as list functions; `starts`
  and `yields` say that an operator delivers a list of records.
* `SpecResource.v`: programs of client calls without addresses: the rules of the interface (when iterators and
  streams may be set up, used, closed), the answers, and when everything is released.
* `SpecHeap.v`: which heap blocks represent an operator tree (`rep`), the life of a query on the heap and what
  may be left of it.
* `SpecReopen.v`: lifetimes: lists of operations, stops and crashes (a crash picks any image
  left by a storage operation); which log the reopened database must serve.
* `SpecReopenIdx.v`: the same with a bitmap index, whose file is written and erased in between; `SpecReopenBm.v`: scans
  by bitmaps after reopening.
* `SpecVar.v`: payload tables and the tape of bytes laid over variable pages.
* `SpecVarReopen.v`: lifetimes of databases with variable data: calls, reopenings and crashes inside puts, and which records and
  payloads survive a stop.
* `SpecRlc.v`: the same for record-level consistency, where the current page survives as well.
* `SpecRlcVar.v`: record-level consistency together with variable data: the log, the payloads and the keys whose
  payload a crash cut off; lifetimes of calls, stops and crashes inside calls and openings.
* `SpecFlash.v`: the rules of flash storage as a transition system over sets of programmed pages, and any
  sequence of calls with any arguments.  `SpecFlashLife.v`: the same rules over all sessions of a lifetime.
* `SpecTerm.v`: bounds on the number of storage calls; the states in which every call ends.
* `SpecAnyRlc.v`: data files in which every page that does not look erased claims no more records than fit.
* `SpecAnyVar.v`: locations of variable data that leave room for the length inside a page.
* `SpecAnyNext.v`: the same for all record slots, and repeated calls of embedDBNextVar.
* `SpecAny.v`: files of whole pages with arbitrary bytes, and what counts and buffers must satisfy for the calls
  to be memory safe.
* `SpecFp.v`: what is assumed of floating-point rounding, and rounding to nearest as an instance.
* `SpecBuffers.v`: page buffers as a family of separate pages.
* `SpecFileObj.v`: file objects as a name and a position, and the rules for their use.
* `SpecDrivers.v`: calls to a storage interface and how files of pages answer them.
* `SpecDriverRead.v`: page reads through the buffer: success means that the page was delivered.
* `SpecDriverFault.v`: the pages a call may change and the bytes it moves when library calls fail.

## 2. What is modelled

| source | functions | model |
|---|---|---|
| `embedDB.c` | `initBufferPage`, `embedDBGetMinKey/MaxKey`, `writePage`, `writeIndexPage`, `writeVariablePage`, `writeTemporaryPage`, `shiftRecordLevelConsistencyBlocks`, `cleanSpline`, `indexPage`, `embedDBPut`, `embedDBFlush`, `embedDBFlushVar`, `embedDBSearchNode`, `searchBuffer`, `linearSearch`, `binarySearch`, `splineSearch`, `embedDBGet`, `bitmapOverlap`, `embedDBInitIterator`, `embedDBNext`, `readPage`, `readIndexPage`, `readVariablePage` | `DB.v` |
| `embedDB.c` | `embedDBInit`, `embedDBInitData`, `embedDBInitDataFromFile`, `embedDBInitDataFromFileWithRecordLevelConsistency`, `embedDBInitSplineFromFile`, `embedDBInitIndex(FromFile)`, `embedDBInitVarData(FromFile)` | `Recovery.v` |
| `embedDB.c` | `embedDBPutVar`, `embedDBGetVar`, `embedDBNextVar`, `embedDBSetupVarDataStream`, `embedDBVarDataStreamRead`, `readToWriteBuf(Var)` | `VarData.v` |
| `embedDB.h`, `embedDB.c` | the buffer numbers and accesses to page buffers as slices of one array | `Buffers.v` |
| `spline.c` | `splineInit`, `splineIsLeft/Right`, `splineAdd`, `splineErase`, `pointsBinarySearch`, `splineFind`, `splinePointLocation` | `Spline.v` |
| `spline.c` | `splineBuild` | `SplineBuild.v` |
| `desktopFileInterface.c` | read, write, erase, mock erase, open modes, as the database sees them | `Storage.v`, `open_r/open_w` |
| `desktopFileInterface.c`, `SDFileInterface.c`, `sdcard_c_iface.cpp`, `dataflashFileInterface.c`, `dataflash_c_iface.cpp` | read, write, erase, mock erase, open, over files of bytes and chip pages, with failing library calls | `Drivers.v` |
| `embedDB.c` `readPage` with `FILE_READ` of `desktopFileInterface.c` and `SDFileInterface.c` | the read buffer over a file of bytes | `DriverRead.v` |
| `desktopFileInterface.c`, `SDFileInterface.c`, `sdcard_c_iface.cpp` | file objects: `setupFile`, `tearDownFile`, open, close, flush, with memory and file handles | `FileObj.v` |
| `embedDBUtility.c` | all bitmap functions, `int32Comparator`, `int64Comparator` | `Util.v` |
| `schema.c` | `embedDBCreateSchema`, offsets, sizes, buffers | `Schema.v` |
| `advancedQueries.c` | comparisons; table scan, projection, selection, aggregate and key-join operators; count/sum/min/max/avg | `Query.v` |
| `advancedQueries.c`, `schema.c` | the same operators as structures on the heap: create, init, next, close and free functions, schemas | `Heap.v` |
| `embedDB.c`, `spline.c` | the floating-point parts: `embedDBCalculateSlope`, `embedDBEstimateKeyLocation`, `getMaxError`, `updateMaxiumError`, the interpolation of `splineFind`, and the calls that use them | `Fp.v` |
| `embedDB.c`, `spline.c`, `desktopFileInterface.c` | blocks and FILE*s of the core: `malloc`/`calloc`/`free`, `splineInit`, `splineClose`, `embedDBInit`, `embedDBClose`, iterators, streams, with failing allocations | `Resource.v` |

Conventions

* A page is a list of bytes (`Z`); a file is a length in pages and a function from page number to page.
* Keys are the unsigned integers they encode (little endian); data are byte lists.
* Fixed-width arithmetic is written explicitly (`u16`, `u32`, `i8`, ...) where the code's result can
  depend on it.  Logical page ids are otherwise unbounded `Z`; the theorems carry a bound `PB <= 2^31`
  on the number of page writes (and `KB * PB <= 2^63` for the 64-bit cross products of the spline).
* Undefined behaviour (access outside the addressed buffer page, missing return, null spline,
  division by zero, signed overflow) is the distinct outcome `UB`; theorems about normal behaviour
  prove that it is not reached.
* Loops are fuelled; running out of fuel is the distinct outcome `Fuel`, excluded by the theorems.
* Storage faults: a script of booleans consumed by each read/write/erase.  Crash: every completed
  write or erase appends the resulting images to a trace; a crash point is an element of the trace.
* Three properties of the storage interface are parameters of the configuration: what an erase does
  (`eraseFill`: nothing on desktop, SD and DataFlash, fill with a byte in the mock interface), what the
  pages look like that a write behind the end of a file skips (`holeFill`: 0 on desktop, 255 on SD), and
  whether opening for writing empties a file (`truncates`: not on DataFlash).
* Uninitialised memory (page buffers, spline points, `recordHasVarData`) is a parameter of the
  configuration, so theorems hold for every initial content.
* The value observed when `binarySearch` falls off its end is a parameter (`fallthru`); `None`
  makes it `UB`.

### Not modelled

* Floating point in `DB.v`, `Recovery.v` and `Spline.v`: there the in-page slope estimate is an arbitrary function `est`, the
  `long double` interpolation of `splineFind` is exact rational arithmetic followed by truncation, and
  `maxError` is left out.  `Fp.v` computes all of these with rounding after every operation, and C44 shows when
  the two agree.  Not modelled: excess precision of intermediate results (`FLT_EVAL_METHOD` other than 0), NaN and
  infinities beyond "the conversion to an integer is undefined", record-level consistency and iterators in
  `Fp.v`.  The mean computed by `avgCompute` is an arbitrary function of the exact sum and count.
* Statistics counters, printing, `NULL` file pointers,
  `malloc` failure and the `close`/`free` functions outside the query operators (Heap.v), the core (Resource.v) and the file objects (FileObj.v), `getFileInterface` and its like, `setupDataflashFile`, `splinePrint`, `embedDBPrint*`.
* Partial page transfers under the database: a page write is atomic, a failed one changes nothing, a failed read leaves
  the buffer (DriverRead.v models readPage without this assumption, C47).
* Byte offsets in files of 4 GiB and more are modelled in Drivers.v only, not under the database.
* Memory aliasing between caller buffers and the state; concurrent use.  The buffer pages are separate
  values in the database model; C45 (`Buffers.v`) shows that slices of one array behave in this way when
  the array has at least two blocks (`embedDBInit` also accepts one).
* SdFat, the DataFlash chip library (not in the repository) and the Memboard SPI code below the storage
  interfaces, benchmarks, examples and the amalgamated copy in `lib/Distribution`.  The composition of
  the database model with the byte-level interfaces of Drivers.v is by their common specification
  (`page_step`), not by one combined execution.

## 3. Which executions the theorems cover

The hypotheses are records in the specification files; each field is explained there.

* `layout` (SpecPage.v): sizes fit their narrow integer types and the header regions do not
  overlap the first record.  Outside it the code misbehaves (refuted: `C29_*`, `C31_*`).
* `setting`, `modes`, `scenario`, `quiet` (SpecStore.v, SpecRun.v): erase blocks divide the area,
  the comparator is exact on the keys used, key and page range fit the spline arithmetic.
* `icalm` (SpecIndex.v): the same as `calm` for the index read buffer; `aligned_life` (SpecReopenBm.v): flushes and
  reopenings at the end of an index page.
* `calm` (SpecRun.v), `mcalm` (SpecIter.v), `quiet_step` (SpecRlc.v): no page write replaces the physical page
  held in the read buffer (the code never invalidates that buffer).  Theorems without this
  condition are given wherever the conclusion holds without it; the general statements are refuted.
* Histories are lists of any length; page counts, wrap-arounds, record counts, keys and data are
  unbounded within the type ranges above.  Nothing is checked by bounded enumeration.

## 4. Counterexamples found

Each is a theorem `..._refuted` in a `Refuted*` file, and each corresponds to a side condition
of a positive theorem.

* Stale read buffer: after a wrap-around `readPage` returns the old content of a physical page
  (C01, C04, C32, C15, C19 variants).
* After a flush of a partly filled page the order check of `embedDBPut` reads an unused slot (C03).
* More than 255 (data) or 127 (variable data) records per page: narrow counters (C01, C15).
* Binary search: missing return, evicted keys still found, scans from evicted pages (C04, C14).
* Flush while the index page is full or not aligned writes outside the page or misaligns slots (C05, C31).
* Opening a database again starts an index page whose slots no longer fit the page numbers, so bitmap scans
  miss records (C05).  Gets and other scans are not affected (proved), nor are bitmap scans when the database is
  closed at the end of an index page (proved).
* Stale index read buffer: after the index ring has wrapped, a scan decides by the old bitmaps of a slot (C05).
* After a reset, starting a scan in binary-search mode and advancing a bitmap scan without index are undefined (C36).
* `buildBitmapInt64FromRange`, `inBitmapInt16` wrong for part of the range (C27); `int32Comparator`
  on keys of 2^31 and more (C28).
* Spline: an erased prefix with error bound above 1 loses the page of a key (C06, C10).
* Recovery at an inner block boundary after wrap-around, and after the visible erase of block 0 (C06, C07).
* Put ignores write failures; a flush repeated after a failure leaves a page number without a page, so
  records are lost at the next opening and gets read an unwritten page (C30).
* Failed reads: a scan ends early without saying so, a put compares with the wrong page and accepts an old key,
  opening takes an unreadable page for the end of the data and loses records while returning 0, and a repeated
  read of a stream returns a page header as payload; `embedDBGetVar` ignores a failed write of the variable page and
  returns another record's payload; `embedDBNextVar` skips a record whose payload cannot be read (C30).  Gets, iterator steps and scans proved to return
  nothing wrong and to be repeatable.
* `embedDBInit` accepts record sizes that overflow `int8_t`, pages too small for one record, zero variable
  pages, and summaries that overlap the first record (C29, C35).
* Iterators: a scan that reported its end can deliver records again (C33); aggregates and joins over it
  misbehave (C24, C25).
* Variable data: reads starting at a page boundary (C17), payload lookups of buffered records (C15),
  empty variable pages and destructive erase (C16), put after putVar (C18).
* Variable data over sessions: a flush writes the data page before the variable page, so a crash between the
  two makes a record deliver another record's payload (C07); an area whose only page has key 0 is taken for
  empty (C06); payloads on the first page that recovery keeps are reported as overwritten (C06).
* Record-level consistency: a flush that completes an erase block overwrites retained pages (C19, C20, C31).
  With variable data the record is on storage before its payload: after a crash in between, the record is found
  without its payload, or, once the variable area has wrapped, with the payload of an older record (C19).
* Flash discipline (C39): pages that hold data are overwritten without an erase after reopening a wrapped
  database at an inner block boundary, by a flush under record-level consistency, with single-page erase
  blocks under record-level consistency, and after a failed write.

* Termination (C34): after two failed page writes a get with binary search never returns, because `last = pageId - 1`
  wraps around at page 0.
* Storage interfaces (C40): 32-bit byte offsets; on SD cards a read behind the end returns some other page,
  failed writes are reported as success, pages of 32768 bytes cannot be read, and with a 16-bit `size_t` an
  overwrite destroys other pages of a file above 64 KiB; ignored `fseek` failures on the desktop.  On
  DataFlash a reset leaves the old pages, which the next opening takes for its own (C06).

* Memory of query operators (C41): after close, `embedDBFreeOperatorRecursive` does not reach operators below an
  aggregate or in the second input of a join; a second init of a join leaks its record buffer; a second close of
  an aggregate or join follows NULL; `embedDBCreateSchema` leaks on invalid columns; failed allocations leak or
  lead to writes through NULL, and so does calling next after an init that failed.

* Memory of the core (C43): a second `embedDBClose` or `embedDBCloseIterator` frees twice; setting up an iterator or
  filling a stream variable again leaks (the scan in `embedDBExample.h` leaks every stream); `embedDBGetVar` leaves
  the stream pointer as it was when the key is not found; a failed `embedDBInit` keeps the spline and cannot be
  closed; failed allocations of the spline or a query bitmap are not noticed.

* Page reads (C47): a read that fails half way, or of an incomplete last page, spoils the read buffer but keeps its page
  number, so the next read of that page succeeds with wrong contents.
* File objects (C46): `setupFile` writes through NULL when memory is short; opening an open object leaks its handle;
  closing a closed object is undefined on the desktop, flushing one is undefined on an SD card.

* Floating point (C44): conversions of out-of-range estimates are undefined: `embedDBGetVar` for every key older than
  the write buffer, `embedDBGet` outside the keys of the first page before it is written and after a failed binary
  search; reopening over a partly filled page of consecutive keys, or with 8-byte keys (slope of the wrong page);
  where `long double` has 24 bits (AVR) or, for 8-byte keys, 53 bits, the learned index misses stored keys.

* Damaged or foreign files (C42): opening never touches memory outside its buffers, but the record counts of most
  pages are not checked, so a later get, scan or (with record-level consistency) put reads far outside the page
  buffer; equal first keys on the first pages make `splineFind` divide by zero; a stored payload location near
  the end of a page is read across the end of the buffer; damaged page numbers make opening read up to 2^32 pages.

## 5. Trusted base

* The Coq 8.16.1 kernel, including `vm_compute` for witnesses and examples.
* The reading of the C source recorded in the comments of the model files, with the simplifications above.
* Axioms: none.  Beneath every theorem of the `Props_*` and `Refuted*` files `Print Assumptions` reports
  `Closed under the global context`.  (The standard library's `ssreflect` module
  type `Coq.ssr.ssrunder.Under_rel` has fields that a listing of all loaded constants shows as axioms,
  because `Lia` loads it; no theorem here uses them.)
* No functors, module types, `Declare Module`, plugins, section-less variables, or disabled kernel checks.

## 6. Testing the theorems

The theorems were tested by seeding realistic bugs: a scratch copy of the development is
edited in one model definition, rebuilt, and the first failing proofs are recorded in
`seeded/LOG.jsonl`.  Mutants that survived led to strengthened statements (noted there) or
are semantically neutral for the properties (noted as harmless).

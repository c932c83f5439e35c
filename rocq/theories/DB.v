(** Model of the fixed-record, index-page and variable-page parts of
    src/embedDB/embedDB.c.  Function names follow the C names. *)
From Verif Require Import Base Config Spline Storage.
Open Scope Z_scope.

(** Run-time fields of [embedDBState] (embedDB.h:198-251), grouped.
    [state->buffer] is split into its pages (embedDB.h:101-106). *)
Record dst := mkD {             (* data pages *)
  wbuf : page;                  (* EMBEDDB_DATA_WRITE_BUFFER *)
  rbuf : page;                  (* EMBEDDB_DATA_READ_BUFFER *)
  availD : Z;                   (* numAvailDataPages *)
  minD : Z;                     (* minDataPageId *)
  nextD : Z;                    (* nextDataPageId *)
  bufD : Z;                     (* bufferedPageId *)
  nextRLC : Z;                  (* nextRLCPhysicalPageLocation *)
  rlcStart : Z;                 (* rlcPhysicalStartingPage *)
  spl : option spline           (* spl; None = not allocated *)
}.
Record ist := mkI {             (* index pages *)
  iwbuf : page;                 (* EMBEDDB_INDEX_WRITE_BUFFER *)
  irbuf : page;                 (* EMBEDDB_INDEX_READ_BUFFER *)
  availI : Z;                   (* numAvailIndexPages *)
  minI : Z;                     (* minIndexPageId *)
  nextI : Z;                    (* nextIdxPageId *)
  bufI : Z                      (* bufferedIndexPageId *)
}.
Record vst := mkV {             (* variable data pages *)
  vwbuf : page;                 (* EMBEDDB_VAR_WRITE_BUFFER *)
  vrbuf : page;                 (* EMBEDDB_VAR_READ_BUFFER *)
  availV : Z;                   (* numAvailVarPages *)
  nextV : Z;                    (* nextVarPageId *)
  minVarRec : Z;                (* minVarRecordId *)
  curVarLoc : Z;                (* currentVarLoc *)
  bufV : Z;                     (* bufferedVarPage *)
  hasVar : bool                 (* recordHasVarData *)
}.
Record state := mkS { sio : io; sd : dst; si : ist; sv : vst }.

(** C assignments to single fields. *)
Definition set_io (s : state) (o : io) : state := mkS o (sd s) (si s) (sv s).
Definition set_d (s : state) (d : dst) : state := mkS (sio s) d (si s) (sv s).
Definition set_i (s : state) (i : ist) : state := mkS (sio s) (sd s) i (sv s).
Definition set_v (s : state) (v : vst) : state := mkS (sio s) (sd s) (si s) v.
Definition d_wbuf (d : dst) (p : page) : dst :=
  mkD p (rbuf d) (availD d) (minD d) (nextD d) (bufD d) (nextRLC d) (rlcStart d) (spl d).
Definition d_rbuf (d : dst) (p : page) (b : Z) : dst :=
  mkD (wbuf d) p (availD d) (minD d) (nextD d) b (nextRLC d) (rlcStart d) (spl d).
Definition d_avail (d : dst) (a m : Z) : dst :=
  mkD (wbuf d) (rbuf d) a m (nextD d) (bufD d) (nextRLC d) (rlcStart d) (spl d).
Definition d_next (d : dst) (n : Z) : dst :=
  mkD (wbuf d) (rbuf d) (availD d) (minD d) n (bufD d) (nextRLC d) (rlcStart d) (spl d).
Definition d_rlc (d : dst) (n st : Z) : dst :=
  mkD (wbuf d) (rbuf d) (availD d) (minD d) (nextD d) (bufD d) n st (spl d).
Definition d_spl (d : dst) (x : option spline) : dst :=
  mkD (wbuf d) (rbuf d) (availD d) (minD d) (nextD d) (bufD d) (nextRLC d) (rlcStart d) x.
Definition i_wbuf (i : ist) (p : page) : ist :=
  mkI p (irbuf i) (availI i) (minI i) (nextI i) (bufI i).
Definition i_rbuf (i : ist) (p : page) (b : Z) : ist :=
  mkI (iwbuf i) p (availI i) (minI i) (nextI i) b.
Definition i_avail (i : ist) (a m : Z) : ist :=
  mkI (iwbuf i) (irbuf i) a m (nextI i) (bufI i).
Definition i_next (i : ist) (n : Z) : ist :=
  mkI (iwbuf i) (irbuf i) (availI i) (minI i) n (bufI i).
Definition v_wbuf (v : vst) (p : page) : vst :=
  mkV p (vrbuf v) (availV v) (nextV v) (minVarRec v) (curVarLoc v) (bufV v) (hasVar v).
Definition v_rbuf (v : vst) (p : page) (b : Z) : vst :=
  mkV (vwbuf v) p (availV v) (nextV v) (minVarRec v) (curVarLoc v) b (hasVar v).
Definition v_avail (v : vst) (a : Z) : vst :=
  mkV (vwbuf v) (vrbuf v) a (nextV v) (minVarRec v) (curVarLoc v) (bufV v) (hasVar v).
Definition v_next (v : vst) (n : Z) : vst :=
  mkV (vwbuf v) (vrbuf v) (availV v) n (minVarRec v) (curVarLoc v) (bufV v) (hasVar v).
Definition v_minrec (v : vst) (m : Z) : vst :=
  mkV (vwbuf v) (vrbuf v) (availV v) (nextV v) m (curVarLoc v) (bufV v) (hasVar v).
Definition v_loc (v : vst) (l : Z) : vst :=
  mkV (vwbuf v) (vrbuf v) (availV v) (nextV v) (minVarRec v) l (bufV v) (hasVar v).
Definition v_has (v : vst) (b : bool) : vst :=
  mkV (vwbuf v) (vrbuf v) (availV v) (nextV v) (minVarRec v) (curVarLoc v) (bufV v) b.

(** EMBEDDB_GET_COUNT / EMBEDDB_INC_COUNT, embedDB.h:90-91. *)
Definition get_count (p : page) : res Z := ldz p 4 2.
Definition inc_count (p : page) : res page :=
  n <- get_count p ;; st p 4 (le_enc 2 (n + 1)).

(** memcpy(buffer, &pageNum, sizeof(id_t)) (embedDB.c:2004) and its inverse
    (embedDB.c:335). *)
Definition set_pid (p : page) (id : Z) : res page := st p 0 (le_enc 4 id).
Definition get_pid (p : page) : res Z := ldz p 0 4.

(** Offsets in the page header, embedDB.h:93-99. *)
Definition off_minkey : Z := 14.
Definition off_maxkey (c : cfg) : Z := 14 + keySize c.
Definition off_mindata (c : cfg) : Z := 14 + keySize c * 2.
Definition off_maxdata (c : cfg) : Z := 14 + keySize c * 2 + dataSize c.

(** initBufferPage, embedDB.c:87-112, for any page but the variable write
    buffer. *)
Definition init_page (c : cfg) : res page :=
  p <- st (repeat 0 (psz c)) off_minkey (repeat 1 (ksz c)) ;;
  st p (off_mindata c) (repeat 1 (dsz c)).
(** initBufferPage, embedDB.c:87-112, for the variable write buffer. *)
Definition init_var_page (c : cfg) : page := repeat 0 (psz c).

(** Offset of record [i] (embedDB.c:120,130,1064,1321). *)
Definition rec_off (c : cfg) (i : Z) : Z := headerSize c + recordSize c * i.
(** Key and data of record [i] of a page (embedDB.c:1321, 1453, 1782-1783). *)
Definition rec_key (c : cfg) (p : page) (i : Z) : res Z := ldz p (rec_off c i) (ksz c).
Definition rec_data (c : cfg) (p : page) (i : Z) : res (list Z) :=
  ld p (rec_off c i + keySize c) (dsz c).

(** embedDBGetMinKey, embedDB.c:119-121; embedDBGetMaxKey, embedDB.c:128-131
    (the count is converted to int16_t). *)
Definition min_key (c : cfg) (p : page) : res Z := rec_key c p 0.
Definition max_key (c : cfg) (p : page) : res Z :=
  n <- get_count p ;; rec_key c p (i16 n - 1).

(** readPage, embedDB.c:2254-2271.  Returns 0 or -1. *)
Definition readPage (s : state) (n : Z) : state * Z :=
  if n =? bufD (sd s) then (s, 0)
  else
    let '(o, r) := io_read WD n (sio s) in
    match r with
    | None => (set_io s o, -1)
    | Some p => (mkS o (d_rbuf (sd s) p n) (si s) (sv s), 0)
    end.

(** readIndexPage, embedDB.c:2279-2296. *)
Definition readIndexPage (s : state) (n : Z) : state * Z :=
  if n =? bufI (si s) then (s, 0)
  else
    let '(o, r) := io_read WI n (sio s) in
    match r with
    | None => (set_io s o, -1)
    | Some p => (mkS o (sd s) (i_rbuf (si s) p n) (sv s), 0)
    end.

(** readVariablePage, embedDB.c:2304-2323. *)
Definition readVariablePage (s : state) (n : Z) : state * Z :=
  if n =? bufV (sv s) then (s, 0)
  else
    let '(o, r) := io_read WV n (sio s) in
    match r with
    | None => (set_io s o, -1)
    | Some p => (mkS o (sd s) (si s) (v_rbuf (sv s) p n), 0)
    end.

(** The counting loop of cleanSpline, embedDB.c:2104-2112: number of leading
    points whose successor's page is below [minPage]. *)
Fixpoint clean_count (sp : spline) (minPage : Z) (i : Z) (fuel : nat) : Z :=
  match fuel with
  | O => 0
  | S f =>
      if snd (spl_pt sp (i + 1)) <? minPage
      then 1 + clean_count sp minPage (i + 1) f else 0
  end.

(** cleanSpline, embedDB.c:2100-2119.  [numPointsErased] is a uint32_t;
    [count] is a size_t, so [count - numPointsErased < 2] is unsigned. *)
Definition cleanSpline (sp : spline) (minPage : Z) : spline :=
  let n := clean_count sp minPage 0 (Z.to_nat (s_count sp)) in
  let left := u64 (s_count sp - n) in
  let n := if left <? 2 then u32 (n - (2 - left)) else n in
  if n <=? 0 then sp else fst (spl_erase sp n).

(** writePage, embedDB.c:1995-2039, on the data write buffer (its only
    argument).  Returns the page number, [NOPAGE] for -1. *)
Definition writePage (c : cfg) (s : state) : res (state * Z) :=
  let pageNum := nextD (sd s) in
  let phys := pageNum mod numData c in
  let s := set_d s (d_next (sd s) (u32 (pageNum + 1))) in
  w <- set_pid (wbuf (sd s)) pageNum ;;
  let s := set_d s (d_wbuf (sd s) w) in
  (* 2006-2024 *)
  '(s, ok) <-
    (if availD (sd s) <=? 0 then
       let '(o, ok) := io_erase c WD phys (phys + eraseSize c) (sio s) in
       let s := set_io s o in
       if ok then
         let d := sd s in
         let d := d_avail d (u32 (availD d + eraseSize c)) (u32 (minD d + eraseSize c)) in
         if noClean c then Ok (set_d s d, true)
         else match spl d with
              | None => UB
              | Some sp => Ok (set_d s (d_spl d (Some (cleanSpline sp (minD d)))), true)
              end
       else Ok (s, false)
     else Ok (s, true)) ;;
  if negb ok then Ok (s, NOPAGE)
  else
    (* 2027-2038 *)
    let '(o, ok) := io_write c WD phys (wbuf (sd s)) (sio s) in
    let s := set_io s o in
    if ok then
      Ok (set_d s (d_avail (sd s) (u32 (availD (sd s) - 1)) (minD (sd s))), pageNum)
    else Ok (s, NOPAGE).

(** writeTemporaryPage, embedDB.c:2041-2092 (record-level consistency).  A
    failed erase is ignored unless PRINT_ERRORS is defined; the model is the
    build without PRINT_ERRORS. *)
Definition writeTemporaryPage (c : cfg) (s : state) : res (state * Z) :=
  w <- set_pid (wbuf (sd s)) (nextD (sd s)) ;;
  let s := set_d s (d_wbuf (sd s) w) in
  let start := rlcStart (sd s) in
  let nx := nextRLC (sd s) mod numData c in
  let nextPage := u32 (nx + (if nx <? start then numData c else 0)) in
  let nx := if u32 (nextPage - start) >=? eraseSize c * 2 then start else nx in
  let s :=
    if nx mod eraseSize c =? 1 then
      let es := if nx =? u32 (start + 1)
                then u32 (start + eraseSize c) mod numData c else start in
      set_io s (fst (io_erase c WD es (u32 (es + eraseSize c)) (sio s)))
    else s in
  let '(o, ok) := io_write c WD nx (wbuf (sd s)) (sio s) in
  let s := set_d (set_io s o) (d_rlc (sd s) (u32 (nx + 1)) start) in
  Ok (s, if ok then 0 else -1).

(** The erase loop of shiftRecordLevelConsistencyBlocks, embedDB.c:1142-1152. *)
Fixpoint shift_erase (c : cfg) (n : nat) (start : Z) (o : io) : io * bool :=
  match n with
  | O => (o, true)
  | S n' =>
      let e := u32 (start + eraseSize c) in
      let '(o, ok) := io_erase c WD start e o in
      if ok then shift_erase c n' (e mod numData c) o else (o, false)
  end.

(** shiftRecordLevelConsistencyBlocks, embedDB.c:1129-1171. *)
Definition shiftRLC (c : cfg) (s : state) : res (state * Z) :=
  let d := sd s in
  let haveWrapped := minD d mod numData c
                     =? u32 (rlcStart d + eraseSize c * 2) mod numData c in
  let '(o, ok) := shift_erase c (if haveWrapped then 2 else 3) (rlcStart d) (sio s) in
  let s := set_io s o in
  if negb ok then Ok (s, -1)
  else
    d <- (if haveWrapped then
            let d := d_avail d (u32 (availD d + eraseSize c)) (u32 (minD d + eraseSize c)) in
            if noClean c then Ok d
            else match spl d with
                 | None => UB
                 | Some sp => Ok (d_spl d (Some (cleanSpline sp (minD d))))
                 end
          else Ok d) ;;
    let st := u32 (rlcStart d + eraseSize c) mod numData c in
    Ok (set_d s (d_rlc d st st), 0).

(** writeIndexPage, embedDB.c:2127-2164, on the index write buffer. *)
Definition writeIndexPage (c : cfg) (s : state) : res (state * Z) :=
  let pageNum := nextI (si s) in
  let phys := pageNum mod numIndex c in
  let s := set_i s (i_next (si s) (u32 (pageNum + 1))) in
  w <- set_pid (iwbuf (si s)) pageNum ;;
  let s := set_i s (i_wbuf (si s) w) in
  let '(s, ok) :=
    if availI (si s) <=? 0 then
      let '(o, ok) := io_erase c WI phys (phys + eraseSize c) (sio s) in
      let s := set_io s o in
      if ok then
        (set_i s (i_avail (si s) (u32 (availI (si s) + eraseSize c))
                          (u32 (minI (si s) + eraseSize c))), true)
      else (s, false)
    else (s, true) in
  if negb ok then Ok (s, NOPAGE)
  else
    let '(o, ok) := io_write c WI phys (iwbuf (si s)) (sio s) in
    let s := set_io s o in
    if ok then
      Ok (set_i s (i_avail (si s) (u32 (availI (si s) - 1)) (minI (si s))), pageNum)
    else Ok (s, NOPAGE).

(** memcpy of [keySize] bytes into the low bytes of a uint64_t (embedDB.c:1226,
    2198): the upper bytes keep their value. *)
Definition set_low (c : cfg) (old new : Z) : Z :=
  old - old mod 256 ^ keySize c + new.

(** writeVariablePage, embedDB.c:2172-2220, on the variable write buffer.
    [numVarPages] = 0 is a division by zero. *)
Definition writeVariablePage (c : cfg) (s : state) : res (state * Z) :=
  if numVar c =? 0 then UB else
  let phys := nextV (sv s) mod numVar c in
  '(s, ok) <-
    (if availV (sv s) <=? 0 then
       let '(o, ok) := io_erase c WV phys (phys + eraseSize c) (sio s) in
       let s := set_io s o in
       if negb ok then Ok (s, false)
       else
         let s := set_v s (v_avail (sv s) (u32 (availV (sv s) + eraseSize c))) in
         let pg := (phys + eraseSize c - 1) mod numVar c in
         let '(s, r) := readVariablePage s pg in
         if negb (r =? 0) then Ok (s, false)
         else
           k <- ldz (vrbuf (sv s)) 4 (ksz c) ;;
           Ok (set_v s (v_minrec (sv s) (u64 (set_low c (minVarRec (sv s)) k + 1))), true)
     else Ok (s, true)) ;;
  if negb ok then Ok (s, NOPAGE)
  else
    w <- set_pid (vwbuf (sv s)) (nextV (sv s)) ;;
    let s := set_v s (v_wbuf (sv s) w) in
    let '(o, ok) := io_write c WV phys (vwbuf (sv s)) (sio s) in
    let s := set_io s o in
    if ok then
      let v := v_next (sv s) (u32 (nextV (sv s) + 1)) in
      let v := v_avail v (u32 (availV v - 1)) in
      Ok (set_v s v, u32 (nextV v - 1))
    else Ok (s, NOPAGE).

(** indexPage, embedDB.c:991-995. *)
Definition indexPage (c : cfg) (s : state) (pageNum : Z) : res state :=
  if useBinary c then Ok s
  else match spl (sd s) with
       | None => UB
       | Some sp =>
           k <- min_key c (wbuf (sd s)) ;;
           Ok (set_d s (d_spl (sd s) (Some (spl_add sp k pageNum))))
       end.

(** Saving the bitmap of the data write buffer in the index write buffer at
    slot [idxcount], embedDB.c:1049-1053 and 1688-1692. *)
Definition idx_append (c : cfg) (s : state) (idxcount : Z) : res state :=
  b <- inc_count (iwbuf (si s)) ;;
  bm <- ld (wbuf (sd s)) 6 (bsz c) ;;
  b <- st b (16 + bitmapSize c * idxcount) bm ;;
  Ok (set_i s (i_wbuf (si s) b)).

(** The index part of embedDBPut, embedDB.c:1034-1054. *)
Definition put_index (c : cfg) (s : state) (pageNum : Z) : res state :=
  if negb (useIndex c) then Ok s
  else
    idxcount <- get_count (iwbuf (si s)) ;;
    '(s, idxcount) <-
      (if idxcount >=? maxIdx c then
         '(s, _) <- writeIndexPage c s ;;
         b <- init_page c ;;
         b <- st b 8 (le_enc 4 pageNum) ;;
         Ok (set_i s (i_wbuf (si s) b), 0)
       else Ok (s, idxcount)) ;;
    idx_append c s idxcount.

(** The max/min header update, embedDB.c:1081-1108. *)
Definition put_maxmin (c : cfg) (p : page) (count key : Z) (data : list Z) : res page :=
  if negb (useMaxMin c) then Ok p
  else if negb (count =? 0) then
    p <- st p (off_maxkey c) (le_enc (ksz c) key) ;;
    mn <- ld p (off_mindata c) (dsz c) ;;
    p <- (if cmpD c data mn <? 0 then st p (off_mindata c) data else Ok p) ;;
    mx <- ld p (off_maxdata c) (dsz c) ;;
    (if cmpD c data mx >? 0 then st p (off_maxdata c) data else Ok p)
  else
    p <- st p off_minkey (le_enc (ksz c) key) ;;
    p <- st p (off_maxkey c) (le_enc (ksz c) key) ;;
    p <- st p (off_mindata c) data ;;
    st p (off_maxdata c) data.

(** The bitmap update, embedDB.c:1110-1114. *)
Definition put_bitmap (c : cfg) (p : page) (data : list Z) : res page :=
  if useBmap c then
    bm <- ld p 6 (bsz c) ;;
    st p 6 (updBM c data bm)
  else Ok p.

(** Copying a record onto the write buffer and updating the page header,
    embedDB.c:1063-1114.  [vloc] is the variable-data location. *)
Definition put_record (c : cfg) (p : page) (count key : Z) (data : list Z) (vloc : Z)
  : res page :=
  p <- st p (rec_off c count) (le_enc (ksz c) key) ;;
  p <- st p (rec_off c count + keySize c) data ;;
  p <- (if useVar c
        then st p (rec_off c count + keySize c + dataSize c) (le_enc 4 vloc)
        else Ok p) ;;
  p <- inc_count p ;;
  p <- put_maxmin c p count key data ;;
  put_bitmap c p data.

(** The variable-data location stored with a record, embedDB.c:1069-1074
    (uint32_t arithmetic). *)
Definition var_loc (c : cfg) (s : state) : Z :=
  if hasVar (sv s) then curVarLoc (sv s) mod u32 (numVar c * pageSize c) else NOVAR.

(** embedDBPut, embedDB.c:1004-1127.  Returns the int8_t result. *)
Definition embedDBPut (c : cfg) (s : state) (key : Z) (data : list Z) : res (state * Z) :=
  count <- get_count (wbuf (sd s)) ;;
  (* 1008-1023: order check *)
  '(s, reject) <-
    (if (nextD (sd s) >? 0) || (count >? 0) then
       '(s, prev) <-
         (if count =? 0 then
            let '(s, _) := readPage s (u32 (nextD (sd s) - 1) mod numData c) in
            k <- rec_key c (rbuf (sd s)) (maxRec c - 1) ;;
            Ok (s, k)
          else
            k <- rec_key c (wbuf (sd s)) (count - 1) ;;
            Ok (s, k)) ;;
       Ok (s, negb (cmpK c key prev =? 1))
     else Ok (s, false)) ;;
  if (reject : bool) then Ok (s, 1)
  else
    (* 1026-1061: write the page if it is full *)
    '(s, count, wrote) <-
      (if count >=? maxRec c then
         '(s, pageNum) <- writePage c s ;;
         s <- indexPage c s pageNum ;;
         s <- put_index c s pageNum ;;
         b <- init_page c ;;
         Ok (set_d s (d_wbuf (sd s) b), 0, true)
       else Ok (s, count, false)) ;;
    (* 1063-1114 *)
    w <- put_record c (wbuf (sd s)) count key data (var_loc c s) ;;
    let s := set_d s (d_wbuf (sd s) w) in
    (* 1116-1126 *)
    if useRLC c then
      s <- (if (wrote : bool) && (nextD (sd s) mod eraseSize c =? 0)
            then '(s, _) <- shiftRLC c s ;; Ok s
            else Ok s) ;;
      writeTemporaryPage c s
    else Ok (s, 0).

(** embedDBFlushVar, embedDB.c:1637-1660. *)
Definition embedDBFlushVar (c : cfg) (s : state) : res (state * Z) :=
  if curVarLoc (sv s) mod pageSize c =? varHdr c then Ok (s, 0)
  else
    '(s, r) <- writeVariablePage c s ;;
    if r =? NOPAGE then Ok (s, -1)
    else
      let v := v_wbuf (sv s) (init_var_page c) in
      let temp := pageSize c - curVarLoc v mod pageSize c in
      Ok (set_v s (v_loc v (u32 (curVarLoc v + temp + varHdr c))), 0).

(** embedDBFlush, embedDB.c:1667-1722.  fileInterface->flush has no effect in
    the model (writes are durable when they return). *)
Definition embedDBFlush (c : cfg) (s : state) : res (state * Z) :=
  n <- get_count (wbuf (sd s)) ;;
  if n <? 1 then Ok (s, 0)
  else
    '(s, pageNum) <- writePage c s ;;
    if pageNum =? NOPAGE then Ok (s, -1)
    else
      s <- indexPage c s pageNum ;;
      '(s, ok) <-
        (if useIndex c then
           idxcount <- get_count (iwbuf (si s)) ;;
           s <- idx_append c s idxcount ;;
           '(s, r) <- writeIndexPage c s ;;
           if r =? NOPAGE then Ok (s, false)
           else
             b <- init_page c ;;
             Ok (set_i s (i_wbuf (si s) b), true)
         else Ok (s, true)) ;;
      if negb (ok : bool) then Ok (s, -1)
      else
        b <- init_page c ;;
        let s := set_d s (d_wbuf (sd s) b) in
        if useVar c then
          '(s, r) <- embedDBFlushVar c s ;;
          if r =? 0 then Ok (s, 0) else Ok (s, -1)
        else Ok (s, 0).

(** The search loop of embedDBSearchNode, embedDB.c:1320-1331.  [None] = the
    loop ended without finding the key. *)
Fixpoint search_loop (c : cfg) (p : page) (key : Z) (fuel : nat) (first last middle : Z)
  : res (option Z) :=
  match fuel with
  | O => Fuel
  | S f =>
      if first <=? last then
        mk <- rec_key c p middle ;;
        let cm := cmpK c mk key in
        if cm <? 0 then
          search_loop c p key f (middle + 1) last (Z.quot (middle + 1 + last) 2)
        else if cm =? 0 then Ok (Some middle)
        else search_loop c p key f first (middle - 1) (Z.quot (first + (middle - 1)) 2)
      else Ok None
  end.

(** embedDBSearchNode with range = 0 (the only use), embedDB.c:1298-1335.
    [None] = -1.  [maxError] is never -1 (embedDB.c:201, 1173-1179). *)
Definition embedDBSearchNode (c : cfg) (p : page) (key : Z) : res (option Z) :=
  n <- get_count p ;;
  let count := i16 n in
  let m := i16 (est c p key) in
  let first := 0 in
  let last := count - 1 in
  let middle := if (m >=? count) || (m <=? 0) then Z.quot (first + last) 2 else m in
  let middle := if middle >? last then last else middle in
  search_loop c p key (Z.to_nat (Z.max count 0 + 1)) first last middle.

(** searchBuffer, embedDB.c:1443-1458: result converted to int8_t, and the
    data copied out. *)
Definition searchBuffer (c : cfg) (p : page) (key : Z) : res (Z * option (list Z)) :=
  n <- get_count p ;;
  if n =? 0 then Ok (-1, None)
  else
    r <- embedDBSearchNode c p key ;;
    match r with
    | Some i => dt <- rec_data c p i ;; Ok (i8 i, Some dt)
    | None => Ok (-1, None)
    end.

(** linearSearch, embedDB.c:1350-1377 (page ids below 2^31). *)
Fixpoint linearSearch (c : cfg) (s : state) (key : Z) (fuel : nat) (pageId low high : Z)
  : res (state * Z) :=
  match fuel with
  | O => Fuel
  | S f =>
      if (pageId >? high) || (pageId <? low) || (low >? high)
         || (pageId <? minD (sd s)) || (pageId >=? nextD (sd s))
      then Ok (s, -1)
      else
        let '(s, r) := readPage s (pageId mod numData c) in
        if negb (r =? 0) then Ok (s, -1)
        else
          mk <- min_key c (rbuf (sd s)) ;;
          if cmpK c key mk <? 0 then linearSearch c s key f (pageId - 1) low (pageId - 1)
          else
            xk <- max_key c (rbuf (sd s)) ;;
            if cmpK c key xk >? 0 then linearSearch c s key f (pageId + 1) (pageId + 1) high
            else Ok (s, 0)
  end.

(** The loop of binarySearch, embedDB.c:1382-1402 (uint32_t arithmetic).
    [None]: control reached the end of the function. *)
Fixpoint binary_loop (c : cfg) (s : state) (key : Z) (fuel : nat) (first last pageId : Z)
  : res (state * option Z) :=
  match fuel with
  | O => Fuel
  | S f =>
      let '(s, r) := readPage s (pageId mod numData c) in
      if negb (r =? 0) then Ok (s, Some (-1))
      else if first >=? last then Ok (s, None)
      else
        mk <- min_key c (rbuf (sd s)) ;;
        if cmpK c key mk <? 0 then
          let last := u32 (pageId - 1) in
          binary_loop c s key f first last (u32 (first + last) / 2)
        else
          xk <- max_key c (rbuf (sd s)) ;;
          if cmpK c key xk >? 0 then
            let first := u32 (pageId + 1) in
            binary_loop c s key f first last (u32 (first + last) / 2)
          else Ok (s, Some 0)
  end.

(** binarySearch, embedDB.c:1379-1403. *)
Definition binarySearch (c : cfg) (s : state) (key : Z) : res (state * Z) :=
  let first := minD (sd s) in
  let last := u32 (nextD (sd s) - 1) in
  '(s, r) <- binary_loop c s key 100 first last (u32 (first + last) / 2) ;;
  match r with
  | Some v => Ok (s, v)
  | None => match fallthru c with Some v => Ok (s, v) | None => UB end
  end.

(** splineSearch, embedDB.c:1405-1431. *)
Definition splineSearch (c : cfg) (s : state) (key : Z) : res (state * Z) :=
  match spl (sd s) with
  | None => UB
  | Some sp =>
      '(loc, low, high) <- spl_find (cmpK c) sp key ;;
      if high <? minD (sd s) then Ok (s, -1)
      else
        let '(loc, low) := if low <? minD (sd s)
                           then (u32 (minD (sd s) + high) / 2, minD (sd s))
                           else (loc, low) in
        hit <- (if (low <=? bufD (sd s)) && (high >=? bufD (sd s)) then
                  mk <- min_key c (rbuf (sd s)) ;;
                  if cmpK c mk key <=? 0 then
                    xk <- max_key c (rbuf (sd s)) ;;
                    Ok (cmpK c xk key >=? 0)
                  else Ok false
                else Ok false) ;;
        if (hit : bool) then Ok (s, 0)
        else
          '(s, r) <- linearSearch c s key (Z.to_nat (Z.max (high - low) 0 + 3)) loc low high ;;
          if r =? -1 then Ok (s, -1) else Ok (s, 0)
  end.

(** embedDBGet, embedDB.c:1469-1527.  The result is the int8_t return value and
    the bytes copied to the caller's data buffer, if any. *)
Definition embedDBGet (c : cfg) (s : state) (key : Z) : res (state * Z * option (list Z)) :=
  if nextD (sd s) =? 0 then
    '(r, dt) <- searchBuffer c (wbuf (sd s)) key ;;
    Ok (s, if negb (r =? -1) then 0 else -1, dt)
  else
    n <- get_count (wbuf (sd s)) ;;
    stop <-
      (if negb (n =? 0) then
         mx <- max_key c (wbuf (sd s)) ;;
         mn <- min_key c (wbuf (sd s)) ;;
         if key >? mx then Ok (Some (-1, None))
         else if key >=? mn then
           '(r, dt) <- searchBuffer c (wbuf (sd s)) key ;;
           Ok (Some (if negb (r =? -1) then 0 else -1, dt))
         else Ok None
       else Ok None) ;;
    match stop with
    | Some (r, dt) => Ok (s, r, dt)
    | None =>
        '(s, r) <- (if useBinary c then binarySearch c s key else splineSearch c s key) ;;
        if negb (r =? 0) then Ok (s, -1, None)
        else
          i <- embedDBSearchNode c (rbuf (sd s)) key ;;
          match i with
          | Some i => dt <- rec_data c (rbuf (sd s)) i ;; Ok (s, 0, Some dt)
          | None => Ok (s, -1, None)
          end
    end.

(** embedDBIterator, embedDB.h:253-261. *)
Record iter := mkIt {
  itPage : Z;                    (* nextDataPage *)
  itRec : Z;                     (* nextDataRec *)
  itMinK : option Z;
  itMaxK : option Z;
  itMinD : option (list Z);
  itMaxD : option (list Z);
  itBM : option (list Z)         (* queryBitmap *)
}.

(** embedDBInitIterator, embedDB.c:1589-1620.  [state->spl->count] is read even
    in binary-search mode (line 1609). *)
Definition embedDBInitIterator (c : cfg) (s : state) (mnk mxk : option Z)
  (mnd mxd : option (list Z)) : res iter :=
  let bm := if useBmap c then
              match mnd, mxd with
              | None, None => None
              | _, _ => Some (buildBM c mnd mxd)
              end
            else None in
  match spl (sd s) with
  | None => UB
  | Some sp =>
      pg <- (match mnk with
             | Some k =>
                 if negb (s_count sp =? 0) && negb (useBinary c) then
                   '(_, low, _) <- spl_find (cmpK c) sp k ;;
                   Ok (Z.max low (minD (sd s)))
                 else Ok (minD (sd s))
             | None => Ok (minD (sd s))
             end) ;;
      Ok (mkIt pg 0 mnk mxk mnd mxd bm)
  end.

(** bitmapOverlap, embedDB.c:79-85. *)
Fixpoint bitmapOverlap (a b : list Z) : bool :=
  match a, b with
  | x :: a', y :: b' => (Z.land x y >=? 1) || bitmapOverlap a' b'
  | _, _ => false
  end.

(** The record filter of embedDBNext, embedDB.c:1787-1797. *)
Inductive verdict := Match | Skip | Stop.
Definition it_check (c : cfg) (it : iter) (key : Z) (data : list Z) : verdict :=
  if (match itMinK it with Some k => cmpK c key k <? 0 | None => false end) then Skip
  else if (match itMaxK it with Some k => cmpK c key k >? 0 | None => false end) then Stop
  else if (match itMinD it with Some x => cmpD c data x <? 0 | None => false end) then Skip
  else if (match itMaxD it with Some x => cmpD c data x >? 0 | None => false end) then Skip
  else Match.

(** Assignments to [nextDataRec] and [nextDataPage] of an iterator, embedDB.c:1780-1805. *)
Definition it_rec (it : iter) (r : Z) : iter :=
  mkIt (itPage it) r (itMinK it) (itMaxK it) (itMinD it) (itMaxD it) (itBM it).
Definition it_page (it : iter) (p r : Z) : iter :=
  mkIt p r (itMinK it) (itMaxK it) (itMinD it) (itMaxD it) (itBM it).

(** The record loop of embedDBNext, embedDB.c:1780-1798.  [out] is the content
    of the caller's key/data buffers. *)
Fixpoint next_recs (c : cfg) (p : page) (n : Z) (fuel : nat) (it : iter)
  (out : option (Z * list Z)) : res (iter * option Z * option (Z * list Z)) :=
  match fuel with
  | O => Fuel
  | S f =>
      if itRec it <? n then
        k <- rec_key c p (itRec it) ;;
        dt <- rec_data c p (itRec it) ;;
        let it' := it_rec it (u16 (itRec it + 1)) in
        match it_check c it k dt with
        | Skip => next_recs c p n f it' (Some (k, dt))
        | Stop => Ok (it', Some 0, Some (k, dt))
        | Match => Ok (it', Some 1, Some (k, dt))
        end
      else Ok (it, None, out)
  end.

(** The bitmap test of embedDBNext, embedDB.c:1743-1768.  The result is
    [None] when the index page could not be read (return 0), else whether the
    data page may be skipped.  [maxIdxRecordsPerPage] is uninitialised without
    an index. *)
Definition next_skip (c : cfg) (s : state) (it : iter) : res (state * option bool) :=
  match itBM it with
  | Some bm =>
      if itRec it =? 0 then
        if negb (useIndex c) || (maxIdx c =? 0) then UB
        else
          let ip := itPage it / maxIdx c in
          let ir := u16 (itPage it mod maxIdx c) in
          if (ip >=? minI (si s)) && (ip <? nextI (si s)) then
            let '(s, r) := readIndexPage s (ip mod numIndex c) in
            if negb (r =? 0) then Ok (s, None)
            else
              ibm <- ld (irbuf (si s)) (16 + ir * bitmapSize c) (bsz c) ;;
              Ok (s, Some (negb (bitmapOverlap bm ibm)))
          else Ok (s, Some false)
      else Ok (s, Some false)
  | None => Ok (s, Some false)
  end.

(** embedDBNext, embedDB.c:1732-1806.  Result: state, iterator, return value
    and the last record copied to the caller's buffers (also when the return
    value is 0). [sw] is [searchWriteBuf]. *)
Fixpoint next_loop (c : cfg) (s : state) (fuel : nat) (sw : bool) (it : iter)
  (out : option (Z * list Z)) : res (state * iter * Z * option (Z * list Z)) :=
  match fuel with
  | O => Fuel
  | S f =>
      if itPage it >? nextD (sd s) then Ok (s, it, 0, out)
      else
        let sw := if itPage it =? nextD (sd s) then true else sw in
        '(s, sk) <- next_skip c s it ;;
        match sk with
        | None => Ok (s, it, 0, out)
        | Some true => next_loop c s f sw (it_page it (u32 (itPage it + 1)) (itRec it)) out
        | Some false =>
            let '(s, r) := if sw then (s, 0)
                           else readPage s (itPage it mod numData c) in
            if negb (r =? 0) then Ok (s, it, 0, out)
            else
              let p := if sw then wbuf (sd s) else rbuf (sd s) in
              n <- get_count p ;;
              '(it, r, out) <- next_recs c p n (Z.to_nat (n + 1)) it out ;;
              match r with
              | Some r => Ok (s, it, r, out)
              | None => next_loop c s f sw (it_page it (u32 (itPage it + 1)) 0) out
              end
        end
  end.

(** embedDBNext, embedDB.c:1732-1806: the loop with fuel for all pages that remain. *)
Definition embedDBNext (c : cfg) (s : state) (it : iter)
  : res (state * iter * Z * option (Z * list Z)) :=
  next_loop c s (Z.to_nat (Z.max (nextD (sd s) - itPage it) 0 + 3)) false it None.

(** Model of embedDBInit and the recovery functions of src/embedDB/embedDB.c. *)
From Verif Require Import Base Config Spline Storage DB.
Open Scope Z_scope.

(** What exists on storage before [embedDBInit]; [None] = no such file. *)
Record disk := mkDisk { kD : option file; kI : option file; kV : option file }.

(** fileInterface->open, desktopFileInterface.c:76-92: "r+b" needs the file,
    "w+b" creates or truncates it.  DF_OPEN, dataflashFileInterface.c:95-97, leaves
    the contents in both modes.  (A file length is not negative.) *)
Definition open_r (f : option file) : option file := f.
Definition open_w (c : cfg) (f : option file) : file :=
  if truncates c then emptyFile else match f with Some f => if 0 <=? flen f then f else emptyFile | None => emptyFile end.

(** Readings of the page in the data read buffer (embedDB.c:335-337): logical
    id and record count converted to int8_t. *)
Definition hdr_ok (c : cfg) (p : page) (count : Z) : res (Z * bool) :=
  id <- get_pid p ;;
  n <- get_count p ;;
  let nr := i8 n in
  Ok (id, (id mod numData c =? count) && (nr >? 0) && (nr <? maxRec c + 1)).

(** The first loop of embedDBInitDataFromFile, embedDB.c:334-351, and of the
    record-level-consistency variant, embedDB.c:434-452 ([tries] = 2 or 4).
    [phys] and [count] are equal throughout.  Result: moreToRead, count,
    maxLogicalPageId when data was found. *)
Fixpoint rec_first (c : cfg) (s : state) (more : bool) (tries : nat) (count : Z)
  : res (state * bool * Z * option Z) :=
  match tries with
  | O => Ok (s, more, count, None)
  | S t =>
      if more then
        '(id, ok) <- hdr_ok c (rbuf (sd s)) count ;;
        if (ok : bool) then
          let '(s, r) := readPage s (count + 1) in
          Ok (s, r =? 0, count + 1, Some id)
        else
          let '(s, r) := readPage s (count + eraseSize c) in
          rec_first c s (r =? 0) t (count + eraseSize c)
      else Ok (s, more, count, None)
  end.

(** The second loop, embedDB.c:357-369 and 455-467. *)
Fixpoint rec_scan (c : cfg) (s : state) (fuel : nat) (more : bool) (count mx : Z)
  : res (state * bool * Z * Z) :=
  match fuel with
  | O => Fuel
  | S f =>
      if more && (count <? numData c) then
        id <- get_pid (rbuf (sd s)) ;;
        if (id mod numData c =? count) && (id =? u32 (mx + 1)) then
          let '(s, r) := readPage s (count + 1) in
          rec_scan c s f (r =? 0) (count + 1) id
        else Ok (s, more, count, mx)
      else Ok (s, more, count, mx)
  end.

(** embedDBInitSplineFromFile, embedDB.c:587-597. *)
Fixpoint spline_from_file (c : cfg) (s : state) (n : nat) (pg : Z) : res state :=
  match n with
  | O => Ok s
  | S n' =>
      let '(s, _) := readPage s (pg mod numData c) in
      k <- min_key c (rbuf (sd s)) ;;
      match spl (sd s) with
      | None => UB
      | Some sp =>
          spline_from_file c (set_d s (d_spl (sd s) (Some (spl_add sp k pg)))) n' (u32 (pg + 1))
      end
  end.

(** The common end of both data recoveries, embedDB.c:401-413 and 573-584;
    [reserved] is 0, or the size of the two reserved blocks. *)
Definition rec_finish (c : cfg) (s : state) (small mx reserved : Z) : res (state * Z) :=
  let s := set_d s (d_next (sd s) (u32 (mx + 1))) in
  let '(s, _) := readPage s small in
  m <- get_pid (rbuf (sd s)) ;;
  let s := set_d s (d_avail (sd s) (u32 (numData c + m - mx - 1 - reserved)) m) in
  let '(s, _) := readPage s (u32 (nextD (sd s) - 1) mod numData c) in
  if useBinary c then Ok (s, 0)
  else
    s <- spline_from_file c s (Z.to_nat (u32 (nextD (sd s) - minD (sd s)))) (minD (sd s)) ;;
    Ok (s, 0).

(** embedDBInitDataFromFile, embedDB.c:318-414. *)
Definition initDataFromFile (c : cfg) (s : state) : res (state * Z) :=
  let '(s, r) := readPage s 0 in
  '(s, more, count, found) <- rec_first c s (r =? 0) 2 0 ;;
  match found with
  | None => Ok (s, 0)
  | Some mx =>
      '(s, more, count, mx) <- rec_scan c s (Z.to_nat (numData c + 1)) more count mx ;;
      if more && (count <? numData c) then
        let ptb := eraseSize c - count mod eraseSize c in
        let phys := (count + ptb) mod numData c in
        let '(s, r) := readPage s phys in
        if negb (r =? 0) then Ok (s, -1)
        else
          id <- get_pid (rbuf (sd s)) ;;
          rec_finish c s (if id mod numData c =? phys then phys else 0) mx 0
      else rec_finish c s 0 mx 0
  end.

(** The search for the newest temporary page, embedDB.c:499-515.  [best] is
    [Some (record count, index)] of the best page so far. *)
Fixpoint rlc_scan (c : cfg) (s : state) (n : nat) (more : bool) (phys idx want : Z)
  (perm : bool) (best : option (Z * Z)) : res (state * option (Z * Z)) :=
  match n with
  | O => Ok (s, best)
  | S n' =>
      if more then
        id <- get_pid (rbuf (sd s)) ;;
        nr <- get_count (rbuf (sd s)) ;;
        let best :=
          if (id =? want) || ((id =? 0) && negb perm) then
            match best with
            | None => Some (nr, idx)
            | Some (m, _) => if nr >? m then Some (nr, idx) else best
            end
          else best in
        let phys := (phys + 1) mod numData c in
        let '(s, r) := readPage s phys in
        rlc_scan c s n' (r =? 0) phys (idx + 1) want perm best
      else Ok (s, best)
  end.

(** embedDBInitDataFromFileWithRecordLevelConsistency, embedDB.c:416-585. *)
Definition initDataFromFileRLC (c : cfg) (s : state) : res (state * Z) :=
  let B := eraseSize c in
  let '(s, r) := readPage s 0 in
  '(s, more, count, found) <- rec_first c s (r =? 0) 4 0 ;;
  (* 454-472 *)
  '(s, count, mx) <-
    (match found with
     | Some mx =>
         '(s, more, count, mx) <- rec_scan c s (Z.to_nat (numData c + 1)) more count mx ;;
         Ok (s, count, mx)
     | None => Ok (s, 0, 0)
     end) ;;
  let perm := match found with Some _ => true | None => false end in
  (* 474-490 *)
  let ptb := B - count mod B in
  let '(s, ok) :=
    if ptb =? B then
      let '(o, ok) := io_erase c WD count (count + B) (sio s) in (set_io s o, ok)
    else (s, true) in
  if negb ok then Ok (s, -1)
  else
    let start := (count + ptb) mod numData c in
    let s := set_d s (d_rlc (sd s) start start) in
    (* 493-515 *)
    let '(s, r) := readPage s start in
    '(s, best) <- rlc_scan c s (Z.to_nat (B * 2)) (r =? 0) start 0 (u32 (mx + 1)) perm None ;;
    (* 518-549 *)
    '(s, err, es, nb) <-
      (match best with
       | None => Ok (s, false, start mod numData c, 2%nat)
       | Some (_, idx) =>
           let s := set_d s (d_rlc (sd s) ((start + idx + 1) mod numData c) start) in
           let '(s, r) := readPage s ((start + idx) mod numData c) in
           if negb (r =? 0) then Ok (s, true, 0, O)
           else
             let s := set_d s (d_wbuf (sd s) (rbuf (sd s))) in
             Ok (s, false, (start + (if idx <? B then B else 0)) mod numData c, 1%nat)
       end) ;;
    if (err : bool) then Ok (s, -1)
    else
      let '(o, ok) := shift_erase c nb es (sio s) in
      let s := set_io s o in
      if negb ok then Ok (s, -1)
      else if negb perm then Ok (s, 0)
      else
        (* 559-584 *)
        let phys := (start + 2 * B) mod numData c in
        let '(s, r) := readPage s phys in
        small <- (if r =? 0 then
                    id <- get_pid (rbuf (sd s)) ;;
                    Ok (if id mod numData c =? phys then phys else 0)
                  else Ok 0) ;;
        rec_finish c s small mx (2 * B).

(** embedDBInitData, embedDB.c:274-316, on the already initialised fields. *)
Definition initData (c : cfg) (s : state) (f : option file) : res (state * Z) :=
  let d := d_avail (d_next (sd s) 0) (numData c) 0 in
  let d := if useRLC c
           then d_rlc (d_avail d (u32 (numData c - eraseSize c * 2)) 0)
                      (eraseSize c) (eraseSize c)
           else d in
  let s := set_d s d in
  let o := sio s in
  if useReset c then
    Ok (set_io s (mkIO (faults o) (open_w c f) (fI o) (fV o) (trace o)), 0)
  else
    match open_r f with
    | None => Ok (s, -1)
    | Some fl =>
        let s := set_io s (mkIO (faults o) fl (fI o) (fV o) (trace o)) in
        if useRLC c then initDataFromFileRLC c s else initDataFromFile c s
    end.

(** The scan of embedDBInitIndexFromFile, embedDB.c:668-679. *)
Fixpoint idx_scan (c : cfg) (s : state) (fuel : nat) (more : bool) (count mx : Z)
  : res (state * Z * Z * bool * Z) :=
  match fuel with
  | O => Fuel
  | S f =>
      if more && (count <? numIndex c) then
        id <- get_pid (irbuf (si s)) ;;
        if (count =? 0) || (id =? u32 (mx + 1)) then
          let '(s, r) := readIndexPage s (count + 1) in
          idx_scan c s f (r =? 0) (count + 1) id
        else Ok (s, count, mx, id =? u32 (mx - numIndex c + 1), id)
      else Ok (s, count, mx, false, mx)
  end.

(** embedDBInitIndexFromFile, embedDB.c:656-694. *)
Definition initIndexFromFile (c : cfg) (s : state) : res (state * Z) :=
  let '(s, r) := readIndexPage s 0 in
  '(s, count, mx, wrapped, id) <- idx_scan c s (Z.to_nat (numIndex c + 1)) (r =? 0) 0 0 ;;
  if count =? 0 then Ok (s, 0)
  else
    let s := set_i s (i_next (si s) (u32 (mx + 1))) in
    let small := if (wrapped : bool) then id mod numIndex c else 0 in
    let '(s, _) := readIndexPage s small in
    m <- get_pid (irbuf (si s)) ;;
    Ok (set_i s (i_avail (si s) (u32 (numIndex c + m - mx - 1)) m), 0).

(** embedDBInitIndex, embedDB.c:599-654. *)
Definition initIndex (c : cfg) (s : state) (f : option file) : res (state * Z) :=
  if bitmapSize c =? 0 then UB
  else
    b <- init_page c ;;
    b <- st b 8 (le_enc 4 (nextD (sd s))) ;;
    let i := mkI b (irbuf (si s)) (numIndex c) 0 0 (bufI (si s)) in
    let s := set_i s i in
    if numIndex c <? eraseSize c * 2 then Ok (s, -1)
    else if negb (numIndex c mod eraseSize c =? 0) then Ok (s, -1)
    else
      let o := sio s in
      match (if useReset c then None else open_r f) with
      | Some fl =>
          initIndexFromFile c (set_io s (mkIO (faults o) (fD o) fl (fV o) (trace o)))
      | None =>
          Ok (set_io s (mkIO (faults o) (fD o) (open_w c f) (fV o) (trace o)), 0)
      end.

(** The first loop of embedDBInitVarDataFromFile, embedDB.c:739-764. *)
Fixpoint var_first (c : cfg) (s : state) (fuel : nat) (more : bool) (i count : Z)
  : res (state * bool * Z * option Z) :=
  match fuel with
  | O => Fuel
  | S f =>
      if more && (i <? 2) then
        id <- get_pid (vrbuf (sv s)) ;;
        if numVar c =? 0 then UB
        else if id mod numVar c =? count then
          k <- ldz (vrbuf (sv s)) 4 (ksz c) ;;
          let '(s, r) := readVariablePage s (count + 1) in
          if negb (id =? 0) || negb (k =? 0)
          then Ok (s, r =? 0, count + 1, Some id)
          else var_first c s f (r =? 0) i (count + 1)
        else
          let count := count + (eraseSize c - count mod eraseSize c) in
          let '(s, r) := readVariablePage s count in
          var_first c s f (r =? 0) (i + 1) count
      else Ok (s, more, count, None)
  end.

(** The second loop, embedDB.c:770-781. *)
Fixpoint var_scan (c : cfg) (s : state) (fuel : nat) (more : bool) (count mx : Z)
  : res (state * bool * Z * Z) :=
  match fuel with
  | O => Fuel
  | S f =>
      if more && (count <? numVar c) then
        id <- get_pid (vrbuf (sv s)) ;;
        if (id mod numVar c =? count) && (id =? u32 (mx + 1)) then
          let '(s, r) := readVariablePage s (count + 1) in
          var_scan c s f (r =? 0) (count + 1) id
        else Ok (s, more, count, mx)
      else Ok (s, more, count, mx)
  end.

(** The end of embedDBInitVarDataFromFile, embedDB.c:813-857. *)
Definition var_finish (c : cfg) (s : state) (small mx : Z) : res (state * Z) :=
  let s := set_v s (v_next (sv s) (u32 (mx + 1))) in
  let '(s, r) := readVariablePage s small in
  if negb (r =? 0) then Ok (s, -1)
  else
    m <- get_pid (vrbuf (sv s)) ;;
    '(s, err) <-
      (if m =? 0 then
         if useRLC c && (nextD (sd s) =? 0) then
           k <- min_key c (wbuf (sd s)) ;;
           Ok (set_v s (v_minrec (sv s) k), false)
         else
           let '(s, r) := readPage s (minD (sd s) mod numData c) in
           if negb (r =? 0) then Ok (s, true)
           else
             k <- min_key c (rbuf (sd s)) ;;
             Ok (set_v s (v_minrec (sv s) k), false)
       else
         k <- ldz (vrbuf (sv s)) 4 (ksz c) ;;
         Ok (set_v s (v_minrec (sv s) (u64 (set_low c (minVarRec (sv s)) k + 1))), false)) ;;
    if (err : bool) then Ok (s, -1)
    else
      let v := v_avail (sv s) (u32 (numVar c + m - mx - 1)) in
      let v := v_loc v (u32 (nextV v mod numVar c * pageSize c + varHdr c)) in
      Ok (set_v s v, 0).

(** embedDBInitVarDataFromFile, embedDB.c:724-858. *)
Definition initVarDataFromFile (c : cfg) (s : state) : res (state * Z) :=
  let '(s, r) := readVariablePage s 0 in
  '(s, more, count, found) <- var_first c s 4 (r =? 0) 0 0 ;;
  match found with
  | None => Ok (s, 0)
  | Some mx =>
      '(s, more, count, mx) <- var_scan c s (Z.to_nat (numVar c + 1)) more count mx ;;
      if more && (count <? numVar c) then
        let ptb := eraseSize c - count mod eraseSize c in
        let phys := (count + ptb) mod numVar c in
        let '(s, r) := readVariablePage s phys in
        if negb (r =? 0) then Ok (s, -1)
        else
          id <- get_pid (vrbuf (sv s)) ;;
          var_finish c s (if id mod numVar c =? phys then phys else 0) mx
      else var_finish c s 0 mx
  end.

(** embedDBInitVarData, embedDB.c:696-722. *)
Definition initVarData (c : cfg) (s : state) (f : option file) : res (state * Z) :=
  let v := mkV (init_var_page c) (vrbuf (sv s)) (numVar c) 0 (2 ^ 64 - 1) (varHdr c)
               (bufV (sv s)) (hasVar (sv s)) in
  let s := set_v s v in
  let o := sio s in
  match (if negb (useReset c) && ((nextD (sd s) >? 0) || useRLC c) then open_r f else None) with
  | Some fl =>
      initVarDataFromFile c (set_io s (mkIO (faults o) (fD o) (fI o) fl (trace o)))
  | None =>
      Ok (set_io s (mkIO (faults o) (fD o) (fI o) (open_w c f) (trace o)), 0)
  end.

(** embedDBInit, embedDB.c:139-272, on storage [k] with fault script [fs].
    [dataFile], [indexFile] and [varFile] are assumed non-NULL.  Returns the
    state and the int8_t result. *)
Definition embedDBInit (c : cfg) (k : disk) (fs : list bool) : res (state * Z) :=
  let o := mkIO fs emptyFile emptyFile emptyFile [] in
  let d0 := mkD (gpage c) (gpage c) 0 0 0 NOPAGE 0 0 None in
  let i0 := mkI (gpage c) (gpage c) 0 0 0 NOPAGE in
  let v0 := mkV (gpage c) (gpage c) 0 0 0 0 NOPAGE (ghasvar c) in
  let s := mkS o d0 i0 v0 in
  let B := eraseSize c in
  if keySize c >? 8 then Ok (s, -1)
  else if B =? 0 then UB
  else if negb (numData c mod B =? 0) then Ok (s, -1)
  else if numData c <? (if useRLC c then 4 else 2) * B then Ok (s, -1)
  else if useVar c && negb (numVar c mod B =? 0) then Ok (s, -1)
  else if useIndex c && negb (numIndex c mod B =? 0) then Ok (s, -1)
  else if recordSize c =? 0 then UB
  else
    w <- init_page c ;;
    let s := set_d s (d_wbuf (sd s) w) in
    if numData c <? ((if useIndex c then 1 else 0) * 2 + 2) * B then Ok (s, -1)
    else if negb (useBinary c) && (numSplinePts c <? 4) then Ok (s, -1)
    else
      let s := if useBinary c then s
               else set_d s (d_spl (sd s)
                       (Some (spl_init (numSplinePts c) (maxErr c) (gpoint c)))) in
      '(s, r) <- initData c s (kD k) ;;
      if negb (r =? 0) then Ok (s, r)
      else
        '(s, r) <-
          (if useIndex c then
             if bufBlocks c <? 4 then Ok (s, -1) else initIndex c s (kI k)
           else Ok (s, 0)) ;;
        if negb (r =? 0) then Ok (s, r)
        else if useVar c then
          if bufBlocks c <? 4 + (if useIndex c then 2 else 0) then Ok (s, -1)
          else initVarData c s (kV k)
        else Ok (s, 0).

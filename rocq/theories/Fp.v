(** Model of the floating-point computations of src/embedDB/embedDB.c and
    src/spline/spline.c: the in-page estimate, the statistic of its error, and the
    interpolation of the learned index.

    A floating-point number is a rational; [fl] rounds the exact result of a conversion
    or operation.  Its properties are hypotheses of the theorems (SpecFp.v), so they
    hold for the float of every platform and for every rounding mode that meets them.
    Conversion to an integer type truncates, and is undefined ([UB]) when the truncated
    value is outside the type (C11 6.3.1.4); division by zero gives an infinity or NaN,
    whose conversion is undefined too.  Every operation rounds: excess precision of
    intermediate results (FLT_EVAL_METHOD other than 0) is not modelled. *)
From Verif Require Import Base Config Spline Storage DB VarData Recovery Spec Run.
From Coq Require Import QArith Qround Qabs.
Open Scope Z_scope.

(** Conversion to an integer type with values [lo..hi] (embedDB.c:1288, 941, 943;
    spline.c:373). *)
Definition qtrunc (x : Q) : Z := if Qle_bool 0 x then Qfloor x else - Qfloor (- x).
Definition to_int (lo hi : Z) (x : Q) : res Z :=
  let t := qtrunc x in if (lo <=? t) && (t <=? hi) then Ok t else UB.

(** Quotient of two floats; [None]: not a finite number. *)
Definition fdiv (fl : Q -> Q) (x y : Q) : option Q :=
  if Qeq_bool y 0 then None else Some (fl (x / y)%Q).

(** embedDBCalculateSlope, embedDB.c:878-914 (count_t is uint16_t; the differences are
    computed in uint32_t or uint64_t by the key size). *)
Definition calcSlope (fl : Q -> Q) (c : cfg) (p : page) : res (option Q) :=
  n <- get_count p ;;
  let x2 := if n =? 0 then 0 else n - 1 in
  if x2 =? 0 then Ok (Some 1%Q)
  else
    y1 <- rec_key c p 0 ;;
    y2 <- rec_key c p x2 ;;
    let d := if keySize c <=? 4 then u32 (y2 - y1) else u64 (y2 - y1) in
    Ok (fdiv fl (fl (inject_Z d)) (fl (inject_Z x2))).

(** embedDBEstimateKeyLocation, embedDB.c:1279-1289, before [est] of Config.v is read as
    its result. *)
Definition estimate (fl : Q -> Q) (c : cfg) (p : page) (key : Z) : res Z :=
  sl <- calcSlope fl c p ;;
  mn <- min_key c p ;;
  match sl with
  | None => UB
  | Some sl =>
      match fdiv fl (fl (inject_Z (u64 (key - mn)))) sl with
      | None => UB
      | Some x => to_int (-32768) 32767 x
      end
  end.

(** The loop of getMaxError, embedDB.c:931-946 and 962-977; [i] counts up, [n] rounds
    are left. *)
Fixpoint maxerr_loop (fl : Q -> Q) (c : cfg) (p : page) (sl : Q) (mn : Z) (n : nat) (i mx : Z) : res Z :=
  match n with
  | O => Ok mx
  | S n =>
      k <- rec_key c p i ;;
      let d := if keySize c <=? 4 then u32 (k - mn) else u64 (k - mn) in
      match fdiv fl (fl (inject_Z d)) sl with
      | None => UB
      | Some x =>
          e <- (if Qle_bool (inject_Z i) x then to_int (- 2 ^ 31) (2 ^ 31 - 1) (fl (x - inject_Z i)%Q)
                else to_int (- 2 ^ 31) (2 ^ 31 - 1) (fl (inject_Z i - x)%Q)) ;;
          maxerr_loop fl c p sl mn n (i + 1) (if e >? mx then e else mx)
      end
  end.
(** getMaxError, embedDB.c:921-985, of page [p]; [w] is the page state->buffer, whose
    slope is used for keys of more than 4 bytes (line 959). *)
Definition getMaxError (fl : Q -> Q) (c : cfg) (w p : page) : res Z :=
  mn <- min_key c p ;;
  sl <- calcSlope fl c (if keySize c <=? 4 then p else w) ;;
  match sl with
  | None => UB
  | Some sl =>
      mx <- maxerr_loop fl c p sl mn (Z.to_nat (maxRec c)) 0 0 ;;
      Ok (if mx >? maxRec c then maxRec c else mx)
  end.

(** splineFind, spline.c:330-384, as [spl_find] with the quotient of line 373 computed in
    floating point. *)
Definition spl_find_fp (fl : Q -> Q) (cmp : Z -> Z -> Z) (s : spline) (key : Z) : res (Z * Z * Z) :=
  let p0 := spl_pt s 0 in
  let pl := spl_pt s (s_count s - 1) in
  if (cmp key (fst p0) <? 0) || (s_count s <=? 1) then
    let lowE := snd (s_first s) in
    let highE := snd p0 in
    Ok (u32 (lowE + highE) / 2, lowE, highE)
  else if cmp key (fst pl) >? 0 then Ok (snd pl, snd pl, snd pl)
  else
    idx <- spl_bsearch cmp s (Z.to_nat (s_count s + 2)) 0 (s_count s - 1) key ;;
    let '(downKey, downPage) := spl_pt s (idx - 1) in
    let '(upKey, upPage) := spl_pt s idx in
    let num := u64 (u64 (key - downKey) * u32 (upPage - downPage)) in
    let den := u64 (upKey - downKey) in
    match fdiv fl (fl (inject_Z num)) (fl (inject_Z den)) with
    | None => UB
    | Some x =>
        q <- to_int 0 (2 ^ 32 - 1) x ;;
        let loc := u32 (q + downPage) in
        let lowE := if s_maxErr s >? loc then 0 else loc - s_maxErr s in
        let lastPage := snd pl in
        let highE := if u32 (loc + s_maxErr s) >? lastPage then lastPage
                     else u32 (loc + s_maxErr s) in
        Ok (loc, lowE, highE)
    end.

(** The configuration with the estimate replaced by the number [e]. *)
Definition with_est (c : cfg) (e : Z) : cfg :=
  mkCfg (keySize c) (dataSize c) (pageSize c) (bitmapSize c) (eraseSize c) (numData c) (numIndex c) (numVar c)
    (numSplinePts c) (maxErr c) (bufBlocks c) (params c) (cmpK c) (cmpD c) (updBM c) (buildBM c)
    (fun _ _ => e) (eraseFill c) (fallthru c) (gpage c) (gpoint c) (ghasvar c) (holeFill c) (truncates c).

(** embedDBSearchNode, embedDB.c:1298-1335, with the computed estimate. *)
Definition searchNode_fp (fl : Q -> Q) (c : cfg) (p : page) (key : Z) : res (option Z) :=
  e <- estimate fl c p key ;; embedDBSearchNode (with_est c e) p key.

(** searchBuffer, embedDB.c:1443-1458. *)
Definition searchBuffer_fp (fl : Q -> Q) (c : cfg) (p : page) (key : Z) : res (Z * option (list Z)) :=
  n <- get_count p ;;
  if n =? 0 then Ok (-1, None)
  else
    r <- searchNode_fp fl c p key ;;
    match r with
    | Some i => dt <- rec_data c p i ;; Ok (i8 i, Some dt)
    | None => Ok (-1, None)
    end.

(** splineSearch, embedDB.c:1405-1431; [fd] rounds to long double. *)
Definition splineSearch_fp (fd : Q -> Q) (c : cfg) (s : state) (key : Z) : res (state * Z) :=
  match spl (sd s) with
  | None => UB
  | Some sp =>
      '(loc, low, high) <- spl_find_fp fd (cmpK c) sp key ;;
      if high <? minD (sd s) then Ok (s, -1)
      else
        let '(loc, low) := if low <? minD (sd s)
                           then (u32 (minD (sd s) + high) / 2, minD (sd s))
                           else (loc, low) in
        hit <- (if (low <=? bufD (sd s)) && (high >=? bufD (sd s)) then
                  mk <- min_key c (rbuf (sd s)) ;;
                  if cmpK c mk key <=? 0 then
                    xk <- max_key c (rbuf (sd s)) ;;
                    Ok (cmpK c xk key >=? 0)
                  else Ok false
                else Ok false) ;;
        if (hit : bool) then Ok (s, 0)
        else
          '(s, r) <- linearSearch c s key (Z.to_nat (Z.max (high - low) 0 + 3)) loc low high ;;
          if r =? -1 then Ok (s, -1) else Ok (s, 0)
  end.

(** embedDBGet, embedDB.c:1469-1527; [fl] rounds to float, [fd] to long double. *)
Definition embedDBGet_fp (fl fd : Q -> Q) (c : cfg) (s : state) (key : Z) : res (state * Z * option (list Z)) :=
  if nextD (sd s) =? 0 then
    '(r, dt) <- searchBuffer_fp fl c (wbuf (sd s)) key ;;
    Ok (s, if negb (r =? -1) then 0 else -1, dt)
  else
    n <- get_count (wbuf (sd s)) ;;
    stop <-
      (if negb (n =? 0) then
         mx <- max_key c (wbuf (sd s)) ;;
         mn <- min_key c (wbuf (sd s)) ;;
         if key >? mx then Ok (Some (-1, None))
         else if key >=? mn then
           '(r, dt) <- searchBuffer_fp fl c (wbuf (sd s)) key ;;
           Ok (Some (if negb (r =? -1) then 0 else -1, dt))
         else Ok None
       else Ok None) ;;
    match stop with
    | Some (r, dt) => Ok (s, r, dt)
    | None =>
        '(s, r) <- (if useBinary c then binarySearch c s key else splineSearch_fp fd c s key) ;;
        if negb (r =? 0) then Ok (s, -1, None)
        else
          i <- searchNode_fp fl c (rbuf (sd s)) key ;;
          match i with
          | Some i => dt <- rec_data c (rbuf (sd s)) i ;; Ok (s, 0, Some dt)
          | None => Ok (s, -1, None)
          end
    end.

(** embedDBGetVar, embedDB.c:1540-1582. *)
Definition embedDBGetVar_fp (fl fd : Q -> Q) (c : cfg) (s : state) (key : Z)
  : res (state * Z * option (list Z) * option stream) :=
  if negb (useVar c) then Ok (s, 0, None, None)
  else
    '(recNum, dt) <- searchBuffer_fp fl c (wbuf (sd s)) key ;;
    '(s, found, dt) <-
      (if negb (recNum =? -1) then
         '(s, _) <- embedDBFlushVar c s ;;
         Ok (readToWriteBuf s, Some recNum, dt)
       else
         '(s, r, dt) <- embedDBGet_fp fl fd c s key ;;
         if r =? 0 then
           i <- searchNode_fp fl c (rbuf (sd s)) key ;;
           Ok (s, Some (match i with Some i => i8 i | None => -1 end), dt)
         else Ok (s, None, dt)) ;;
    match found with
    | None => Ok (s, -1, dt, None)
    | Some n =>
        '(s, r, vs) <- setupVarDataStream c s key (u32 n) ;;
        Ok (s, (if r =? 0 then 0 else if r =? 1 then 1 else -1), dt, vs)
    end.

(** embedDBPut, embedDB.c:1004-1127, with the statistic of line 1056, taken of the full
    page in the write buffer (the page number stored in it by writePage does not
    matter).  state->maxError is no part of the model's state: C44_max_error_constant. *)
Definition embedDBPut_fp (fl : Q -> Q) (c : cfg) (s : state) (key : Z) (data : list Z) : res (state * Z) :=
  n <- get_count (wbuf (sd s)) ;;
  '(s', r) <- embedDBPut c s key data ;;
  if (n >=? maxRec c) && negb (r =? 1) then
    _ <- getMaxError fl c (wbuf (sd s)) (wbuf (sd s)) ;;
    Ok (s', r)
  else Ok (s', r).

(** Histories as in Run.v. *)
Definition step_fp (fl fd : Q -> Q) (c : cfg) (s : state) (o : hop) : res (state * hout) :=
  match o with
  | HPut k d => '(s, r) <- embedDBPut_fp fl c s k d ;; Ok (s, OPut r)
  | HFlush => '(s, r) <- embedDBFlush c s ;; Ok (s, OFlush r)
  | HGet k => '(s, r, d) <- embedDBGet_fp fl fd c s k ;; Ok (s, OGet r d)
  end.
Fixpoint run_fp (fl fd : Q -> Q) (c : cfg) (s : state) (h : list hop) : res (state * list hout) :=
  match h with
  | [] => Ok (s, [])
  | o :: h' =>
      '(s, x) <- step_fp fl fd c s o ;;
      '(s, xs) <- run_fp fl fd c s h' ;;
      Ok (s, x :: xs)
  end.

(** updateMaxiumError, embedDB.c:1173-1179: the new value of state->maxError. *)
Definition updateMaxiumError (fl : Q -> Q) (c : cfg) (w p : page) (maxError : Z) : res Z :=
  e <- getMaxError fl c w p ;; Ok (if maxError <? e then e else maxError).

(** The statistics of embedDBInitDataFromFile, embedDB.c:331-369, on a data file [f] whose
    pages can all be read: the loops of [rec_first] and [rec_scan] (Recovery.v) with the
    calls of lines 342 and 363.  [w] is the blank write buffer.  Result of the first
    loop: next position and logical number. *)
Fixpoint first_stats (fl : Q -> Q) (c : cfg) (w : page) (f : file) (tries : nat) (q : Z) : res (option (Z * Z)) :=
  match tries with
  | O => Ok None
  | S t =>
      if q <? flen f then
        '(id, ok) <- hdr_ok c (fpg f q) q ;;
        if (ok : bool) then
          _ <- getMaxError fl c w (fpg f q) ;;
          Ok (Some (q + 1, id))
        else first_stats fl c w f t (q + eraseSize c)
      else Ok None
  end.
Fixpoint scan_stats (fl : Q -> Q) (c : cfg) (w : page) (f : file) (fuel : nat) (q mx : Z) : res unit :=
  match fuel with
  | O => Fuel
  | S t =>
      if (q <? flen f) && (q <? numData c) then
        id <- get_pid (fpg f q) ;;
        if (id mod numData c =? q) && (id =? u32 (mx + 1)) then
          _ <- getMaxError fl c w (fpg f q) ;;
          scan_stats fl c w f t (q + 1) id
        else Ok tt
      else Ok tt
  end.
Definition open_stats (fl : Q -> Q) (c : cfg) (w : page) (f : file) : res unit :=
  found <- first_stats fl c w f 2 0 ;;
  match found with
  | None => Ok tt
  | Some (q, mx) => scan_stats fl c w f (Z.to_nat (numData c + 1)) q mx
  end.
(** embedDBInit, embedDB.c:139-272, without failing storage operations, with the
    statistics of the stored data pages.  Record-level consistency (lines 443, 461) and
    openings that fail are left as in Recovery.v. *)
Definition embedDBInit_fp (fl : Q -> Q) (c : cfg) (k : disk) : res (state * Z) :=
  '(s, r) <- embedDBInit c k [] ;;
  if (r =? 0) && negb (useReset c) && negb (useRLC c) then
    match kD k with
    | None => Ok (s, r)
    | Some f =>
        w <- init_page c ;;
        _ <- open_stats fl c w f ;;
        Ok (s, r)
    end
  else Ok (s, r).

(** Model of the memory and file handles of the core: embedDBInit, embedDBClose,
    iterators and streams of src/embedDB/embedDB.c, and splineInit and splineClose of
    src/spline/spline.c, as programs of client calls.

    Memory is a set of numbered blocks.  malloc and calloc return a number never used
    before or, as told by the script [r_fail], NULL.  Using NULL, an uninitialised
    pointer or a pointer to a freed block is undefined ([UB]), and so is freeing a
    block twice.  What the blocks of the spline contain is in the database state
    ([spl]); here they are only live or not.  A FILE* is a block too: fopen makes it,
    fclose frees it (desktopFileInterface.c:63-93). *)
From Verif Require Import Base Config Spline Storage DB VarData Recovery Run.
Open Scope Z_scope.

(** A pointer variable: uninitialised, NULL, or the number of a block. *)
Inductive wptr := Wild | Null | At (b : nat).

(** Blocks: spline (spline.h:50-65) with its five parts, a part, FILE, the stream
    structure (embedDB.h:263-268), a query bitmap (embedDB.c:1595). *)
Inductive blk :=
| KSpline (points lastKey lower upper first : wptr)
| KPart
| KFile
| KStream (st : stream)
| KBitmap.

(** Memory: the next unused number, the live blocks, and for each coming malloc
    whether it fails. *)
Record rmem := mkRM { r_next : nat; r_blk : nat -> option blk; r_fail : list bool }.
(** Memory with the content of one block replaced ([None]: freed). *)
Definition rset (m : rmem) (b : nat) (o : option blk) : rmem :=
  mkRM (r_next m) (fun x => if Nat.eqb x b then o else r_blk m x) (r_fail m).

(** A new block, as fopen gives. *)
Definition rnew (m : rmem) (o : blk) : rmem * wptr :=
  (rset (mkRM (S (r_next m)) (r_blk m) (r_fail m)) (r_next m) (Some o), At (r_next m)).
(** malloc, calloc (embedDB.c:221, 1595, 1902; spline.c:61-67). *)
Definition rmalloc (m : rmem) (o : blk) : rmem * wptr :=
  match r_fail m with
  | true :: r => (mkRM (r_next m) (r_blk m) r, Null)
  | r => rnew (mkRM (r_next m) (r_blk m) (tl r)) o
  end.
(** Access through a pointer, as by the `->` of spline.c:391-395 and embedDB.c:1936. *)
Definition rload (m : rmem) (p : wptr) : res blk :=
  match p with
  | At b => match r_blk m b with Some o => Ok o | None => UB end
  | _ => UB
  end.
(** Writing through a pointer, as spline.c:61-67 and embedDB.c:1952-1965. *)
Definition rstore (m : rmem) (p : wptr) (o : blk) : res rmem :=
  _ <- rload m p ;; match p with At b => Ok (rset m b (Some o)) | _ => UB end.
(** free (embedDB.c:1628, 2353; spline.c:391-395). *)
Definition rfree (m : rmem) (p : wptr) : res rmem :=
  match p with
  | Wild => UB
  | Null => Ok m
  | At b => o <- rload m p ;; match o with KFile => UB | _ => Ok (rset m b None) end
  end.
(** Whether a pointer may be used. *)
Definition live (m : rmem) (p : wptr) : bool := match rload m p with Ok _ => true | _ => false end.

(** A file field of embedDBState: not set by the client, NULL, or a FILE_INFO with
    its FILE* (desktopFileInterface.c:3-6). *)
Inductive fref := FUnset | FNull | FInfo (file : wptr).

(** The pointers in embedDBState that embedDBInit and embedDBClose manage
    (embedDB.h:199-201, 220). *)
Record core := mkCore { k_spl : wptr; k_dat : fref; k_idx : fref; k_var : fref }.
(** What the client has set before embedDBInit: the data file, and the other files if
    they are used (embedDBExample.h:313-315); setupFile (desktopFileInterface.c:8-15)
    sets the FILE* to NULL. *)
Definition core_new (c : cfg) : core :=
  mkCore Wild (FInfo Null) (if useIndex c then FInfo Null else FUnset) (if useVar c then FInfo Null else FUnset).

(** FILE_OPEN, desktopFileInterface.c:75-93, when fopen succeeds: the former FILE* is
    overwritten. *)
Definition file_open (m : rmem) (f : fref) : res (rmem * fref) :=
  match f with
  | FInfo _ => let '(m, p) := rnew m KFile in Ok (m, FInfo p)
  | _ => UB
  end.
(** FILE_CLOSE, desktopFileInterface.c:63-68. *)
Definition file_close (m : rmem) (f : fref) : res (rmem * fref) :=
  match f with
  | FInfo p =>
      o <- rload m p ;;
      match o, p with KFile, At b => Ok (rset m b None, FInfo Null) | _, _ => UB end
  | _ => UB
  end.

(** malloc of the spline and splineInit, embedDB.c:221-222 and spline.c:53-69.
    splineInit does not check the results of malloc. *)
Definition spline_new (m : rmem) : res (rmem * wptr) :=
  let '(m, p) := rmalloc m (KSpline Wild Wild Wild Wild Wild) in
  match p with
  | At _ =>
      let '(m, a1) := rmalloc m KPart in
      let '(m, a2) := rmalloc m KPart in
      let '(m, a3) := rmalloc m KPart in
      let '(m, a4) := rmalloc m KPart in
      let '(m, a5) := rmalloc m KPart in
      m <- rstore m p (KSpline a1 a2 a3 a4 a5) ;;
      Ok (m, p)
  | _ => UB
  end.
(** splineClose, spline.c:390-396. *)
Definition splineClose (m : rmem) (p : wptr) : res rmem :=
  o <- rload m p ;;
  match o with
  | KSpline a1 a2 a3 a4 a5 =>
      m <- rfree m a1 ;; m <- rfree m a2 ;; m <- rfree m a3 ;; m <- rfree m a4 ;; rfree m a5
  | _ => UB
  end.

(** embedDBInit, embedDB.c:139-272, as in Recovery.v, with its allocations and file
    handles.  embedDBInitData (274-316) opens the data file, in the mode without reset
    only if it exists; embedDBInitIndex (599-654) opens the index file after its
    checks; embedDBInitVarData (696-722) opens the file for variable data. *)
Definition kinit (c : cfg) (k : disk) (fs : list bool) (m : rmem) (q : core) : res (rmem * core * state * Z) :=
  let o := mkIO fs emptyFile emptyFile emptyFile [] in
  let d0 := mkD (gpage c) (gpage c) 0 0 0 NOPAGE 0 0 None in
  let i0 := mkI (gpage c) (gpage c) 0 0 0 NOPAGE in
  let v0 := mkV (gpage c) (gpage c) 0 0 0 0 NOPAGE (ghasvar c) in
  let s := mkS o d0 i0 v0 in
  let B := eraseSize c in
  if keySize c >? 8 then Ok (m, q, s, -1)
  else if B =? 0 then UB
  else if negb (numData c mod B =? 0) then Ok (m, q, s, -1)
  else if numData c <? (if useRLC c then 4 else 2) * B then Ok (m, q, s, -1)
  else if useVar c && negb (numVar c mod B =? 0) then Ok (m, q, s, -1)
  else if useIndex c && negb (numIndex c mod B =? 0) then Ok (m, q, s, -1)
  else if recordSize c =? 0 then UB
  else
    w <- init_page c ;;
    let s := set_d s (d_wbuf (sd s) w) in
    if numData c <? ((if useIndex c then 1 else 0) * 2 + 2) * B then Ok (m, q, s, -1)
    else if negb (useBinary c) && (numSplinePts c <? 4) then Ok (m, q, s, -1)
    else
      '(m, p, s) <-
        (if useBinary c then Ok (m, k_spl q, s)
         else
           '(m, p) <- spline_new m ;;
           Ok (m, p, set_d s (d_spl (sd s) (Some (spl_init (numSplinePts c) (maxErr c) (gpoint c)))))) ;;
      let q := mkCore p (k_dat q) (k_idx q) (k_var q) in
      '(m, fd) <- (if useReset c || (if kD k then true else false) then file_open m (k_dat q)
                   else Ok (m, FInfo Null)) ;;
      let q := mkCore (k_spl q) fd (k_idx q) (k_var q) in
      '(s, r) <- initData c s (kD k) ;;
      if negb (r =? 0) then Ok (m, q, s, r)
      else
        '(m, q, s, r) <-
          (if useIndex c then
             if bufBlocks c <? 4 then Ok (m, q, s, -1)
             else
               '(s, r) <- initIndex c s (kI k) ;;
               if (numIndex c <? eraseSize c * 2) || negb (numIndex c mod eraseSize c =? 0) then Ok (m, q, s, r)
               else
                 '(m, fi) <- file_open m (k_idx q) ;;
                 Ok (m, mkCore (k_spl q) (k_dat q) fi (k_var q), s, r)
           else Ok (m, mkCore (k_spl q) (k_dat q) FNull (k_var q), s, 0)) ;;
        if negb (r =? 0) then Ok (m, q, s, r)
        else if useVar c then
          if bufBlocks c <? 4 + (if useIndex c then 2 else 0) then Ok (m, q, s, -1)
          else
            '(s, r) <- initVarData c s (kV k) ;;
            '(m, fv) <- file_open m (k_var q) ;;
            Ok (m, mkCore (k_spl q) (k_dat q) (k_idx q) fv, s, r)
        else Ok (m, mkCore (k_spl q) (k_dat q) (k_idx q) FNull, s, 0).

(** One of the first three statements of embedDBClose, embedDB.c:2342-2350. *)
Definition close_one (m : rmem) (f : fref) : res (rmem * fref) :=
  match f with
  | FUnset => UB
  | FNull => Ok (m, FNull)
  | FInfo _ => file_close m f
  end.
(** embedDBClose, embedDB.c:2341-2356. *)
Definition kclose (c : cfg) (m : rmem) (q : core) : res (rmem * core) :=
  '(m, fd) <- close_one m (k_dat q) ;;
  '(m, fi) <- close_one m (k_idx q) ;;
  '(m, fv) <- close_one m (k_var q) ;;
  if useBinary c then Ok (m, mkCore (k_spl q) fd fi fv)
  else
    m <- splineClose m (k_spl q) ;;
    m <- rfree m (k_spl q) ;;
    Ok (m, mkCore Null fd fi fv).

(** Whether everything the other calls may touch is there: the FILE*s of the files in
    use and, unless binary search is used, the spline and its parts.  (The calls of
    the model are undefined otherwise, also where the code would not get to touch
    them, as in a get of a buffered record.) *)
Definition usable (c : cfg) (m : rmem) (q : core) : bool :=
  let file f := match f with FInfo p => live m p | _ => false end in
  file (k_dat q) && (negb (useIndex c) || file (k_idx q)) && (negb (useVar c) || file (k_var q)) &&
  (useBinary c ||
   match rload m (k_spl q) with
   | Ok (KSpline a1 a2 a3 a4 a5) => live m a1 && live m a2 && live m a3 && live m a4 && live m a5
   | _ => false
   end).

(** Client calls.  Iterators and stream pointers are variables of the client,
    numbered from 0 (it and varData in embedDBExample.h:203-268); [KIter i], [KGetVar j] and [KNextVar i j] use variable [i] or
    [j], a new one if the number is that of the next variable. *)
Inductive kcall :=
| KPut (key : Z) (data : list Z)
| KPutVar (key : Z) (data : list Z) (v : option (list Z))
| KFlush
| KGet (key : Z)
| KGetVar (j : nat) (key : Z)
| KIter (i : nat) (mnk mxk : option Z) (mnd mxd : option (list Z))
| KNext (i : nat)
| KNextVar (i j : nat)
| KRead (j : nat) (len : Z)
| KFree (j : nat)
| KIterClose (i : nat)
| KClose
| KInit (c' : cfg) (fs : list bool).

(** What a call returns to the client: the result with the data copied out, a record
    of a scan, the bytes of a stream, or nothing. *)
Inductive kout :=
| RInt (r : Z) (d : option (list Z))
| RRec (r : Z) (o : option (Z * list Z))
| RBytes (o : option (list Z))
| RDone.

(** Everything: memory, pointers in embedDBState, configuration and the rest of
    embedDBState, the client's iterators with their queryBitmap (embedDB.h:253-261),
    and the client's stream pointers. *)
Record world := mkW { w_m : rmem; w_k : core; w_c : cfg; w_s : state; w_it : list (iter * wptr); w_st : list wptr }.

(** Assignment to variable [n] of a list of variables. *)
Fixpoint put_nth {A} (n : nat) (x : A) (l : list A) : list A :=
  match n, l with
  | O, [] => [x]
  | O, _ :: l => x :: l
  | S n, y :: l => y :: put_nth n x l
  | S _, [] => []
  end.

(** A call that is undefined unless [b]. *)
Definition need {A} (b : bool) (x : res A) : res A := if b then x else UB.
(** Variable [n]. *)
Definition nth_res {A} (l : list A) (n : nat) : res A := match nth_error l n with Some x => Ok x | None => UB end.

(** What embedDBSetupVarDataStream (embedDB.c:1859-1917) does to the client's pointer:
    [vs] is the stream it set up; the malloc of line 1902 may fail, then the caller
    returns [bad] and the pointer is not written.  [written]: the pointer is set, to
    the stream or to NULL.  A new variable was set to NULL by the client. *)
Definition stream_var (m : rmem) (l : list wptr) (j : nat) (r bad : Z) (written : bool) (vs : option stream)
  : res (rmem * list wptr * Z) :=
  old <- (if Nat.eqb j (length l) then Ok Null else nth_res l j) ;;
  match vs with
  | Some st =>
      let '(m, p) := rmalloc m (KStream st) in
      match p with
      | At _ => Ok (m, put_nth j p l, r)
      | _ => Ok (m, put_nth j old l, bad)
      end
  | None => Ok (m, put_nth j (if written then Null else old) l, r)
  end.

(** One call of the client, lines of embedDB.c given at each. *)
Definition kstep (w : world) (x : kcall) : res (world * kout) :=
  let m := w_m w in let q := w_k w in let c := w_c w in let s := w_s w in
  let up := usable c m q in
  match x with
  (* embedDB.c:1004-1127 *)
  | KPut k d => need up ('(s, r) <- embedDBPut c s k d ;; Ok (mkW m q c s (w_it w) (w_st w), RInt r None))
  (* embedDB.c:1190-1271 *)
  | KPutVar k d v => need up ('(s, r) <- embedDBPutVar c s k d v ;; Ok (mkW m q c s (w_it w) (w_st w), RInt r None))
  (* embedDB.c:1667-1722 *)
  | KFlush => need up ('(s, r) <- embedDBFlush c s ;; Ok (mkW m q c s (w_it w) (w_st w), RInt r None))
  (* embedDB.c:1469-1527 *)
  | KGet k => need up ('(s, r, d) <- embedDBGet c s k ;; Ok (mkW m q c s (w_it w) (w_st w), RInt r d))
  (* embedDB.c:1540-1582 *)
  | KGetVar j k =>
      need up ('(s, r, d, vs) <- embedDBGetVar c s k ;;
               '(m, l, r) <- stream_var m (w_st w) j r (-1) (useVar c && ((r =? 0) || (r =? 1))) vs ;;
               Ok (mkW m q c s (w_it w) l, RInt r d))
  (* embedDB.c:1589-1620; line 1596 writes to the bitmap without checking calloc *)
  | KIter i mnk mxk mnd mxd =>
      need (up && (i <=? length (w_it w))%nat)
        ('(m, p) <-
           (if useBmap c && negb (match mnd, mxd with None, None => true | _, _ => false end) then
              let '(m, p) := rmalloc m KBitmap in
              match p with At _ => Ok (m, p) | _ => UB end
            else Ok (m, Null)) ;;
         it <- embedDBInitIterator c s mnk mxk mnd mxd ;;
         Ok (mkW m q c s (put_nth i (it, p) (w_it w)) (w_st w), RDone))
  (* embedDB.c:1732-1806; the query bitmap is taken to be read *)
  | KNext i =>
      need up
        ('(it, p) <- nth_res (w_it w) i ;;
         need (match p with Null => true | _ => live m p end)
           ('(s, it, r, o) <- embedDBNext c s it ;;
            Ok (mkW m q c s (put_nth i (it, p) (w_it w)) (w_st w), RRec r o)))
  (* embedDB.c:1817-1850 *)
  | KNextVar i j =>
      need up
        ('(it, p) <- nth_res (w_it w) i ;;
         need (match p with Null => true | _ => live m p end)
           ('(s, it, r, o, vs) <- embedDBNextVar c s it ;;
            '(m, l, r) <- stream_var m (w_st w) j r 0 (useVar c && (r =? 1)) vs ;;
            Ok (mkW m q c s (put_nth i (it, p) (w_it w)) l, RRec r o)))
  (* embedDB.c:1927-1970 *)
  | KRead j len =>
      need up
        (p <- nth_res (w_st w) j ;;
         o <- rload m p ;;
         match o with
         | KStream st =>
             '(s, st, bs) <- embedDBVarDataStreamRead c s st len ;;
             m <- rstore m p (KStream st) ;;
             Ok (mkW m q c s (w_it w) (w_st w), RBytes bs)
         | _ => UB
         end)
  (* free by the client, as asked for in embedDB.c:1535 and 1814 *)
  | KFree j =>
      p <- nth_res (w_st w) j ;;
      m <- rfree m p ;;
      Ok (mkW m q c s (w_it w) (w_st w), RDone)
  (* embedDB.c:1626-1630 *)
  | KIterClose i =>
      '(_, p) <- nth_res (w_it w) i ;;
      m <- rfree m p ;;
      Ok (mkW m q c s (w_it w) (w_st w), RDone)
  (* embedDB.c:2341-2356 *)
  | KClose => '(m, q) <- kclose c m q ;; Ok (mkW m q c s (w_it w) (w_st w), RDone)
  (* embedDBInit (embedDB.c:139-272) once more, on the files left behind, with the
     fault script [fs] from here on; the client sets the files that are used and are
     not set *)
  | KInit c' fs =>
      let q := mkCore (k_spl q) (k_dat q) (match k_idx q with FInfo p => FInfo p | f => if useIndex c' then FInfo Null else f end)
                      (match k_var q with FInfo p => FInfo p | f => if useVar c' then FInfo Null else f end) in
      '(m, q, s, r) <- kinit c' (disk_of s) fs m q ;;
      Ok (mkW m q c' s (w_it w) (w_st w), RInt r None)
  end.

(** A program of calls, with what each returned. *)
Fixpoint kprog (w : world) (p : list kcall) : res (world * list kout) :=
  match p with
  | [] => Ok (w, [])
  | x :: p => '(w, y) <- kstep w x ;; '(w, ys) <- kprog w p ;; Ok (w, y :: ys)
  end.
(** The first embedDBInit (embedDB.c:139-272), on storage [k]. *)
Definition kopen (c : cfg) (k : disk) (fs : list bool) (m : rmem) : res (world * Z) :=
  '(m, q, s, r) <- kinit c k fs m (core_new c) ;; Ok (mkW m q c s [] [], r).

(** Model of the file objects of the storage interfaces: setupFile, tearDownFile,
    FILE_OPEN, FILE_CLOSE and FILE_FLUSH of
    lib/Desktop-File-Interface/desktopFileInterface.c, and the same of
    lib/SD-File-Interface/SDFileInterface.c with lib/SD-Wrapper/sdcard_c_iface.cpp.
    Reading, writing and erasing through an open file are in Drivers.v.

    Memory is a set of numbered blocks, as in Resource.v.  malloc, calloc and new
    return a number never used before or, as told by the script [f_fail], NULL (new
    does not fail in the model).  Using NULL, an uninitialised pointer or a pointer to
    a freed block is undefined ([UB]). *)
From Verif Require Import Base Drivers.
Open Scope Z_scope.

(** A pointer variable: uninitialised, NULL, or the number of a block. *)
Inductive fptr := FWild | FNil | FAt (b : nat).
(** Blocks: an array of char, FILE_INFO (desktopFileInterface.c:3-6) or SD_FILE_INFO
    (SDFileInterface.c:38-41), and FILE or SD_FILE (sdcard_c_iface.cpp:52-56), with the
    name of the file it was opened on and the position. *)
Inductive fblk := FStr (s : list Z) | FInfo (filename file : fptr) | FHandle (name : list Z) (pos : Z).

(** Memory, the files by name, the coming allocations that fail, and the coming calls
    of fopen that are refused (full directory, missing card). *)
Record fmem := mkFM {
  f_next : nat; f_blk : nat -> option fblk;
  f_fs : list Z -> option (list Z);
  f_fail : list bool; f_deny : list bool }.

(** Replacing the content of a block ([None]: freed). *)
Definition fset (m : fmem) (b : nat) (o : option fblk) : fmem :=
  mkFM (f_next m) (fun x => if Nat.eqb x b then o else f_blk m x) (f_fs m) (f_fail m) (f_deny m).
(** Equality of file names. *)
Definition name_eqb (a b : list Z) : bool := if list_eq_dec Z.eq_dec a b then true else false.
(** Replacing the content of a file. *)
Definition fsave (m : fmem) (n : list Z) (c : list Z) : fmem :=
  mkFM (f_next m) (f_blk m) (fun x => if name_eqb x n then Some c else f_fs m x) (f_fail m) (f_deny m).
(** A new block: `new` (sdcard_c_iface.cpp:100) and the FILE of fopen. *)
Definition fnew (m : fmem) (o : fblk) : fmem * fptr :=
  (fset (mkFM (S (f_next m)) (f_blk m) (f_fs m) (f_fail m) (f_deny m)) (f_next m) (Some o), FAt (f_next m)).
(** malloc and calloc (desktopFileInterface.c:9, 11; SDFileInterface.c:44, 46). *)
Definition fmalloc (m : fmem) (o : fblk) : fmem * fptr :=
  match f_fail m with
  | true :: r => (mkFM (f_next m) (f_blk m) (f_fs m) r (f_deny m), FNil)
  | r => fnew (mkFM (f_next m) (f_blk m) (f_fs m) (tl r) (f_deny m)) o
  end.
(** Access through a pointer (the `->` of both files). *)
Definition fload (m : fmem) (p : fptr) : res fblk :=
  match p with FAt b => match f_blk m b with Some o => Ok o | None => UB end | _ => UB end.
(** Writing through a pointer. *)
Definition fstore (m : fmem) (p : fptr) (o : fblk) : res fmem :=
  _ <- fload m p ;; match p with FAt b => Ok (fset m b (Some o)) | _ => UB end.
(** free (desktopFileInterface.c:19, 22; SDFileInterface.c:54, 57): not for a FILE. *)
Definition ffree (m : fmem) (p : fptr) : res fmem :=
  match p with
  | FWild => UB
  | FNil => Ok m
  | FAt b => o <- fload m p ;; match o with FHandle _ _ => UB | _ => Ok (fset m b None) end
  end.
(** The fields of a FILE_INFO. *)
Definition finfo (m : fmem) (p : fptr) : res (fptr * fptr) :=
  o <- fload m p ;; match o with FInfo a b => Ok (a, b) | _ => UB end.

(** strlen (desktopFileInterface.c:10, SDFileInterface.c:45): undefined without a
    terminator. *)
Fixpoint c_strlen (s : list Z) : res nat :=
  match s with
  | [] => UB
  | x :: s => if x =? 0 then Ok O else n <- c_strlen s ;; Ok (S n)
  end.
(** The characters that a pointer to a string gives. *)
Definition fstring (m : fmem) (p : fptr) : res (list Z) :=
  o <- fload m p ;;
  match o with FStr s => n <- c_strlen s ;; Ok (firstn n s) | _ => UB end.

(** setupFile, desktopFileInterface.c:8-15, and setupSDFile, SDFileInterface.c:43-50.
    The results of malloc and calloc are not checked. *)
Definition setupFile (m : fmem) (filename : fptr) : res (fmem * fptr) :=
  let '(m, p) := fmalloc m (FInfo FWild FWild) in
  name <- fstring m filename ;;
  let '(m, n) := fmalloc m (FStr (repeat 0 (length name + 1))) in
  m <- fstore m p (FInfo n FWild) ;;
  m <- fstore m n (FStr (wr (repeat 0 (length name + 1)) 0 name)) ;;
  m <- fstore m p (FInfo n FNil) ;;
  Ok (m, p).

(** fclose (desktopFileInterface.c:66) and sd_fclose (sdcard_c_iface.cpp:64-71): the
    latter accepts NULL. *)
Definition lib_close (sd : bool) (m : fmem) (p : fptr) : res fmem :=
  match p with
  | FNil => if sd then Ok m else UB
  | FWild => UB
  | FAt b => o <- fload m p ;; match o with FHandle _ _ => Ok (fset m b None) | _ => UB end
  end.

(** tearDownFile, desktopFileInterface.c:17-23; tearDownSDFile, SDFileInterface.c:52-58,
    whose condition tests the wrong pointer, so that sd_fclose is always called. *)
Definition tearDownFile (sd : bool) (m : fmem) (p : fptr) : res fmem :=
  '(n, h) <- finfo m p ;;
  m <- ffree m n ;;
  '(_, h) <- finfo m p ;;
  m <- (if sd then lib_close sd m h else match h with FNil => Ok m | _ => lib_close sd m h end) ;;
  ffree m p.

(** fopen with "w+b" ([trunc]) or "r+b", and sd_fopen, sdcard_c_iface.cpp:78-103: NULL
    if refused or if a file to be read does not exist. *)
Definition lib_open (m : fmem) (filename : fptr) (trunc : bool) : res (fmem * fptr) :=
  n <- fstring m filename ;;
  let deny := match f_deny m with true :: _ => true | _ => false end in
  let m := mkFM (f_next m) (f_blk m) (f_fs m) (f_fail m) (tl (f_deny m)) in
  if deny then Ok (m, FNil)
  else if trunc then Ok (fnew (fsave m n []) (FHandle n 0))
  else match f_fs m n with Some _ => Ok (fnew m (FHandle n 0)) | None => Ok (m, FNil) end.

(** FILE_OPEN, desktopFileInterface.c:76-92 and SDFileInterface.c:111-127; the modes of
    embedDB.h:108-109. *)
Definition FILE_OPEN (m : fmem) (p : fptr) (mode : Z) : res (fmem * Z) :=
  if (mode =? 0) || (mode =? 1) then
    '(n, _) <- finfo m p ;;
    '(m, h) <- lib_open m n (mode =? 0) ;;
    m <- fstore m p (FInfo n h) ;;
    Ok (m, match h with FNil => 0 | _ => 1 end)
  else Ok (m, 0).

(** FILE_CLOSE, desktopFileInterface.c:64-69 and SDFileInterface.c:99-104. *)
Definition FILE_CLOSE (sd : bool) (m : fmem) (p : fptr) : res (fmem * Z) :=
  '(n, h) <- finfo m p ;;
  m <- lib_close sd m h ;;
  m <- fstore m p (FInfo n FNil) ;;
  Ok (m, 1).

(** FILE_FLUSH, desktopFileInterface.c:71-74 and SDFileInterface.c:106-109: fflush(NULL)
    flushes all files; sd_fflush (sdcard_c_iface.cpp:73-76) dereferences. *)
Definition FILE_FLUSH (sd : bool) (m : fmem) (p : fptr) : res Z :=
  '(_, h) <- finfo m p ;;
  match h with
  | FNil => if sd then UB else Ok 1
  | _ => o <- fload m h ;; match o with FHandle _ _ => Ok 1 | _ => UB end
  end.

(** The interfaces: SD card, size_t of [bits] bits, or desktop with or without the mock
    erase; and the page size. *)
Record iface := mkIface { if_sd : bool; if_mock : bool; if_bits : Z; if_ps : Z }.
(** Reading, writing and erasing through an open file (Drivers.v). *)
Definition drive (x : iface) (d : dev) (q : req) : res (dev * ans) :=
  if if_sd x then sd_step (if_bits x) (if_ps x) d q else desk_step (if_mock x) (if_ps x) d q.

(** FILE_READ, FILE_WRITE and the erase functions, desktopFileInterface.c:25-62 and
    SDFileInterface.c:60-97, on the file behind the FILE*; FILE_ERASE does not look at
    its argument.  Opening is [FILE_OPEN]. *)
Definition file_req (x : iface) (m : fmem) (p : fptr) (q : req) : res (fmem * ans) :=
  let access :=
    '(_, h) <- finfo m p ;;
    o <- fload m h ;;
    match o with
    | FHandle n pos =>
        match f_fs m n with
        | Some c =>
            '(d, a) <- drive x (mkDev c pos []) q ;;
            m <- fstore (fsave m n (bts d)) h (FHandle n (bpos d)) ;;
            Ok (m, a)
        | None => UB
        end
    | _ => UB
    end in
  match q with
  | QOpen _ => UB
  | QErase _ _ => if if_mock x && negb (if_sd x) then access else Ok (m, ADone 1)
  | _ => access
  end.

(** Calls of a client with pointer variables [j] for its file objects and with strings
    of its own, in blocks of its own, that it may change and free.  Not C data. *)
Inductive fcall :=
| CSetup (j b : nat)                   (* v[j] = setupFile(string in block b) *)
| COpen (j : nat) (mode : Z) | CClose (j : nat) | CFlush (j : nat)
| CReq (j : nat) (q : req)
| CDown (j : nat)                      (* tearDownFile(v[j]) *)
| CString (b : nat) (s : list Z)       (* the client overwrites its string *)
| CForget (b : nat).                   (* the client frees its string *)

(** One call; the answer is that of Drivers.v. *)
Definition fstep (x : iface) (m : fmem) (v : nat -> fptr) (k : fcall) : res (fmem * (nat -> fptr) * ans) :=
  match k with
  | CSetup j b => '(m, p) <- setupFile m (FAt b) ;; Ok (m, (fun i => if Nat.eqb i j then p else v i), ADone 0)
  | COpen j mode => '(m, r) <- FILE_OPEN m (v j) mode ;; Ok (m, v, ADone r)
  | CClose j => '(m, r) <- FILE_CLOSE (if_sd x) m (v j) ;; Ok (m, v, ADone r)
  | CFlush j => r <- FILE_FLUSH (if_sd x) m (v j) ;; Ok (m, v, ADone r)
  | CReq j q => '(m, a) <- file_req x m (v j) q ;; Ok (m, v, a)
  | CDown j => m <- tearDownFile (if_sd x) m (v j) ;; Ok (m, v, ADone 0)
  | CString b s => m <- fstore m (FAt b) (FStr s) ;; Ok (m, v, ADone 0)
  | CForget b => m <- ffree m (FAt b) ;; Ok (m, v, ADone 0)
  end.
(** A program of calls. *)
Fixpoint frun (x : iface) (m : fmem) (v : nat -> fptr) (p : list fcall) : res (fmem * (nat -> fptr) * list ans) :=
  match p with
  | [] => Ok (m, v, [])
  | k :: p =>
      '(m, v, a) <- fstep x m v k ;;
      '(m, v, l) <- frun x m v p ;;
      Ok (m, v, a :: l)
  end.

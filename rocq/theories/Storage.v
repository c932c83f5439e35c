(** Storage: the three files behind [embedDBFileInterface] (embedDB.h:147-196)
    as implemented by lib/Desktop-File-Interface/desktopFileInterface.c. *)
From Verif Require Import Base Config.
Open Scope Z_scope.

(** A file of whole pages.  Pages at or beyond [flen] do not exist. *)
Record file := mkFile { flen : Z; fpg : Z -> page }.

(** A freshly created or truncated file ("w+b", desktopFileInterface.c:79-80). *)
Definition emptyFile : file := mkFile 0 (fun _ => []).

(** FILE_WRITE, desktopFileInterface.c:30-34: seek and write one page.  A write
    beyond the end extends the file; skipped pages read as [holeFill] (zero on POSIX).
    The byte offset is a [uint32_t] in C: areas of 4 GiB and more are not modelled. *)
Definition file_write (c : cfg) (f : file) (n : Z) (p : page) : file :=
  mkFile (Z.max (flen f) (n + 1))
         (fun q => if q =? n then p
                   else if q <? flen f then fpg f q else repeat (holeFill c) (psz c)).

(** FILE_READ, desktopFileInterface.c:24-28: fails beyond the end of the file. *)
Definition file_read (f : file) (n : Z) : option page :=
  if (0 <=? n) && (n <? flen f) then Some (fpg f n) else None.

(** FILE_ERASE (no-op) / MOCK_FILE_ERASE (fill), desktopFileInterface.c:37-62.
    [a] inclusive, [b] exclusive. *)
Definition file_erase (c : cfg) (f : file) (a b : Z) : file :=
  match eraseFill c with
  | None => f
  | Some x =>
      mkFile (Z.max (flen f) b)
             (fun q => if (a <=? q) && (q <? b) then repeat x (psz c)
                       else if q <? flen f then fpg f q else repeat (holeFill c) (psz c))
  end.

(** The storage side of a running database: the three files, the script of
    storage faults still to come (one boolean per read, write or erase call,
    [true] = that call fails and changes nothing; an exhausted script means no
    more faults), and the trace of storage images, newest first, one entry per
    completed write or erase: a crash leaves one of these images.  Faults and
    trace are not C data. *)
Record io := mkIO {
  faults : list bool;
  fD : file;     (* state->dataFile,  embedDB.h:199 *)
  fI : file;     (* state->indexFile, embedDB.h:200 *)
  fV : file;     (* state->varFile,   embedDB.h:201 *)
  trace : list (file * file * file)
}.

(** The three files of a database, embedDB.h:199-201. *)
Inductive which := WD | WI | WV.

(** The file a call is about, embedDB.h:199-201. *)
Definition getF (w : which) (o : io) : file :=
  match w with WD => fD o | WI => fI o | WV => fV o end.

(** Replace one file and record the new image. *)
Definition putF (w : which) (o : io) (f : file) : io :=
  match w with
  | WD => mkIO (faults o) f (fI o) (fV o) ((f, fI o, fV o) :: trace o)
  | WI => mkIO (faults o) (fD o) f (fV o) ((fD o, f, fV o) :: trace o)
  | WV => mkIO (faults o) (fD o) (fI o) f ((fD o, fI o, f) :: trace o)
  end.

(** Consume one entry of the fault script. *)
Definition take_fault (o : io) : bool * io :=
  match faults o with
  | [] => (false, o)
  | b :: bs => (b, mkIO bs (fD o) (fI o) (fV o) (trace o))
  end.

(** fileInterface->read / write / erase, embedDB.h:156-176. [None]/[false] is a
    C return value of 0. *)
Definition io_read (w : which) (n : Z) (o : io) : io * option page :=
  let '(b, o) := take_fault o in
  if b then (o, None) else (o, file_read (getF w o) n).
Definition io_write (c : cfg) (w : which) (n : Z) (p : page) (o : io) : io * bool :=
  let '(b, o) := take_fault o in
  if b then (o, false) else (putF w o (file_write c (getF w o) n p), true).
Definition io_erase (c : cfg) (w : which) (a b : Z) (o : io) : io * bool :=
  let '(bad, o) := take_fault o in
  if bad then (o, false) else (putF w o (file_erase c (getF w o) a b), true).

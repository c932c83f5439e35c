(** Model of the memory behind state->buffer (embedDB.h:219-224): one array of
    bufferSizeInBlocks pages in which every page buffer of the other model files is a
    slice, addressed by its number times the page size.  DB.v, VarData.v and
    Recovery.v keep these buffers as separate values; here they share the array, and
    only an access outside the array is undefined.
    Simplification: the products pageSize * number do not wrap around (an int of 32
    bits, or a buffer below 64 KiB). *)
From Verif Require Import Base Config Storage DB.
Open Scope Z_scope.

(** The numbers of the page buffers, embedDB.h:101-106. *)
Definition DATA_WRITE : Z := 0.
Definition DATA_READ : Z := 1.
Definition INDEX_WRITE : Z := 2.
Definition INDEX_READ : Z := 3.
Definition VAR_WRITE (c : cfg) : Z := if useIndex c then 4 else 2.
Definition VAR_READ (c : cfg) : Z := if useIndex c then 5 else 3.

(** Address of byte [o] of buffer [b]: (int8_t * )state->buffer + state->pageSize * b
    (embedDB.c:326, 609, 698, 831-834, 1035, 1204, 1561, 1669, 1759, 1860, 1887, ...). *)
Definition addr (c : cfg) (b o : Z) : Z := pageSize c * b + o.

(** What the code does with page buffers; a buffer is named by a [B] (by its number
    below). *)
Inductive bop (B : Type) :=
| BInit (b : B)                    (* initBufferPage, embedDB.c:87-112 *)
| BStore (b : B) (o : Z) (bs : list Z) (* memcpy into a buffer, e.g. embedDB.c:1053, 1064, 1230, 1250, 2204 *)
| BLoad (b : B) (o : Z) (n : nat)      (* memcpy out of a buffer, e.g. embedDB.c:335, 1453, 1782, 1890, 2198 *)
| BFill (b : B) (p : page)         (* fileInterface->read of one page, embedDB.c:2265, 2290, 2315 *)
| BOut (b : B)                     (* fileInterface->write of one page, embedDB.c:2027, 2083, 2152, 2207 *)
| BCopy (d s : B).                 (* memcpy of a whole buffer: readToWriteBuf, readToWriteBufVar, embedDB.c:534, 2226-2247 *)

Arguments BInit {B}. Arguments BStore {B}. Arguments BLoad {B}. Arguments BFill {B}. Arguments BOut {B}. Arguments BCopy {B}.

(** One access on the array; the result is what is read. *)
Definition flat_step (c : cfg) (m : list Z) (o : bop Z) : res (list Z * list Z) :=
  match o with
  | BInit b =>
      m <- st m (addr c b 0) (repeat 0 (psz c)) ;;
      if b =? VAR_WRITE c then Ok (m, [])
      else m <- st m (addr c b off_minkey) (repeat 1 (ksz c)) ;;
           m <- st m (addr c b (off_mindata c)) (repeat 1 (dsz c)) ;; Ok (m, [])
  | BStore b o bs => m <- st m (addr c b o) bs ;; Ok (m, [])
  | BLoad b o n => x <- ld m (addr c b o) n ;; Ok (m, x)
  | BFill b p => m <- st m (addr c b 0) p ;; Ok (m, [])
  | BOut b => x <- ld m (addr c b 0) (psz c) ;; Ok (m, x)
  | BCopy d s => x <- ld m (addr c s 0) (psz c) ;; m <- st m (addr c d 0) x ;; Ok (m, [])
  end.
(** A sequence of accesses (no single function of the code), with all that was read. *)
Fixpoint flat_run (c : cfg) (m : list Z) (os : list (bop Z)) : res (list Z * list (list Z)) :=
  match os with
  | [] => Ok (m, [])
  | o :: os' => '(m, x) <- flat_step c m o ;; '(m, xs) <- flat_run c m os' ;; Ok (m, x :: xs)
  end.

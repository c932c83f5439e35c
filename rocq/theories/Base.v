(** Base definitions of the model: outcomes, fixed-width integers, the
    little-endian codec and checked access to page buffers.

    These definitions are the C semantics shared by every modelled function;
    the citation with each one names a representative use in /repo. *)
From Coq Require Export List ZArith Lia Bool Arith.
From Coq Require Export ZifyBool ZifyNat.
Export ListNotations.
#[export] Set Warnings "-notation-overridden".
Open Scope Z_scope.

(** Outcome of a modelled C function.  [UB]: the C code has undefined
    behaviour or leaves the buffer page it addresses (e.g. embedDB.c:1379-1403
    falls off the end of a non-void function).  [Fuel]: the model's loop bound
    was exhausted; theorems exclude it. *)
Inductive res (A : Type) : Type :=
| Ok (a : A)
| UB
| Fuel.
Arguments Ok {A} a.
Arguments UB {A}.
Arguments Fuel {A}.

(** Sequencing of C statements (no line: language construct). *)
Definition bind {A B} (m : res A) (f : A -> res B) : res B :=
  match m with Ok a => f a | UB => UB | Fuel => Fuel end.

(** Notation for [bind] (no line: language construct). *)
Notation "x <- e ;; k" := (bind e (fun x => k))
  (at level 61, e at next level, right associativity).
Notation "' p <- e ;; k" := (bind e (fun x => match x with p => k end))
  (at level 61, p pattern, e at next level, right associativity).

(** Conversions to the fixed-width integer types of <stdint.h>, used through
    the typedefs of embedDB.h:51-54 and the field types of embedDB.h:198-251. *)
Definition u8 (z : Z) : Z := z mod 2 ^ 8.
Definition u16 (z : Z) : Z := z mod 2 ^ 16.
Definition u32 (z : Z) : Z := z mod 2 ^ 32.
Definition u64 (z : Z) : Z := z mod 2 ^ 64.
Definition sgn_of (bits z : Z) : Z :=
  let m := z mod 2 ^ bits in if m <? 2 ^ (bits - 1) then m else m - 2 ^ bits.
Definition i8 (z : Z) : Z := sgn_of 8 z.
Definition i16 (z : Z) : Z := sgn_of 16 z.
Definition i32 (z : Z) : Z := sgn_of 32 z.
Definition i64 (z : Z) : Z := sgn_of 64 z.

(** Little-endian encoding of an integer in [n] bytes: the memory image that
    [memcpy(dst, &x, n)] copies (e.g. embedDB.c:2004).  The target machines
    (AVR, ARM, x86) are little endian. *)
Fixpoint le_enc (n : nat) (z : Z) : list Z :=
  match n with
  | O => []
  | S n' => (z mod 256) :: le_enc n' (z / 256)
  end.

(** Little-endian decoding: [uint64_t x = 0; memcpy(&x, src, n)]
    (e.g. embedDB.c:1479-1480). *)
Fixpoint le_dec (bs : list Z) : Z :=
  match bs with
  | [] => 0
  | b :: bs' => b + 256 * le_dec bs'
  end.

(** A page buffer: [pageSize] bytes of [state->buffer] (embedDB.h:219). *)
Definition page := list Z.

(** Number of bytes of a buffer (no line: C arrays do not know their length). *)
Definition zlen {A} (l : list A) : Z := Z.of_nat (length l).

(** [memcpy] out of a page at byte offset [off] ([rd], unchecked) and into it
    ([wr], unchecked); e.g. embedDB.c:1064 and embedDB.c:1782. *)
Definition rd (p : page) (off n : nat) : list Z := firstn n (skipn off p).
Definition wr (p : page) (off : nat) (bs : list Z) : page :=
  firstn off p ++ bs ++ skipn (off + length bs) p.

(** Checked versions: an access that leaves the page is [UB].  (The C buffers
    are adjacent, so some of these accesses would hit a neighbouring page
    instead of faulting; the model treats all of them as errors.) *)
Definition ld (p : page) (off : Z) (n : nat) : res (list Z) :=
  if (0 <=? off) && (off + Z.of_nat n <=? zlen p)
  then Ok (rd p (Z.to_nat off) n) else UB.
Definition st (p : page) (off : Z) (bs : list Z) : res page :=
  if (0 <=? off) && (off + zlen bs <=? zlen p)
  then Ok (wr p (Z.to_nat off) bs) else UB.

(** Load an unsigned little-endian integer of [n] bytes (e.g. embedDB.c:335). *)
Definition ldz (p : page) (off : Z) (n : nat) : res Z :=
  bs <- ld p off n ;; Ok (le_dec bs).

(** Specification: stored locations of variable data from which a length can be read. *)
From Verif Require Import Base Config Storage DB SpecPage.
Open Scope Z_scope.

(** The location field of record [i] of a data page. *)
Definition location (c : cfg) (p : page) (i : Z) : Z :=
  le_dec (bytes_at p (headerSize c + recordSize c * i + keySize c + dataSize c) 4).

(** Every record that a page claims to hold has no variable data, or the four bytes of the
    length lie inside a page.  (Lengths and page numbers are arbitrary.) *)
Definition page_located (c : cfg) (p : page) : Prop :=
  forall i, 0 <= i < le_dec (bytes_at p 4 2) ->
  location c p i = NOVAR \/ location c p i mod pageSize c + 4 <= pageSize c.

(** The same for both data buffers and all stored data pages. *)
Record pages_located (c : cfg) (s : state) : Prop := {
  pl_w : page_located c (wbuf (sd s));
  pl_r : page_located c (rbuf (sd s));
  pl_D : forall n p, file_read (fD (sio s)) n = Some p -> page_located c p
}.

(** Specification of termination and of the number of storage calls. *)
From Verif Require Import Base Config Storage DB VarData SpecFlash.
Open Scope Z_scope.

(** The number of read, write and erase calls made between two states is at most [n]:
    every call takes one entry of the fault script.  (A script with fewer entries does
    not count the calls after its end; the theorems hold for every script.) *)
Definition calls_at_most (n : Z) (s s' : state) : Prop :=
  zlen (faults (sio s)) <= zlen (faults (sio s')) + n.

(** The unsigned fields of an iterator and the number of bytes to read are not negative. *)
Definition args_unsigned (o : call) : Prop :=
  match o with
  | CNext it | CNextVar it => 0 <= itPage it /\ 0 <= itRec it
  | CRead t n => 0 <= n
  | _ => True
  end.

(** The data buffers and the data file hold bytes (the model's pages are lists of
    integers). *)
Definition holds_bytes (s : state) : Prop :=
  let byte b := 0 <= b < 256 in
  Forall byte (wbuf (sd s)) /\ Forall byte (rbuf (sd s)) /\
  forall n p, file_read (fD (sio s)) n = Some p -> Forall byte p.

(** The page numbers are below 2^31 and a page has a 16-bit size; in binary-search mode
    a page has been overwritten.  (No other condition: any contents of the buffers, of
    the spline and of the storage, and any faults to come.) *)
Record numbers_fit (c : cfg) (s : state) : Prop := {
  nf_page : 0 < pageSize c < 2 ^ 16;
  nf_min : 0 <= minD (sd s);
  nf_next : 0 <= nextD (sd s) < 2 ^ 31;
  nf_bytes : holds_bytes s;
  nf_binary : useBinary c = true -> 0 < minD (sd s)
}.

(** The page reads of a get: the pages between the oldest and the newest, or about
    their binary logarithm. *)
Definition get_reads (c : cfg) (s : state) : Z :=
  if useBinary c then Z.log2 (nextD (sd s) - minD (sd s)) + 2
  else Z.max 0 (nextD (sd s) - minD (sd s)).

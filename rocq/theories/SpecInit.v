(** Specification of usable configurations: client-level arithmetic on the fields of
    [embedDBState], without the narrow integer types of the code. *)
From Verif Require Import Base Config Storage DB Recovery Spec SpecPage SpecStore Run SpecRun.
Open Scope Z_scope.

(** [n] pages are a whole number of erase blocks. *)
Definition whole_blocks (c : cfg) (n : Z) : Prop := exists m, n = m * eraseSize c.

(** What embedDBInit promises by returning 0 (property C29, last part). *)
Record areas (c : cfg) : Prop := {
  a_ks : keySize c <= 8;
  a_B : eraseSize c <> 0;
  a_data : whole_blocks c (numData c);
  a_min : (if useRLC c || useIndex c then 4 else 2) * eraseSize c <= numData c;
  a_spl : useBinary c = false -> 4 <= numSplinePts c;
  a_idx : useIndex c = true -> whole_blocks c (numIndex c) /\ 2 * eraseSize c <= numIndex c /\ 4 <= bufBlocks c;
  a_var : useVar c = true ->
    whole_blocks c (numVar c) /\ (if useIndex c then 6 else 4) <= bufBlocks c
}.

(** True sizes of the header and of a record. *)
Definition true_header (c : cfg) : Z :=
  6 + (if useIndex c then bitmapSize c else 0) +
  (if useMaxMin c then 2 * (keySize c + dataSize c) else 0).
Definition true_record (c : cfg) : Z :=
  keySize c + dataSize c + (if useVar c then 4 else 0).

(** Sizes for which the page layout of the code is sound.  [z_rec], [z_hdr]: the sizes
    fit an [int8_t]; [z_sum]: page summaries are placed as if an 8-byte bitmap
    preceded them; [z_two]: two records fit behind the bytes initBufferPage sets;
    [z_many]: record counts of a page fit 8 bits. *)
Record sizes_ok (c : cfg) : Prop := {
  z_ks : 1 <= keySize c;
  z_ds : 0 <= dataSize c;
  z_bs : 0 <= bitmapSize c;
  z_rec : true_record c <= 127;
  z_hdr : true_header c <= 127;
  z_sum : useMaxMin c = true -> useIndex c = true /\ 8 <= bitmapSize c;
  z_bm : useBmap c = true -> useIndex c = true /\ bitmapSize c <= 8 /\
    forall d b, length d = dsz c -> length b = bsz c -> length (updBM c d b) = bsz c;
  z_idx : useIndex c = true -> 1 <= bitmapSize c /\ 16 + bitmapSize c <= pageSize c;
  z_page : true_header c + true_record c <= pageSize c;
  z_two : 14 + 2 * keySize c + dataSize c + 2 * true_record c <= pageSize c;
  z_many : pageSize c < true_header c + 256 * true_record c
}.

(** Ranges of the integer types of the fields, and of the keys and page numbers the
    client uses. *)
Record ranges (c : cfg) (KB PB : Z) : Prop := {
  r_ps : pageSize c < 65536;
  r_er : 0 <= eraseSize c;
  r_nd : numData c < 2 ^ 31;
  r_ni : useIndex c = true -> numIndex c < 2 ^ 31;
  r_sp : useBinary c = false -> numSplinePts c < 2 ^ 32;
  r_err : 0 <= maxErr c < 2 ^ 31;
  r_KB : 0 < KB <= 256 ^ keySize c;
  r_PB : PB <= 2 ^ 31;
  r_prod : KB * PB <= 2 ^ 63;
  r_cmp : cmp_exact (cmpK c) KB
}.

(** Flags outside the reach of the storage theorems: neither variable data nor
    record-level consistency; binary search without cleaning, on storage without a
    visible erase. *)
Record plain_flags (c : cfg) : Prop := {
  p_rlc : useRLC c = false;
  p_var : useVar c = false;
  p_bin : useBinary c = true -> noClean c = true /\ plain_storage c /\ fallthru c = Some 0
}.

(** Histories of puts with ascending keys, flushes (without index file) and gets. *)
Record plain_history (c : cfg) (KB PB : Z) (h : list hop) : Prop := {
  ph_ops : Forall (op_plain c KB) h;
  ph_asc : zascending (put_keys h);
  ph_idx : useIndex c = true -> ~ In HFlush h;
  ph_len : zlen h + maxErr c < PB
}.

(** Theorems for C21 (query comparison), C26 (schemas), C27 (bitmaps) and C28
    (comparators).  Vocabulary: SpecUtil.v. *)
From Verif Require Import Base BaseFacts SpecUtil Util DB Schema Query UtilFacts CompareFacts.
Open Scope Z_scope.

(** C21.  For columns of any common width (1 byte or more), [compare] decides the
    six operators on the encoded integers, signed or unsigned. *)
Theorem C21_compare_is_integer_comparison : forall a b operation signed,
  bytes a -> bytes b -> length a = length b -> a <> [] ->
  compare a operation b signed = true <->
  op_holds operation (col_value signed a) (col_value signed b).
Proof. exact compare_spec. Qed.
Print Assumptions C21_compare_is_integer_comparison.
Example C21_ex : bytes [254; 255] /\ bytes [3; 0] /\
  col_value true [254; 255] = -2 /\ col_value false [254; 255] = 65534 /\
  compare [254; 255] 1 [3; 0] true = true /\ compare [254; 255] 1 [3; 0] false = false.
Proof. repeat split; repeat constructor; lia. Qed.

(** C26.  Created schemas, column offsets, record size, and the record buffer. *)
Theorem C26_create_schema : forall cols,
  Forall (fun c => 0 < fst c < 128 /\ snd c <> None) cols ->
  embedDBCreateSchema cols =
  Some (map (fun c => match snd c with Some true => - fst c | _ => fst c end) cols).
Proof. exact create_schema_spec. Qed.
Print Assumptions C26_create_schema.
Theorem C26_record_size : forall s, widths s < 65536 -> getRecordSizeFromSchema s = widths s.
Proof. exact record_size_spec. Qed.
Print Assumptions C26_record_size.
Theorem C26_column_offset : forall s col, 0 <= col < 256 -> col <= zlen s -> widths s < 65536 ->
  getColOffsetFromSchema s col = Ok (widths (firstn (Z.to_nat col) s)).
Proof. exact col_offset_spec. Qed.
Print Assumptions C26_column_offset.
Theorem C26_column_inside_buffer : forall s col c, 0 <= col < 256 -> widths s < 65536 ->
  nth_error s (Z.to_nat col) = Some c ->
  exists off, getColOffsetFromSchema s col = Ok off /\ col_size s col = Ok c /\
    0 <= off /\ off + Z.abs c <= zlen (createBufferFromSchema s).
Proof. exact column_fits. Qed.
Print Assumptions C26_column_inside_buffer.
Example C26_ex : exists s, embedDBCreateSchema [(4, Some false); (8, Some true); (2, Some false)] = Some s
  /\ s = [4; -8; 2] /\ getRecordSizeFromSchema s = 14 /\ getColOffsetFromSchema s 2 = Ok 12.
Proof. eexists; repeat split. Qed.

(** C27.  int8 and int16 bitmaps: the bitmap built for a range overlaps the
    bitmap of every page that holds a value inside the range. *)
Theorem C27_int8_range_never_misses : forall mn mx vs v,
  (forall d, mn = Some d -> (2 <= length d)%nat /\ val16 d <= val16 v) ->
  (forall d, mx = Some d -> (2 <= length d)%nat /\ val16 v <= val16 d) ->
  Forall (fun d => (2 <= length d)%nat) vs -> In v vs ->
  exists q p, buildBitmapInt8FromRange mn mx = Ok q /\
    page_bitmap updateBitmapInt8 vs [0] = Ok p /\ bitmapOverlap q p = true.
Proof. exact range_overlap8. Qed.
Print Assumptions C27_int8_range_never_misses.
Theorem C27_int16_range_never_misses : forall mn mx vs v,
  (forall d, mn = Some d -> ((4 <= length d)%nat /\ val32 d < 2 ^ 31 - 17) /\ val32 d <= val32 v) ->
  (forall d, mx = Some d -> ((4 <= length d)%nat /\ val32 d < 2 ^ 31 - 17) /\ val32 v <= val32 d) ->
  Forall (fun d => (4 <= length d)%nat /\ val32 d < 2 ^ 31 - 17) vs -> In v vs ->
  exists q p, buildBitmapInt16FromRange mn mx = Ok q /\
    page_bitmap updateBitmapInt16 vs [0; 0] = Ok p /\ bitmapOverlap q p = true.
Proof. exact range_overlap16. Qed.
Print Assumptions C27_int16_range_never_misses.
(** The hypotheses are met, and a range without a common value need not overlap. *)
Example C27_ex8 :
  buildBitmapInt8FromRange (Some [12; 0]) (Some [35; 0]) = Ok [112] /\
  page_bitmap updateBitmapInt8 [[25; 0]; [90; 0]] [0] = Ok [34] /\
  bitmapOverlap [112] [34] = true /\
  page_bitmap updateBitmapInt8 [[45; 0]; [90; 0]] [0] = Ok [10] /\
  bitmapOverlap [112] [10] = false.
Proof. vm_compute. repeat split. Qed.
Example C27_ex16 :
  buildBitmapInt16FromRange (Some (le_enc 4 400)) (Some (le_enc 4 500)) = Ok (le_enc 2 7680) /\
  page_bitmap updateBitmapInt16 [le_enc 4 450] [0; 0] = Ok (le_enc 2 1024) /\
  bitmapOverlap (le_enc 2 7680) (le_enc 2 1024) = true.
Proof. vm_compute. repeat split. Qed.
(** The int64 version does not have the property: a page holding 500 is skipped
    by the range [320, 600]. *)
Theorem C27_int64_range_misses_refuted : exists mn mx v q p,
  val32 mn <= val32 v <= val32 mx /\
  buildBitmapInt64FromRange (Some mn) (Some mx) = Ok q /\
  page_bitmap updateBitmapInt64 [v] (repeat 0 8) = Ok p /\ bitmapOverlap q p = false.
Proof.
  exists (le_enc 4 320), (le_enc 4 600), (le_enc 4 500). eexists; eexists.
  split; [vm_compute; split; discriminate|]. repeat split; vm_compute; reflexivity.
Qed.
Print Assumptions C27_int64_range_misses_refuted.
(** inBitmapInt16 answers "no" although the bitmap has the value's bit. *)
Theorem C27_inBitmapInt16_refuted : exists v bm,
  updateBitmapInt16 v [0; 0] = Ok bm /\ inBitmapInt16 v bm = Ok 0.
Proof. exists (le_enc 4 100). eexists. split; vm_compute; reflexivity. Qed.
Print Assumptions C27_inBitmapInt16_refuted.
(** updateBitmapInt16 overflows a signed integer for the largest values. *)
Theorem C27_updateBitmapInt16_overflow_refuted : exists v, length v = 4%nat /\
  forall bm, updateBitmapInt16 v bm = UB.
Proof.
  exists (le_enc 4 (2 ^ 31 - 1)). split; [reflexivity|].
  intros bm. apply upd16_ub; vm_compute; auto.
Qed.
Print Assumptions C27_updateBitmapInt16_overflow_refuted.

(** C28.  The comparators order keys below 2^31 and 2^63 as integers. *)
Theorem C28_int32Comparator : forall a b, 0 <= a < 2 ^ 31 -> 0 <= b < 2 ^ 31 ->
  int32Comparator a b = Ok (match a ?= b with Lt => -1 | Eq => 0 | Gt => 1 end).
Proof. exact int32Comparator_order. Qed.
Print Assumptions C28_int32Comparator.
Theorem C28_int64Comparator : forall a b, 0 <= a < 2 ^ 63 -> 0 <= b < 2 ^ 63 ->
  int64Comparator a b = Ok (match a ?= b with Lt => -1 | Eq => 0 | Gt => 1 end).
Proof. exact int64Comparator_order. Qed.
Print Assumptions C28_int64Comparator.
Example C28_ex : int32Comparator 5 (2 ^ 31 - 1) = Ok (-1) /\ int64Comparator (2 ^ 62) 7 = Ok 1.
Proof. split; reflexivity. Qed.
(** Full 4-byte unsigned keys are not ordered: 2^31 is "less" than 0, and the
    subtraction overflows for 2^31 and 1. *)
Theorem C28_int32Comparator_large_keys_refuted : exists a b,
  0 <= b < a /\ a < 2 ^ 32 /\ int32Comparator a b = Ok (-1).
Proof. exists (2 ^ 31), 0. repeat split; lia. Qed.
Print Assumptions C28_int32Comparator_large_keys_refuted.
Theorem C28_int32Comparator_overflow_refuted : exists a b,
  0 <= a < 2 ^ 32 /\ 0 <= b < 2 ^ 32 /\ int32Comparator a b = UB.
Proof. exists (2 ^ 31), 1. repeat split; lia. Qed.
Print Assumptions C28_int32Comparator_overflow_refuted.

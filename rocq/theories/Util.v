(** Model of lib/EmbedDB-Utility/embedDBUtility.c: bitmap functions and key
    comparators.  Data and bitmaps are byte lists (little endian).  Data shorter
    than the integer read from it is [UB]. *)
From Verif Require Import Base.
Open Scope Z_scope.

(** The bit chosen by updateBitmapInt8, embedDBUtility.c:49-64. *)
Definition bit8 (val : Z) : Z :=
  if val <? 10 then 128 else if val <? 20 then 64 else if val <? 30 then 32
  else if val <? 40 then 16 else if val <? 50 then 8 else if val <? 60 then 4
  else if val <? 100 then 2 else 1.

(** updateBitmapInt8, embedDBUtility.c:44-65: the value is read as int16_t. *)
Definition updateBitmapInt8 (data bm : list Z) : res (list Z) :=
  v <- ldz data 0 2 ;;
  b <- ldz bm 0 1 ;;
  st bm 0 (le_enc 1 (Z.lor b (bit8 (i16 v)))).

(** The common shape of the three buildBitmap...FromRange functions,
    embedDBUtility.c:68-93, 142-168, 207-233, for a bitmap of [n] bytes and
    update function [upd]. *)
Definition build_range (n : nat) (upd : list Z -> list Z -> res (list Z))
  (mn mx : option (list Z)) : res (list Z) :=
  let w := 256 ^ Z.of_nat n in
  let zero := repeat 0 n in
  lo <- (match mn with
         | Some d => m <- upd d zero ;; x <- ldz m 0 n ;; Ok (Some (Z.lor x ((x - 1) mod w)))
         | None => Ok None
         end) ;;
  match lo, mx with
  | None, None => Ok (le_enc n (w - 1))
  | Some a, None => Ok (le_enc n a)
  | None, Some d =>
      m <- upd d zero ;; x <- ldz m 0 n ;;
      Ok (le_enc n ((Z.lnot ((x - 1) mod w)) mod w))
  | Some a, Some d =>
      m <- upd d zero ;; x <- ldz m 0 n ;;
      Ok (le_enc n (Z.land a ((Z.lnot ((x - 1) mod w)) mod w)))
  end.

(** buildBitmapInt8FromRange, embedDBUtility.c:68-93. *)
Definition buildBitmapInt8FromRange := build_range 1 updateBitmapInt8.

(** inBitmapInt8, embedDBUtility.c:95-103: the overlap converted to int8_t. *)
Definition inBitmapInt8 (data bm : list Z) : res Z :=
  t <- updateBitmapInt8 data [0] ;;
  x <- ldz t 0 1 ;; y <- ldz bm 0 1 ;; Ok (i8 (Z.land x y)).

(** The loop of updateBitmapInt16, embedDBUtility.c:114-119.  [current] is an
    int32_t: its overflow is undefined. *)
Fixpoint loop16 (fuel : nat) (val current num : Z) : res Z :=
  match fuel with
  | O => Fuel
  | S f =>
      if val >? current then
        if current + 30 >=? 2 ^ 31 then UB else loop16 f val (current + 30) (num / 2)
      else Ok num
  end.

(** updateBitmapInt16, embedDBUtility.c:106-123. *)
Definition updateBitmapInt16 (data bm : list Z) : res (list Z) :=
  v <- ldz data 0 4 ;;
  let val := i32 v in
  num <- loop16 (S (Z.to_nat ((val - 320) / 30 + 1))) val 320 32768 ;;
  let num := if num =? 0 then 1 else num in
  b <- ldz bm 0 2 ;;
  st bm 0 (le_enc 2 (Z.lor b num)).

(** inBitmapInt16, embedDBUtility.c:125-133. *)
Definition inBitmapInt16 (data bm : list Z) : res Z :=
  t <- updateBitmapInt16 data [0; 0] ;;
  x <- ldz t 0 2 ;; y <- ldz bm 0 2 ;; Ok (i8 (Z.land x y)).

(** buildBitmapInt16FromRange, embedDBUtility.c:142-168. *)
Definition buildBitmapInt16FromRange := build_range 2 updateBitmapInt16.

(** The loop of updateBitmapInt64, embedDBUtility.c:174-182. *)
Fixpoint loop64 (fuel : nat) (val current count : Z) : Z :=
  match fuel with
  | O => count
  | S f =>
      if (val >? current) && (count <? 63)
      then loop64 f val (current + 10) (count + 1) else count
  end.

(** updateBitmapInt64, embedDBUtility.c:171-188. *)
Definition updateBitmapInt64 (data bm : list Z) : res (list Z) :=
  v <- ldz data 0 4 ;;
  let count := loop64 64 (i32 v) 320 0 in
  let b := Z.shiftr 128 (Z.land count 7) in
  let off := count / 8 in
  x <- ldz bm off 1 ;;
  st bm off (le_enc 1 (Z.lor x b)).

(** inBitmapInt64, embedDBUtility.c:190-198. *)
Definition inBitmapInt64 (data bm : list Z) : res Z :=
  t <- updateBitmapInt64 data (repeat 0 8) ;;
  x <- ldz t 0 8 ;; y <- ldz bm 0 8 ;; Ok (i8 (Z.land x y)).

(** buildBitmapInt64FromRange, embedDBUtility.c:207-233. *)
Definition buildBitmapInt64FromRange := build_range 8 updateBitmapInt64.

(** Sign of a difference, embedDBUtility.c:240-244 and 249-253. *)
Definition sign3 (r : Z) : Z := if r <? 0 then -1 else if r >? 0 then 1 else 0.

(** int32Comparator, embedDBUtility.c:235-245, on the unsigned values of the two
    4-byte keys; signed overflow of the subtraction is undefined. *)
Definition int32Comparator (a b : Z) : res Z :=
  let r := i32 a - i32 b in
  if (r <? - 2 ^ 31) || (r >=? 2 ^ 31) then UB else Ok (sign3 r).

(** int64Comparator, embedDBUtility.c:247-254. *)
Definition int64Comparator (a b : Z) : res Z :=
  let r := i64 a - i64 b in
  if (r <? - 2 ^ 63) || (r >=? 2 ^ 63) then UB else Ok (sign3 r).

(** The same comparators on a machine whose subtraction wraps (the form used as
    [compareKey] in example configurations), embedDBUtility.c:235-254. *)
Definition int32Comparator_wrap (a b : Z) : Z := sign3 (i32 (i32 a - i32 b)).
Definition int64Comparator_wrap (a b : Z) : Z := sign3 (i64 (i64 a - i64 b)).

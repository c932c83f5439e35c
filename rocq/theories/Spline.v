(** Model of src/spline/spline.c: the learned index.

    A spline point is a pair (key, page); the point array is a function from
    array slots to points.  [size_t] is taken to be 64 bits wide. *)
From Verif Require Import Base.
Open Scope Z_scope.

(** An element of [points], a key and a page number (spline.h:54, spline.c:61). *)
Definition point := (Z * Z)%type.

(** struct spline_s, spline.h:50-65 ([keySize] is kept in the configuration;
    [eraseSize] is the constant 1 set at spline.c:58). *)
Record spline := mkSpl {
  s_count : Z;
  s_size : Z;
  s_start : Z;              (* pointsStartIndex *)
  s_pts : Z -> point;       (* points *)
  s_upper : point;
  s_lower : point;
  s_first : point;          (* firstSplinePoint *)
  s_lastLoc : Z;
  s_lastKey : Z;
  s_maxErr : Z;
  s_adds : Z;               (* numAddCalls *)
  s_temp : Z                (* tempLastPoint *)
}.

(** splineInit, spline.c:54-69.  [g] is the content of the uninitialised
    allocations; [spl->maxError] is a [uint32_t]. *)
Definition spl_init (size maxError : Z) (g : point) : spline :=
  mkSpl 0 size 0 (fun _ => g) g g g (snd g) (fst g) (u32 maxError) 0 0.

(** splinePointLocation, spline.c:403-405: slot of the point with index [i]. *)
Definition spl_slot (s : spline) (i : Z) : Z := u64 (u64 i + s_start s) mod s_size s.
Definition spl_pt (s : spline) (i : Z) : point := s_pts s (spl_slot s i).

(** memcpy of key and page into the point with index [i] (spline.c:97-98 etc.). *)
Definition spl_setpt (s : spline) (i : Z) (p : point) : spline :=
  let sl := spl_slot s i in
  mkSpl (s_count s) (s_size s) (s_start s)
        (fun j => if j =? sl then p else s_pts s j)
        (s_upper s) (s_lower s) (s_first s) (s_lastLoc s) (s_lastKey s)
        (s_maxErr s) (s_adds s) (s_temp s).

(** Field assignments used below (C assignments; spline.c:91-210). *)
Definition spl_set_count (s : spline) (n : Z) : spline :=
  mkSpl n (s_size s) (s_start s) (s_pts s) (s_upper s) (s_lower s) (s_first s)
        (s_lastLoc s) (s_lastKey s) (s_maxErr s) (s_adds s) (s_temp s).
Definition spl_set_adds (s : spline) (n : Z) : spline :=
  mkSpl (s_count s) (s_size s) (s_start s) (s_pts s) (s_upper s) (s_lower s) (s_first s)
        (s_lastLoc s) (s_lastKey s) (s_maxErr s) n (s_temp s).
Definition spl_set_first (s : spline) (p : point) : spline :=
  mkSpl (s_count s) (s_size s) (s_start s) (s_pts s) (s_upper s) (s_lower s) p
        (s_lastLoc s) (s_lastKey s) (s_maxErr s) (s_adds s) (s_temp s).
Definition spl_set_limits (s : spline) (up lo : point) : spline :=
  mkSpl (s_count s) (s_size s) (s_start s) (s_pts s) up lo (s_first s)
        (s_lastLoc s) (s_lastKey s) (s_maxErr s) (s_adds s) (s_temp s).
Definition spl_set_last (s : spline) (k loc : Z) : spline :=
  mkSpl (s_count s) (s_size s) (s_start s) (s_pts s) (s_upper s) (s_lower s) (s_first s)
        loc k (s_maxErr s) (s_adds s) (s_temp s).
Definition spl_set_temp (s : spline) (t : Z) : spline :=
  mkSpl (s_count s) (s_size s) (s_start s) (s_pts s) (s_upper s) (s_lower s) (s_first s)
        (s_lastLoc s) (s_lastKey s) (s_maxErr s) (s_adds s) t.

(** splineErase, spline.c:218-230.  Returns the new spline and the result. *)
Definition spl_erase (s : spline) (n : Z) : spline * Z :=
  if (n >? s_count s) || (u64 (s_count s - n) =? 1) then (s, 1)
  else if n =? 0 then (s, 0)
  else
    let cnt := s_count s - n in
    (mkSpl cnt (s_size s) (u64 (s_start s + n) mod s_size s) (s_pts s)
           (s_upper s) (s_lower s) (s_first s) (s_lastLoc s) (s_lastKey s)
           (s_maxErr s) (if cnt =? 0 then 0 else s_adds s) (s_temp s), 0).

(** splineIsLeft / splineIsRight, spline.c:74-83: the signed [y] operands are
    converted to [uint64_t] by the multiplication. *)
Definition spl_isLeft (x1 y1 x2 y2 : Z) : bool := u64 (u64 y1 * x2) >? u64 (u64 y2 * x1).
Definition spl_isRight (x1 y1 x2 y2 : Z) : bool := u64 (u64 y1 * x2) <? u64 (u64 y2 * x1).

(** The page stored in a lower / upper limit, spline.c:111,114,170,173. *)
Definition spl_lowPage (e page : Z) : Z := if page <? e then 0 else page - e.
Definition spl_upPage (e page : Z) : Z := u32 (page + e).

(** The test for a new knot, spline.c:133-152 and 159-160: differences of the new
    point and of the two limits to the last point. *)
Definition spl_test (s : spline) (key page : Z) : bool :=
  let lk := fst (spl_pt s (s_count s - 1)) in
  let lp := snd (spl_pt s (s_count s - 1)) in
  spl_isLeft (u64 (key - lk)) (u32 (page - lp))
             (u64 (fst (s_upper s) - lk)) (u32 (snd (s_upper s) - lp))
  || spl_isRight (u64 (key - lk)) (u32 (page - lp))
                 (u64 (fst (s_lower s) - lk)) (i64 (snd (s_lower s) - lp)).

(** Adding the previous point as a knot, spline.c:161-181. *)
Definition spl_knot (e : Z) (s : spline) (key page : Z) : spline :=
  let s := spl_setpt s (s_count s) (s_lastKey s, s_lastLoc s) in
  let s := spl_set_count s (s_count s + 1) in
  let s := spl_set_temp s 0 in
  let s := spl_set_limits s (key, spl_upPage e page) (key, spl_lowPage e page) in
  if s_count s >=? s_size s then fst (spl_erase s 1) else s.

(** Narrowing the limits, spline.c:182-197; [(lk, lp)] is the last point read at
    lines 135-139. *)
Definition spl_narrow (e lk lp : Z) (s : spline) (key page : Z) : spline :=
  let s1 := if spl_isLeft (u64 (fst (s_upper s) - lk)) (u32 (snd (s_upper s) - lp))
                          (u64 (key - lk)) (u32 (page + e - lp))
            then spl_set_limits s (key, spl_upPage e page) (s_lower s) else s in
  if spl_isRight (u64 (fst (s_lower s) - lk)) (i64 (snd (s_lower s) - lp))
                 (u64 (key - lk)) (u32 (spl_lowPage e page - lp))
  then spl_set_limits s1 (s_upper s1) (key, spl_lowPage e page) else s1.

(** Storing the new point as temporary last point, spline.c:199-209. *)
Definition spl_last (s : spline) (key page : Z) : spline :=
  let s := spl_set_last s key page in
  let s := spl_setpt s (s_count s) (key, page) in
  let s := spl_set_count s (s_count s + 1) in
  spl_set_temp s 1.

(** splineAdd, spline.c:133-209.  The test of line 159 uses the values read before
    the erase of lines 154-156. *)
Definition spl_rest (e : Z) (s : spline) (key page : Z) : spline :=
  let t := spl_test s key page in
  let p := spl_pt s (s_count s - 1) in
  let s' := if s_count s >=? s_size s then fst (spl_erase s 1) else s in
  spl_last (if t then spl_knot e s' key page
            else spl_narrow e (fst p) (snd p) s' key page) key page.

(** splineAdd, spline.c:91-210. *)
Definition spl_add (s0 : spline) (key page : Z) : spline :=
  let e := s_maxErr s0 in
  (* 92 *)
  let s := spl_set_adds s0 (u32 (s_adds s0 + 1)) in
  (* 94-105 *)
  if s_adds s =? 1 then
    let s := spl_setpt s 0 (key, page) in
    let s := spl_set_first s (key, page) in
    let s := spl_set_count s (s_count s + 1) in
    spl_set_last s key (s_lastLoc s)
  else
    (* 108-118 *)
    let s := if s_adds s =? 2
             then spl_set_last
                    (spl_set_limits s (key, spl_upPage e page) (key, spl_lowPage e page))
                    key page
             else s in
    (* 121-126 *)
    if (key <=? s_lastKey s) && negb (s_adds s =? 2) then s
    else
      (* 129-131 *)
      let s := if negb (s_temp s =? 0) then spl_set_count s (s_count s - 1) else s in
      (* 133-209 *)
      spl_rest e s key page.

(** pointsBinarySearch, spline.c:291-319 (recursive; [fuel] bounds the depth). *)
Fixpoint spl_bsearch (cmp : Z -> Z -> Z) (s : spline) (fuel : nat) (low high key : Z) : res Z :=
  match fuel with
  | O => Fuel
  | S fuel' =>
    let mid := low + Z.quot (high - low) 2 in
    if high >=? low then
      if mid =? 0 then Ok 1
      else
        let mk := fst (spl_pt s mid) in
        let mk1 := fst (spl_pt s (mid - 1)) in
        if (cmp mk key >=? 0) && (cmp mk1 key <=? 0) then Ok mid
        else if cmp mk key >? 0 then spl_bsearch cmp s fuel' low (mid - 1) key
        else spl_bsearch cmp s fuel' (mid + 1) high key
    else if mid >=? high then Ok high else Ok low
  end.

(** splineFind, spline.c:330-384.  Returns (loc, low, high).  The [long double]
    quotient of line 373 is modelled as the exact quotient truncated to an
    integer (exact for an 80-bit long double); a zero divisor or a quotient
    outside [id_t] is undefined behaviour. *)
Definition spl_find (cmp : Z -> Z -> Z) (s : spline) (key : Z) : res (Z * Z * Z) :=
  let p0 := spl_pt s 0 in
  let pl := spl_pt s (s_count s - 1) in
  if (cmp key (fst p0) <? 0) || (s_count s <=? 1) then
    let lowE := snd (s_first s) in
    let highE := snd p0 in
    Ok (u32 (lowE + highE) / 2, lowE, highE)
  else if cmp key (fst pl) >? 0 then Ok (snd pl, snd pl, snd pl)
  else
    idx <- spl_bsearch cmp s (Z.to_nat (s_count s + 2)) 0 (s_count s - 1) key ;;
    let '(downKey, downPage) := spl_pt s (idx - 1) in
    let '(upKey, upPage) := spl_pt s idx in
    let num := u64 (u64 (key - downKey) * u32 (upPage - downPage)) in
    let den := u64 (upKey - downKey) in
    if den =? 0 then UB
    else if num / den >=? 2 ^ 32 then UB
    else
      let loc := u32 (num / den + downPage) in
      let lowE := if s_maxErr s >? loc then 0 else loc - s_maxErr s in
      let lastPage := snd pl in
      let highE := if u32 (loc + s_maxErr s) >? lastPage then lastPage
                   else u32 (loc + s_maxErr s) in
      Ok (loc, lowE, highE).

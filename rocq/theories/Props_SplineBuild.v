(** Properties C10 and C11 for an index built by splineBuild. *)
From Verif Require Import Base Spline DB Spec SpecSpline Util SplineBuild SplineBuildFacts.
Open Scope Z_scope.

(** C10: the range returned for a key contains the position of the last key at most as
    large, and lies inside the array, whatever error bound splineInit was given. *)
Theorem C10_build_find_range_partial :
  forall KB PB size e0 e g ks cmp q p,
  4 <= size < 2 ^ 32 -> 0 <= e < 2 ^ 32 -> PB <= 2 ^ 31 -> 0 < KB -> KB * PB <= 2 ^ 63 -> zlen ks + e < PB ->
  Forall (fun k => 0 <= k < KB) ks -> zascending ks -> cmp_ok cmp KB -> 0 <= q < KB -> page_of ks q p ->
  exists loc low high, spl_find cmp (splineBuild (spl_init size e0 g) ks e) q = Ok (loc, low, high) /\
    0 <= low <= loc /\ loc <= high <= zlen ks - 1 /\ low <= Z.of_nat p <= high.
Proof. exact build_find. Qed.
Print Assumptions C10_build_find_range_partial.

(** C11: its points are keys of the array with their positions, and they fit the array
    of points. *)
Theorem C11_build_points :
  forall KB PB size e0 e g ks,
  4 <= size < 2 ^ 32 -> 0 <= e < 2 ^ 32 -> PB <= 2 ^ 31 -> 0 < KB -> KB * PB <= 2 ^ 63 -> zlen ks + e < PB ->
  Forall (fun k => 0 <= k < KB) ks -> zascending ks ->
  let s := splineBuild (spl_init size e0 g) ks e in
  s_count s <= size /\ (2 <= zlen ks -> 2 <= s_count s) /\
  forall i, 0 <= i < s_count s -> exists n, 0 <= n < zlen ks /\ spl_pt s i = (nth (Z.to_nat n) ks 0, n).
Proof. exact build_shape. Qed.
Print Assumptions C11_build_points.

(** Thirteen keys, four points, an error bound of 2. *)
Definition build_keys : list Z := [0; 1; 2; 3; 100; 101; 200; 300; 301; 1000; 1001; 5000; 5001].
Definition build_cmp (a b : Z) : Z := sign3 (a - b).
Example C10_build_example : exists loc low high,
  spl_find build_cmp (splineBuild (spl_init 4 9 (7, 7)) build_keys 2) 299 = Ok (loc, low, high) /\
  0 <= low <= loc /\ loc <= high <= 12 /\ low <= 6 <= high.
Proof.
  apply (C10_build_find_range_partial (2 ^ 32) (2 ^ 31) 4 9 2 (7, 7) build_keys build_cmp 299 6);
    try (cbn; repeat split; lia).
  - repeat (constructor; [lia|]). constructor.
  - intros a b A B. unfold build_cmp, sign3. destruct (Z.ltb_spec (a - b) 0), (Z.gtb_spec (a - b) 0); lia.
  - exists 200. cbn. split; auto. split; [lia|]. intros k' [= <-]. lia.
Qed.
Example C11_build_example : s_count (splineBuild (spl_init 4 9 (7, 7)) build_keys 2) = 4.
Proof. vm_compute. reflexivity. Qed.

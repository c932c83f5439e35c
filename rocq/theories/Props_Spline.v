(** Theorems about the learned index (properties C10, C11, C12).

    [srun (spl_init size e g) f ops] is the index after the history [ops] of adds
    (pages [f], [f+1], ...) and cleans, starting from splineInit.  Keys lie in
    [0, KB) and page numbers plus error below [PB]; [KB * PB <= 2^63] keeps the
    64-bit products of splineIsLeft/Right and splineFind exact (the refutations
    below show what happens otherwise). *)
From Verif Require Import Base Spline DB Spec SpecSpline SplineFacts Util.
Open Scope Z_scope.

(** C10 and C12: whatever was added and cleaned, the range returned for a key
    contains the page that holds it: no clean or overflow of the point array
    makes a key unfindable. *)
Theorem C10_find_range_contains_page_partial :
  forall KB PB f size e g ops cmp q p,
  4 <= size < 2 ^ 32 -> 0 <= e < 2 ^ 32 -> 0 <= f -> e <= 1 \/ f = 0 ->
  PB <= 2 ^ 31 -> 0 < KB -> KB * PB <= 2 ^ 63 -> f + zlen (added ops) + e < PB ->
  Forall (fun k => 0 <= k < KB) (added ops) -> zascending (added ops) -> cleans_ok f ops ->
  cmp_ok cmp KB -> 0 <= q < KB -> page_of (added ops) q p ->
  exists loc low high,
    spl_find cmp (srun (spl_init size e g) f ops) q = Ok (loc, low, high) /\
    0 <= low <= loc /\ loc <= high <= f + zlen (added ops) - 1 /\
    low <= f + Z.of_nat p <= high.
Proof. exact find_history. Qed.
Print Assumptions C10_find_range_contains_page_partial.

(** C12: the same statement, for a history followed by one more clean: the pages
    the clean may touch are the evicted ones, and every key, on a retained page
    or not, is still located. *)
Theorem C12_clean_keeps_keys_findable :
  forall KB PB f size e g ops m cmp q p,
  4 <= size < 2 ^ 32 -> 0 <= e < 2 ^ 32 -> 0 <= f -> e <= 1 \/ f = 0 ->
  PB <= 2 ^ 31 -> 0 < KB -> KB * PB <= 2 ^ 63 ->
  f + zlen (added ops) + e < PB ->
  Forall (fun k => 0 <= k < KB) (added ops) -> zascending (added ops) ->
  cleans_ok f ops -> m < f + zlen (added ops) ->
  cmp_ok cmp KB -> 0 <= q < KB -> page_of (added ops) q p ->
  exists loc low high,
    spl_find cmp (cleanSpline (srun (spl_init size e g) f ops) m) q = Ok (loc, low, high) /\
    low <= f + Z.of_nat p <= high.
Proof. exact clean_history. Qed.
Print Assumptions C12_clean_keeps_keys_findable.

(** C11: the points stay inside the array, at least two remain once two pages
    were added, every point is (first key, number) of an added page, and points
    are ordered by key and by page. *)
Theorem C11_points_bounded_and_ordered :
  forall KB PB f size e g ops,
  4 <= size < 2 ^ 32 -> 0 <= e < 2 ^ 32 -> 0 <= f -> e <= 1 \/ f = 0 ->
  PB <= 2 ^ 31 -> 0 < KB -> KB * PB <= 2 ^ 63 -> f + zlen (added ops) + e < PB ->
  Forall (fun k => 0 <= k < KB) (added ops) -> zascending (added ops) -> cleans_ok f ops ->
  let s := srun (spl_init size e g) f ops in
  s_count s <= size /\ (2 <= zlen (added ops) -> 2 <= s_count s) /\
  (forall i, 0 <= i < s_count s -> exists p, f <= p < f + zlen (added ops) /\
     spl_pt s i = (nth (Z.to_nat (p - f)) (added ops) 0, p)) /\
  (forall i j, 0 <= i -> i < j -> j < s_count s ->
     fst (spl_pt s i) < fst (spl_pt s j) /\ snd (spl_pt s i) < snd (spl_pt s j)).
Proof. exact shape_history. Qed.
Print Assumptions C11_points_bounded_and_ordered.

(** A history meeting the hypotheses: 13 pages, an array of 4 points that
    overflows, and two cleans. *)
Definition ex_ops : list sop :=
  map SAdd [0; 1; 2; 3; 100; 101] ++ [SClean 3] ++ map SAdd [200; 300; 301; 1000]
  ++ [SClean 6] ++ map SAdd [1001; 5000; 5001].
Definition ex_scmp (a b : Z) : Z := sign3 (a - b).

Example ex_scmp_ok : cmp_ok ex_scmp (2 ^ 32).
Proof. intros a b A B. unfold ex_scmp, sign3. destruct (Z.ltb_spec (a - b) 0), (Z.gtb_spec (a - b) 0); lia. Qed.

Example C10_example :
  exists loc low high,
    spl_find ex_scmp (srun (spl_init 4 1 (7, 7)) 0 ex_ops) 299 = Ok (loc, low, high) /\
    0 <= low <= loc /\ loc <= high <= 0 + zlen (added ex_ops) - 1 /\
    low <= 0 + Z.of_nat 6 <= high.
Proof.
  apply (C10_find_range_contains_page_partial (2 ^ 32) (2 ^ 31));
    try (cbn; repeat split; lia).
  - repeat (constructor; [lia|]). constructor.
  - apply ex_scmp_ok.
  - exists 200. cbn. split; auto. split; [lia|]. intros k' [= <-]. lia.
Qed.
Example C11_example : s_count (srun (spl_init 4 1 (7, 7)) 0 ex_ops) = 4.
Proof. vm_compute. reflexivity. Qed.
Example C12_example :
  exists loc low high,
    spl_find ex_scmp (cleanSpline (srun (spl_init 4 1 (7, 7)) 0 ex_ops) 11) 5000 = Ok (loc, low, high) /\
    low <= 0 + Z.of_nat 11 <= high.
Proof.
  apply (C12_clean_keeps_keys_findable (2 ^ 32) (2 ^ 31));
    try (cbn; repeat split; lia).
  - repeat (constructor; [lia|]). constructor.
  - apply ex_scmp_ok.
  - exists 5000. cbn. split; auto. split; [lia|]. intros k' [= <-]. lia.
Qed.

(** C10 fails for 64-bit keys: the products wrap.  Four pages with ascending keys
    below 2^63; the key of page 3 is looked for in pages 0..1. *)
Theorem C10_product_overflow_refuted :
  exists ks q p, zascending ks /\ Forall (fun k => 0 <= k < 2 ^ 63) ks /\
    page_of ks q p /\
    spl_find ex_scmp (srun (spl_init 8 1 (7, 7)) 0 (map SAdd ks)) q = Ok (0, 0, 1) /\
    p = 3%nat.
Proof.
  exists (map (fun k => k * 2 ^ 57) [0; 20; 29; 43]), (43 * 2 ^ 57), 3%nat.
  split; [cbn; lia|]. split; [repeat constructor; cbn; lia|].
  split; [exists (43 * 2 ^ 57); cbn; split; auto; split; [lia|discriminate]|].
  split; [vm_compute; reflexivity|auto].
Qed.
Print Assumptions C10_product_overflow_refuted.

(** C10 fails for an index that does not start at page 0 (rebuilt by recovery)
    with an error bound above 1: two equal points, then a division by zero. *)
Theorem C10_start_page_refuted :
  exists f e ks q p, zascending ks /\ page_of ks q p /\ 1 < e /\ 0 < f /\
    spl_find ex_scmp (srun (spl_init 8 e (7, 7)) f (map SAdd ks)) q = UB.
Proof.
  exists 36, 2, [100; 200; 300; 400], 200, 1%nat.
  split; [cbn; lia|]. split; [exists 200; cbn; split; auto; split; [lia|intros k' [= <-]; lia]|].
  split; [lia|]. split; [lia|]. vm_compute. reflexivity.
Qed.
Print Assumptions C10_start_page_refuted.

(** Theorems about iterators (properties C04, C05, C33 and the scan parts of C31,
    C32, C34, C37).

    [answer c L q] (SpecIter.v) is the list of retained records satisfying the
    query, in the order they were accepted.  Binary-search mode is excluded:
    embedDBInitIterator dereferences the missing spline
    (C04_binary_mode_refuted in Refuted.v).  [uses_bitmap c q = false]: no data
    bounds, or no bitmaps configured; scans that skip pages by bitmaps are in
    Props_Index.v. *)
From Verif Require Import Base Config Storage DB Recovery Spec SpecPage SpecStore Run SpecRun SpecIter
  ReachFacts StoreThms IterFacts IterThms ExFacts ExIter.
Open Scope Z_scope.

(** C04 and C05, on every calm history: a scan, run until embedDBNext returns 0,
    returns exactly the retained records satisfying the bounds. *)
Theorem C04_scan_exact_calm_partial :
  forall c KB PB h k s xs q n, quiet c KB PB h -> calmly c k h s xs -> useBinary c = false ->
  uses_bitmap c q = false -> query_ok KB q -> (length (retained (spec_log c h)) < n)%nat ->
  exists s', scan c s q n = Ok (s', answer c (spec_log c h) q).
Proof. exact c04_calm. Qed.
Print Assumptions C04_scan_exact_calm_partial.

(** Keys 30..55 after puts, gets, a flush and two wraps: records on storage and
    in the write buffer, some of the range evicted. *)
Definition hScan : list hop := puts 40 1 1 ++ [HGet 40; HGet 35; HFlush] ++ puts 13 50 1.
Definition qScan : query := mkQ (Some 30) (Some 55) None None.
Example C04_calm_example : exists s xs s', calmly eA noDisk hScan s xs /\
  scan eA s qScan 100 = Ok (s', map (fun k => (k, Base.le_enc 4 (k * 3))) ([30; 31; 32; 33; 34; 35; 36; 37; 38; 39; 40; 50; 51; 52; 53; 54; 55])).
Proof.
  destruct (calmly_ex eA hScan) as (s & xs & R); [vm_compute; reflexivity|vm_compute; reflexivity|].
  destruct (C04_scan_exact_calm_partial eA (2 ^ 31) (2 ^ 31) hScan noDisk s xs qScan 100) as (s' & E); auto.
  - quiet_ex.
  - apply query_okb_ok; reflexivity.
  - apply Nat.ltb_lt. vm_compute. reflexivity.
  - exists s, xs, s'. split; [exact R|]. rewrite E. f_equal.
Qed.

(** C04 and C05 until the data area wraps around. *)
Theorem C04_scan_exact_before_wrap_partial :
  forall c KB PB h k s xs q n, scenario c KB PB h -> reached c k h s xs -> useBinary c = false ->
  zlen (pages (log_of c h)) <= numData c ->
  uses_bitmap c q = false -> query_ok KB q -> (length (retained (log_of c h)) < n)%nat ->
  exists s', scan c s q n = Ok (s', answer c (log_of c h) q).
Proof. exact c04_nowrap. Qed.
Print Assumptions C04_scan_exact_before_wrap_partial.

(** C04 and C05 for any number of puts (any number of wraps) and an optional flush. *)
Theorem C04_scan_exact_after_puts_partial :
  forall c KB PB ps fl k s xs q n, let h := ps ++ fl in
  scenario c KB PB h -> Forall is_put ps -> fl = [] \/ fl = [HFlush] -> useBinary c = false ->
  reached c k h s xs -> uses_bitmap c q = false -> query_ok KB q -> (length (retained (log_of c h)) < n)%nat ->
  exists s', scan c s q n = Ok (s', answer c (log_of c h) q).
Proof. exact c04_puts. Qed.
Print Assumptions C04_scan_exact_after_puts_partial.

(** C05: bounds on the data value as well; the records are compared with the
    client's comparator. *)
Theorem C05_data_scan_exact_without_bitmap_partial :
  forall c KB PB h k s xs q n, quiet c KB PB h -> calmly c k h s xs -> useBinary c = false ->
  useBmap c = false -> query_ok KB q -> (length (retained (spec_log c h)) < n)%nat ->
  exists s', scan c s q n = Ok (s', answer c (spec_log c h) q).
Proof. exact c05_plain. Qed.
Print Assumptions C05_data_scan_exact_without_bitmap_partial.

(** Data values 100..120 (keys 34..40). *)
Definition qData : query := mkQ (Some 30) None (Some (Base.le_enc 4 100)) (Some (Base.le_enc 4 120)).
Example C05_example : exists s xs s', calmly eA noDisk hScan s xs /\
  scan eA s qData 100 = Ok (s', map (fun k => (k, Base.le_enc 4 (k * 3))) ([34; 35; 36; 37; 38; 39; 40])).
Proof.
  destruct (calmly_ex eA hScan) as (s & xs & R); [vm_compute; reflexivity|vm_compute; reflexivity|].
  destruct (C05_data_scan_exact_without_bitmap_partial eA (2 ^ 31) (2 ^ 31) hScan noDisk s xs qData 100) as (s' & E); auto.
  - quiet_ex.
  - apply query_okb_ok; reflexivity.
  - apply Nat.ltb_lt. vm_compute. reflexivity.
  - exists s, xs, s'. split; [exact R|]. rewrite E. f_equal.
Qed.

(** C33: puts, flushes, gets and any number of iterators in any interleaving.
    Every step of every iterator returns the first record after its position
    satisfying its query, until it reports the end; [mcalm] asks that the page an
    iterator stands on is not evicted when it is advanced. *)
Theorem C33_interleaved_iterators_partial :
  forall c KB PB h k s0, setting c KB PB -> modes c -> useReset c = true -> useBinary c = false ->
  zlen h + maxErr c < PB -> embedDBInit c k [] = Ok (s0, 0) ->
  mix_ok c KB emptyLog [] h -> mcalm c s0 [] h ->
  exists s its, mrun c s0 [] h = Ok (s, its, mspec c emptyLog [] h).
Proof. exact c33_mixed. Qed.
Print Assumptions C33_interleaved_iterators_partial.

(** Two iterators, puts that seal pages, a flush and gets between their steps. *)
Definition hInter : list mop :=
  map MOp (puts 20 1 1) ++ [MOpen (mkQ (Some 19) (Some 30) None None); MOpen (mkQ (Some 12) None None None); MNext 1; MOp (HGet 3); MNext 1]
  ++ map MOp (puts 4 25 1) ++ [MNext 0; MNext 1; MOp HFlush; MNext 1] ++ map MOp (puts 3 30 1)
  ++ [MNext 0; MNext 0; MNext 1; MOp (HGet 31); MNext 0].
Example C33_example : exists s0 s its, embedDBInit eA noDisk [] = Ok (s0, 0) /\
  mrun eA s0 [] hInter = Ok (s, its, mspec eA emptyLog [] hInter).
Proof.
  destruct (mixed_run_ok eA hInter) as (s0 & H & Hc); [vm_compute; reflexivity|].
  destruct (C33_interleaved_iterators_partial eA (2 ^ 31) (2 ^ 31) hInter noDisk s0 eA_set eA_modes) as (s & its & E);
    try reflexivity; auto.
  - apply mix_okb_ok. vm_compute. reflexivity.
  - exists s0, s, its. auto.
Qed.

(** C31, C32 and C34 for scans, in every reachable state (whatever the read buffer
    holds): a scan ends after at most as many steps as the database has record
    slots, never leaves a buffer, and changes nothing but the read buffers. *)
Theorem C34_scan_terminates_partial :
  forall c KB PB h k s xs q n, scenario c KB PB h -> reached c k h s xs -> useBinary c = false ->
  uses_bitmap c q = false -> query_ok KB q ->
  (zlen (pages (log_of c h)) + 1) * (maxRec c + 1) + maxRec c < Z.of_nat n ->
  scan c s q n <> Fuel.
Proof. exact c34_scan. Qed.
Print Assumptions C34_scan_terminates_partial.
Theorem C31_scan_stays_in_buffers_partial :
  forall c KB PB h k s xs q n, scenario c KB PB h -> reached c k h s xs -> useBinary c = false ->
  uses_bitmap c q = false -> query_ok KB q -> scan c s q n <> UB.
Proof. exact c31_scan. Qed.
Print Assumptions C31_scan_stays_in_buffers_partial.
Theorem C32_scan_changes_nothing :
  forall c KB PB h k s xs q n s' ys, scenario c KB PB h -> reached c k h s xs -> useBinary c = false ->
  uses_bitmap c q = false -> query_ok KB q -> scan c s q n = Ok (s', ys) ->
  sio s' = sio s /\ sv s' = sv s /\
  (exists p q, sd s' = d_rbuf (sd s) p q) /\ (exists p q, si s' = i_rbuf (si s) p q).
Proof. exact c32_scan. Qed.
Print Assumptions C32_scan_changes_nothing.

(** With index, bitmaps and summaries: 200 puts (more than three wraps) and gets. *)
Definition hX : list hop := puts 200 1 1 ++ map HGet [200; 150; 1; 77].
Example C31_C34_scan_example : exists s xs, reached eX noDisk hX s xs /\
  scan eX s (mkQ (Some 150) (Some 199) None None) 600 <> UB /\ scan eX s (mkQ (Some 150) (Some 199) None None) 600 <> Fuel.
Proof.
  destruct (reached_ex eX hX) as (s & xs & R); [vm_compute; reflexivity|]. exists s, xs. split; [exact R|].
  assert (Sc : scenario eX (2 ^ 31) (2 ^ 31) hX) by scen. split.
  - apply (C31_scan_stays_in_buffers_partial _ _ _ _ _ _ _ _ _ Sc R); [reflexivity|reflexivity|apply query_okb_ok; reflexivity].
  - apply (C34_scan_terminates_partial _ _ _ _ _ _ _ _ _ Sc R);
      [reflexivity|reflexivity|apply query_okb_ok; reflexivity|vm_compute; reflexivity].
Qed.

(** C37: a flush that does not force an eviction changes no later scan. *)
Theorem C37_flush_neutral_for_scans_partial :
  forall c KB PB h k s xs s' ys q n, quiet c KB PB (h ++ [HFlush]) -> quiet c KB PB h ->
  calmly c k h s xs -> calmly c k (h ++ [HFlush]) s' ys -> useBinary c = false ->
  let L := spec_log c h in
  cur L = [] \/ zlen (pages L) - lo L < numData c ->
  uses_bitmap c q = false -> query_ok KB q -> (length (retained L) < n)%nat ->
  exists t t' zs, scan c s q n = Ok (t, zs) /\ scan c s' q n = Ok (t', zs).
Proof. exact c37_scan. Qed.
Print Assumptions C37_flush_neutral_for_scans_partial.

Example C37_scan_example : exists s xs s' ys, calmly eA noDisk (puts 38 1 1) s xs /\
  calmly eA noDisk (puts 38 1 1 ++ [HFlush]) s' ys /\
  exists t t' zs, scan eA s qScan 50 = Ok (t, zs) /\ scan eA s' qScan 50 = Ok (t', zs).
Proof.
  destruct (calmly_ex eA (puts 38 1 1)) as (s & xs & R); [vm_compute; reflexivity|vm_compute; reflexivity|].
  destruct (calmly_ex eA (puts 38 1 1 ++ [HFlush])) as (s' & ys & R'); [vm_compute; reflexivity|vm_compute; reflexivity|].
  exists s, xs, s', ys. split; [exact R|]. split; [exact R'|].
  eapply (C37_flush_neutral_for_scans_partial eA (2 ^ 31) (2 ^ 31) (puts 38 1 1) noDisk); try eassumption; try reflexivity; [quiet_ex|quiet_ex| | |].
  - right. vm_compute. reflexivity.
  - apply query_okb_ok; reflexivity.
  - apply Nat.ltb_lt. vm_compute. reflexivity.
Qed.

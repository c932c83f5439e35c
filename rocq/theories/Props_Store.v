(** Theorems about whole executions of put, flush and get
    (properties C01, C02, C03, C09, C13, C14, C31, C32, C34, C35, C37, C38).

    [scenario c KB PB h] (SpecRun.v): a supported configuration opened with the
    reset flag, and a history [h] of puts with ascending keys, flushes and gets.
    [quiet c KB PB h]: the same with puts that must be refused.
    [calm c s0 h]: while [h] runs, no page write hits the physical page held in
    the read buffer.  C01_stale_cache_refuted shows why it is needed: EmbedDB
    does not invalidate that buffer.  It holds by itself before the data area
    wraps around and when only puts precede the reads. *)
From Verif Require Import Base Config Storage DB Recovery Spec SpecPage SpecStore Run SpecRun
  ReachFacts SearchFacts StoreThms ExFacts.
Open Scope Z_scope.

(** C01, on every calm history: the results of all operations are those of the
    abstract log. *)
Theorem C01_get_exact_calm_partial :
  forall c KB PB h k s0,
  quiet c KB PB h -> embedDBInit c k [] = Ok (s0, 0) -> calm c s0 h ->
  exists s, run c s0 h = Ok (s, spec_outs c h).
Proof. exact c01_calm. Qed.
Print Assumptions C01_get_exact_calm_partial.

(** Puts, gets, a flush, a refused put, more than two wraps around the area. *)
Definition hMix : list hop :=
  puts 40 1 1 ++ [HGet 40; HGet 35; HPut 7 [1; 2; 3; 4]; HFlush; HGet 38; HGet 2] ++ puts 20 50 2 ++ [HGet 88; HGet 52].
Example C01_calm_example : exists s0 s,
  embedDBInit eA noDisk [] = Ok (s0, 0) /\ run eA s0 hMix = Ok (s, spec_outs eA hMix).
Proof.
  destruct (calm_run_ok eA hMix) as (s0 & H & Hc); [vm_compute; reflexivity|].
  destruct (C01_get_exact_calm_partial eA (2 ^ 31) (2 ^ 31) hMix noDisk s0) as (s & R); auto; [quiet_ex|eauto].
Qed.

(** C01 until the data area wraps around, in both search modes, for any
    interleaving of puts, flushes and gets. *)
Theorem C01_get_exact_before_wrap_partial :
  forall c KB PB h k s0,
  scenario c KB PB h -> embedDBInit c k [] = Ok (s0, 0) ->
  zlen (pages (log_of c h)) <= numData c ->
  exists s, run c s0 h = Ok (s, spec_outs c h).
Proof. exact c01_nowrap. Qed.
Print Assumptions C01_get_exact_before_wrap_partial.

Definition hShort : list hop := puts 9 1 1 ++ [HGet 3; HFlush; HGet 9] ++ puts 7 20 5 ++ [HGet 45; HGet 46].
Example C01_before_wrap_example : exists s0 s,
  embedDBInit eB noDisk [] = Ok (s0, 0) /\ run eB s0 hShort = Ok (s, spec_outs eB hShort).
Proof.
  destruct (eB_open noDisk) as (s0 & H).
  destruct (C01_get_exact_before_wrap_partial eB (2 ^ 31) (2 ^ 31) hShort noDisk s0) as (s & R);
    [scen|exact H|vm_compute; discriminate|eauto].
Qed.

(** C01 for any number of puts (any number of wraps), an optional flush, and then
    any sequence of gets. *)
Theorem C01_get_exact_puts_then_gets_partial :
  forall c KB PB ps fl ks k s0, let h := ps ++ fl ++ map HGet ks in
  scenario c KB PB h -> Forall is_put ps -> fl = [] \/ fl = [HFlush] -> useBinary c = false ->
  embedDBInit c k [] = Ok (s0, 0) ->
  exists s, run c s0 h = Ok (s, spec_outs c h).
Proof. exact c01_puts. Qed.
Print Assumptions C01_get_exact_puts_then_gets_partial.

Example C01_puts_example : exists s0 s,
  embedDBInit eA noDisk [] = Ok (s0, 0) /\
  run eA s0 (hA ++ [HFlush] ++ map HGet [60; 1; 99]) = Ok (s, spec_outs eA (hA ++ [HFlush] ++ map HGet [60; 1; 99])).
Proof.
  destruct (eA_open noDisk) as (s0 & H).
  destruct (C01_get_exact_puts_then_gets_partial eA (2 ^ 31) (2 ^ 31) hA [HFlush] [60; 1; 99] noDisk s0) as (s & R);
    [exact hA_ok|repeat constructor|auto|reflexivity|exact H|eauto].
Qed.
(** ... and the expected results are the intended ones. *)
Example C01_puts_results : skipn 60 (spec_outs eA (hA ++ [HFlush] ++ map HGet [60; 1; 99])) =
  [OFlush 0; OGet 0 (Some (le_enc 4 180)); OGet (-1) None; OGet (-1) None].
Proof. vm_compute. reflexivity. Qed.

(** C01 without any restriction on the read buffer: data returned by a get is
    always the data that was put under that key. *)
Theorem C01_get_never_wrong_data_partial :
  forall c KB PB h k s0,
  scenario c KB PB h -> embedDBInit c k [] = Ok (s0, 0) ->
  exists s xs, run c s0 h = Ok (s, xs) /\
    sound_outs (maxRec c) (numData c) (eraseSize c) emptyLog h xs.
Proof. exact c01_sound. Qed.
Print Assumptions C01_get_never_wrong_data_partial.

(** The stale-cache history of C01_stale_cache_refuted is covered. *)
Definition hStale : list hop := puts 8 1 1 ++ [HGet 1] ++ puts 28 9 1 ++ [HGet 30].
Example C01_never_wrong_example : exists s0 s xs, embedDBInit eA noDisk [] = Ok (s0, 0) /\
  run eA s0 hStale = Ok (s, xs) /\ sound_outs (maxRec eA) (numData eA) (eraseSize eA) emptyLog hStale xs.
Proof.
  destruct (eA_open noDisk) as (s0 & H).
  destruct (C01_get_never_wrong_data_partial eA (2 ^ 31) (2 ^ 31) hStale noDisk s0) as (s & xs & R); [scen|exact H|eauto].
Qed.

(** C02: accepted records = dropped whole pages, then the retained ones; the
    dropped part consists of whole erase blocks; at most [numData] pages and,
    once something was dropped, more than [numData - eraseSize] pages are
    retained; and every retained page is on storage, the rest in the write
    buffer. *)
Theorem C02_retained_is_newest_suffix :
  forall c KB PB h k s xs, scenario c KB PB h -> reached c k h s xs ->
  let L := log_of c h in let n := zlen (pages L) in
  accepted L = records_of h /\
  accepted L = concat (firstn (Z.to_nat (lo L)) (pages L)) ++ retained L /\
  0 <= lo L /\ lo L mod eraseSize c = 0 /\ n - lo L <= numData c /\
  (lo L = 0 \/ numData c - eraseSize c < n - lo L) /\
  minD (sd s) = lo L /\ nextD (sd s) = n /\
  (forall id, lo L <= id < n -> holds c (fpg (fD (sio s)) (id mod numData c)) (nth (Z.to_nat id) (pages L) [])) /\
  holds c (wbuf (sd s)) (cur L).
Proof. exact c02_state. Qed.
Print Assumptions C02_retained_is_newest_suffix.

(** C02: a block is dropped only when the area is full. *)
Theorem C02_drop_only_when_full :
  forall c h o, let L := log_of c h in let L' := log_of c (h ++ [o]) in
  lo L' = lo L \/ (zlen (pages L) - lo L >= numData c /\ lo L' = lo L + eraseSize c).
Proof. exact c02_step. Qed.
Print Assumptions C02_drop_only_when_full.

Example C02_example : exists s xs, reached eA noDisk hA s xs /\ scenario eA (2 ^ 31) (2 ^ 31) hA /\
  lo (log_of eA hA) = 4 /\ zlen (pages (log_of eA hA)) = 8 /\ minD (sd s) = 4.
Proof.
  destruct (reached_ex eA hA) as (s & xs & R); [vm_compute; reflexivity|].
  assert (Sc : scenario eA (2 ^ 31) (2 ^ 31) hA) by scen. exists s, xs. split; [exact R|]. split; [exact Sc|].
  destruct (C02_retained_is_newest_suffix eA _ _ hA noDisk s xs Sc R) as (_ & _ & _ & _ & _ & _ & E & _).
  rewrite E. vm_compute. auto.
Qed.
(** 64 puts seal a ninth page while the four pages of the area are in use. *)
Example C02_drop_example :
  lo (log_of eA (puts 63 1 1)) = 4 /\ lo (log_of eA (puts 63 1 1 ++ [HPut 64 [0; 0; 0; 0]])) = 6.
Proof. vm_compute. auto. Qed.

(** C03: a key that is not larger than every accepted one is refused; nothing but
    the read buffer changes and later gets are unaffected.  (With an empty write
    buffer the last page must be full: C03_smaller_key_after_flush_refuted.) *)
Theorem C03_small_key_refused_partial :
  forall c KB PB h k s xs key data r, quiet c KB PB h -> calmly c k h s xs ->
  let L := spec_log c h in
  0 <= key < KB -> In r (accepted L) -> key <= rkey r ->
  (cur L = [] -> zlen (nth (Z.to_nat (zlen (pages L) - 1)) (pages L) []) = maxRec c) ->
  exists s', embedDBPut c s key data = Ok (s', 1) /\
    sio s' = sio s /\ si s' = si s /\ sv s' = sv s /\ (exists p q, sd s' = d_rbuf (sd s) p q) /\
    forall ks, Forall (key_ok c KB L) ks ->
      exists t, run c s' (map HGet ks) = Ok (t, map (lookup L) ks).
Proof. exact c03_reject. Qed.
Print Assumptions C03_small_key_refused_partial.

(** 35 puts and a flush: five full pages, an empty write buffer; key 35 again. *)
Definition h35 : list hop := puts 35 1 1 ++ [HFlush].
Example C03_example : exists s xs s', calmly eA noDisk h35 s xs /\ embedDBPut eA s 35 [0; 0; 0; 0] = Ok (s', 1) /\ sio s' = sio s.
Proof.
  destruct (calmly_ex eA h35) as (s & xs & R); [vm_compute; reflexivity|vm_compute; reflexivity|].
  destruct (C03_small_key_refused_partial eA (2 ^ 31) (2 ^ 31) h35 noDisk s xs 35 [0; 0; 0; 0] (mkR 35 (le_enc 4 105) 0)) as (s' & E & E1 & _).
  - quiet_ex.
  - exact R.
  - split; reflexivity || discriminate.
  - vm_compute. tauto.
  - vm_compute. discriminate.
  - intros _. vm_compute. reflexivity.
  - exists s, xs, s'. auto.
Qed.

(** C09: what an operation does to the data file: nothing, or sealing exactly the
    next page in the way described by [seals_page]. *)
Theorem C09_storage_discipline :
  forall c KB PB h o k s xs s' x, scenario c KB PB (h ++ [o]) -> reached c k h s xs ->
  step c s o = Ok (s', x) ->
  (fD (sio s') = fD (sio s) /\ nextD (sd s') = nextD (sd s) /\ minD (sd s') = minD (sd s)) \/
  (seals_page c (fD (sio s)) (fD (sio s')) (minD (sd s)) (nextD (sd s)) /\
   nextD (sd s') = nextD (sd s) + 1 /\
   minD (sd s') = (if nextD (sd s) - minD (sd s) =? numData c then minD (sd s) + eraseSize c else minD (sd s))).
Proof. exact c09_step. Qed.
Print Assumptions C09_storage_discipline.

Example C09_example : exists s xs s' x, reached eE noDisk (puts 63 1 1) s xs /\
  step eE s (HPut 64 [1; 2; 3; 4]) = Ok (s', x) /\
  seals_page eE (fD (sio s)) (fD (sio s')) (minD (sd s)) (nextD (sd s)) /\ minD (sd s') = 6.
Proof.
  destruct (reached_ex eE (puts 63 1 1)) as (s & xs & R); [vm_compute; reflexivity|].
  assert (Sc : scenario eE (2 ^ 31) (2 ^ 31) (puts 63 1 1 ++ [HPut 64 [1; 2; 3; 4]])) by scen.
  destruct R as (s0 & H & R).
  assert (C : match embedDBInit eE noDisk [] with
              | Ok (s, _) => match run eE s (puts 63 1 1) with
                | Ok (s, _) => match step eE s (HPut 64 [1; 2; 3; 4]) with
                    | Ok (s', _) => Some (nextD (sd s), minD (sd s), nextD (sd s')) | _ => None end
                | _ => None end
              | _ => None end = Some (8, 4, 9)) by (vm_compute; reflexivity).
  rewrite H, R in C. destruct (step eE s (HPut 64 [1; 2; 3; 4])) as [[s' x]| |] eqn:E; try discriminate.
  injection C as C1 C2 C3. exists s, xs, s', x. split; [exists s0; auto|]. split; [exact E|].
  destruct (C09_storage_discipline eE _ _ _ _ noDisk s xs s' x Sc (ex_intro _ s0 (conj H R)) E) as [(_ & E1 & _)|(Sp & _ & E2)].
  - rewrite C1, C3 in E1. discriminate.
  - split; [exact Sp|]. rewrite E2, C1, C2. reflexivity.
Qed.

(** C13: searching a page finds the record with the key if and only if the page
    holds one, whatever [est c] (the rounded slope estimate) returns. *)
Theorem C13_search_page_exact :
  forall c KB, layout c -> KB <= 256 ^ keySize c -> cmp_exact (cmpK c) KB ->
  forall p rs k, holds c p rs -> ascending rs -> Forall (rec_ok c KB) rs -> 0 <= k < KB ->
  match find_key k rs with
  | None => embedDBSearchNode c p k = Ok None
  | Some r => exists i, embedDBSearchNode c p k = Ok (Some (Z.of_nat i)) /\ nth_error rs i = Some r
  end.
Proof. exact searchNode_find. Qed.
Print Assumptions C13_search_page_exact.

(** The write buffer of a running database is such a page. *)
Example C13_example : exists p, holds eA p (map (fun k => mkR k (le_enc 4 (k * 3)) 0) [57; 58; 59; 60]) /\
  exists i, embedDBSearchNode eA p 59 = Ok (Some (Z.of_nat i)).
Proof.
  destruct (reached_ex eA hA) as (s & xs & R); [vm_compute; reflexivity|].
  assert (Sc : scenario eA (2 ^ 31) (2 ^ 31) hA) by scen.
  destruct (C02_retained_is_newest_suffix eA _ _ hA noDisk s xs Sc R) as (_ & _ & _ & _ & _ & _ & _ & _ & _ & Hw).
  assert (E : cur (log_of eA hA) = map (fun k => mkR k (le_enc 4 (k * 3)) 0) [57; 58; 59; 60]) by (vm_compute; reflexivity).
  rewrite E in Hw. exists (wbuf (sd s)). split; [exact Hw|].
  pose proof (C13_search_page_exact eA (2 ^ 31) (g_lay _ _ _ eA_set) ltac:(vm_compute; discriminate) (g_cmp _ _ _ eA_set)
    _ _ 59 Hw) as T.
  destruct T as (i & T & _); [vm_compute; auto| |split; reflexivity || discriminate|eauto].
  repeat constructor; vm_compute; discriminate || congruence.
Qed.

(** C14 until the data area wraps around: the two search modes give the same
    results.  (After that, binary search can still find evicted records:
    C14_evicted_key_found_refuted.) *)
Theorem C14_modes_agree_before_wrap_partial :
  forall c KB PB c2 h k k2 s1 s2, scenario c KB PB h -> scenario c2 KB PB h ->
  maxRec c = maxRec c2 -> numData c = numData c2 -> eraseSize c = eraseSize c2 ->
  zlen (pages (log_of c h)) <= numData c ->
  embedDBInit c k [] = Ok (s1, 0) -> embedDBInit c2 k2 [] = Ok (s2, 0) ->
  exists t1 t2 xs, run c s1 h = Ok (t1, xs) /\ run c2 s2 h = Ok (t2, xs).
Proof. exact c14_modes. Qed.
Print Assumptions C14_modes_agree_before_wrap_partial.

Example C14_example : exists s1 s2 t1 t2 xs,
  embedDBInit eA noDisk [] = Ok (s1, 0) /\ embedDBInit eB noDisk [] = Ok (s2, 0) /\
  run eA s1 hShort = Ok (t1, xs) /\ run eB s2 hShort = Ok (t2, xs).
Proof.
  destruct (eA_open noDisk) as (s1 & H1). destruct (eB_open noDisk) as (s2 & H2).
  destruct (C14_modes_agree_before_wrap_partial eA (2 ^ 31) (2 ^ 31) eB hShort noDisk noDisk s1 s2) as (t1 & t2 & xs & R1 & R2);
    try reflexivity; try assumption; [scen|scen|vm_compute; discriminate|].
  exists s1, s2, t1, t2, xs. auto.
Qed.

(** C31: no operation of a history reads or writes outside a page buffer (the
    model's loads and stores are bounds-checked and would make the run [UB]).
    With an index file, flushes are excluded: C31_flush_full_index_refuted. *)
Theorem C31_put_flush_get_stay_in_buffers_partial :
  forall c KB PB h k s0, scenario c KB PB h -> embedDBInit c k [] = Ok (s0, 0) -> run c s0 h <> UB.
Proof. exact c31_no_ub. Qed.
Print Assumptions C31_put_flush_get_stay_in_buffers_partial.

(** C34: every operation of every history terminates: no search loop exceeds its
    bound (for a get, the size of the page range given by the index, at most the
    number of pages, plus 3). *)
Theorem C34_operations_terminate_partial :
  forall c KB PB h k s0, scenario c KB PB h -> embedDBInit c k [] = Ok (s0, 0) -> run c s0 h <> Fuel.
Proof. exact c34_no_fuel. Qed.
Print Assumptions C34_operations_terminate_partial.

(** With index, bitmaps and summaries: 200 puts (more than three wraps). *)
Definition hX : list hop := puts 200 1 1 ++ map HGet [200; 150; 1; 77].
Example C31_C34_example : exists s0, embedDBInit eX noDisk [] = Ok (s0, 0) /\ run eX s0 hX <> UB /\ run eX s0 hX <> Fuel.
Proof.
  destruct (eX_open noDisk) as (s0 & H). assert (Sc : scenario eX (2 ^ 31) (2 ^ 31) hX) by scen.
  exists s0. split; [exact H|]. split.
  - exact (C31_put_flush_get_stay_in_buffers_partial _ _ _ _ _ _ Sc H).
  - exact (C34_operations_terminate_partial _ _ _ _ _ _ Sc H).
Qed.

(** C32: a get changes nothing but the read buffer. *)
Theorem C32_get_changes_nothing :
  forall c KB PB h k s xs key, scenario c KB PB h -> reached c k h s xs -> 0 <= key < KB ->
  exists s' r d, embedDBGet c s key = Ok (s', r, d) /\
    sio s' = sio s /\ si s' = si s /\ sv s' = sv s /\ (exists p q, sd s' = d_rbuf (sd s) p q).
Proof. exact c32_storage. Qed.
Print Assumptions C32_get_changes_nothing.

(** C32: on a calm history any sequence of gets returns the lookups in the same
    log, so their order does not matter. *)
Theorem C32_reads_commute_partial :
  forall c KB PB h k s xs ks, quiet c KB PB h -> calmly c k h s xs ->
  Forall (key_ok c KB (spec_log c h)) ks ->
  exists s', run c s (map HGet ks) = Ok (s', map (lookup (spec_log c h)) ks) /\
    sio s' = sio s /\ si s' = si s /\ sv s' = sv s /\ (exists p q, sd s' = d_rbuf (sd s) p q).
Proof. exact c32_reads. Qed.
Print Assumptions C32_reads_commute_partial.

Example C32_example : exists s xs s', calmly eA noDisk hMix s xs /\
  run eA s (map HGet [88; 30; 40; 1000]) = Ok (s', map (lookup (spec_log eA hMix)) [88; 30; 40; 1000]).
Proof.
  destruct (calmly_ex eA hMix) as (s & xs & R); [vm_compute; reflexivity|vm_compute; reflexivity|].
  destruct (C32_reads_commute_partial eA (2 ^ 31) (2 ^ 31) hMix noDisk s xs [88; 30; 40; 1000]) as (s' & E & _).
  - quiet_ex.
  - exact R.
  - apply keys_check; reflexivity.
  - exists s, xs, s'. auto.
Qed.

(** C35: with the max/min option, every retained page and the write buffer carry
    the exact extremes of their keys and data values.  ([rank] is the order the
    client's data comparator implements.)  Missing: configurations in which the
    summary overlaps the first record ([layout] excludes them;
    C35_summary_overwrites_record_refuted). *)
Theorem C35_page_summaries_exact_partial :
  forall c KB PB h k s xs rank, scenario c KB PB h -> reached c k h s xs -> useMaxMin c = true -> ranks c rank ->
  let L := log_of c h in
  (forall id, lo L <= id < zlen (pages L) ->
     summary_exact c rank (fpg (fD (sio s)) (id mod numData c)) (nth (Z.to_nat id) (pages L) [])) /\
  (cur L <> [] -> summary_exact c rank (wbuf (sd s)) (cur L)).
Proof. exact c35_summary. Qed.
Print Assumptions C35_page_summaries_exact_partial.

Example C35_example : exists s xs, reached eX noDisk hX s xs /\ summary_exact eX le_dec (wbuf (sd s)) (cur (log_of eX hX)).
Proof.
  destruct (reached_ex eX hX) as (s & xs & R); [vm_compute; reflexivity|]. exists s, xs. split; [exact R|].
  apply (C35_page_summaries_exact_partial eX (2 ^ 31) (2 ^ 31) hX noDisk s xs le_dec); auto.
  - scen.
  - intros a b _ _. cbn [cmpD eX ex_cfg]. unfold ex_cmpD, Util.sign3.
    destruct (Z.ltb_spec (le_dec a - le_dec b) 0), (Z.gtb_spec (le_dec a - le_dec b) 0); lia.
  - vm_compute. discriminate.
Qed.

(** C37: a flush directly after a flush does nothing at all. *)
Theorem C37_second_flush_is_noop :
  forall c KB PB h k s xs, scenario c KB PB (h ++ [HFlush]) -> reached c k (h ++ [HFlush]) s xs ->
  embedDBFlush c s = Ok (s, 0).
Proof. exact c37_twice. Qed.
Print Assumptions C37_second_flush_is_noop.

(** C37: a flush that does not force an eviction changes no later get. *)
Theorem C37_flush_neutral_for_gets_partial :
  forall c KB PB h k s xs s' ys ks, quiet c KB PB (h ++ [HFlush]) -> quiet c KB PB h ->
  calmly c k h s xs -> calmly c k (h ++ [HFlush]) s' ys ->
  let L := spec_log c h in
  cur L = [] \/ zlen (pages L) - lo L < numData c ->
  Forall (key_ok c KB L) ks ->
  exists t t' zs, run c s (map HGet ks) = Ok (t, zs) /\ run c s' (map HGet ks) = Ok (t', zs).
Proof. exact c37_neutral. Qed.
Print Assumptions C37_flush_neutral_for_gets_partial.

Example C37_example : exists s xs s' ys, calmly eA noDisk (puts 38 1 1) s xs /\
  calmly eA noDisk (puts 38 1 1 ++ [HFlush]) s' ys /\ embedDBFlush eA s' = Ok (s', 0) /\
  exists t t' zs, run eA s (map HGet [38; 20; 1]) = Ok (t, zs) /\ run eA s' (map HGet [38; 20; 1]) = Ok (t', zs).
Proof.
  destruct (calmly_ex eA (puts 38 1 1)) as (s & xs & R); [vm_compute; reflexivity|vm_compute; reflexivity|].
  destruct (calmly_ex eA (puts 38 1 1 ++ [HFlush])) as (s' & ys & R'); [vm_compute; reflexivity|vm_compute; reflexivity|].
  exists s, xs, s', ys. split; [exact R|]. split; [exact R'|]. split.
  - apply (C37_second_flush_is_noop eA (2 ^ 31) (2 ^ 31) (puts 38 1 1) noDisk s' ys); [scen|].
    destruct R' as (s0 & ? & _ & ?). exists s0. auto.
  - eapply (C37_flush_neutral_for_gets_partial eA (2 ^ 31) (2 ^ 31) (puts 38 1 1) noDisk); try eassumption; [quiet_ex|quiet_ex| |].
    + right. vm_compute. reflexivity.
    + apply keys_check; reflexivity.
Qed.

(** C38: the bytes of a page that stays retained are not changed by any
    operation, and the page stored for number [id] carries that number. *)
Theorem C38_retained_pages_immutable :
  forall c KB PB h o k s xs s' x, scenario c KB PB (h ++ [o]) -> reached c k h s xs ->
  step c s o = Ok (s', x) ->
  forall id, minD (sd s) <= id < nextD (sd s) ->
    page_id (fpg (fD (sio s)) (id mod numData c)) = id /\
    (minD (sd s') <= id -> fpg (fD (sio s')) (id mod numData c) = fpg (fD (sio s)) (id mod numData c)).
Proof. exact c38_bytes. Qed.
Print Assumptions C38_retained_pages_immutable.

(** C38: on a calm history, reading page [id] through the read buffer yields the
    page written as number [id]. *)
Theorem C38_read_yields_page_partial :
  forall c KB PB h k s xs id, quiet c KB PB h -> calmly c k h s xs -> minD (sd s) <= id < nextD (sd s) ->
  exists s', readPage s (id mod numData c) = (s', 0) /\ page_id (rbuf (sd s')) = id /\
    holds c (rbuf (sd s')) (nth (Z.to_nat id) (pages (spec_log c h)) []).
Proof. exact c38_read. Qed.
Print Assumptions C38_read_yields_page_partial.

Example C38_example : exists s xs, calmly eA noDisk hMix s xs /\ minD (sd s) <= 6 < nextD (sd s) /\
  exists s', readPage s (6 mod numData eA) = (s', 0) /\ page_id (rbuf (sd s')) = 6.
Proof.
  destruct (calmly_ex eA hMix) as (s & xs & R); [vm_compute; reflexivity|vm_compute; reflexivity|].
  assert (C : match embedDBInit eA noDisk [] with
              | Ok (s, _) => match run eA s hMix with
                | Ok (s, _) => Some (minD (sd s), nextD (sd s)) | _ => None end
              | _ => None end = Some (4, 8)) by (vm_compute; reflexivity).
  pose proof R as (s0 & H & _ & E). rewrite H, E in C. injection C as C1 C2.
  exists s, xs. split; [exact R|]. split; [rewrite C1, C2; split; reflexivity || discriminate|].
  destruct (C38_read_yields_page_partial eA (2 ^ 31) (2 ^ 31) hMix noDisk s xs 6) as (s' & E1 & E2 & _);
    [quiet_ex|exact R|rewrite C1, C2; split; reflexivity || discriminate|]. eauto.
Qed.

(** Theorems about scans that skip pages by their bitmaps in reopened databases
    (property C05 across closing and reopening, C06).

    [aligned_life] (SpecReopenBm.v): as long as records are added, flushes and
    reopenings happen at the end of an index page; [icalm] (SpecIndex.v): no index
    page is written to the slot held in the index read buffer.  Without the first the
    scan misses records (C05_reopen_breaks_index_refuted), without the second it reads
    an old index page (C05_stale_index_buffer_refuted).  Missing for the full C05:
    other flushes and reopenings, power failures, binary-search mode, executions that
    are not calm. *)
From Verif Require Import Base Config Storage DB Recovery Spec Util SpecUtil SpecPage SpecStore Run SpecRun SpecIter
  SpecIndex SpecReopen SpecReopenIdx SpecReopenBm ReachFacts StoreThms IndexFacts ReopenIdxThms ReopenBmThms ExFacts ExIter ExIndex ExReopen ExReopenIdx ExReopenBm.
Open Scope Z_scope.

(** After any such lifetime, which may itself close and reopen, the reopened database
    answers every scan exactly: at once, and after any calm continuation that keeps
    the index aligned (when the reopening left it aligned) or changes nothing. *)
Theorem C05_bitmap_scan_after_reopen_partial :
  forall KB PB c k s es c', idx_created c KB PB k s -> useIndex c = true -> useBmap c = true ->
  ilife_ok c KB PB emptyLog 0 (es ++ [EvReopen c']) -> aligned_life c emptyLog 0 true (es ++ [EvReopen c']) ->
  exists s1 xs, ilife c s (es ++ [EvReopen c']) = Ok (c', s1, xs) /\
    serves_bitmaps c' KB PB s1 (recovered c' (pages (snd (fst (ilife_spec c emptyLog 0 es)))))
      (aligned_end c emptyLog 0 true (es ++ [EvReopen c'])).
Proof. exact c05_reopen. Qed.
Print Assumptions C05_bitmap_scan_after_reopen_partial.

(** 240 puts and a flush: 60 data pages, 5 index pages in a ring of 4 with visible
    erases.  The database is reopened and takes 60 more puts, which write index page
    5.  The query selects the data 760..770. *)
Definition lifeW1 : list code := map COp (puts 240 1 1 ++ [HFlush]) ++ [CReopen].
Definition hW : list hop := puts 60 241 1.
Definition qW : query := mkQ None None (Some (le_enc 4 760)) (Some (le_enc 4 770)).
Example C05_reopen_example : exists s s1 xs s2 ys s3, idx_created eWv (2 ^ 31) (2 ^ 31) noDisk s /\
  ilife eWv s (map (ev eWvr) lifeW1) = Ok (eWvr, s1, xs) /\ minI (si s1) = 4 /\ nextI (si s1) = 5 /\
  run eWvr s1 hW = Ok (s2, ys) /\ nextI (si s2) = 6 /\
  scan eWvr s2 qW 300 = Ok (s3, map (fun k => (k, le_enc 4 (k * 3))) [254; 255; 256]).
Proof.
  destruct eWv_created as (s & C).
  assert (Q : map (ev eWvr) lifeW1 = map (ev eWvr) (map COp (puts 240 1 1 ++ [HFlush])) ++ [EvReopen eWvr]) by (unfold lifeW1; now rewrite map_app).
  destruct (C05_bitmap_scan_after_reopen_partial _ _ eWv noDisk s (map (ev eWvr) (map COp (puts 240 1 1 ++ [HFlush]))) eWvr C eq_refl eq_refl) as (s1 & xs & E & Sv).
  { rewrite <- Q. apply eWvr_codes. vm_compute. reflexivity. }
  { rewrite <- Q. apply aligned_lifeb_ok. vm_compute. reflexivity. }
  rewrite <- Q in *. set (L := recovered _ _) in Sv.
  pose proof (life_state_ok _ _ (fun c s1 => calmb c s1 hW && icalmb c s1 hW && (minI (si s1) =? 4) && (nextI (si s1) =? 5) &&
     match run c s1 hW with Ok (s2, _) => nextI (si s2) =? 6 | _ => false end) _ _ _ _ _ _ C E ltac:(vm_compute; reflexivity)) as X.
  cbv beta in X. rewrite !andb_true_iff, !Z.eqb_eq in X. destruct X as ((((X1 & X2) & X3) & X4) & X5).
  specialize (Sv hW).
  assert (Sv' : let '(L1, ys) := spec_run (maxRec eWvr) (numData eWvr) (eraseSize eWvr) L hW in
    exists s2, run eWvr s1 hW = Ok (s2, ys) /\
    forall V q n, useBinary eWvr = false -> bitmap_sound eWvr V q -> Forall (fun r => V (rdata r)) (accepted L1) ->
      query_ok (2 ^ 31) q -> (length (retained L1) < n)%nat ->
      exists s3, scan eWvr s2 q n = Ok (s3, answer eWvr L1 q)).
  { apply Sv; clear Sv.
    - apply hist_okb_ok. vm_compute. reflexivity.
    - apply calmb_ok. exact X1.
    - apply icalmb_ok. exact X2.
    - vm_compute. reflexivity.
    - apply index_alignedb_ok. vm_compute. reflexivity.
    - left. vm_compute. reflexivity. }
  clear Sv. assert (A : answerb eWvr (spec_run (maxRec eWvr) (numData eWvr) (eraseSize eWvr) L hW) qW 300 (map (fun k => (k, le_enc 4 (k * 3))) [254; 255; 256]) = true)
    by (vm_compute; reflexivity).
  apply answerb_ok in A. destruct (spec_run (maxRec eWvr) (numData eWvr) (eraseSize eWvr) L hW) as [L1 ys]. cbn [fst] in A. destruct A as (A1 & A2 & A3).
  destruct Sv' as (s2 & R & Sc). rewrite R in X5. apply Z.eqb_eq in X5.
  assert (Bd : bounds_in small qW) by (split; intros d Hd; injection Hd as <-; [exists 760|exists 770]; (split; [lia|reflexivity])).
  destruct (Sc small qW 300%nat eq_refl (int16_sound eWvr small qW eWvr_client small_int16 Bd)) as (s3 & E3).
  - exact A1.
  - apply query_okb_ok; reflexivity.
  - exact A2.
  - rewrite A3 in E3. exists s, s1, xs, s2, ys, s3. auto 10.
Qed.

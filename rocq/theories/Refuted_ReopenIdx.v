(** Properties of the bitmap index that reopening destroys: concrete executions. *)
From Verif Require Import Base Config Spline Storage DB Recovery Util Spec Run SpecRun SpecIter SpecReopen SpecReopenIdx Refuted_Iter.
Open Scope Z_scope.

(** Keys a scan returns at the end of a lifetime. *)
Definition life_keys (c : cfg) (es : list event) (q : query) : res (list Z) :=
  '(s, _) <- embedDBInit c noDisk [] ;;
  '(c, s, _) <- ilife c s es ;;
  '(_, xs) <- scan c s q 600 ;;
  Ok (map fst xs).
Definition life_expected (c : cfg) (es : list event) (q : query) : list Z :=
  let '(c, L, _) := ilife_spec c emptyLog 0 es in map fst (answer c L q).

(** Puts of [n] keys from [k]; the data is 400 for key 60 and 3 for all others. *)
Definition mixed (n : nat) (k : Z) : list event :=
  map (fun i => let k := k + Z.of_nat i in EvOp (HPut k (le_enc 4 (if k =? 60 then 400 else 3)))) (seq 0 n).

(** C05 and C06: opening a database starts a new index page (embedDB.c:599-611)
    whatever the number of pages already written, but scans look up the bitmap of
    page [p] in slot [p mod maxIdx] (embedDB.c:1745-1752).  After a close with 3
    pages written, the bitmaps of all later pages are found three slots off: the
    scan misses the only matching record.  Without the close it finds it. *)
Theorem C05_reopen_breaks_index_refuted : exists c c' es1 es2 q k,
  life_keys c (es1 ++ [EvReopen c'] ++ es2) q = Ok [] /\
  life_expected c (es1 ++ [EvReopen c'] ++ es2) q = [k] /\
  life_keys c (es1 ++ es2) q = Ok [k].
Proof.
  exists (cfg16 64 (1 + 8 + 32) 64 2), (cfg16 64 (1 + 8) 64 2), (mixed 22 1), (mixed 200 30),
    (mkQ None None (Some (le_enc 4 390)) (Some (le_enc 4 410))), 60.
  split; [vm_compute; reflexivity|]. split; vm_compute; reflexivity.
Qed.
Print Assumptions C05_reopen_breaks_index_refuted.

(** Keys the last scan returns: [h1], a scan if [first], [h2], a scan, all of the same query. *)
Definition rescan (c : cfg) (first : bool) (h1 h2 : list hop) (q : query) : res (list Z) :=
  '(s, _) <- embedDBInit c noDisk [] ;;
  '(s, _) <- run c s h1 ;;
  '(s, _) <- (if first then scan c s q 600 else Ok (s, [])) ;;
  '(s, _) <- run c s h2 ;;
  '(_, xs) <- scan c s q 600 ;;
  Ok (map fst xs).
(** Puts of [n] keys from [k]; the data is 400 for key 202 and 3 for all others. *)
Definition one400 (n : nat) (k : Z) : list hop :=
  map (fun i => let k := k + Z.of_nat i in HPut k (le_enc 4 (if k =? 202 then 400 else 3))) (seq 0 n).
(** 4 records of 4+4 bytes on a page, 16 data pages, 12 bitmaps on an index page, a
    ring of 4 index pages. *)
Definition cfgStale : cfg :=
  mkCfg 4 4 40 2 2 16 4 8 8 1 6 (1 + 8 + 32) int32Comparator_wrap ex_cmpD ex_upd16 ex_build16
        (fun _ _ => 1) None None (repeat 0 40) (0, 0) false 0 true.

(** C05: an index page found in the read buffer is not read again
    (embedDB.c:2279-2300, readIndexPage compares only the physical slot), and
    writeIndexPage (embedDB.c:2127-2160) does not invalidate it.  A scan leaves index
    page 0 in the buffer; after the index ring has wrapped, page 4 is in the same
    slot, and the same scan decides by the old bitmaps: it misses the only matching
    record.  Without the first scan it is found. *)
Theorem C05_stale_index_buffer_refuted : exists c h1 h2 q k,
  rescan c true h1 h2 q = Ok [] /\
  map fst (answer c (fst (spec_run (maxRec c) (numData c) (eraseSize c) emptyLog (h1 ++ h2))) q) = [k] /\
  rescan c false h1 h2 q = Ok [k].
Proof.
  exists cfgStale, (one400 64 1), (one400 196 65), (mkQ None None (Some (le_enc 4 390)) (Some (le_enc 4 410))), 202.
  split; [vm_compute; reflexivity|]. split; vm_compute; reflexivity.
Qed.
Print Assumptions C05_stale_index_buffer_refuted.

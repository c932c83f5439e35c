(** Theorems about scans that skip pages by their bitmaps (property C05, with the
    index file).

    [index_aligned] (SpecIndex.v): a flush that seals a page fills the last slot of
    the index page, or nothing is accepted afterwards; without it the scan misses
    records (C05_flush_breaks_index_refuted).  [bitmap_sound]: what the client's
    bitmap functions have to satisfy; it holds for the int8 and int16 functions of
    the repository (second and third theorem) but not for the int64 functions
    (C05_int64_bitmap_refuted).  Reopened databases: Props_ReopenBm.v.
    Missing for the full C05: other flushes, binary-search mode and executions that
    are not calm. *)
From Verif Require Import Base Config Storage DB Recovery Spec Util SpecUtil SpecPage SpecStore Run SpecRun SpecIter
  SpecIndex ReachFacts StoreThms IterFacts IterThms IndexFacts ExFacts ExIter ExIndex.
Open Scope Z_scope.

(** The scan returns exactly the retained records satisfying the bounds on key and
    data, and changes nothing but the read buffers. *)
Theorem C05_bitmap_scan_exact_partial :
  forall c KB PB V h k s xs q n, quiet c KB PB h -> calmly c k h s xs -> useBinary c = false ->
  useIndex c = true -> index_aligned c emptyLog h -> bitmap_sound c V q ->
  Forall (fun r => V (rdata r)) (accepted (spec_log c h)) ->
  query_ok KB q -> (length (retained (spec_log c h)) < n)%nat ->
  exists s', scan c s q n = Ok (s', answer c (spec_log c h) q) /\ same_but_bufs s s'.
Proof. exact c05_bitmap. Qed.
Print Assumptions C05_bitmap_scan_exact_partial.

Theorem C05_int8_bitmap_scan_exact_partial :
  forall c KB PB V h k s xs q n, quiet c KB PB h -> calmly c k h s xs -> useBinary c = false ->
  useIndex c = true -> index_aligned c emptyLog h ->
  bitmap_client c 1 updateBitmapInt8 buildBitmapInt8FromRange val16 V -> (forall d, V d -> int8_value d) ->
  Forall (fun r => V (rdata r)) (accepted (spec_log c h)) -> bounds_in V q ->
  query_ok KB q -> (length (retained (spec_log c h)) < n)%nat ->
  exists s', scan c s q n = Ok (s', answer c (spec_log c h) q) /\ same_but_bufs s s'.
Proof. exact c05_int8. Qed.
Print Assumptions C05_int8_bitmap_scan_exact_partial.

Theorem C05_int16_bitmap_scan_exact_partial :
  forall c KB PB V h k s xs q n, quiet c KB PB h -> calmly c k h s xs -> useBinary c = false ->
  useIndex c = true -> index_aligned c emptyLog h ->
  bitmap_client c 2 updateBitmapInt16 buildBitmapInt16FromRange val32 V -> (forall d, V d -> int16_value d) ->
  Forall (fun r => V (rdata r)) (accepted (spec_log c h)) -> bounds_in V q ->
  query_ok KB q -> (length (retained (spec_log c h)) < n)%nat ->
  exists s', scan c s q n = Ok (s', answer c (spec_log c h) q) /\ same_but_bufs s s'.
Proof. exact c05_int16. Qed.
Print Assumptions C05_int16_bitmap_scan_exact_partial.

(** 190 puts with a lookup in between and a last flush: 28 data pages, one full
    index page and one partly filled one.  The query selects data 330..345. *)
Definition hIdx : list hop := puts 100 1 1 ++ [HGet 17] ++ puts 90 101 1 ++ [HFlush; HGet 150].
Definition qIdx : query := mkQ None None (Some (Base.le_enc 4 330)) (Some (Base.le_enc 4 345)).
Example C05_bitmap_example : exists s xs s', calmly eI noDisk hIdx s xs /\
  scan eI s qIdx 300 = Ok (s', map (fun k => (k, Base.le_enc 4 (k * 3))) [110; 111; 112; 113; 114; 115]) /\
  nextI (si s) = 2 /\ bitmapOverlap (buildBM eI (qMinD qIdx) (qMaxD qIdx)) (bitmap_of eI (nth 0 (pages (spec_log eI hIdx)) [])) = false.
Proof.
  destruct (calmly_ex eI hIdx) as (s & xs & R); [vm_compute; reflexivity|vm_compute; reflexivity|].
  destruct (C05_int16_bitmap_scan_exact_partial eI (2 ^ 31) (2 ^ 31) small hIdx noDisk s xs qIdx 300) as (s' & E & _); auto.
  - apply quiet_check; [exact eI_set|exact eI_modes|reflexivity|vm_compute; reflexivity|vm_compute; reflexivity].
  - apply index_alignedb_ok. vm_compute. reflexivity.
  - exact eI_client.
  - exact small_int16.
  - apply smalls_ok. vm_compute. reflexivity.
  - split; intros d Hd; injection Hd as <-; [exists 330|exists 345]; split; (reflexivity || (vm_compute; repeat split; first [reflexivity|discriminate])).
  - apply query_okb_ok; reflexivity.
  - apply Nat.ltb_lt. vm_compute. reflexivity.
  - exists s, xs, s'. split; [exact R|]. split; [rewrite E; f_equal; vm_compute; reflexivity|]. split; [|vm_compute; reflexivity].
    destruct R as (s0 & R0 & _ & R1). clear E.
    assert (X : (match embedDBInit eI noDisk [] with Ok (s0, _) =>
       match run eI s0 hIdx with Ok (s, _) => nextI (si s) =? 2 | _ => false end | _ => false end) = true) by (vm_compute; reflexivity).
    rewrite R0, R1 in X. apply Z.eqb_eq in X. exact X.
Qed.

(** int8 bitmaps, destructive erase, 420 puts (60 data pages, one index page, the
    data area has wrapped) and no flush.  All data is below 100 (key mod 100), the
    query selects the values 72..74 of the keys that are still retained. *)
Definition puts100 (n : nat) (k : Z) : list hop :=
  map (fun i => HPut (k + Z.of_nat i) (Base.le_enc 4 ((k + Z.of_nat i) mod 100))) (seq 0 n).
Definition hIdx8 : list hop := puts100 420 1.
Definition qIdx8 : query := mkQ (Some 250) None (Some (Base.le_enc 4 72)) (Some (Base.le_enc 4 74)).
Example C05_int8_example : exists s xs s', calmly eI8 noDisk hIdx8 s xs /\
  scan eI8 s qIdx8 500 = Ok (s', map (fun k => (k, Base.le_enc 4 (k mod 100))) [272; 273; 274; 372; 373; 374]) /\
  bitmapOverlap (buildBM eI8 (qMinD qIdx8) (qMaxD qIdx8)) (bitmap_of eI8 (nth 45 (pages (spec_log eI8 hIdx8)) [])) = false.
Proof.
  destruct (calmly_ex eI8 hIdx8) as (s & xs & R); [vm_compute; reflexivity|vm_compute; reflexivity|].
  destruct (C05_int8_bitmap_scan_exact_partial eI8 (2 ^ 31) (2 ^ 31) small8 hIdx8 noDisk s xs qIdx8 500) as (s' & E & _); auto.
  - apply quiet_check; [exact eI8_set|exact eI8_modes|reflexivity|vm_compute; reflexivity|vm_compute; reflexivity].
  - apply index_alignedb_ok. vm_compute. reflexivity.
  - exact eI8_client.
  - exact small8_int8.
  - apply smalls8_ok. vm_compute. reflexivity.
  - split; intros d Hd; injection Hd as <-; [exists 72|exists 74]; split; (reflexivity || (vm_compute; repeat split; first [reflexivity|discriminate])).
  - apply query_okb_ok; reflexivity.
  - apply Nat.ltb_lt. vm_compute. reflexivity.
  - exists s, xs, s'. split; [exact R|]. split; [rewrite E; f_equal; vm_compute; reflexivity|vm_compute; reflexivity].
Qed.

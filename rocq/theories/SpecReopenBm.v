(** Specification of bitmap scans in reopened databases: lifetimes in which the
    index stays aligned with the data pages. *)
From Verif Require Import Base Config Storage DB Recovery Spec SpecPage SpecStore Run SpecRun SpecIter SpecIndex SpecReopen SpecReopenIdx.
Open Scope Z_scope.

(** Bitmaps are looked up by dividing the data page number by the number of bitmaps
    on an index page.  A flush and a reopening both start a new index page: the index
    stays aligned when the page before it was complete. *)
Definition aligned_next (c : cfg) (L : log) (ic : Z) (al : bool) (e : event) : bool :=
  match e with
  | EvOp HFlush => match cur L with [] => al | _ => al && ((zlen (pages L) + 1) mod maxIdx c =? 0) end
  | EvOp _ => al
  | EvReopen _ => al && (ic =? 0)
  | EvCrash _ _ _ => false
  end.
Fixpoint aligned_end (c : cfg) (L : log) (ic : Z) (al : bool) (es : list event) : bool :=
  match es with
  | [] => al
  | e :: es' => let '(c1, L1, ic1) := iev_spec c L ic e in aligned_end c1 L1 ic1 (aligned_next c L ic al e) es'
  end.

(** Nothing is written to the log once the index is not aligned; the index area keeps
    its size, and there are no power failures. *)
Fixpoint aligned_life (c : cfg) (L : log) (ic : Z) (al : bool) (es : list event) : Prop :=
  match es with
  | [] => True
  | e :: es' =>
      match e with
      | EvOp o => al = true \/ log_step (maxRec c) (numData c) (eraseSize c) L o = L
      | EvReopen c' => numIndex c' = numIndex c
      | EvCrash _ _ _ => False
      end /\
      let '(c1, L1, ic1) := iev_spec c L ic e in aligned_life c1 L1 ic1 (aligned_next c L ic al e) es'
  end.

(** State [s] answers every scan with a sound bitmap exactly, now and after any
    calm, aligned continuation; one that changes nothing when [al] is false. *)
Definition serves_bitmaps (c : cfg) (KB PB : Z) (s : state) (L : log) (al : bool) : Prop :=
  forall h, hist_ok c KB L h -> calm c s h -> icalm c s h -> zlen (pages L) + zlen h + maxErr c < PB ->
  index_aligned c L h ->
  al = true \/ Forall (fun o => fst (spec_step (maxRec c) (numData c) (eraseSize c) L o) = L) h ->
  let '(L1, xs) := spec_run (maxRec c) (numData c) (eraseSize c) L h in
  exists s1, run c s h = Ok (s1, xs) /\
    forall V q n, useBinary c = false -> bitmap_sound c V q -> Forall (fun r => V (rdata r)) (accepted L1) ->
      query_ok KB q -> (length (retained L1) < n)%nat ->
      exists s2, scan c s1 q n = Ok (s2, answer c L1 q).

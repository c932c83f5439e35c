(** Specification side of the storage theorems: the settings they cover, what
    the data file holds for a log, and which logs a crash can leave. *)
From Verif Require Import Base Config Storage DB Spec SpecPage.
Open Scope Z_scope.

(** Settings covered: keys below [KB] ordered by the client's comparator; page
    numbers below [PB]; a data area of at least two erase blocks.  [KB * PB] is
    the range in which the learned index does not overflow; in binary-search mode
    there is no spline, so cleaning it must be disabled. *)
Record setting (c : cfg) (KB PB : Z) : Prop := {
  g_lay : layout c;
  g_B : 1 <= eraseSize c;
  g_D : 2 * eraseSize c <= numData c < 2 ^ 31;
  g_DB : numData c mod eraseSize c = 0;
  g_KB : 0 < KB <= 256 ^ keySize c;
  g_PB : PB <= 2 ^ 31;
  g_prod : KB * PB <= 2 ^ 63;
  g_cmp : cmp_exact (cmpK c) KB;
  g_err : 0 <= maxErr c < 2 ^ 31;
  g_spl : useBinary c = false -> 4 <= numSplinePts c < 2 ^ 32;
  g_clean : useBinary c = true -> noClean c = true;
  g_idx : useIndex c = true -> 1 <= bitmapSize c /\ 16 + bitmapSize c <= pageSize c /\ 1 <= numIndex c < 2 ^ 31
}.

(** [p] is an image of page number [id] of the pages [P]. *)
Definition img (c : cfg) (P : list (list rcd)) (id : Z) (p : page) : Prop :=
  holds c p (nth (Z.to_nat id) P []) /\ page_id p = id.

(** The data file after pages [P] were written, of which those below [l] may
    have been erased: physical page [q] holds the newest page congruent to [q]. *)
Record disk_ok (c : cfg) (F : file) (P : list (list rcd)) (l : Z) : Prop := {
  dk_len : Z.min (zlen P) (numData c) <= flen F;
  dk_end : truncates c = true -> flen F = Z.min (zlen P) (numData c);
  dk_pg : forall id, 0 <= id -> zlen P - numData c <= id < zlen P ->
    img c P id (fpg F (id mod numData c)) \/
    (id < l /\ exists b, eraseFill c = Some b /\ fpg F (id mod numData c) = repeat b (psz c))
}.

(** An index page that was erased, or skipped by a write behind the end of the file,
    cannot be mistaken for a page with a large number: the bytes are 0 or 255; nor is
    there anything left from before the reset. *)
Definition idx_blank (c : cfg) : Prop :=
  truncates c = true /\ (eraseFill c = None \/ eraseFill c = Some 0 \/ eraseFill c = Some 255) /\
  (holeFill c = 0 \/ holeFill c = 255).

(** Storage without visible erase, emptied by a reset. *)
Definition plain_storage (c : cfg) : Prop := eraseFill c = None /\ truncates c = true.

(** What the data file can look like after each storage operation of sealing the
    current page, newest first: pages written and first page not erased. *)
Definition seal_points (D B : Z) (L : log) : list (list (list rcd) * Z) :=
  let L' := seal D B L in
  (pages L', lo L') ::
  (if zlen (pages L) - lo L >=? D then [(pages L, lo L + B)] else []).
Definition put_points (N D B : Z) (L : log) : list (list (list rcd) * Z) :=
  if zlen (cur L) >=? N then seal_points D B L else [].
Definition flush_points (D B : Z) (L : log) : list (list (list rcd) * Z) :=
  match cur L with [] => [] | _ => seal_points D B L end.

(** A well-formed log: pages are not empty and not overfull, keys ascend, records
    fit the configuration, the retained pages fit the area and start at a block. *)
Record wf_log (c : cfg) (KB : Z) (L : log) : Prop := {
  w_lo : 0 <= lo L <= zlen (pages L);
  w_ne : 0 < zlen (pages L) -> lo L < zlen (pages L);
  w_mod : lo L mod eraseSize c = 0;
  w_live : zlen (pages L) - lo L <= numData c;
  w_pages : Forall (fun p => p <> [] /\ zlen p <= maxRec c) (pages L);
  w_cur : zlen (cur L) <= maxRec c;
  w_asc : ascending (accepted L);
  w_recs : Forall (rec_ok c KB) (accepted L)
}.

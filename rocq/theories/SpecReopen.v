(** Specification of closing, crashing and reopening: which log a reopened
    database has to serve. *)
From Verif Require Import Base Config Storage DB Recovery Spec SpecPage SpecStore Run SpecRun SpecIter.
Open Scope Z_scope.

(** First page retained after recovering [n] written pages from an area of [D]
    pages with erase blocks of [B] pages: none is lost before the area wraps; when
    the newest page is the last of the area everything on storage is kept; else
    the block at the write position is given up. *)
Definition rec_lo (D B n : Z) : Z :=
  if n <=? D then 0 else if n mod D =? 0 then n - D else n - D + (B - n mod B).

(** The log served after reopening storage on which pages [P] were written: the
    records of the page being filled are gone. *)
Definition recovered (c : cfg) (P : list (list rcd)) : log :=
  mkLog P (rec_lo (numData c) (eraseSize c) (zlen P)) [].

(** An erased page cannot be mistaken for a data page: the erase leaves the old
    contents, zeros, or bytes with the top bit set (flash erases to 255); nor is
    there anything left from before the reset. *)
Definition blank (c : cfg) : Prop :=
  truncates c = true /\
  match eraseFill c with None => True | Some b => b = 0 \/ 128 <= b < 256 end.

(** Configurations that agree on everything stored on the data pages.  Search
    mode, learned-index size and error, and the key comparator may differ. *)
Record same_store (c c' : cfg) : Prop := {
  ss_ks : keySize c' = keySize c;
  ss_ds : dataSize c' = dataSize c;
  ss_ps : pageSize c' = pageSize c;
  ss_bs : bitmapSize c' = bitmapSize c;
  ss_B : eraseSize c' = eraseSize c;
  ss_D : numData c' = numData c;
  ss_fill : eraseFill c' = eraseFill c;
  ss_hole : holeFill c' = holeFill c;
  ss_trunc : truncates c' = truncates c;
  ss_cmpD : cmpD c' = cmpD c;
  ss_upd : updBM c' = updBM c;
  ss_idx : useIndex c' = useIndex c;
  ss_mm : useMaxMin c' = useMaxMin c;
  ss_bm : useBmap c' = useBmap c;
  ss_var : useVar c' = useVar c
}.

(** Databases covered: no bitmap index, pages of at most 127 records (recovery
    reads the record count into an int8_t). *)
Record plain_db (c : cfg) (KB PB : Z) : Prop := {
  pd_set : setting c KB PB;
  pd_modes : modes c;
  pd_idx : useIndex c = false;
  pd_rec : maxRec c <= 127;
  pd_blank : blank c
}.

(** Storage with [n] pages written under [c] is reopened under [c'].  With a
    maximum spline error above 1 the spline rebuilt from a page other than page 0
    can be wrong, so the area must not have wrapped. *)
Record reopen_ok (c c' : cfg) (KB PB n : Z) : Prop := {
  ro_same : same_store c c';
  ro_db : plain_db c' KB PB;
  ro_reset : useReset c' = false;
  ro_err : maxErr c' <= 1 \/ n <= numData c';
  ro_len : n + maxErr c' < PB
}.

(** ** Lifetimes: sessions separated by closes and crashes *)
Inductive event :=
| EvOp (o : hop)
| EvReopen (c' : cfg)
    (* stop between two operations (embedDBClose does not flush), open with c' *)
| EvCrash (o : hop) (i : nat) (c' : cfg).
    (* stop inside [o]: all but the last [i] of its storage operations happened *)

Definition event_step (c : cfg) (s : state) (e : event) : res (cfg * state * option hout) :=
  match e with
  | EvOp o => '(s, x) <- step c s o ;; Ok (c, s, Some x)
  | EvReopen c' =>
      '(s, r) <- embedDBInit c' (disk_of s) [] ;;
      if r =? 0 then Ok (c', s, None) else UB
  | EvCrash o i c' =>
      '(s, _) <- step c s o ;;
      match nth_error (trace (sio s)) i with
      | None => UB
      | Some im =>
          '(s, r) <- embedDBInit c' (disk_of_image im) [] ;;
          if r =? 0 then Ok (c', s, None) else UB
      end
  end.
Fixpoint lifetime (c : cfg) (s : state) (es : list event) : res (cfg * state * list (option hout)) :=
  match es with
  | [] => Ok (c, s, [])
  | e :: es' =>
      '(c, s, x) <- event_step c s e ;;
      '(c, s, xs) <- lifetime c s es' ;;
      Ok (c, s, x :: xs)
  end.

(** Storage states inside an operation, newest first: pages written, first page
    not erased. *)
Definition op_points (c : cfg) (L : log) (o : hop) : list (list (list rcd) * Z) :=
  match o with
  | HPut _ _ => put_points (maxRec c) (numData c) (eraseSize c) L
  | HFlush => flush_points (numData c) (eraseSize c) L
  | HGet _ => []
  end.

(** The specification of a lifetime. *)
Definition event_spec (c : cfg) (L : log) (e : event) : cfg * log :=
  match e with
  | EvOp o => (c, log_step (maxRec c) (numData c) (eraseSize c) L o)
  | EvReopen c' => (c', recovered c (pages L))
  | EvCrash o i c' => (c', recovered c (fst (nth i (op_points c L o) ([], 0))))
  end.
Fixpoint lifetime_spec (c : cfg) (L : log) (es : list event) : cfg * log :=
  match es with
  | [] => (c, L)
  | e :: es' => let '(c, L) := event_spec c L e in lifetime_spec c L es'
  end.

(** Operations covered: keys ascend within a session and continue after the
    recovered records. *)
Definition new_op (c : cfg) (KB PB : Z) (L : log) (o : hop) : Prop :=
  op_plain c KB o /\ (forall k d, o = HPut k d -> forall r, In r (accepted L) -> rkey r < k) /\
  zlen (pages L) + 1 + maxErr c < PB.

(** The storage state recovery cannot handle: block 0 has been erased (visibly)
    and the crash comes before its first page is written. *)
Definition block0_erased (c : cfg) (P : list (list rcd)) (l : Z) : Prop :=
  eraseFill c <> None /\ 0 < zlen P /\ zlen P mod numData c = 0 /\ l > zlen P - numData c.

Definition event_ok (c : cfg) (KB PB : Z) (L : log) (e : event) : Prop :=
  match e with
  | EvOp o => new_op c KB PB L o
  | EvReopen c' => reopen_ok c c' KB PB (zlen (pages L))
  | EvCrash o i c' =>
      new_op c KB PB L o /\
      exists P l, nth_error (op_points c L o) i = Some (P, l) /\
        ~ block0_erased c P l /\ reopen_ok c c' KB PB (zlen P)
  end.
Fixpoint lifetime_ok (c : cfg) (KB PB : Z) (L : log) (es : list event) : Prop :=
  match es with
  | [] => True
  | e :: es' =>
      event_ok c KB PB L e /\
      let '(c1, L1) := event_spec c L e in lifetime_ok c1 KB PB L1 es'
  end.

(** Results of the operations of a lifetime: puts and flushes succeed, a get
    returns the data stored for its key or nothing. *)
Fixpoint lifetime_sound (c : cfg) (L : log) (es : list event) (xs : list (option hout)) : Prop :=
  match es, xs with
  | [], [] => True
  | e :: es', x :: xs' =>
      match e, x with
      | EvOp o, Some y => sound_out L o y
      | EvOp _, None => False
      | _, y => y = None
      end /\
      let '(c1, L1) := event_spec c L e in lifetime_sound c1 L1 es' xs'
  | _, _ => False
  end.

(** State [s] serves log [L]: gets return what the log holds; every history that
    does not disturb the read buffer returns what the log specifies, and
    afterwards scans return the retained records. *)
Definition serves (c : cfg) (KB PB : Z) (s : state) (L : log) : Prop :=
  (forall ks, Forall (fun k => op_ok c KB L (HGet k)) ks ->
    exists s1, run c s (map HGet ks) = Ok (s1, map (lookup L) ks)) /\
  (forall h, hist_ok c KB L h -> calm c s h -> zlen (pages L) + zlen h + maxErr c < PB ->
    forall L1 xs, spec_run (maxRec c) (numData c) (eraseSize c) L h = (L1, xs) ->
    exists s1, run c s h = Ok (s1, xs) /\
      forall q n, useBinary c = false -> uses_bitmap c q = false -> query_ok KB q ->
        (length (retained L1) < n)%nat -> exists s2, scan c s1 q n = Ok (s2, answer c L1 q)).

(** A new database. *)
Definition created (c : cfg) (KB PB : Z) (k : disk) (s : state) : Prop :=
  plain_db c KB PB /\ useReset c = true /\ maxErr c < PB /\ embedDBInit c k [] = Ok (s, 0).

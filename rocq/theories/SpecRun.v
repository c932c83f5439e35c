(** Specification of histories of puts, flushes and gets. *)
From Verif Require Import Base Config Storage DB Recovery Spec SpecPage SpecStore Run.
Open Scope Z_scope.

(** A put is refused exactly when its key is not larger than the last one. *)
Definition refused (L : log) (k : Z) : bool :=
  match last_key (accepted L) with Some k0 => k <=? k0 | None => false end.

(** One operation on the abstract log: the log afterwards and what is returned. *)
Definition spec_step (N D B : Z) (L : log) (o : hop) : log * hout :=
  match o with
  | HPut k d => if refused L k then (L, OPut 1) else (log_put N D B L (mkR k d 0), OPut 0)
  | HFlush => (log_flush D B L, OFlush 0)
  | HGet k =>
      (L, match find_key k (retained L) with
          | Some r => OGet 0 (Some (rdata r))
          | None => OGet (-1) None
          end)
  end.

Fixpoint spec_run (N D B : Z) (L : log) (h : list hop) : log * list hout :=
  match h with
  | [] => (L, [])
  | o :: h' =>
      let '(L1, x) := spec_step N D B L o in
      let '(L2, xs) := spec_run N D B L1 h' in
      (L2, x :: xs)
  end.

(** Operations covered.  A put to be refused while the write buffer is empty needs
    the last page to be full (otherwise embedDBPut looks at an unused slot); in
    binary-search mode a looked-up key must not have been evicted. *)
Definition op_ok (c : cfg) (KB : Z) (L : log) (o : hop) : Prop :=
  match o with
  | HPut k d =>
      0 <= k < KB /\ length d = dsz c /\
      (refused L k = true -> cur L = [] ->
       zlen (nth (Z.to_nat (zlen (pages L) - 1)) (pages L) []) = maxRec c)
  | HFlush => True
  | HGet k =>
      0 <= k < KB /\
      (useBinary c = true -> forall r, In r (accepted L) -> rkey r = k -> In r (retained L))
  end.

Fixpoint hist_ok (c : cfg) (KB : Z) (L : log) (h : list hop) : Prop :=
  match h with
  | [] => True
  | o :: h' =>
      op_ok c KB L o /\
      hist_ok c KB (fst (spec_step (maxRec c) (numData c) (eraseSize c) L o)) h'
  end.

(** [calm c s h]: in the execution of [h] from [s], no page write overwrites the
    physical page held in the read buffer, and no flush happens while the
    buffered index page is full. *)
Fixpoint calm (c : cfg) (s : state) (h : list hop) : Prop :=
  match h with
  | [] => True
  | o :: h' =>
      (o = HFlush -> useIndex c = true ->
       exists n, get_count (iwbuf (si s)) = Ok n /\ n < maxIdx c) /\
      forall s' x, step c s o = Ok (s', x) ->
        (nextD (sd s') <> nextD (sd s) -> nextD (sd s) mod numData c <> bufD (sd s)) /\
        calm c s' h'
  end.

(** Operations of a history with strictly ascending puts, for the theorems that
    do not assume [calm]. *)
Definition op_plain (c : cfg) (KB : Z) (o : hop) : Prop :=
  match o with
  | HPut k d => 0 <= k < KB /\ length d = dsz c
  | HFlush => True
  | HGet k => 0 <= k < KB
  end.

(** What may be observed without assuming [calm]: puts and flushes succeed; a get
    returns the data stored for the key, or reports it missing. *)
Definition sound_out (L : log) (o : hop) (x : hout) : Prop :=
  match o, x with
  | HPut _ _, OPut r => r = 0
  | HFlush, OFlush r => r = 0
  | HGet k, OGet r d =>
      (r = -1 /\ d = None) \/
      (r = 0 /\ exists y, In y (accepted L) /\ rkey y = k /\ d = Some (rdata y))
  | _, _ => False
  end.
Fixpoint sound_outs (N D B : Z) (L : log) (h : list hop) (xs : list hout) : Prop :=
  match h, xs with
  | [], [] => True
  | o :: h', x :: xs' => sound_out L o x /\ sound_outs N D B (log_step N D B L o) h' xs'
  | _, _ => False
  end.

(** Limits of the modes: binary search needs storage without visible erase that a reset empties, and
    a compiler for which the missing return yields 0. *)
Record modes (c : cfg) : Prop := {
  m_rlc : useRLC c = false;
  m_var : useVar c = false;
  m_rec : maxRec c <= 255;
  m_fill : useBinary c = true -> plain_storage c;
  m_ft : useBinary c = true -> fallthru c = Some 0
}.

(** A history [h] of operations covered by the storage theorems, on a database
    opened with the reset flag.  [KB]: bound on keys, [PB]: bound on page numbers. *)
Record scenario (c : cfg) (KB PB : Z) (h : list hop) : Prop := {
  sc_set : setting c KB PB;
  sc_modes : modes c;
  sc_reset : useReset c = true;
  sc_ops : Forall (op_plain c KB) h;
  sc_asc : zascending (put_keys h);
  sc_idx : useIndex c = true -> ~ In HFlush h;
  sc_len : zlen h + maxErr c < PB
}.

(** [s] is reached by opening over storage [k] and running [h] with results [xs]. *)
Definition reached (c : cfg) (k : disk) (h : list hop) (s : state) (xs : list hout) : Prop :=
  exists s0, embedDBInit c k [] = Ok (s0, 0) /\ run c s0 h = Ok (s, xs).

Definition log_of (c : cfg) (h : list hop) : log :=
  fold_left (log_step (maxRec c) (numData c) (eraseSize c)) h emptyLog.

(** The data file changes from [F] to [F'] by sealing page number [n] while pages
    [l..n-1] are retained: one aligned block inside the area is erased if and only
    if the area is full, the page is written inside the area, and no page that
    stays retained is touched. *)
Definition seals_page (c : cfg) (F F' : file) (l n : Z) : Prop :=
  let D := numData c in let B := eraseSize c in
  let full := n - l =? D in
  let q := n mod D in
  let l' := if full then l + B else l in
  (exists p, page_id p = n /\ zlen p = pageSize c /\
     F' = file_write c (if full then file_erase c F q (q + B) else F) q p) /\
  0 <= q < D /\
  (full = true -> q mod B = 0 /\ q + B <= D /\
     forall id, l <= id < n -> q <= id mod D < q + B -> l <= id < l + B) /\
  (forall id, l' <= id < n -> id mod D <> q).

(** Histories with refused puts as well, whose operations meet [op_ok]. *)
Record quiet (c : cfg) (KB PB : Z) (h : list hop) : Prop := {
  q_set : setting c KB PB;
  q_modes : modes c;
  q_reset : useReset c = true;
  q_ops : hist_ok c KB emptyLog h;
  q_len : zlen h + maxErr c < PB
}.
(** [s] is reached as in [reached], without disturbing the read buffer. *)
Definition calmly (c : cfg) (k : disk) (h : list hop) (s : state) (xs : list hout) : Prop :=
  exists s0, embedDBInit c k [] = Ok (s0, 0) /\ calm c s0 h /\ run c s0 h = Ok (s, xs).

Definition spec_log (c : cfg) (h : list hop) : log :=
  fst (spec_run (maxRec c) (numData c) (eraseSize c) emptyLog h).
Definition spec_outs (c : cfg) (h : list hop) : list hout :=
  snd (spec_run (maxRec c) (numData c) (eraseSize c) emptyLog h).

(** What a get of key [k] has to return. *)
Definition lookup (L : log) (k : Z) : hout :=
  match find_key k (retained L) with
  | Some r => OGet 0 (Some (rdata r))
  | None => OGet (-1) None
  end.

(** The records put by a history, in order. *)
Definition records_of (h : list hop) : list rcd :=
  flat_map (fun o => match o with HPut k d => [mkR k d 0] | _ => [] end) h.

(** The client's data comparator orders data values by some rank. *)
Definition ranks (c : cfg) (rank : list Z -> Z) : Prop :=
  forall a b, length a = dsz c -> length b = dsz c ->
    (cmpD c a b < 0 <-> rank a < rank b) /\ (cmpD c a b > 0 <-> rank a > rank b).

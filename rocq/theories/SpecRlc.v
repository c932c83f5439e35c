(** Specification of record-level consistency: which pages are retained, what
    the data file may hold, and lifetimes with crashes. *)
From Verif Require Import Base Config Storage DB Recovery Spec SpecPage SpecStore Run SpecRun SpecIter SpecReopen.
Open Scope Z_scope.

(** ** The log of a database with record-level consistency *)
(** First page retained when [n] pages are sealed: the block being filled and the
    two reserved blocks behind it hold nothing older. *)
Definition rlc_lo (D B n : Z) : Z := Z.max 0 ((n / B + 3) * B - D).

Definition rlc_seal (D B : Z) (L : log) : log :=
  mkLog (pages L ++ [cur L]) (rlc_lo D B (zlen (pages L) + 1)) [].
Definition rlc_put (N D B : Z) (L : log) (r : rcd) : log :=
  if zlen (cur L) >=? N
  then let L' := rlc_seal D B L in mkLog (pages L') (lo L') [r]
  else mkLog (pages L) (lo L) (cur L ++ [r]).
Definition rlc_step (N D B : Z) (L : log) (o : hop) : log :=
  match o with
  | HPut k d => rlc_put N D B L (mkR k d 0)
  | HFlush => match cur L with [] => L | _ => rlc_seal D B L end
  | HGet _ => L
  end.
Definition rlc_out (L : log) (o : hop) : hout :=
  match o with HPut _ _ => OPut 0 | HFlush => OFlush 0 | HGet k => lookup L k end.

(** What a crash inside an operation may leave: everything or nothing of the
    operation, or the sealed page without the new record. *)
Definition rlc_crash (N D B : Z) (L : log) (o : hop) : list log :=
  [L; rlc_step N D B L o] ++
  match o with
  | HPut _ _ => if zlen (cur L) >=? N then [rlc_seal D B L] else []
  | _ => []
  end.

(** ** Databases covered *)
(** An erased page cannot be mistaken for a data page (16843009 is the page
    number read from four bytes of value 1); nor can a page that was never
    written. *)
Definition erased_byte (c : cfg) (PB b : Z) : Prop :=
  b = 0 \/ 128 <= b < 256 \/
  (1 <= b < 128 /\ PB <= 16843009 * b /\ (16843009 * b) mod eraseSize c <> 0).
Definition erased_ok (c : cfg) (PB : Z) : Prop :=
  erased_byte c PB (holeFill c) /\ match eraseFill c with None => True | Some b => erased_byte c PB b end.
Record rlc_db (c : cfg) (KB PB : Z) : Prop := {
  rl_set : setting c KB PB;
  rl_rlc : useRLC c = true;
  rl_idx : useIndex c = false;
  rl_bin : useBinary c = false;
  rl_rec : maxRec c <= 127;
  rl_D : 4 * eraseSize c <= numData c;
  rl_trunc : truncates c = true;
  rl_erased : erased_ok c PB
}.

(** ** Lifetimes *)
(** Opening storage [k] with [c'] after attempts that were cut off: attempt
    [(c1, i)] opened with [c1] and all but its last [i] storage operations
    happened. *)
Fixpoint boot (k : disk) (tries : list (cfg * nat)) (c' : cfg) : res (state * Z) :=
  match tries with
  | [] => embedDBInit c' k []
  | (c1, i) :: t =>
      '(s, _) <- embedDBInit c1 k [] ;;
      boot (match nth_error (trace (sio s)) i with Some im => disk_of_image im | None => k end) t c'
  end.

Inductive revent :=
| RvOp (o : hop)
| RvStop (tries : list (cfg * nat)) (c' : cfg)
    (* stop between two operations, then open *)
| RvCrash (o : hop) (i : nat) (tries : list (cfg * nat)) (c' : cfg).
    (* stop inside [o], all but its last [i] storage operations happened, then open *)

(** The storage images of the storage operations between [s] and [s'], newest first. *)
Definition new_images (s s' : state) : list (file * file * file) :=
  firstn (length (trace (sio s')) - length (trace (sio s))) (trace (sio s')).
(** The storage left when [o] takes [s] to [s'] and is cut off. *)
Definition cut (s s' : state) (i : nat) : disk :=
  match nth_error (new_images s s') i with
  | Some im => disk_of_image im
  | None => disk_of s
  end.

Definition revent_step (c : cfg) (s : state) (e : revent) : res (cfg * state * option hout) :=
  match e with
  | RvOp o => '(s, x) <- step c s o ;; Ok (c, s, Some x)
  | RvStop t c' =>
      '(s, r) <- boot (disk_of s) t c' ;;
      if r =? 0 then Ok (c', s, None) else UB
  | RvCrash o i t c' =>
      '(s', _) <- step c s o ;;
      '(s, r) <- boot (cut s s' i) t c' ;;
      if r =? 0 then Ok (c', s, None) else UB
  end.
Fixpoint rlifetime (c : cfg) (s : state) (es : list revent) : res (cfg * state * list (option hout)) :=
  match es with
  | [] => Ok (c, s, [])
  | e :: es' =>
      '(c, s, x) <- revent_step c s e ;;
      '(c, s, xs) <- rlifetime c s es' ;;
      Ok (c, s, x :: xs)
  end.

(** The specification: the log and the results of a lifetime.  Stopping loses
    nothing; a crash inside an operation loses at most that operation. *)
Inductive rlc_life (N D B : Z) : log -> list revent -> list (option hout) -> log -> Prop :=
| rlc_nil L : rlc_life N D B L [] [] L
| rlc_op L o es xs L' :
    rlc_life N D B (rlc_step N D B L o) es xs L' ->
    rlc_life N D B L (RvOp o :: es) (Some (rlc_out L o) :: xs) L'
| rlc_stop L t c' es xs L' :
    rlc_life N D B L es xs L' ->
    rlc_life N D B L (RvStop t c' :: es) (None :: xs) L'
| rlc_cut L o i t c' L1 es xs L' :
    In L1 (rlc_crash N D B L o) ->
    (i = 0%nat -> L1 = rlc_step N D B L o) ->
    rlc_life N D B L1 es xs L' ->
    rlc_life N D B L (RvCrash o i t c' :: es) (None :: xs) L'.

(** Events covered.  Keys ascend over the whole lifetime; configurations agree on
    the stored data; with a spline error above 1 the area must not have wrapped
    when reopening. *)
Definition ev_op (e : revent) : option hop :=
  match e with RvOp o => Some o | RvStop _ _ => None | RvCrash o _ _ _ => Some o end.
Definition ev_ops (es : list revent) : list hop :=
  flat_map (fun e => match ev_op e with Some o => [o] | None => [] end) es.
Definition rlc_reopen (c c' : cfg) (KB PB n : Z) : Prop :=
  same_store c c' /\ rlc_db c' KB PB /\ useReset c' = false /\
  (maxErr c' <= 1 \/ rlc_lo (numData c) (eraseSize c) n = 0) /\ n + maxErr c' < PB.
Definition ev_cfgs (e : revent) : list cfg :=
  match e with
  | RvOp _ => []
  | RvStop t c' => c' :: map fst t
  | RvCrash _ _ t c' => c' :: map fst t
  end.
Record rlc_ok (c : cfg) (KB PB : Z) (es : list revent) : Prop := {
  ro_ops : Forall (op_plain c KB) (ev_ops es);
  ro_asc : zascending (put_keys (ev_ops es));
  ro_cfgs : Forall (fun e => Forall (fun c' => rlc_reopen c c' KB PB (zlen (ev_ops es))) (ev_cfgs e)) es;
  ro_fits : zlen (ev_ops es) + maxErr c < PB
}.

(** Conditions on the execution itself: a flush never completes an erase block
    (embedDBFlush does not move the reserved blocks), and no page write
    overwrites the physical page held in the read buffer. *)
Definition writes_page (c : cfg) (s : state) (o : hop) : Prop :=
  exists n, get_count (wbuf (sd s)) = Ok n /\
    match o with HPut _ _ => maxRec c <= n | HFlush => 1 <= n | HGet _ => False end.
Definition quiet_step (c : cfg) (s : state) (o : hop) : Prop :=
  writes_page c s o ->
    (o = HFlush -> (nextD (sd s) + 1) mod eraseSize c <> 0) /\
    nextD (sd s) mod numData c <> bufD (sd s).
Fixpoint rlc_quiet (c : cfg) (s : state) (es : list revent) : Prop :=
  match es with
  | [] => True
  | e :: es' =>
      (forall o, ev_op e = Some o -> quiet_step c s o) /\
      forall c1 s1 x, revent_step c s e = Ok (c1, s1, x) -> rlc_quiet c1 s1 es'
  end.

Definition rlc_created (c : cfg) (KB PB : Z) (k : disk) (s : state) : Prop :=
  rlc_db c KB PB /\ useVar c = false /\ useReset c = true /\ maxErr c < PB /\ embedDBInit c k [] = Ok (s, 0).

(** State [s] serves log [L]: gets return what the log holds, scans the retained
    records satisfying the query. *)
Definition rlc_serves (c : cfg) (KB : Z) (s : state) (L : log) : Prop :=
  (forall ks, Forall (fun k => 0 <= k < KB) ks ->
    exists s1, run c s (map HGet ks) = Ok (s1, map (lookup L) ks)) /\
  (forall q n, uses_bitmap c q = false -> query_ok KB q -> (length (retained L) < n)%nat ->
    exists s1, scan c s q n = Ok (s1, answer c L q)).

(** ** What the data file holds *)
(** End of the block being filled = first reserved page, as a page number. *)
Definition nb (B n : Z) : Z := (n / B + 1) * B.

Section Disk.
  Variable c : cfg.
  Notation D := (numData c).
  Notation B := (eraseSize c).
  Notation nb := (nb (eraseSize c)).
  Notation rlo := (rlc_lo (numData c) (eraseSize c)).

  (** Never written, or erased. *)
  Definition blankp (p : page) : Prop :=
    exists b, (b = holeFill c \/ eraseFill c = Some b) /\ p = repeat b (psz c).
  (** A temporary page on physical page [q], written when at most [n] pages were
      sealed; if exactly [n], it holds the records [w] of the page being filled,
      or fewer. *)
  Definition temp (p : page) (q n : Z) (w : list rcd) : Prop :=
    exists rs, rs <> [] /\ holds c p rs /\ 0 <= page_id p <= n /\ page_id p mod D <> q /\
      (page_id p = n -> zlen rs < zlen w \/ rs = w).
  (** Page position [a] (a number of the page sequence, physical page [a mod D])
      holds no page that is still needed; the first page of a block is not a page
      of the previous round. *)
  Definition spare (F : file) (P : list (list rcd)) (w : list rcd) (a : Z) : Prop :=
    let p := fpg F (a mod D) in
    flen F <= a mod D \/ blankp p \/ temp p (a mod D) (zlen P) w \/
    (a mod B <> 0 /\ D <= a /\ img c P (a - D) p).

  (** Pages [P] were sealed, those from [l] on are intact, the rest is spare. *)
  Record rdisk (F : file) (P : list (list rcd)) (l : Z) (w : list rcd) : Prop := {
    rd_lo : 0 <= l <= rlo (zlen P);
    rd_al : l mod B = 0;
    rd_room : nb (zlen P) <= l + D;
    rd_live : forall id, l <= id < zlen P -> img c P id (fpg F (id mod D));
    rd_spare : forall a, zlen P <= a < l + D -> spare F P w a;
    rd_flen : Z.min (zlen P) D <= flen F;
    rd_len : nb (zlen P) + 2 * B < D -> flen F <= nb (zlen P) + 2 * B
  }.

  (** Pages [l] to [n] are byte for byte the same. *)
  Definition keep (F F' : file) (n l : Z) : Prop :=
    forall id, l <= id < n -> fpg F' (id mod D) = fpg F (id mod D).

  (** The same for the data file of every image. *)
  Definition keeps (F : file) (n l : Z) (ims : list (file * file * file)) : Prop :=
    Forall (fun im => keep F (fst (fst im)) n l) ims.

  (** Reserved page [k] holds the records [w] of the page being filled. *)
  Definition newest (F : file) (P : list (list rcd)) (w : list rcd) (k : Z) : Prop :=
    let p := fpg F ((nb (zlen P) + k) mod D) in
    (forall k', 0 <= k' <= k -> (nb (zlen P) + k') mod D < flen F) /\
    holds c p w /\ page_id p = zlen P.
  (** Storage from which the sealed pages [P] and the records [w] behind them can
      be recovered. *)
  Definition rimg (F : file) (P : list (list rcd)) (w : list rcd) : Prop :=
    (exists l, rdisk F P l w) /\
    (w <> [] -> exists k, 0 <= k < 2 * B /\ newest F P w k).
End Disk.

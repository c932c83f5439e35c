(** Specification of closing, crashing and reopening for databases that may keep a
    bitmap index: which log a reopened database has to serve to gets and to scans
    that do not use the index. *)
From Verif Require Import Base Config Storage DB Recovery Spec SpecPage SpecStore Run SpecRun SpecIter SpecReopen.
Open Scope Z_scope.

(** Databases covered.  With an index: index pages erased or skipped read as 0 or
    255, and the sizes embedDBInit asks for (embedDB.c:163-168, 200-206, 620-633). *)
Record idx_db (c : cfg) (KB PB : Z) : Prop := {
  xd_set : setting c KB PB;
  xd_modes : modes c;
  xd_rec : maxRec c <= 127;
  xd_blank : blank c;
  xd_idx : useIndex c = true -> idx_blank c /\ 4 <= bufBlocks c /\ 4 * eraseSize c <= numData c /\
    numIndex c mod eraseSize c = 0 /\ 2 * eraseSize c <= numIndex c
}.
Definition idx_created (c : cfg) (KB PB : Z) (k : disk) (s : state) : Prop :=
  idx_db c KB PB /\ useReset c = true /\ maxErr c < PB /\ embedDBInit c k [] = Ok (s, 0).

(** Storage with [n] pages written under [c] is reopened under [c']; the size of the
    index area may differ. *)
Record idx_reopen_ok (c c' : cfg) (KB PB n : Z) : Prop := {
  xr_same : same_store c c';
  xr_db : idx_db c' KB PB;
  xr_reset : useReset c' = false;
  xr_err : maxErr c' <= 1 \/ n <= numData c';
  xr_len : n + maxErr c' < PB
}.

(** Storage when the power fails after [i + 1] storage operations of the operation
    that led from [s] to [s1], or right after it when it makes fewer. *)
Definition crash_image (s s1 : state) (i : nat) : file * file * file :=
  let new := firstn (length (trace (sio s1)) - length (trace (sio s))) (trace (sio s1)) in
  nth i (rev new) (fD (sio s1), fI (sio s1), fV (sio s1)).

(** The events of SpecReopen.v; in [EvCrash o i c'] the power fails after [i + 1]
    storage operations of [o]. *)
Definition iev_step (c : cfg) (s : state) (e : event) : res (cfg * state * option hout) :=
  match e with
  | EvOp o => '(s, x) <- step c s o ;; Ok (c, s, Some x)
  | EvReopen c' =>
      '(s, r) <- embedDBInit c' (disk_of s) [] ;;
      if r =? 0 then Ok (c', s, None) else UB
  | EvCrash o i c' =>
      '(s1, _) <- step c s o ;;
      '(s2, r) <- embedDBInit c' (disk_of_image (crash_image s s1 i)) [] ;;
      if r =? 0 then Ok (c', s2, None) else UB
  end.
Fixpoint ilife (c : cfg) (s : state) (es : list event) : res (cfg * state * list (option hout)) :=
  match es with
  | [] => Ok (c, s, [])
  | e :: es' =>
      '(c, s, x) <- iev_step c s e ;;
      '(c, s, xs) <- ilife c s es' ;;
      Ok (c, s, x :: xs)
  end.

(** Pages written and first page not erased when the power fails. *)
Definition crash_point (c : cfg) (L : log) (o : hop) (i : nat) : list (list rcd) * Z :=
  let L1 := log_step (maxRec c) (numData c) (eraseSize c) L o in
  nth i (rev (op_points c L o)) (pages L1, lo L1).

(** Number of entries on the index page being filled; reopening starts a new one. *)
Definition idx_count (c : cfg) (L : log) (ic : Z) (o : hop) : Z :=
  match o with
  | HPut _ _ => if zlen (cur L) >=? maxRec c then if ic >=? maxIdx c then 1 else ic + 1 else ic
  | HFlush => match cur L with [] => ic | _ => 0 end
  | HGet _ => ic
  end.

Definition iev_spec (c : cfg) (L : log) (ic : Z) (e : event) : cfg * log * Z :=
  match e with
  | EvOp o => (c, log_step (maxRec c) (numData c) (eraseSize c) L o, idx_count c L ic o)
  | EvReopen c' => (c', recovered c (pages L), 0)
  | EvCrash o i c' => (c', recovered c (fst (crash_point c L o i)), 0)
  end.
Fixpoint ilife_spec (c : cfg) (L : log) (ic : Z) (es : list event) : cfg * log * Z :=
  match es with
  | [] => (c, L, ic)
  | e :: es' => let '(c, L, ic) := iev_spec c L ic e in ilife_spec c L ic es'
  end.

(** A flush with a full index page is undefined (C31_flush_full_index_refuted). *)
Definition iop_ok (c : cfg) (KB PB : Z) (L : log) (ic : Z) (o : hop) : Prop :=
  new_op c KB PB L o /\ (o = HFlush -> cur L <> [] -> useIndex c = true -> ic < maxIdx c).
Definition iev_ok (c : cfg) (KB PB : Z) (L : log) (ic : Z) (e : event) : Prop :=
  match e with
  | EvOp o => iop_ok c KB PB L ic o
  | EvReopen c' => idx_reopen_ok c c' KB PB (zlen (pages L))
  | EvCrash o i c' =>
      iop_ok c KB PB L ic o /\
      let '(P, l) := crash_point c L o i in
      ~ block0_erased c P l /\ idx_reopen_ok c c' KB PB (zlen P)
  end.
Fixpoint ilife_ok (c : cfg) (KB PB : Z) (L : log) (ic : Z) (es : list event) : Prop :=
  match es with
  | [] => True
  | e :: es' =>
      iev_ok c KB PB L ic e /\
      let '(c1, L1, ic1) := iev_spec c L ic e in ilife_ok c1 KB PB L1 ic1 es'
  end.

Fixpoint ilife_sound (c : cfg) (L : log) (ic : Z) (es : list event) (xs : list (option hout)) : Prop :=
  match es, xs with
  | [], [] => True
  | e :: es', x :: xs' =>
      match e, x with
      | EvOp o, Some y => sound_out L o y
      | EvOp _, None => False
      | _, y => y = None
      end /\
      let '(c1, L1, ic1) := iev_spec c L ic e in ilife_sound c1 L1 ic1 es' xs'
  | _, _ => False
  end.

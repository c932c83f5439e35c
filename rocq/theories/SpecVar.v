(** Specification of variable-length data: what a client reads back for a record,
    stated over the abstract log and a table of payloads, and the layout of a
    payload over variable pages as a sequence of bytes. *)
From Verif Require Import Base Config Storage DB VarData Recovery Spec SpecPage SpecStore Run SpecRun.
Open Scope Z_scope.

(** Calls of a client that stores variable data; [VGetVar k ns] looks up [k] and
    reads its stream with buffers of sizes [ns]. *)
Inductive vop :=
| VPut (k : Z) (d : list Z) (v : option (list Z))
| VFlush
| VGet (k : Z)
| VGetVar (k : Z) (ns : list Z).

(** What the client observes.  For [VGetVar]: return value, fixed data, and for
    each stream read the bytes delivered ([None]: no stream was created). *)
Inductive vout :=
| OVPut (r : Z)
| OVFlush (r : Z)
| OVGet (r : Z) (d : option (list Z))
| OVGetVar (r : Z) (d : option (list Z)) (x : option (list (list Z))).

(** Successive calls of embedDBVarDataStreamRead (a failed page read delivers no
    bytes: the call returns 0). *)
Fixpoint stream_reads (c : cfg) (s : state) (st : stream) (ns : list Z)
  : res (state * stream * list (list Z)) :=
  match ns with
  | [] => Ok (s, st, [])
  | n :: ns' =>
      '(s, st, o) <- embedDBVarDataStreamRead c s st n ;;
      '(s, st, xs) <- stream_reads c s st ns' ;;
      Ok (s, st, match o with Some b => b | None => [] end :: xs)
  end.

Definition getvar_read (c : cfg) (s : state) (k : Z) (ns : list Z) : res (state * vout) :=
  '(s, r, d, st) <- embedDBGetVar c s k ;;
  match st with
  | None => Ok (s, OVGetVar r d None)
  | Some st =>
      '(s, _, xs) <- stream_reads c s st ns ;;
      Ok (s, OVGetVar r d (Some xs))
  end.

Definition vstep (c : cfg) (s : state) (o : vop) : res (state * vout) :=
  match o with
  | VPut k d v => '(s, r) <- embedDBPutVar c s k d v ;; Ok (s, OVPut r)
  | VFlush => '(s, r) <- embedDBFlush c s ;; Ok (s, OVFlush r)
  | VGet k => '(s, r, d) <- embedDBGet c s k ;; Ok (s, OVGet r d)
  | VGetVar k ns => getvar_read c s k ns
  end.

Fixpoint vrun (c : cfg) (s : state) (h : list vop) : res (state * list vout) :=
  match h with
  | [] => Ok (s, [])
  | o :: h' =>
      '(s, x) <- vstep c s o ;;
      '(s, xs) <- vrun c s h' ;;
      Ok (s, x :: xs)
  end.

(** ** The abstract store *)

(** The log, and the payloads stored so far by key. *)
Record vstore := mkVS { vlog : log; vpay : list (Z * list Z) }.
Definition emptyVS : vstore := mkVS emptyLog [].

Definition vspec_step (N D B : Z) (V : vstore) (o : vop) : vstore :=
  match o with
  | VPut k d v =>
      if refused (vlog V) k then V
      else mkVS (log_put N D B (vlog V) (mkR k d 0))
                (match v with Some b => (k, b) :: vpay V | None => vpay V end)
  | VFlush => mkVS (log_flush D B (vlog V)) (vpay V)
  | VGet _ | VGetVar _ _ => V
  end.
Definition vstore_of (c : cfg) (h : list vop) : vstore :=
  fold_left (vspec_step (maxRec c) (numData c) (eraseSize c)) h emptyVS.

(** The payload stored for a key. *)
Definition payload (k : Z) (t : list (Z * list Z)) : option (list Z) :=
  option_map snd (find (fun e => fst e =? k) t).

(** A byte string cut into pieces of at most the given sizes. *)
Fixpoint pieces (b : list Z) (ns : list Z) : list (list Z) :=
  match ns with
  | [] => []
  | n :: ns' => firstn (Z.to_nat n) b :: pieces (skipn (Z.to_nat n) b) ns'
  end.

(** What looking up [k] and reading its stream has to deliver. *)
Definition vlookup (V : vstore) (k : Z) (ns : list Z) : vout :=
  match find_key k (retained (vlog V)) with
  | None => OVGetVar (-1) None None
  | Some r =>
      OVGetVar 0 (Some (rdata r)) (option_map (fun b => pieces b ns) (payload k (vpay V)))
  end.

(** ** Settings and histories covered *)

(** [VB]: bound on the bytes of variable storage ever used.  Either erasing leaves
    the pages readable, or the area is never filled. *)
Record var_setting (c : cfg) (VB : Z) : Prop := {
  vs_use : useVar c = true;
  vs_rlc : useRLC c = false;
  vs_rec : maxRec c <= 127;
  vs_trunc : truncates c = true;
  vs_bin : useBinary c = true -> plain_storage c /\ fallthru c = Some 0;
  vs_num : 2 * eraseSize c <= numVar c;
  vs_mod : numVar c mod eraseSize c = 0;
  vs_area : numVar c * pageSize c <= 2 ^ 31;
  vs_VB : VB <= 2 ^ 32;
  vs_fill : eraseFill c = None \/ VB <= numVar c * pageSize c
}.

(** Bytes of the variable area an operation may use up. *)
Definition vcost (c : cfg) (o : vop) : Z :=
  pageSize c +
  match o with VPut _ _ (Some b) => 4 * zlen b + 16 | _ => 0 end.
Definition vcosts (c : cfg) (h : list vop) : Z :=
  fold_right (fun o z => vcost c o + z) 0 h.

(** Operations covered, as in [op_ok]; a stream lookup inside a history is of a
    record that is not in the write buffer. *)
Definition vop_ok (c : cfg) (KB : Z) (L : log) (o : vop) : Prop :=
  match o with
  | VPut k d v =>
      0 <= k < KB /\ length d = dsz c /\
      (refused L k = true -> cur L = [] ->
       zlen (nth (Z.to_nat (zlen (pages L) - 1)) (pages L) []) = maxRec c)
  | VFlush => True
  | VGet k => 0 <= k < KB
  | VGetVar k ns =>
      0 <= k < KB /\ Forall (fun n => 0 <= n < 2 ^ 32) ns /\ forall r, In r (cur L) -> rkey r <> k
  end.
Fixpoint vhist_ok (c : cfg) (KB : Z) (V : vstore) (h : list vop) : Prop :=
  match h with
  | [] => True
  | o :: h' =>
      vop_ok c KB (vlog V) o /\
      vhist_ok c KB (vspec_step (maxRec c) (numData c) (eraseSize c) V o) h'
  end.

(** As [calm]: no data page write overwrites the page held in the read buffer. *)
Fixpoint vcalm (c : cfg) (s : state) (h : list vop) : Prop :=
  match h with
  | [] => True
  | o :: h' =>
      (o = VFlush -> useIndex c = true ->
       exists n, get_count (iwbuf (si s)) = Ok n /\ n < maxIdx c) /\
      forall s' x, vstep c s o = Ok (s', x) ->
        (nextD (sd s') <> nextD (sd s) -> nextD (sd s) mod numData c <> bufD (sd s)) /\
        vcalm c s' h'
  end.

Record vscenario (c : cfg) (KB PB VB : Z) (h : list vop) : Prop := {
  v_set : setting c KB PB;
  v_var : var_setting c VB;
  v_reset : useReset c = true;
  v_ops : vhist_ok c KB emptyVS h;
  v_len : zlen h + maxErr c < PB;
  v_cost : vcosts c h + 2 * pageSize c < VB
}.

(** [s] is reached by opening over storage [k] and running [h]. *)
Definition vreached (c : cfg) (k : disk) (h : list vop) (s : state) : Prop :=
  exists s0 xs, embedDBInit c k [] = Ok (s0, 0) /\ vcalm c s0 h /\ vrun c s0 h = Ok (s, xs).

(** What each call of a history returns.  Reads of streams inside a history are
    covered by looking at the state they start in. *)
Definition vout_ok (c : cfg) (V : vstore) (o : vop) (x : vout) : Prop :=
  match o, x with
  | VPut k _ _, OVPut r => r = if refused (vlog V) k then 1 else 0
  | VFlush, OVFlush r => r = 0
  | VGet k, OVGet r d =>
      useBinary c = false ->
      match find_key k (retained (vlog V)) with
      | Some x => r = 0 /\ d = Some (rdata x)
      | None => r = -1 /\ d = None
      end
  | VGetVar _ _, OVGetVar _ _ _ => True
  | _, _ => False
  end.
Fixpoint vouts_ok (c : cfg) (V : vstore) (h : list vop) (xs : list vout) : Prop :=
  match h, xs with
  | [], [] => True
  | o :: h', x :: xs' =>
      vout_ok c V o x /\
      vouts_ok c (vspec_step (maxRec c) (numData c) (eraseSize c) V o) h' xs'
  | _, _ => False
  end.

(** Every put is accepted and carries variable data. *)
Definition full_op (V : vstore) (o : vop) : Prop :=
  match o with VPut k _ v => refused (vlog V) k = false /\ v <> None | _ => True end.
Fixpoint all_data (c : cfg) (V : vstore) (h : list vop) : Prop :=
  match h with
  | [] => True
  | o :: h' => full_op V o /\ all_data c (vspec_step (maxRec c) (numData c) (eraseSize c) V o) h'
  end.

(** The payload of key [k] cannot have been overwritten: the variable area never
    filled up, or at most the capacity less one erase block of pages was written
    since the state [s1] just before [k] was stored. *)
Definition var_intact (c : cfg) (VB : Z) (dk : disk) (h : list vop) (s : state) (k : Z) : Prop :=
  VB <= numVar c * pageSize c \/
  exists h1 d b h2 s1, h = h1 ++ VPut k d (Some b) :: h2 /\ vreached c dk h1 s1 /\
    refused (vlog (vstore_of c h1)) k = false /\
    nextV (sv s) + 1 - nextV (sv s1) <= numVar c - eraseSize c.

(** The page in the variable read buffer is what storage holds at its place. *)
Definition var_fresh (s : state) : Prop :=
  bufV (sv s) = NOPAGE \/ vrbuf (sv s) = fpg (fV (sio s)) (bufV (sv s)).
(** ... also after the flush that embedDBGetVar performs for a buffered record. *)
Definition var_clean (c : cfg) (s : state) : Prop :=
  var_fresh s /\ forall s' r, embedDBFlushVar c s = Ok (s', r) -> var_fresh s'.

(** Every read but an exhausted one starts inside the payload area of a page: the
    previous read did not end exactly at the end of a page. *)
Fixpoint reads_inside (c : cfg) (s : state) (st : stream) (ns : list Z) : Prop :=
  match ns with
  | [] => True
  | n :: ns' =>
      0 <= n < 2 ^ 32 /\
      (fileOffset st mod pageSize c <> 0 \/ bytesRead st = totalBytes st) /\
      forall s' st' o, embedDBVarDataStreamRead c s st n = Ok (s', st', o) ->
        reads_inside c s' st' ns'
  end.
Definition lookup_inside (c : cfg) (s : state) (k : Z) (ns : list Z) : Prop :=
  forall s' r d st, embedDBGetVar c s k = Ok (s', r, d, Some st) -> reads_inside c s' st ns.

(** ** Payloads on variable pages *)

(** Byte [a] of a sequence of pages of [P] bytes; the position after [a] when the
    first [H] bytes of each page are a header; [n] payload bytes from [a] on. *)
Definition vget (P : Z) (PS : list page) (a : Z) : Z :=
  nth (Z.to_nat (a mod P)) (nth (Z.to_nat (a / P)) PS []) 0.
Definition vnext (P H a : Z) : Z := if (a + 1) mod P =? 0 then a + 1 + H else a + 1.
Fixpoint vread (P H : Z) (PS : list page) (a : Z) (n : nat) : list Z :=
  match n with
  | O => []
  | S n' => vget P PS a :: vread P H PS (vnext P H a) n'
  end.
Fixpoint vskip (P H a : Z) (n : nat) : Z :=
  match n with
  | O => a
  | S n' => vskip P H (vnext P H a) n'
  end.

(** Specification of record-level consistency together with variable data: the
    store after stops and crashes, and lifetimes. *)
From Verif Require Import Base Config Storage DB VarData Recovery Spec SpecPage SpecStore Run SpecRun SpecReopen SpecVar SpecRlc.
Open Scope Z_scope.

(** ** The store *)
(** The log, the payloads stored so far by key, and the keys of records that were
    on storage when the power failed before their payload was. *)
Record wstore := mkW { wlog : log; wpay : list (Z * list Z); wtorn : list Z }.
Definition emptyW : wstore := mkW emptyLog [] [].

Definition wstep (N D B : Z) (W : wstore) (o : vop) : wstore :=
  match o with
  | VPut k d v =>
      mkW (rlc_put N D B (wlog W) (mkR k d 0))
          (match v with Some b => (k, b) :: wpay W | None => wpay W end) (wtorn W)
  | VFlush => match cur (wlog W) with [] => W | _ => mkW (rlc_seal D B (wlog W)) (wpay W) (wtorn W) end
  | VGet _ | VGetVar _ _ => W
  end.

(** What a crash inside an operation may leave: all or nothing of it; the sealed
    page without the new record; the new record without its payload. *)
Definition wcrash (N D B : Z) (W : wstore) (o : vop) : list wstore :=
  [W; wstep N D B W o] ++
  match o with
  | VPut k d v =>
      (if zlen (cur (wlog W)) >=? N then [mkW (rlc_seal D B (wlog W)) (wpay W) (wtorn W)] else []) ++
      (match v with
       | Some _ => [mkW (rlc_put N D B (wlog W) (mkR k d 0)) (wpay W) (k :: wtorn W)]
       | None => []
       end)
  | _ => []
  end.

(** What a call returns: every put and flush succeeds, a lookup returns the record
    retained under the key. *)
Definition wout_ok (W : wstore) (o : vop) (x : vout) : Prop :=
  let found k := find_key k (retained (wlog W)) in
  match o, x with
  | VPut _ _ _, OVPut r => r = 0
  | VFlush, OVFlush r => r = 0
  | VGet k, OVGet r d => r = (match found k with Some _ => 0 | None => -1 end) /\ d = option_map rdata (found k)
  | VGetVar k _, OVGetVar _ d _ => d = option_map rdata (found k)
  | _, _ => False
  end.

(** ** Lifetimes *)
(** Opening after attempts that were cut off, as [boot] (SpecRlc.v).  Opening
    existing storage writes only to the data file, before the variable file is
    opened (embedDB.c:139-272, 724-858); an image taken then shows no variable file,
    so the variable file is the one before the attempt. *)
Fixpoint wboot (k : disk) (tries : list (cfg * nat)) (c' : cfg) : res (state * Z) :=
  match tries with
  | [] => embedDBInit c' k []
  | (c1, i) :: t =>
      '(s, _) <- embedDBInit c1 k [] ;;
      wboot (match nth_error (trace (sio s)) i with
             | Some im => mkDisk (kD (disk_of_image im)) (kI (disk_of_image im)) (kV k)
             | None => k
             end) t c'
  end.

Inductive wevent :=
| WOp (o : vop)
| WStop (tries : list (cfg * nat)) (c' : cfg)
    (* stop between two operations, then open *)
| WCrash (o : vop) (i : nat) (tries : list (cfg * nat)) (c' : cfg).
    (* stop inside [o], all but its last [i] storage operations happened, then open *)

Definition wevent_step (c : cfg) (s : state) (e : wevent) : res (cfg * state * option vout) :=
  match e with
  | WOp o => '(s, x) <- vstep c s o ;; Ok (c, s, Some x)
  | WStop t c' =>
      '(s, r) <- wboot (disk_of s) t c' ;;
      if r =? 0 then Ok (c', s, None) else UB
  | WCrash o i t c' =>
      '(s', _) <- vstep c s o ;;
      '(s, r) <- wboot (cut s s' i) t c' ;;
      if r =? 0 then Ok (c', s, None) else UB
  end.
Fixpoint wlifetime (c : cfg) (s : state) (es : list wevent) : res (cfg * state * list (option vout)) :=
  match es with
  | [] => Ok (c, s, [])
  | e :: es' =>
      '(c, s, x) <- wevent_step c s e ;;
      '(c, s, xs) <- wlifetime c s es' ;;
      Ok (c, s, x :: xs)
  end.

(** The specification: stopping loses nothing, a crash inside an operation at most
    that operation or its payload. *)
Inductive wlife (N D B : Z) : wstore -> list wevent -> list (option vout) -> wstore -> Prop :=
| wl_nil W : wlife N D B W [] [] W
| wl_op W o x es xs W' :
    wout_ok W o x -> wlife N D B (wstep N D B W o) es xs W' ->
    wlife N D B W (WOp o :: es) (Some x :: xs) W'
| wl_stop W t c' es xs W' :
    wlife N D B W es xs W' ->
    wlife N D B W (WStop t c' :: es) (None :: xs) W'
| wl_cut W o i t c' W1 es xs W' :
    In W1 (wcrash N D B W o) -> wlife N D B W1 es xs W' ->
    wlife N D B W (WCrash o i t c' :: es) (None :: xs) W'.

(** ** Lifetimes covered *)
Record wdb (c : cfg) (KB PB VB : Z) : Prop := {
  wd_rlc : rlc_db c KB PB;
  wd_use : useVar c = true;
  wd_num : 2 * eraseSize c <= numVar c;
  wd_mod : numVar c mod eraseSize c = 0;
  wd_area : numVar c * pageSize c <= 2 ^ 31;
  wd_VB : VB <= 2 ^ 32;
  wd_fill : eraseFill c = None \/ VB <= numVar c * pageSize c;
  wd_buf : 4 <= bufBlocks c
}.
Definition wreopen (c c' : cfg) (KB PB VB n : Z) : Prop :=
  rlc_reopen c c' KB PB n /\ numVar c' = numVar c /\ wdb c' KB PB VB.

Definition wop_plain (c : cfg) (KB : Z) (o : vop) : Prop :=
  match o with
  | VPut k d v => 0 <= k < KB /\ length d = dsz c /\ (v <> None -> 0 < k)
  | VFlush => True
  | VGet k => 0 <= k < KB
  | VGetVar k ns => 0 <= k < KB /\ Forall (fun n => 0 <= n < 2 ^ 32) ns
  end.
Definition wev_op (e : wevent) : option vop :=
  match e with WOp o => Some o | WStop _ _ => None | WCrash o _ _ _ => Some o end.
Definition wev_ops (es : list wevent) : list vop :=
  flat_map (fun e => match wev_op e with Some o => [o] | None => [] end) es.
Definition wev_cfgs (e : wevent) : list cfg :=
  match e with WOp _ => [] | WStop t c' => c' :: map fst t | WCrash _ _ t c' => c' :: map fst t end.
Definition vput_keys (h : list vop) : list Z :=
  flat_map (fun o => match o with VPut k _ _ => [k] | _ => [] end) h.
(** Keys ascend over the whole lifetime; a put with data has a key above 0
    (recovery takes a single variable page with key 0 for an empty area). *)
Record wok (c : cfg) (KB PB VB : Z) (es : list wevent) : Prop := {
  wo_ops : Forall (wop_plain c KB) (wev_ops es);
  wo_asc : zascending (vput_keys (wev_ops es));
  wo_cfgs : Forall (fun e => Forall (fun c' => wreopen c c' KB PB VB (zlen (wev_ops es))) (wev_cfgs e)) es;
  wo_fits : zlen (wev_ops es) + maxErr c < PB;
  wo_cost : vcosts c (wev_ops es) + 2 * pageSize c < VB
}.

(** As [quiet_step]; a stream lookup inside a lifetime is of a record that is not
    in the write buffer (embedDBGetVar copies the write buffer over the data page
    in the read buffer, C15). *)
Definition as_hop (o : vop) : hop :=
  match o with VPut k d _ => HPut k d | VFlush => HFlush | VGet k | VGetVar k _ => HGet k end.
Definition wquiet_step (c : cfg) (s : state) (o : vop) : Prop :=
  quiet_step c s (as_hop o) /\
  forall k ns, o = VGetVar k ns -> exists d, searchBuffer c (wbuf (sd s)) k = Ok (-1, d).
Fixpoint wquiet (c : cfg) (s : state) (es : list wevent) : Prop :=
  match es with
  | [] => True
  | e :: es' =>
      (forall o, wev_op e = Some o -> wquiet_step c s o) /\
      forall c1 s1 x, wevent_step c s e = Ok (c1, s1, x) -> wquiet c1 s1 es'
  end.

Definition wcreated (c : cfg) (KB PB VB : Z) (k : disk) (s : state) : Prop :=
  wdb c KB PB VB /\ useReset c = true /\ maxErr c < PB /\ embedDBInit c k [] = Ok (s, 0).

(** The payload of key [k] cannot have been overwritten: the variable area never
    filled up, or few enough pages were written since the state [s'] in which [k]
    was stored. *)
Definition wintact (VB : Z) (c : cfg) (s : state) (es : list wevent) (s1 : state) (k : Z) : Prop :=
  VB <= numVar c * pageSize c \/
  exists es1 e es2 d v c' s' xs, es = es1 ++ e :: es2 /\ wev_op e = Some (VPut k d v) /\
    wlifetime c s es1 = Ok (c', s', xs) /\
    nextV (sv s1) + 2 - nextV (sv s') <= numVar c - eraseSize c.

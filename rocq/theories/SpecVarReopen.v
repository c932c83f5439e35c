(** Specification of closing and reopening a database with variable data: which
    records and payloads a reopened database has to serve. *)
From Verif Require Import Base Config Storage DB VarData Recovery Spec SpecPage SpecStore Run SpecRun SpecReopen SpecReopenIdx SpecVar.
Open Scope Z_scope.

(** A session may stop between any two calls (embedDBClose does not flush); the
    storage is then opened again, possibly with other search parameters.  In
    [VEvCrash o i c' b] the power fails in the call [o], after [i + 1] of its storage
    operations or right after it when it makes fewer, and the storage is opened
    again; [b] tells whether the data page written by [o] is found then. *)
Inductive vevent :=
| VEvOp (o : vop)
| VEvReopen (c' : cfg)
| VEvCrash (o : vop) (i : nat) (c' : cfg) (b : bool).

Definition vevent_step (c : cfg) (s : state) (e : vevent) : res (cfg * state * option vout) :=
  match e with
  | VEvOp o => '(s, x) <- vstep c s o ;; Ok (c, s, Some x)
  | VEvReopen c' =>
      '(s, r) <- embedDBInit c' (disk_of s) [] ;;
      if r =? 0 then Ok (c', s, None) else UB
  | VEvCrash o i c' _ =>
      '(s1, _) <- vstep c s o ;;
      '(s, r) <- embedDBInit c' (disk_of_image (crash_image s s1 i)) [] ;;
      if r =? 0 then Ok (c', s, None) else UB
  end.
Fixpoint vlifetime (c : cfg) (s : state) (es : list vevent) : res (cfg * state * list (option vout)) :=
  match es with
  | [] => Ok (c, s, [])
  | e :: es' =>
      '(c, s, x) <- vevent_step c s e ;;
      '(c, s, xs) <- vlifetime c s es' ;;
      Ok (c, s, x :: xs)
  end.

(** The payloads left after a stop: those of records that were not in the write
    buffer. *)
Definition survivors (V : vstore) : list (Z * list Z) :=
  filter (fun e => negb (existsb (Z.eqb (fst e)) (map rkey (cur (vlog V))))) (vpay V).

(** The specification of a lifetime: the configuration, the store, and the keys of
    all puts accepted so far, those lost by a stop included. *)
Definition vspec_state : Type := cfg * vstore * list Z.
Definition seen_after (V : vstore) (seen : list Z) (o : vop) : list Z :=
  match o with VPut k _ _ => if refused (vlog V) k then seen else seen ++ [k] | _ => seen end.
(** The store whose pages are on storage when the power fails in [o]. *)
Definition vcrash_store (c : cfg) (V : vstore) (o : vop) (b : bool) : vstore :=
  if b then vspec_step (maxRec c) (numData c) (eraseSize c) V o else V.
Definition vevent_spec (x : vspec_state) (e : vevent) : vspec_state :=
  let '(c, V, seen) := x in
  match e with
  | VEvOp o => (c, vspec_step (maxRec c) (numData c) (eraseSize c) V o, seen_after V seen o)
  | VEvReopen c' => (c', mkVS (recovered c (pages (vlog V))) (survivors V), seen)
  | VEvCrash o _ c' b =>
      let W := vcrash_store c V o b in
      (c', mkVS (recovered c (pages (vlog W))) (survivors W), seen_after V seen o)
  end.
Definition vlife_spec (c : cfg) (es : list vevent) : vspec_state := fold_left vevent_spec es (c, emptyVS, []).

(** Storage with [n] data pages written under [c] is reopened under [c'], as in
    [reopen_ok]. *)
Record vreopen_ok (c c' : cfg) (KB PB VB n : Z) : Prop := {
  vr_same : same_store c c';
  vr_num : numVar c' = numVar c;
  vr_set : setting c' KB PB;
  vr_var : var_setting c' VB;
  vr_idx : useIndex c' = true -> idx_blank c' /\ 4 * eraseSize c' <= numData c' /\
    numIndex c' mod eraseSize c' = 0 /\ 2 * eraseSize c' <= numIndex c';
  vr_buf : 4 + (if useIndex c' then 2 else 0) <= bufBlocks c';
  vr_blank : blank c';
  vr_reset : useReset c' = false;
  vr_err : maxErr c' <= 1 \/ n <= numData c';
  vr_len : n + maxErr c' < PB
}.

(** Events covered: accepted keys ascend over the whole lifetime, so a record lost
    by a stop is not stored again.  The power may fail in a put, though not in a
    flush (C07_var_flush_crash_refuted); on storage that really erases, not when
    the put erases the first block of the data area, which recovery starts from
    (C07_crash_after_erase_refuted). *)
Definition vput_ok (KB PB : Z) (x : vspec_state) (o : vop) : Prop :=
  let '(c, V, seen) := x in
  vop_ok c KB (vlog V) o /\
  (forall k d v, o = VPut k d v -> refused (vlog V) k = false -> forall y, In y seen -> y < k) /\
  zlen (pages (vlog V)) + 1 + maxErr c < PB.
Definition block0_safe (c : cfg) (n : Z) : Prop := eraseFill c = None \/ n = 0 \/ n mod numData c <> 0.
Definition vevent_ok (KB PB VB : Z) (x : vspec_state) (e : vevent) : Prop :=
  let '(c, V, seen) := x in
  match e with
  | VEvOp o => vput_ok KB PB x o
  | VEvReopen c' => vreopen_ok c c' KB PB VB (zlen (pages (vlog V)))
  | VEvCrash o _ c' _ =>
      (exists k d v, o = VPut k d v) /\ vput_ok KB PB x o /\ block0_safe c (zlen (pages (vlog V))) /\
      vreopen_ok c c' KB PB VB (zlen (pages (vlog V)) + 1)
  end.
Fixpoint vlife_ok (KB PB VB : Z) (x : vspec_state) (es : list vevent) : Prop :=
  match es with
  | [] => True
  | e :: es' => vevent_ok KB PB VB x e /\ vlife_ok KB PB VB (vevent_spec x e) es'
  end.

(** As [vcalm]; recovery takes a variable area whose only page carries key 0 for an
    empty one (C06_var_key_zero_refuted), so such storage is not reopened. *)
Definition var_anchored (c : cfg) (s : state) : Prop :=
  nextV (sv s) = 1 -> le_dec (rd (fpg (fV (sio s)) 0) 4 (Z.to_nat (keySize c))) <> 0.
Definition image_anchored (c : cfg) (im : file * file * file) : Prop :=
  flen (snd im) = 1 -> le_dec (rd (fpg (snd im) 0) 4 (Z.to_nat (keySize c))) <> 0.
(** [b] is what recovery after the crash finds. *)
Definition crash_calm (c : cfg) (s : state) (o : vop) (i : nat) (c' : cfg) (b : bool) : Prop :=
  vcalm c s [o] /\
  forall s1 x, vstep c s o = Ok (s1, x) -> image_anchored c (crash_image s s1 i) /\
    forall s2 r, embedDBInit c' (disk_of_image (crash_image s s1 i)) [] = Ok (s2, r) ->
      nextD (sd s2) = if b then nextD (sd s1) else nextD (sd s).
Fixpoint vlife_calm (c : cfg) (s : state) (es : list vevent) : Prop :=
  match es with
  | [] => True
  | e :: es' =>
      match e with
      | VEvOp o => vcalm c s [o]
      | VEvReopen _ => var_anchored c s
      | VEvCrash o i c' b => crash_calm c s o i c' b
      end /\
      forall c' s' x, vevent_step c s e = Ok (c', s', x) -> vlife_calm c' s' es'
  end.

(** Bytes of the variable area a lifetime may use up. *)
Definition vlife_cost (c : cfg) (es : list vevent) : Z :=
  fold_right (fun e z => match e with VEvOp o | VEvCrash o _ _ _ => vcost c o | VEvReopen _ => 0 end + z) 0 es.

(** A lifetime [es] over the new database [s]. *)
Record vlife (c : cfg) (KB PB VB : Z) (dk : disk) (s : state) (es : list vevent) : Prop := {
  vl_set : setting c KB PB;
  vl_var : var_setting c VB;
  vl_reset : useReset c = true;
  vl_err : maxErr c < PB;
  vl_init : embedDBInit c dk [] = Ok (s, 0);
  vl_ops : vlife_ok KB PB VB (c, emptyVS, []) es;
  vl_calm : vlife_calm c s es;
  vl_cost : vlife_cost c es + 2 * pageSize c < VB
}.

(** What the calls of a lifetime return. *)
Fixpoint vlife_outs (x : vspec_state) (es : list vevent) (ys : list (option vout)) : Prop :=
  match es, ys with
  | [], [] => True
  | e :: es', y :: ys' =>
      match e, y with
      | VEvOp o, Some z => vout_ok (fst (fst x)) (snd (fst x)) o z
      | VEvReopen _, None | VEvCrash _ _ _ _, None => True
      | _, _ => False
      end /\ vlife_outs (vevent_spec x e) es' ys'
  | _, _ => False
  end.

(** Every put is accepted and carries variable data. *)
Fixpoint vlife_full (x : vspec_state) (es : list vevent) : Prop :=
  match es with
  | [] => True
  | e :: es' =>
      match e with VEvOp o | VEvCrash o _ _ _ => full_op (snd (fst x)) o | VEvReopen _ => True end /\
      vlife_full (vevent_spec x e) es'
  end.

(** The payload of key [k] cannot have been overwritten: the variable area never
    filled up, or few enough pages were written since the state [s1] in which [k]
    was stored.  Recovery gives up one page more than writing does. *)
Definition vlife_intact (VB : Z) (c : cfg) (s : state) (es : list vevent) (s2 : state) (k : Z) : Prop :=
  VB <= numVar c * pageSize c \/
  exists es1 d b es2 c1 s1 xs, es = es1 ++ VEvOp (VPut k d (Some b)) :: es2 /\
    vlifetime c s es1 = Ok (c1, s1, xs) /\
    refused (vlog (snd (fst (vlife_spec c es1)))) k = false /\
    nextV (sv s2) + 2 - nextV (sv s1) <= numVar c - eraseSize c.

(** As [var_clean]; the flush matters for buffered records only. *)
Definition var_ready (c : cfg) (s : state) (V : vstore) (k : Z) : Prop :=
  var_fresh s /\ (In k (map rkey (cur (vlog V))) -> var_clean c s).

(** Page [p] holds the records [rs] of the abstract store, which does not say where
    their payloads lie. *)
Definition stores (c : cfg) (p : page) (rs : list rcd) : Prop :=
  exists R, map (fun r => mkR (rkey r) (rdata r) 0) R = rs /\ holds c p R.

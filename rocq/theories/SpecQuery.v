(** Specification of the query operators: relational algebra on lists of records,
    and what it means for an operator to yield a list of records. *)
From Verif Require Import Base Config Storage DB Recovery Schema Query Spec SpecUtil SpecPage SpecStore Run SpecRun SpecIter.
Open Scope Z_scope.

Definition bytes_ok (l : list Z) : Prop := Forall (fun b => 0 <= b < 256) l.

(** Column descriptors a schema can hold (schema.c:58-78); the number of columns
    is a uint8_t. *)
Definition schema_ok (s : list Z) : Prop := Forall (fun c => c <> 0 /\ -128 < c < 128) s /\ zlen s < 256.

(** A record of schema [s]: the bytes of its columns, one after the other. *)
Definition row_ok (s : list Z) (r : list Z) : Prop := bytes_ok r /\ zlen r = widths s.

Definition col_desc (s : list Z) (col : Z) : Z := nth (Z.to_nat col) s 0.
Definition column (s : list Z) (col : Z) (r : list Z) : list Z :=
  firstn (Z.to_nat (Z.abs (col_desc s col))) (skipn (Z.to_nat (widths (firstn (Z.to_nat col) s))) r).
(** The integer in a column. *)
Definition field (s : list Z) (col : Z) (r : list Z) : Z :=
  col_value (col_desc s col <? 0) (column s col r).

(** ** Selection *)
Definition op_test (operation a b : Z) : bool :=
  match operation with
  | 0 => b <? a
  | 1 => a <? b
  | 2 => b <=? a
  | 3 => a <=? b
  | 4 => a =? b
  | 5 => negb (a =? b)
  | _ => false
  end.
Definition selects (s : list Z) (col oper : Z) (val r : list Z) : bool :=
  op_test oper (field s col r)
    (col_value (col_desc s col <? 0) (firstn (Z.to_nat (Z.abs (col_desc s col))) val)).

(** ** Projection *)
Definition project (s : list Z) (cols : list Z) (r : list Z) : list Z :=
  flat_map (fun col => column s col r) cols.

(** ** Key join: all pairs with equal first columns *)
Definition joined (s1 s2 : list Z) (rs1 rs2 : list (list Z)) : list (list Z) :=
  flat_map (fun r1 => map (fun r2 => r1 ++ r2)
    (filter (fun r2 => field s2 0 r2 =? field s1 0 r1) rs2)) rs1.
(** First column strictly ascending. *)
Fixpoint keys_asc (s : list Z) (rs : list (list Z)) : Prop :=
  match rs with
  | r :: ((r' :: _) as rest) => field s 0 r < field s 0 r' /\ keys_asc s rest
  | _ => True
  end.

(** ** Aggregation: maximal runs of neighbours in one group *)
Fixpoint runs (grp : list Z -> list Z -> bool) (rs : list (list Z)) : list (list (list Z)) :=
  match rs with
  | [] => []
  | r :: rest =>
      match runs grp rest with
      | (x :: g) :: gs => if grp r x then (r :: x :: g) :: gs else [r] :: (x :: g) :: gs
      | _ => [[r]]
      end
  end.

(** What an aggregate function computes: the kinds of advancedQueries.c:834-1142.
    [fl signed sum count] stands for the bytes of the floating-point quotient. *)
Inductive afun :=
| FCount
| FSum (col : Z)
| FMin (col size : Z)
| FMax (col size : Z)
| FAvg (col size : Z) (fl : bool -> Z -> Z -> list Z).

Definition total (s : list Z) (col : Z) (g : list (list Z)) : Z :=
  fold_right (fun r a => field s col r + a) 0 g.
Definition least (s : list Z) (col : Z) (g : list (list Z)) : Z :=
  match g with [] => 0 | r :: g' => fold_left (fun a r => Z.min a (field s col r)) g' (field s col r) end.
Definition greatest (s : list Z) (col : Z) (g : list (list Z)) : Z :=
  match g with [] => 0 | r :: g' => fold_left (fun a r => Z.max a (field s col r)) g' (field s col r) end.

(** An average is a float of 4 bytes or, if more are asked for, a double of 8. *)
Definition float_size (size : Z) : Z := if size <=? 4 then 4 else 8.

(** The column computed for one run [g]. *)
Definition afun_col (s : list Z) (f : afun) (g : list (list Z)) : list Z :=
  match f with
  | FCount => le_enc 4 (zlen g)
  | FSum col => le_enc 8 (total s col g)
  | FMin col sz => le_enc (Z.to_nat (Z.abs sz)) (least s col g)
  | FMax col sz => le_enc (Z.to_nat (Z.abs sz)) (greatest s col g)
  | FAvg col sz fl => firstn (Z.to_nat (float_size sz)) (fl (col_desc s col <? 0) (total s col g) (zlen g))
  end.
Definition afun_desc (f : afun) : Z :=
  match f with FCount => 4 | FSum _ => -8 | FMin _ sz | FMax _ sz => sz | FAvg _ sz _ => float_size sz end.
Definition aggregated (s : list Z) (fs : list afun) (g : list (list Z)) : list Z :=
  flat_map (fun f => afun_col s f g) fs.

(** Functions covered: the column exists; the size passed for a minimum or
    maximum is that of the column; sums of unsigned columns of at most 8 bytes and
    signed columns of at most 4 bytes (wider signed columns shift by more than the
    width of int, see C25_signed_wide_sum_refuted). *)
Definition col_in (s : list Z) (col : Z) : Prop := 0 <= col < zlen s.
Definition afun_ok (s : list Z) (f : afun) : Prop :=
  match f with
  | FCount => True
  | FSum col => col_in s col /\ -4 <= col_desc s col <= 8
  | FMin col sz | FMax col sz => col_in s col /\ sz = col_desc s col
  | FAvg col sz fl => col_in s col /\ -4 <= col_desc s col <= 4 /\
      forall b x n, bytes_ok (fl b x n) /\ float_size sz <= zlen (fl b x n)
  end.

(** The aggregate function object a client creates for it. *)
Definition afun_make (f : afun) : aggf :=
  match f with
  | FCount => createCountAggregate
  | FSum col => createSumAggregate col
  | FMin col sz => createMinAggregate col sz
  | FMax col sz => createMaxAggregate col sz
  | FAvg col sz fl => createAvgAggregate col sz fl
  end.

(** ** Operators
    [ended k o]: the next [k] calls of [o]'s next function report the end.
    [yields k o rs]: the next calls return the records [rs], each in the record
    buffer, and the [k] calls after them report the end.  [EI] is what the
    databases satisfy before and after every call, so other users of them may
    run between the calls.  [F]: recursion depth and loop bound of the model.
    [keep]: calls that report the end leave the record buffer as it was. *)
Section Yields.
  Variables (EI : env -> Prop) (F : nat) (sc : list Z) (keep : bool).

  Definition shaped (o : op) : Prop :=
    op_schema o = Some sc /\ exists b, op_buf o = Some b /\ row_ok sc b.

  Fixpoint ended (k : nat) (o : op) : Prop :=
    shaped o /\
    match k with
    | O => True
    | S k' => forall e f, EI e -> (F <= f)%nat ->
        exists e' o', op_next f e o = Ok (e', o', false) /\ EI e' /\
          (keep = true -> op_buf o' = op_buf o) /\ ended k' o'
    end.

  Fixpoint yields (k : nat) (o : op) (rs : list (list Z)) : Prop :=
    match rs with
    | [] => ended k o
    | r :: rs' => shaped o /\
        forall e f, EI e -> (F <= f)%nat ->
        exists e' o', op_next f e o = Ok (e', o', true) /\ EI e' /\
          op_buf o' = Some r /\ yields k o' rs'
    end.
End Yields.

(** After its init function, [o] has schema [sc], a zeroed record buffer, and
    yields [rs]. *)
Definition starts (EI : env -> Prop) (sc : list Z) (keep : bool) (k : nat) (o : op) (rs : list (list Z)) : Prop :=
  exists F, forall e, EI e -> exists o', op_init e o = Ok o' /\ op_buf o' = Some (repeat 0 (Z.to_nat (widths sc))) /\
    yields EI F sc keep k o' rs.

(** ** Whole queries *)
Inductive plan :=
| PScan (db : nat) (q : query) (s : list Z)
| PSel (col oper : Z) (val : list Z) (p : plan)
| PProj (cols : list Z) (p : plan)
| PAgg (grp : list Z -> list Z -> bool) (fs : list afun) (p : plan)
| PJoin (p1 p2 : plan).

(** Creating the operators (createTableScanOperator .. createKeyJoinOperator,
    advancedQueries.c:205-241, 330-359, 437-465, 621-652, 789-816). *)
Fixpoint create (e : env) (p : plan) : res op :=
  match p with
  | PScan db q s =>
      it <- embedDBInitIterator (fst (e db)) (snd (e db)) (qMinK q) (qMaxK q) (qMinD q) (qMaxD q) ;;
      Ok (OScan db it s None)
  | PSel col oper val p => i <- create e p ;; Ok (OSel col oper val i None None)
  | PProj cols p => i <- create e p ;; Ok (OProj cols i None None)
  | PAgg grp fs p => i <- create e p ;; Ok (OAgg grp (map afun_make fs) i None None None false)
  | PJoin p1 p2 => i1 <- create e p1 ;; i2 <- create e p2 ;; Ok (OJoin i1 i2 None None true)
  end.

(** Create the operators, initialise them, and call next until it returns 0
    (at most [n] times), collecting the record buffer (exec,
    advancedQueries.c:121-123). *)
Fixpoint fetch (f n : nat) (e : env) (o : op) : res (env * list (list Z)) :=
  match n with
  | O => Fuel
  | S n' =>
      '(e, o, r) <- op_next f e o ;;
      if negb r then Ok (e, [])
      else b <- deref (op_buf o) ;; '(e, xs) <- fetch f n' e o ;; Ok (e, b :: xs)
  end.
Definition run_plan (f n : nat) (e : env) (p : plan) : res (env * list (list Z)) :=
  o <- create e p ;; o <- op_init e o ;; fetch f n e o.

(** The meaning of a plan over databases [db]: configuration and log. *)
Section Denote.
  Variable db : nat -> cfg * log.

  Fixpoint plan_schema (p : plan) : list Z :=
    match p with
    | PScan _ _ s => s
    | PSel _ _ _ p => plan_schema p
    | PProj cols p => map (col_desc (plan_schema p)) cols
    | PAgg _ fs _ => map afun_desc fs
    | PJoin p1 p2 => plan_schema p1 ++ plan_schema p2
    end.

  (** A record of a table: key bytes, then data bytes. *)
  Definition row (c : cfg) (r : rcd) : list Z := le_enc (ksz c) (rkey r) ++ rdata r.

  Fixpoint denote (p : plan) : list (list Z) :=
    match p with
    | PScan n q _ => map (row (fst (db n))) (filter (in_query (fst (db n)) q) (retained (snd (db n))))
    | PSel col oper val p => filter (selects (plan_schema p) col oper val) (denote p)
    | PProj cols p => map (project (plan_schema p) cols) (denote p)
    | PAgg grp fs p => map (aggregated (plan_schema p) fs) (runs grp (denote p))
    | PJoin p1 p2 => joined (plan_schema p1) (plan_schema p2) (denote p1) (denote p2)
    end.

  (** Does the operator leave its record buffer alone when it reports the end?
      A table scan with bounds copies the last record it rejected into it. *)
  Definition plan_keeps (p : plan) : bool :=
    match p with
    | PScan _ q _ => match qMinK q, qMaxK q, qMinD q, qMaxD q with None, None, None, None => true | _, _, _, _ => false end
    | _ => true
    end.
  (** Does it go on reporting the end? *)
  Fixpoint plan_sticky (p : plan) : bool :=
    match p with
    | PScan _ _ _ => true
    | PSel _ _ _ p | PProj _ p | PAgg _ _ p => plan_sticky p
    | PJoin p1 p2 => plan_sticky p1 && plan_keeps p1 && plan_sticky p2 && plan_keeps p2
    end.

  Fixpoint plan_ok (KB : nat -> Z) (p : plan) : Prop :=
    schema_ok (plan_schema p) /\
    match p with
    | PScan n q s => query_ok (KB n) q /\ uses_bitmap (fst (db n)) q = false /\
        2 <= zlen s /\ col_desc s 0 = keySize (fst (db n)) /\
        widths s = keySize (fst (db n)) + dataSize (fst (db n))
    | PSel col oper val p => plan_ok KB p /\ col_in (plan_schema p) col /\
        bytes_ok val /\ Z.abs (col_desc (plan_schema p) col) <= zlen val
    | PProj cols p => plan_ok KB p /\ Forall (col_in (plan_schema p)) cols
    | PAgg grp fs p => plan_ok KB p /\ Forall (afun_ok (plan_schema p)) fs /\ plan_sticky p = true /\
        zlen (denote p) < 2 ^ 31
    | PJoin p1 p2 => plan_ok KB p1 /\ plan_ok KB p2 /\
        col_in (plan_schema p1) 0 /\ col_in (plan_schema p2) 0 /\ 0 < col_desc (plan_schema p1) 0 /\
        col_desc (plan_schema p1) 0 = col_desc (plan_schema p2) 0 /\
        keys_asc (plan_schema p1) (denote p1) /\ keys_asc (plan_schema p2) (denote p2)
    end.
End Denote.

(** A database: configuration and state, reached as in C01 and C04, that holds
    the log; the data of its records are bytes. *)
Inductive table (KB PB : Z) : cfg * state -> log -> Prop :=
| t_calm : forall c k h s xs, quiet c KB PB h -> calmly c k h s xs -> useBinary c = false ->
    Forall (fun r => bytes_ok (rdata r)) (accepted (spec_log c h)) -> table KB PB (c, s) (spec_log c h)
| t_nowrap : forall c k h s xs, scenario c KB PB h -> reached c k h s xs -> useBinary c = false ->
    zlen (pages (log_of c h)) <= numData c ->
    Forall (fun r => bytes_ok (rdata r)) (accepted (log_of c h)) -> table KB PB (c, s) (log_of c h).

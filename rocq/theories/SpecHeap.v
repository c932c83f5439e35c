(** Specification of the memory management of query operators: which tree of
    operators (Query.v) a set of heap blocks represents, and the life of a query on
    the heap. *)
From Verif Require Import Base Config Storage DB Recovery Schema Query Heap Spec SpecUtil SpecPage SpecStore Run SpecRun SpecIter SpecQuery.
Open Scope Z_scope.

(** The block numbers used by a tree of operators: the operator, its state, what the
    client provided (iterator, comparison value, aggregate functions), the inputs,
    the schema with its array, the record buffer, and for aggregates the buffer of
    the last record. *)
Inductive shape :=
| HScan (p st it : nat) (sp : option (nat * nat)) (bp : ptr)
| HProj (p st : nat) (i : shape) (sp : option (nat * nat)) (bp : ptr)
| HSel (p st v : nat) (i : shape) (sp : option (nat * nat)) (bp : ptr)
| HAgg (p st fn : nat) (i : shape) (sp : option (nat * nat)) (bp lp : ptr)
| HJoin (p st : nat) (i1 i2 : shape) (sp : option (nat * nat)) (bp : ptr).

Definition root (t : shape) : nat :=
  match t with HScan p _ _ _ _ | HProj p _ _ _ _ | HSel p _ _ _ _ _ | HAgg p _ _ _ _ _ _ | HJoin p _ _ _ _ _ => p end.
Definition schp (t : shape) : option (nat * nat) :=
  match t with HScan _ _ _ s _ | HProj _ _ _ s _ | HSel _ _ _ _ s _ | HAgg _ _ _ _ s _ _ | HJoin _ _ _ _ s _ => s end.
Definition bufp (t : shape) : ptr :=
  match t with HScan _ _ _ _ b | HProj _ _ _ _ b | HSel _ _ _ _ _ b | HAgg _ _ _ _ _ b _ | HJoin _ _ _ _ _ b => b end.
Definition ol (p : ptr) : list nat := match p with Some b => [b] | None => [] end.
Definition os (s : option (nat * nat)) : list nat := match s with Some (a, b) => [a; b] | None => [] end.

(** All blocks of a tree. *)
Fixpoint fp (t : shape) : list nat :=
  match t with
  | HScan p st it sp bp => p :: st :: it :: os sp ++ ol bp
  | HProj p st i sp bp => p :: st :: os sp ++ ol bp ++ fp i
  | HSel p st v i sp bp => p :: st :: v :: os sp ++ ol bp ++ fp i
  | HAgg p st fn i sp bp lp => p :: st :: fn :: os sp ++ ol bp ++ ol lp ++ fp i
  | HJoin p st i1 i2 sp bp => p :: st :: os sp ++ ol bp ++ fp i1 ++ fp i2
  end.
(** The operators among them, and what the client provided. *)
Fixpoint structs (t : shape) : list nat :=
  match t with
  | HScan p _ _ _ _ => [p]
  | HProj p _ i _ _ | HSel p _ _ i _ _ | HAgg p _ _ i _ _ _ => p :: structs i
  | HJoin p _ i1 i2 _ _ => p :: structs i1 ++ structs i2
  end.
Fixpoint client (t : shape) : list nat :=
  match t with
  | HScan _ _ it _ _ => [it]
  | HProj _ _ i _ _ => client i
  | HSel _ _ v i _ _ => v :: client i
  | HAgg _ _ fn i _ _ _ => fn :: client i
  | HJoin _ _ i1 i2 _ _ => client i1 ++ client i2
  end.
(** The operators that embedDBFreeOperatorRecursive does not reach after close:
    inputs of aggregates and second inputs of joins. *)
Fixpoint unreached (t : shape) : list nat :=
  match t with
  | HScan _ _ _ _ _ => []
  | HProj _ _ i _ _ | HSel _ _ _ i _ _ => unreached i
  | HAgg _ _ _ i _ _ _ => structs i
  | HJoin _ _ i1 i2 _ _ => unreached i1 ++ structs i2
  end.

(** The operator structure at the root of a tree. *)
Definition opr_of (t : shape) : opr :=
  let s := option_map fst (schp t) in
  match t with
  | HScan _ st _ _ b => mkOpr KScan (Some st) None s b
  | HProj _ st i _ b => mkOpr KProj (Some st) (Some (root i)) s b
  | HSel _ st _ i _ b => mkOpr KSel (Some st) (Some (root i)) s b
  | HAgg _ st _ i _ b _ => mkOpr KAgg (Some st) (Some (root i)) s b
  | HJoin _ st i1 _ _ b => mkOpr KJoin (Some st) (Some (root i1)) s b
  end.

Definition bytes_in (m : mem) (p : ptr) (b : option (list Z)) : Prop :=
  match p, b with
  | None, None => True
  | Some x, Some l => m_blk m x = Some (BBytes l)
  | _, _ => False
  end.
Definition schema_in (m : mem) (p : option (nat * nat)) (s : option schema) : Prop :=
  match p, s with
  | None, None => True
  | Some (x, y), Some l => m_blk m x = Some (BSchema (Some y)) /\ m_blk m y = Some (BCols l)
  | _, _ => False
  end.

(** The blocks [t] of memory [m] represent the operator tree [o]. *)
Fixpoint rep (m : mem) (o : op) (t : shape) : Prop :=
  m_blk m (root t) = Some (BOp (opr_of t)) /\ schema_in m (schp t) (op_schema o) /\ bytes_in m (bufp t) (op_buf o) /\
  match o, t with
  | OScan db it _ _, HScan _ st ip _ _ => m_blk m st = Some (BScan db (Some ip)) /\ m_blk m ip = Some (BIter it)
  | OProj cols i _ _, HProj _ st ti _ _ => m_blk m st = Some (BProj cols) /\ rep m i ti
  | OSel col oper val i _ _, HSel _ st v ti _ _ =>
      m_blk m st = Some (BSel col oper (Some v)) /\ m_blk m v = Some (BBytes val) /\ rep m i ti
  | OAgg grp fns i _ _ lb usable, HAgg _ st fn ti _ _ lp =>
      (exists n, m_blk m st = Some (BAgg grp (Some fn) lp n usable) /\
         forall ins, lb <> None -> op_schema i = Some ins -> n = getRecordSizeFromSchema ins) /\
      m_blk m fn = Some (BFns fns) /\ bytes_in m lp lb /\ rep m i ti
  | OJoin i1 i2 _ _ first, HJoin _ st t1 t2 _ _ =>
      m_blk m st = Some (BJoin (Some (root t2)) first) /\ rep m i1 t1 /\ rep m i2 t2
  | _, _ => False
  end.

(** ** The life of a query on the heap *)

(** A block of the client (a variable or an allocation of its own). *)
Definition client_new (m : mem) (o : obj) : mem * nat :=
  (mset (mkM (S (m_next m)) (m_blk m) (m_fail m)) (m_next m) (Some o), m_next m).

(** Creating the operators of a plan.  The client makes the iterators, comparison
    values, aggregate functions and schemas; it frees a schema as soon as the table
    scan has copied it. *)
Fixpoint create_plan (e : env) (m : mem) (p : plan) : res (mem * ptr) :=
  match p with
  | PScan db q s =>
      it <- embedDBInitIterator (fst (e db)) (snd (e db)) (qMinK q) (qMaxK q) (qMinD q) (qMaxD q) ;;
      let '(m, ip) := client_new m (BIter it) in
      let '(m, a) := client_new m (BCols s) in
      let '(m, sp) := client_new m (BSchema (Some a)) in
      '(m, op) <- createTableScan_h m db (Some ip) (Some sp) ;;
      m <- freeSchema_h m (Some sp) ;;
      Ok (m, op)
  | PSel col oper val p =>
      '(m, i) <- create_plan e m p ;;
      let '(m, v) := client_new m (BBytes val) in
      createSelection_h m i col oper (Some v)
  | PProj cols p => '(m, i) <- create_plan e m p ;; createProjection_h m i cols
  | PAgg grp fs p =>
      '(m, i) <- create_plan e m p ;;
      let '(m, fn) := client_new m (BFns (map afun_make fs)) in
      createAggregate_h m i grp (Some fn)
  | PJoin p1 p2 =>
      '(m, i1) <- create_plan e m p1 ;;
      '(m, i2) <- create_plan e m p2 ;;
      createKeyJoin_h m i1 i2
  end.

(** Calling next until it returns 0 and copying the record buffer each time. *)
Fixpoint fetch_h (f n : nat) (e : env) (m : mem) (p : ptr) : res (env * mem * list (list Z)) :=
  match n with
  | O => Fuel
  | S n' =>
      '(e, m, r) <- next_h f e m p ;;
      if negb r then Ok (e, m, [])
      else
        o <- get_op m p ;;
        b <- get_bytes m (o_buf o) ;;
        '(e, m, xs) <- fetch_h f n' e m p ;; Ok (e, m, b :: xs)
  end.
Definition run_plan_h (f n : nat) (e : env) (m : mem) (p : plan) : res (env * mem * ptr * list (list Z)) :=
  '(m, o) <- create_plan e m p ;;
  m <- init_h f e m o ;;
  '(e, m, xs) <- fetch_h f n e m o ;;
  Ok (e, m, o, xs).

(** Freeing operators one by one. *)
Fixpoint free_each (m : mem) (l : list nat) : res mem :=
  match l with
  | [] => Ok m
  | b :: l' => m <- release m (Some b) ;; free_each m l'
  end.

Definition live (m : mem) (b : nat) : Prop := m_blk m b <> None.

(** Number of operators of a plan, of objects the client provides, and of
    operators below an aggregate or in the second input of a join. *)
Fixpoint plan_ops (p : plan) : nat :=
  match p with
  | PScan _ _ _ => 1
  | PSel _ _ _ p | PProj _ p | PAgg _ _ p => S (plan_ops p)
  | PJoin p1 p2 => S (plan_ops p1 + plan_ops p2)
  end.
Fixpoint plan_client (p : plan) : nat :=
  match p with
  | PScan _ _ _ => 1
  | PProj _ p => plan_client p
  | PSel _ _ _ p | PAgg _ _ p => S (plan_client p)
  | PJoin p1 p2 => plan_client p1 + plan_client p2
  end.
Fixpoint plan_unreached (p : plan) : nat :=
  match p with
  | PScan _ _ _ => 0
  | PSel _ _ _ p | PProj _ p => plan_unreached p
  | PAgg _ _ p => plan_ops p
  | PJoin p1 p2 => plan_unreached p1 + plan_ops p2
  end.

(** Memory before any of this: block numbers from [m_next] on are unused, and no
    allocation fails. *)
Definition mem_ok (m : mem) : Prop := (forall b, (m_next m <= b)%nat -> m_blk m b = None) /\ m_fail m = [].

(** Depth of a tree. *)
Fixpoint height (t : shape) : nat :=
  match t with
  | HScan _ _ _ _ _ => 1
  | HProj _ _ i _ _ | HSel _ _ _ i _ _ | HAgg _ _ _ i _ _ _ => S (height i)
  | HJoin _ _ i1 i2 _ _ => S (Nat.max (height i1) (height i2))
  end.
(** No join below has a record buffer yet. *)
Fixpoint joins_new (o : op) : Prop :=
  match o with
  | OScan _ _ _ _ => True
  | OProj _ i _ _ | OSel _ _ _ i _ _ | OAgg _ _ i _ _ _ _ => joins_new i
  | OJoin i1 i2 _ b _ => b = None /\ joins_new i1 /\ joins_new i2
  end.

(** What embedDBFreeOperatorRecursive leaves of a tree that has not been closed:
    the objects of the client, the last records of aggregates and everything in the
    second inputs of joins. *)
Fixpoint left_open (t : shape) : list nat :=
  match t with
  | HScan _ _ it _ _ => [it]
  | HProj _ _ i _ _ => left_open i
  | HSel _ _ v i _ _ => v :: left_open i
  | HAgg _ _ fn i _ _ lp => fn :: ol lp ++ left_open i
  | HJoin _ _ i1 i2 _ _ => left_open i1 ++ fp i2
  end.

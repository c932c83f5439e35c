(** Model of the memory management of src/query-interface/advancedQueries.c and
    schema.c: operators as structures on the heap that point to each other, their
    creation, init, next, close and free functions.

    Memory is a set of numbered blocks with typed contents.  malloc and calloc
    return a number never used before or, as told by the script [m_fail], NULL;
    fresh memory is shown as zero.  Reading or writing through NULL or a pointer to
    a freed block, reading a block at the wrong type, and freeing a block twice are
    undefined ([UB]).  [numCols] of a schema is the length of its array.  Function
    pointers are given by the kind of the operator: the create functions set them
    to the init, next and close function of one kind.  Iterators, aggregate
    functions and comparison values belong to the client; they are blocks too, so
    that sharing and premature frees of them are visible. *)
From Verif Require Import Base Config Spline Storage DB Schema Query.
Open Scope Z_scope.

(** A pointer: NULL or a block (the pointers of advancedQueries.h and schema.h). *)
Definition ptr := option nat.

(** Which create function made the operator (advancedQueries.c:231-233, 354-356,
    460-462, 647-649, 811-813). *)
Inductive kind := KScan | KProj | KSel | KAgg | KJoin.

(** embedDBOperator, advancedQueries.h:83-101. *)
Record opr := mkOpr { o_kind : kind; o_state : ptr; o_input : ptr; o_schema : ptr; o_buf : ptr }.
Definition set_state (o : opr) (p : ptr) := mkOpr (o_kind o) p (o_input o) (o_schema o) (o_buf o).
Definition set_input (o : opr) (p : ptr) := mkOpr (o_kind o) (o_state o) p (o_schema o) (o_buf o).
Definition set_schema (o : opr) (p : ptr) := mkOpr (o_kind o) (o_state o) (o_input o) p (o_buf o).
Definition set_buf (o : opr) (p : ptr) := mkOpr (o_kind o) (o_state o) (o_input o) (o_schema o) p.

(** Contents of a block: bytes; the array of a schema; embedDBSchema (schema.h:50-53);
    embedDBOperator; the states of a table scan (advancedQueries.c:223-225), a
    projection (332-340), a selection (361-365), an aggregate (470-477) and a join
    (654-657); an iterator; an array of aggregate functions. *)
Inductive obj :=
| BBytes (l : list Z)
| BCols (l : list Z)
| BSchema (cols : ptr)
| BOp (o : opr)
| BScan (db : nat) (it : ptr)
| BProj (cols : list Z)
| BSel (col oper : Z) (val : ptr)
| BAgg (grp : list Z -> list Z -> bool) (fns lastb : ptr) (size : Z) (usable : bool)
| BJoin (in2 : ptr) (first : bool)
| BIter (it : iter)
| BFns (fs : list aggf).

(** [m_next]: the next block number; [m_blk]: the live blocks; [m_fail]: which of
    the coming allocations fail. *)
Record mem := mkM { m_next : nat; m_blk : nat -> option obj; m_fail : list bool }.
Definition mset (m : mem) (b : nat) (o : option obj) : mem :=
  mkM (m_next m) (fun x => if Nat.eqb x b then o else m_blk m x) (m_fail m).

(** malloc / calloc (e.g. advancedQueries.c:215, schema.c:101), free
    (e.g. advancedQueries.c:193), and access through a pointer. *)
Definition alloc (m : mem) (o : obj) : mem * ptr :=
  match m_fail m with
  | true :: r => (mkM (m_next m) (m_blk m) r, None)
  | r => (mset (mkM (S (m_next m)) (m_blk m) (tl r)) (m_next m) (Some o), Some (m_next m))
  end.
Definition load (m : mem) (p : ptr) : res obj :=
  match p with
  | None => UB
  | Some b => match m_blk m b with Some o => Ok o | None => UB end
  end.
Definition store (m : mem) (p : ptr) (o : obj) : res mem :=
  _ <- load m p ;; match p with Some b => Ok (mset m b (Some o)) | None => UB end.
Definition release (m : mem) (p : ptr) : res mem :=
  match p with
  | None => Ok m
  | Some b => _ <- load m p ;; Ok (mset m b None)
  end.

(** Typed access (the casts of advancedQueries.c:142, 182-183, 255-256, 397, 488,
    539, 660). *)
Definition get_op (m : mem) (p : ptr) : res opr :=
  o <- load m p ;; match o with BOp x => Ok x | _ => UB end.
Definition get_bytes (m : mem) (p : ptr) : res (list Z) :=
  o <- load m p ;; match o with BBytes x => Ok x | _ => UB end.
Definition get_scan (m : mem) (p : ptr) : res (nat * ptr) :=
  o <- load m p ;; match o with BScan d i => Ok (d, i) | _ => UB end.
Definition get_iter (m : mem) (p : ptr) : res iter :=
  o <- load m p ;; match o with BIter x => Ok x | _ => UB end.
Definition get_proj (m : mem) (p : ptr) : res (list Z) :=
  o <- load m p ;; match o with BProj x => Ok x | _ => UB end.
Definition get_sel (m : mem) (p : ptr) : res (Z * Z * ptr) :=
  o <- load m p ;; match o with BSel a b c => Ok (a, b, c) | _ => UB end.
Definition get_agg (m : mem) (p : ptr) : res ((list Z -> list Z -> bool) * ptr * ptr * Z * bool) :=
  o <- load m p ;; match o with BAgg g f l s u => Ok (g, f, l, s, u) | _ => UB end.
Definition get_join (m : mem) (p : ptr) : res (ptr * bool) :=
  o <- load m p ;; match o with BJoin a b => Ok (a, b) | _ => UB end.
Definition get_fns (m : mem) (p : ptr) : res (list aggf) :=
  o <- load m p ;; match o with BFns x => Ok x | _ => UB end.
Definition get_cols (m : mem) (p : ptr) : res (list Z) :=
  o <- load m p ;; match o with BCols x => Ok x | _ => UB end.

(** Reading a schema through its pointer, e.g. schema.c:98-100. *)
Definition schema_at (m : mem) (p : ptr) : res schema :=
  o <- load m p ;; match o with BSchema c => get_cols m c | _ => UB end.

(** embedDBCreateSchema, schema.c:53-81, on the heap. *)
Definition createSchema_h (m : mem) (cols : list (Z * option bool)) : res (mem * ptr) :=
  let '(m, p) := alloc m (BSchema None) in
  let '(m, a) := alloc m (BCols (repeat 0 (length cols))) in
  m <- store m p (BSchema a) ;;
  match embedDBCreateSchema cols with
  | None => Ok (m, None)
  | Some s => m <- store m a (BCols s) ;; Ok (m, p)
  end.

(** embedDBFreeSchema, schema.c:86-91; the caller's pointer is set to NULL by the
    caller. *)
Definition freeSchema_h (m : mem) (p : ptr) : res mem :=
  match p with
  | None => Ok m
  | Some _ =>
      o <- load m p ;;
      match o with
      | BSchema c => m <- release m c ;; release m p
      | _ => UB
      end
  end.

(** copySchema, schema.c:107-125. *)
Definition copySchema_h (m : mem) (p : ptr) : res (mem * ptr) :=
  let '(m, c) := alloc m (BSchema None) in
  match c with
  | None => Ok (m, None)
  | Some _ =>
      s <- schema_at m p ;;
      let '(m, a) := alloc m (BCols s) in
      m <- store m c (BSchema a) ;;
      match a with None => Ok (m, None) | Some _ => Ok (m, c) end
  end.

(** createTableScanOperator, advancedQueries.c:205-236. *)
Definition createTableScan_h (m : mem) (db : nat) (it base : ptr) : res (mem * ptr) :=
  match it, base with
  | None, _ | _, None => Ok (m, None)
  | _, _ =>
      let '(m, p) := alloc m (BOp (mkOpr KScan None None None None)) in
      match p with
      | None => Ok (m, None)
      | Some _ =>
          let '(m, st) := alloc m (BScan db it) in
          match st with
          | None => Ok (m, None)
          | Some _ =>
              '(m, sc) <- copySchema_h m base ;;
              m <- store m p (BOp (mkOpr KScan st None sc None)) ;; Ok (m, p)
          end
      end
  end.

(** createProjectionOperator, advancedQueries.c:330-359; createSelectionOperator,
    437-465; createAggregateOperator, 621-652: the state first, then the operator. *)
Definition create_h (m : mem) (k : kind) (input : ptr) (state : obj) : res (mem * ptr) :=
  let '(m, st) := alloc m state in
  match st with
  | None => Ok (m, None)
  | Some _ => let '(m, p) := alloc m (BOp (mkOpr k st input None None)) in Ok (m, p)
  end.
Definition createProjection_h (m : mem) (input : ptr) (cols : list Z) : res (mem * ptr) :=
  create_h m KProj input (BProj cols).
Definition createSelection_h (m : mem) (input : ptr) (col oper : Z) (val : ptr) : res (mem * ptr) :=
  create_h m KSel input (BSel col oper val).
Definition createAggregate_h (m : mem) (input : ptr) (grp : list Z -> list Z -> bool) (fns : ptr) : res (mem * ptr) :=
  create_h m KAgg input (BAgg grp fns None 0 false).

(** createKeyJoinOperator, advancedQueries.c:789-816.  firstCall is left unset there
    and set by the init function; it is shown as 1. *)
Definition createKeyJoin_h (m : mem) (in1 in2 : ptr) : res (mem * ptr) :=
  let '(m, p) := alloc m (BOp (mkOpr KJoin None in1 None None)) in
  match p with
  | None => Ok (m, None)
  | Some _ =>
      let '(m, st) := alloc m (BJoin in2 true) in
      match st with
      | None => Ok (m, None)
      | Some _ => m <- store m p (BOp (mkOpr KJoin st in1 None None)) ;; Ok (m, p)
      end
  end.

(** if (op->schema == NULL) op->schema = malloc(...) and its array with the columns
    [fill], advancedQueries.c:260-279, 492-511, 679-698; [false]: an allocation
    failed and the init function returns. *)
Definition ensure_schema (m : mem) (p : ptr) (fill : mem -> res schema) : res (mem * bool) :=
  op <- get_op m p ;;
  match o_schema op with
  | Some _ => Ok (m, true)
  | None =>
      let '(m, sp) := alloc m (BSchema None) in
      match sp with
      | None => Ok (m, false)
      | Some _ =>
          m <- store m p (BOp (set_schema op sp)) ;;
          let '(m, a) := alloc m (BCols []) in
          m <- store m sp (BSchema a) ;;
          match a with
          | None => Ok (m, false)
          | Some _ => l <- fill m ;; m <- store m a (BCols l) ;; Ok (m, true)
          end
      end
  end.

(** if (op->recordBuffer == NULL) op->recordBuffer = createBufferFromSchema(op->schema),
    advancedQueries.c:161-169, 282-290, 384-392, 515-523, with schema.c:96-102. *)
Definition ensure_buffer (m : mem) (p : ptr) : res mem :=
  op <- get_op m p ;;
  match o_buf op with
  | Some _ => Ok m
  | None =>
      s <- schema_at m (o_schema op) ;;
      let '(m, b) := alloc m (BBytes (createBufferFromSchema s)) in
      store m p (BOp (set_buf op b))
  end.

(** The init functions, advancedQueries.c:125-170, 243-291, 367-393, 479-536,
    659-710.  [fuel]: depth of the recursion through [input->init]. *)
Fixpoint init_h (fuel : nat) (e : env) (m : mem) (p : ptr) : res mem :=
  match fuel with
  | O => Fuel
  | S f =>
      op <- get_op m p ;;
      match o_kind op with
      | KScan =>
          match o_schema op with
          | None => Ok m
          | Some _ =>
              s <- schema_at m (o_schema op) ;;
              if zlen s <? 2 then Ok m
              else
                '(db, _) <- get_scan m (o_state op) ;;
                let c := fst (e db) in
                c0 <- col_size s 0 ;;
                if (c0 <=? 0) || negb (Z.abs c0 =? keySize c) then Ok m
                else if negb (getRecordSizeFromSchema s =? keySize c + dataSize c) then Ok m
                else ensure_buffer m p
          end
      | KProj =>
          match o_input op with
          | None => Ok m
          | Some _ =>
              m <- init_h f e m (o_input op) ;;
              cols <- get_proj m (o_state op) ;;
              i <- get_op m (o_input op) ;;
              '(m, ok) <- ensure_schema m p (fun m => ins <- schema_at m (o_schema i) ;; proj_schema ins cols) ;;
              if (ok : bool) then ensure_buffer m p else Ok m
          end
      | KSel =>
          match o_input op with
          | None => Ok m
          | Some _ =>
              m <- init_h f e m (o_input op) ;;
              op <- get_op m p ;;
              m <- (match o_schema op with
                    | Some _ => Ok m
                    | None =>
                        i <- get_op m (o_input op) ;;
                        '(m, c) <- copySchema_h m (o_schema i) ;;
                        store m p (BOp (set_schema op c))
                    end) ;;
              ensure_buffer m p
          end
      | KAgg =>
          match o_input op with
          | None => Ok m
          | Some _ =>
              m <- init_h f e m (o_input op) ;;
              '(g, fns, lb, sz, _) <- get_agg m (o_state op) ;;
              m <- store m (o_state op) (BAgg g fns lb sz false) ;;
              '(m, ok) <- ensure_schema m p (fun m => fs <- get_fns m fns ;; if zlen fs >? 255 then UB else Ok (map agg_colsize fs)) ;;
              if negb ok then Ok m
              else
                i <- get_op m (o_input op) ;;
                ins <- schema_at m (o_schema i) ;;
                let n := getRecordSizeFromSchema ins in
                m <- store m (o_state op) (BAgg g fns lb n false) ;;
                m <- ensure_buffer m p ;;
                op <- get_op m p ;;
                match o_buf op, lb with
                | None, _ | _, Some _ => Ok m
                | _, None =>
                    let '(m, b) := alloc m (BBytes (repeat 0 (Z.to_nat n))) in
                    store m (o_state op) (BAgg g fns b n false)
                end
          end
      | KJoin =>
          '(in2, first) <- get_join m (o_state op) ;;
          m <- init_h f e m (o_input op) ;;
          m <- init_h f e m in2 ;;
          i1 <- get_op m (o_input op) ;;
          i2 <- get_op m in2 ;;
          s1 <- schema_at m (o_schema i1) ;;
          s2 <- schema_at m (o_schema i2) ;;
          c1 <- col_size s1 0 ;;
          c2 <- col_size s2 0 ;;
          if negb (c1 =? c2) || (c1 <? 0) || (c2 <? 0) then Ok m
          else
            '(m, ok) <- ensure_schema m p (fun m => if zlen s1 + zlen s2 >? 255 then UB else Ok (s1 ++ s2)) ;;
            if negb ok then Ok m
            else
              op <- get_op m p ;;
              s <- schema_at m (o_schema op) ;;
              let '(m, b) := alloc m (BBytes (createBufferFromSchema s)) in
              m <- store m p (BOp (set_buf op b)) ;;
              match b with
              | None => Ok m
              | Some _ => store m (o_state op) (BJoin in2 true)
              end
      end
  end.

(** The loops of nextSelection (advancedQueries.c:409-415), nextAggregate
    (562-579) and nextKeyJoin (735-767) over the next function [nx]. *)
Fixpoint sel_loop_h (nx : env -> mem -> ptr -> res (env * mem * bool)) (fuel : nat) (e : env) (m : mem)
  (ip : ptr) (pos : Z) (n : nat) (oper : Z) (vp : ptr) (sg : bool) : res (env * mem * bool) :=
  match fuel with
  | O => Fuel
  | S f =>
      '(e, m, r) <- nx e m ip ;;
      if negb r then Ok (e, m, false)
      else
        i <- get_op m ip ;;
        b <- get_bytes m (o_buf i) ;;
        d <- ld b pos n ;;
        val <- get_bytes m vp ;;
        v <- ld val 0 n ;;
        if compare d oper v sg then Ok (e, m, true)
        else sel_loop_h nx f e m ip pos n oper vp sg
  end.

(** The loop of nextAggregate, advancedQueries.c:538-601. *)
Fixpoint agg_loop_h (nx : env -> mem -> ptr -> res (env * mem * bool)) (fuel : nat) (e : env) (m : mem)
  (ip sp : ptr) (inGroup : bool) : res (env * mem * bool * bool) :=
  match fuel with
  | O => Fuel
  | S f =>
      '(e, m, r) <- nx e m ip ;;
      if negb r then Ok (e, m, inGroup, false)
      else
        '(grp, fp, lp, n, usable) <- get_agg m sp ;;
        i <- get_op m ip ;;
        b <- get_bytes m (o_buf i) ;;
        same <- (if usable then lastb <- get_bytes m lp ;; Ok (grp lastb b) else Ok true) ;;
        if (same : bool) then
          fns <- get_fns m fp ;;
          ins <- schema_at m (o_schema i) ;;
          fns <- each_fn (agg_add ins b) fns ;;
          m <- store m fp (BFns fns) ;;
          lastb <- get_bytes m lp ;;
          lb <- ld b 0 (Z.to_nat n) ;;
          lastb <- st lastb 0 lb ;;
          m <- store m lp (BBytes lastb) ;;
          m <- store m sp (BAgg grp fp lp n true) ;;
          agg_loop_h nx f e m ip sp true
        else Ok (e, m, inGroup, true)
  end.

(** Comparison of the keys in two record buffers (advancedQueries.c:737, 759). *)
Definition join_cmp_h (m : mem) (r1 r2 : ptr) (n : nat) : res Z :=
  b1 <- get_bytes m r1 ;;
  b2 <- get_bytes m r2 ;;
  k1 <- ld b1 0 n ;;
  k2 <- ld b2 0 n ;;
  Ok (compareUnsignedNumbers k1 k2).
Fixpoint join_loop_h (nx : env -> mem -> ptr -> res (env * mem * bool)) (fuel : nat) (e : env) (m : mem)
  (p1 p2 r1 r2 : ptr) (n : nat) (atCheck : bool) : res (env * mem * bool) :=
  match fuel with
  | O => Fuel
  | S f =>
      '(e, m, ok) <-
        (if atCheck then Ok (e, m, true)
         else
           comp <- join_cmp_h m r1 r2 n ;;
           if comp =? 0 then
             '(e, m, x1) <- nx e m p1 ;;
             if negb x1 then Ok (e, m, false) else nx e m p2
           else if comp <? 0 then nx e m p1
           else nx e m p2) ;;
      if negb ok then Ok (e, m, false)
      else
        comp <- join_cmp_h m r1 r2 n ;;
        if comp =? 0 then Ok (e, m, true) else join_loop_h nx f e m p1 p2 r1 r2 n false
  end.

(** The next functions, advancedQueries.c:172-189, 293-312, 395-418, 538-601,
    712-770. *)
Fixpoint next_h (fuel : nat) (e : env) (m : mem) (p : ptr) : res (env * mem * bool) :=
  match fuel with
  | O => Fuel
  | S f =>
      op <- get_op m p ;;
      match o_kind op with
      | KScan =>
          match o_schema op with
          | None => Ok (e, m, false)
          | Some _ =>
              '(db, ip) <- get_scan m (o_state op) ;;
              it <- get_iter m ip ;;
              let '(c, d) := e db in
              buf <- get_bytes m (o_buf op) ;;
              '(d, it, r, out) <- embedDBNext c d it ;;
              m <- store m ip (BIter it) ;;
              buf <- (match out with
                      | Some (k, dt) => b <- st buf 0 (le_enc (ksz c) k) ;; st b (keySize c) dt
                      | None => Ok buf
                      end) ;;
              m <- store m (o_buf op) (BBytes buf) ;;
              Ok (upd_env e db d, m, negb (r =? 0))
          end
      | KProj =>
          cols <- get_proj m (o_state op) ;;
          i <- get_op m (o_input op) ;;
          '(e, m, r) <- next_h f e m (o_input op) ;;
          if negb r then Ok (e, m, false)
          else
            ins <- schema_at m (o_schema i) ;;
            dst <- get_bytes m (o_buf op) ;;
            i <- get_op m (o_input op) ;;
            src <- get_bytes m (o_buf i) ;;
            dst <- proj_copy ins src cols 0 dst ;;
            m <- store m (o_buf op) (BBytes dst) ;; Ok (e, m, true)
      | KSel =>
          i <- get_op m (o_input op) ;;
          ins <- schema_at m (o_schema i) ;;
          '(col, oper, vp) <- get_sel m (o_state op) ;;
          pos <- getColOffsetFromSchema ins col ;;
          c <- col_size ins col ;;
          '(e, m, r) <- sel_loop_h (next_h f) f e m (o_input op) pos (Z.to_nat (Z.abs c)) oper vp (is_signed c) ;;
          if negb r then Ok (e, m, false)
          else
            outs <- schema_at m (o_schema op) ;;
            i <- get_op m (o_input op) ;;
            src <- get_bytes m (o_buf i) ;;
            bs <- ld src 0 (Z.to_nat (getRecordSizeFromSchema outs)) ;;
            dst <- get_bytes m (o_buf op) ;;
            dst <- st dst 0 bs ;;
            m <- store m (o_buf op) (BBytes dst) ;; Ok (e, m, true)
      | KAgg =>
          i <- get_op m (o_input op) ;;
          ins <- schema_at m (o_schema i) ;;
          '(grp, fp, lp, n, usable) <- get_agg m (o_state op) ;;
          fns <- get_fns m fp ;;
          fns <- each_fn (agg_reset ins) fns ;;
          fns <- (if usable then lastb <- get_bytes m lp ;; each_fn (agg_add ins lastb) fns else Ok fns) ;;
          m <- store m fp (BFns fns) ;;
          '(e, m, inGroup, more) <- agg_loop_h (next_h f) f e m (o_input op) (o_state op) usable ;;
          if negb inGroup then Ok (e, m, false)
          else
            '(_, _, _, _, usable) <- get_agg m (o_state op) ;;
            m <- store m (o_state op) (BAgg grp fp lp n (if (more : bool) then usable else false)) ;;
            outs <- schema_at m (o_schema op) ;;
            fns <- get_fns m fp ;;
            dst <- get_bytes m (o_buf op) ;;
            dst <- compute_fns outs 0 fns dst ;;
            m <- store m (o_buf op) (BBytes dst) ;;
            i <- get_op m (o_input op) ;;
            src <- get_bytes m (o_buf i) ;;
            bs <- ld src 0 (Z.to_nat n) ;;
            lastb <- get_bytes m lp ;;
            lastb <- st lastb 0 bs ;;
            m <- store m lp (BBytes lastb) ;; Ok (e, m, true)
      | KJoin =>
          '(in2, first) <- get_join m (o_state op) ;;
          i1 <- get_op m (o_input op) ;;
          i2 <- get_op m in2 ;;
          s1 <- schema_at m (o_schema i1) ;;
          c <- col_size s1 0 ;;
          let n := Z.to_nat (Z.abs c) in
          '(e, m, r) <-
            (if first : bool then
               m <- store m (o_state op) (BJoin in2 false) ;;
               '(e, m, x1) <- next_h f e m (o_input op) ;;
               if negb x1 then Ok (e, m, false)
               else
                 '(e, m, x2) <- next_h f e m in2 ;;
                 if negb x2 then Ok (e, m, false)
                 else join_loop_h (next_h f) f e m (o_input op) in2 (o_buf i1) (o_buf i2) n true
             else join_loop_h (next_h f) f e m (o_input op) in2 (o_buf i1) (o_buf i2) n false) ;;
          if negb r then Ok (e, m, false)
          else
            s1 <- schema_at m (o_schema i1) ;;
            s2 <- schema_at m (o_schema i2) ;;
            let n1 := getRecordSizeFromSchema s1 in
            i1 <- get_op m (o_input op) ;;
            i2 <- get_op m in2 ;;
            b1 <- get_bytes m (o_buf i1) ;;
            x <- ld b1 0 (Z.to_nat n1) ;;
            b2 <- get_bytes m (o_buf i2) ;;
            y <- ld b2 0 (Z.to_nat (getRecordSizeFromSchema s2)) ;;
            dst <- get_bytes m (o_buf op) ;;
            dst <- st dst 0 x ;;
            dst <- st dst n1 y ;;
            m <- store m (o_buf op) (BBytes dst) ;; Ok (e, m, true)
      end
  end.

(** free(op->state), free(op->recordBuffer) and embedDBFreeSchema(&op->schema), each
    followed by setting the field to NULL (e.g. advancedQueries.c:192-196). *)
Definition drop_state (m : mem) (p : ptr) : res mem :=
  op <- get_op m p ;; m <- release m (o_state op) ;; op <- get_op m p ;; store m p (BOp (set_state op None)).
Definition drop_buf (m : mem) (p : ptr) : res mem :=
  op <- get_op m p ;; m <- release m (o_buf op) ;; op <- get_op m p ;; store m p (BOp (set_buf op None)).
Definition drop_schema (m : mem) (p : ptr) : res mem :=
  op <- get_op m p ;; m <- freeSchema_h m (o_schema op) ;; op <- get_op m p ;; store m p (BOp (set_schema op None)).

(** The close functions, advancedQueries.c:191-197, 314-322, 420-428, 603-612,
    772-784. *)
Fixpoint close_h (fuel : nat) (m : mem) (p : ptr) : res mem :=
  match fuel with
  | O => Fuel
  | S f =>
      op <- get_op m p ;;
      match o_kind op with
      | KScan => m <- drop_schema m p ;; m <- drop_buf m p ;; drop_state m p
      | KProj | KSel =>
          m <- close_h f m (o_input op) ;;
          m <- drop_schema m p ;; m <- drop_state m p ;; drop_buf m p
      | KAgg =>
          m <- close_h f m (o_input op) ;;
          op <- get_op m p ;;
          m <- store m p (BOp (set_input op None)) ;;
          m <- drop_schema m p ;;
          '(_, _, lp, _, _) <- get_agg m (o_state op) ;;
          m <- release m lp ;;
          m <- drop_state m p ;; drop_buf m p
      | KJoin =>
          '(in2, _) <- get_join m (o_state op) ;;
          m <- close_h f m (o_input op) ;;
          m <- close_h f m in2 ;;
          m <- drop_schema m p ;; m <- drop_state m p ;; drop_buf m p
      end
  end.

(** embedDBFreeOperatorRecursive, advancedQueries.c:1147-1164.  The pointer of the
    caller, which is the input field of the operator above or a variable of the
    client, is set to NULL by the caller. *)
Fixpoint free_h (fuel : nat) (m : mem) (p : ptr) : res mem :=
  match fuel with
  | O => Fuel
  | S f =>
      op <- get_op m p ;;
      m <- (match o_input op with
            | None => Ok m
            | Some _ =>
                m <- free_h f m (o_input op) ;;
                op <- get_op m p ;; store m p (BOp (set_input op None))
            end) ;;
      op <- get_op m p ;;
      m <- (match o_state op with None => Ok m | Some _ => drop_state m p end) ;;
      op <- get_op m p ;;
      m <- (match o_schema op with None => Ok m | Some _ => drop_schema m p end) ;;
      op <- get_op m p ;;
      m <- (match o_buf op with None => Ok m | Some _ => drop_buf m p end) ;;
      release m p
  end.

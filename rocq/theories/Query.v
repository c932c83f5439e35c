(** Model of src/query-interface/advancedQueries.c: comparison, operators and
    aggregate functions.  An operator is a tree that owns its input operators;
    [None] as schema or buffer is a NULL pointer. *)
From Verif Require Import Base Config Spline Storage DB Schema.
Open Scope Z_scope.

(** The byte loop of compareUnsignedNumbers / compareSignedNumbers, most
    significant byte first (advancedQueries.c:52-61, 82-91); both lists are the
    [numBytes] bytes in reverse order. *)
Fixpoint cmp_bytes (a b : list Z) : Z :=
  match a, b with
  | x :: a', y :: b' => if x <? y then -1 else if x >? y then 1 else cmp_bytes a' b'
  | _, _ => 0
  end.

(** compareUnsignedNumbers, advancedQueries.c:47-62. *)
Definition compareUnsignedNumbers (a b : list Z) : Z := cmp_bytes (rev a) (rev b).

(** compareSignedNumbers, advancedQueries.c:67-92; [numBytes >= 1]. *)
Definition compareSignedNumbers (a b : list Z) : Z :=
  let s1 := Z.land (last a 0) 128 in
  let s2 := Z.land (last b 0) 128 in
  if negb (s1 =? s2) then (if negb (s1 =? 0) then -1 else 1)
  else cmp_bytes (rev a) (rev b).

(** compare, advancedQueries.c:97-115; operations of advancedQueries.h:46-51. *)
Definition compare (a : list Z) (operation : Z) (b : list Z) (isSigned : bool) : bool :=
  let r := if isSigned then compareSignedNumbers a b else compareUnsignedNumbers a b in
  match operation with
  | 0 => r >? 0
  | 1 => r <? 0
  | 2 => r >=? 0
  | 3 => r <=? 0
  | 4 => r =? 0
  | 5 => negb (r =? 0)
  | _ => false
  end.

(** embedDBAggregateFunc with the state of the supplied functions,
    advancedQueries.c:818-1142 and advancedQueries.h:54-80.  [fl signed sum count]
    stands for the bytes of the floating-point quotient of avgCompute. *)
Inductive aggf :=
| ACount (n : Z)
| ASum (col acc : Z)
| AMin (col size : Z) (cur : list Z)
| AMax (col size : Z) (cur : list Z)
| AAvg (col size : Z) (fl : bool -> Z -> Z -> list Z) (sum cnt : Z) (sg : bool).

(** The constructors createCountAggregate .. createAvgAggregate,
    advancedQueries.c:834-842, 885-894, 939-969, 1004-1034, 1107-1142; fresh
    memory is shown as zero. *)
Definition createCountAggregate : aggf := ACount 0.
Definition createSumAggregate (col : Z) : aggf := ASum col 0.
Definition createMinAggregate (col size : Z) : aggf :=
  AMin col size (repeat 0 (Z.to_nat (Z.abs size))).
Definition createMaxAggregate (col size : Z) : aggf :=
  AMax col size (repeat 0 (Z.to_nat (Z.abs size))).
Definition createAvgAggregate (col osz : Z) (fl : bool -> Z -> Z -> list Z) : aggf :=
  let sz := if (osz >? 8) || ((osz <? 8) && (osz >? 4)) then 8
            else if osz <? 4 then 4 else osz in
  AAvg col sz fl 0 0 false.

(** aggFunc->colSize (advancedQueries.c:840, 892, 963, 1028, 1128-1135). *)
Definition agg_colsize (f : aggf) : Z :=
  match f with
  | ACount _ => 4
  | ASum _ _ => -8
  | AMin _ sz _ | AMax _ sz _ => sz
  | AAvg _ sz _ _ _ _ => sz
  end.

(** memset of the first [n] bytes and of byte [n - 1] of the min/max value,
    advancedQueries.c:911-915 and 981-985. *)
Definition set_extreme (cur : list Z) (n : Z) (fill top : Z) (sg : bool) : res (list Z) :=
  m <- st cur 0 (repeat fill (Z.to_nat n)) ;;
  if sg then st m (n - 1) [top] else Ok m.

(** The reset functions, advancedQueries.c:818-820, 844-851, 901-916, 971-986,
    1043-1053. *)
Definition agg_reset (ins : schema) (f : aggf) : res aggf :=
  match f with
  | ACount _ => Ok (ACount 0)
  | ASum col _ => _ <- col_size ins col ;; Ok (ASum col 0)
  | AMin col sz cur =>
      c <- col_size ins col ;;
      m <- set_extreme cur (Z.abs c) 255 127 (is_signed c) ;; Ok (AMin col sz m)
  | AMax col sz cur =>
      c <- col_size ins col ;;
      m <- set_extreme cur (Z.abs c) 0 128 (is_signed c) ;; Ok (AMax col sz m)
  | AAvg col sz fl _ _ _ => c <- col_size ins col ;; Ok (AAvg col sz fl 0 0 (is_signed c))
  end.

(** Reading a column and adding it to a 64-bit sum, advancedQueries.c:853-874
    and 1055-1077.  [acc] is the 64-bit pattern of the sum.  The sign test
    shifts the int 128: with a column of 4 bytes the shift gives INT_MIN (gcc),
    above 4 bytes the shift count reaches the width of int and is undefined.
    Signed overflow of the sum is undefined. *)
Definition add_col (ins : schema) (col : Z) (rb : list Z) (acc : Z) : res Z :=
  c <- col_size ins col ;;
  let n := Z.min (Z.abs c) 8 in
  off <- getColOffsetFromSchema ins col ;;
  v <- ldz rb off (Z.to_nat n) ;;
  if is_signed c then
    if n >? 4 then UB
    else
      let mask := i32 (Z.shiftl 128 ((n - 1) * 8)) in
      let sign := Z.land v mask in
      let v := if negb (sign =? 0) then v - 256 ^ n else v in
      let t := i64 acc + v in
      if (t <? - 2 ^ 63) || (t >=? 2 ^ 63) then UB else Ok (u64 t)
  else Ok (u64 (acc + v)).

(** minAdd / maxAdd, advancedQueries.c:918-927 and 988-997. *)
Definition add_extreme (ins : schema) (col oper : Z) (rb cur : list Z) : res (list Z) :=
  c <- col_size ins col ;;
  let n := Z.to_nat (Z.abs c) in
  off <- getColOffsetFromSchema ins col ;;
  v <- ld rb off n ;;
  x <- ld cur 0 n ;;
  if compare v oper x (is_signed c) then st cur 0 v else Ok cur.

(** The add functions, advancedQueries.c:822-824, 853-874, 918-927, 988-997,
    1055-1079. *)
Definition agg_add (ins : schema) (rb : list Z) (f : aggf) : res aggf :=
  match f with
  | ACount n => Ok (ACount (u32 (n + 1)))
  | ASum col acc => a <- add_col ins col rb acc ;; Ok (ASum col a)
  | AMin col sz cur => m <- add_extreme ins col 1 rb cur ;; Ok (AMin col sz m)
  | AMax col sz cur => m <- add_extreme ins col 0 rb cur ;; Ok (AMax col sz m)
  | AAvg col sz fl sum cnt sg =>
      a <- add_col ins col rb sum ;; Ok (AAvg col sz fl a (u32 (cnt + 1)) sg)
  end.

(** The compute functions, advancedQueries.c:826-829, 876-879, 929-932,
    1081-1100; [i] is aggFunc->colNum. *)
Definition agg_compute (outs : schema) (i : Z) (buf : list Z) (f : aggf) : res (list Z) :=
  off <- getColOffsetFromSchema outs i ;;
  match f with
  | ACount n => st buf off (le_enc 4 n)
  | ASum _ acc => st buf off (le_enc 8 acc)
  | AMin _ _ cur | AMax _ _ cur =>
      c <- col_size outs i ;;
      m <- ld cur 0 (Z.to_nat (Z.abs c)) ;; st buf off m
  | AAvg _ sz fl sum cnt sg =>
      st buf off (firstn (if sz =? 8 then 8 else 4)
                         (fl sg (if sg then i64 sum else sum) cnt))
  end.

(** Operators: embedDBOperator with its state (advancedQueries.h:82-110,
    advancedQueries.c:205-241, 330-359, 437-465, 470-477, 621-652, 654-657,
    789-816).  A table scan refers to a database of the environment by number. *)
Inductive op :=
| OScan (db : nat) (it : iter) (sch : schema) (buf : option (list Z))
| OProj (cols : list Z) (inp : op) (sch : option schema) (buf : option (list Z))
| OSel (col oper : Z) (val : list Z) (inp : op) (sch : option schema) (buf : option (list Z))
| OAgg (grp : list Z -> list Z -> bool) (fns : list aggf) (inp : op)
       (sch : option schema) (buf lastb : option (list Z)) (usable : bool)
| OJoin (in1 in2 : op) (sch : option schema) (buf : option (list Z)) (first : bool).

(** op->schema and op->recordBuffer. *)
Definition op_schema (o : op) : option schema :=
  match o with
  | OScan _ _ s _ => Some s
  | OProj _ _ s _ | OSel _ _ _ _ s _ | OAgg _ _ _ s _ _ _ | OJoin _ _ s _ _ => s
  end.
Definition op_buf (o : op) : option (list Z) :=
  match o with
  | OScan _ _ _ b | OProj _ _ _ b | OSel _ _ _ _ _ b | OAgg _ _ _ _ b _ _
  | OJoin _ _ _ b _ => b
  end.

(** Use of a pointer that may be NULL (C dereference; e.g. advancedQueries.c:396). *)
Definition deref {A} (x : option A) : res A :=
  match x with Some a => Ok a | None => UB end.

(** The databases a query tree reads. *)
Definition env := nat -> cfg * state.
Definition upd_env (e : env) (n : nat) (s : state) : env :=
  fun m => if Nat.eqb m n then (fst (e m), s) else e m.

(** A column list looked up in a schema, advancedQueries.c:276-278. *)
Fixpoint proj_schema (ins : schema) (cols : list Z) : res schema :=
  match cols with
  | [] => Ok []
  | col :: r => c <- col_size ins col ;; s <- proj_schema ins r ;; Ok (c :: s)
  end.

(** if (op->recordBuffer == NULL) op->recordBuffer = createBufferFromSchema(...),
    e.g. advancedQueries.c:282-290. *)
Definition ensure_buf (b : option (list Z)) (s : schema) : option (list Z) :=
  match b with Some _ => b | None => Some (createBufferFromSchema s) end.

(** The init functions, advancedQueries.c:125-170, 243-291, 367-393, 479-536,
    659-710.  An init function that reports an error leaves the operator
    unchanged; [numCols] is a uint8_t. *)
Fixpoint op_init (e : env) (o : op) : res op :=
  match o with
  | OScan db it s b =>
      let c := fst (e db) in
      if zlen s <? 2 then Ok o
      else
        c0 <- col_size s 0 ;;
        if (c0 <=? 0) || negb (Z.abs c0 =? keySize c) then Ok o
        else if negb (getRecordSizeFromSchema s =? keySize c + dataSize c) then Ok o
        else Ok (OScan db it s (ensure_buf b s))
  | OProj cols i s b =>
      i <- op_init e i ;;
      ins <- deref (op_schema i) ;;
      s' <- (match s with Some s => Ok s | None => proj_schema ins cols end) ;;
      Ok (OProj cols i (Some s') (ensure_buf b s'))
  | OSel col oper val i s b =>
      i <- op_init e i ;;
      ins <- deref (op_schema i) ;;
      let s' := match s with Some s => s | None => ins end in
      Ok (OSel col oper val i (Some s') (ensure_buf b s'))
  | OAgg g fns i s b lb _ =>
      i <- op_init e i ;;
      ins <- deref (op_schema i) ;;
      if zlen fns >? 255 then UB
      else
        let s' := match s with Some s => s | None => map agg_colsize fns end in
        Ok (OAgg g fns i (Some s') (ensure_buf b s')
                 (match lb with
                  | Some _ => lb
                  | None => Some (createBufferFromSchema ins)
                  end) false)
  | OJoin i1 i2 s b f =>
      i1 <- op_init e i1 ;;
      i2 <- op_init e i2 ;;
      s1 <- deref (op_schema i1) ;;
      s2 <- deref (op_schema i2) ;;
      c1 <- col_size s1 0 ;;
      c2 <- col_size s2 0 ;;
      if negb (c1 =? c2) || (c1 <? 0) || (c2 <? 0) then Ok (OJoin i1 i2 s b f)
      else if (zlen s1 + zlen s2 >? 255) then UB
      else
        let s' := match s with Some s => s | None => s1 ++ s2 end in
        Ok (OJoin i1 i2 (Some s') (Some (createBufferFromSchema s')) true)
  end.

(** Copying the projected columns, advancedQueries.c:300-307. *)
Fixpoint proj_copy (ins : schema) (src : list Z) (cols : list Z) (pos : Z) (dst : list Z)
  : res (list Z) :=
  match cols with
  | [] => Ok dst
  | col :: r =>
      c <- col_size ins col ;;
      off <- getColOffsetFromSchema ins col ;;
      bs <- ld src off (Z.to_nat (u8 (Z.abs c))) ;;
      dst <- st dst pos bs ;;
      proj_copy ins src r (u16 (pos + u8 (Z.abs c))) dst
  end.

(** Loops over the array of aggregate functions, advancedQueries.c:543-547,
    554-558, 566-570, 591-595. *)
Fixpoint each_fn (g : aggf -> res aggf) (fns : list aggf) : res (list aggf) :=
  match fns with
  | [] => Ok []
  | f :: r => f <- g f ;; r <- each_fn g r ;; Ok (f :: r)
  end.
Fixpoint compute_fns (outs : schema) (i : Z) (fns : list aggf) (buf : list Z) : res (list Z) :=
  match fns with
  | [] => Ok buf
  | f :: r => buf <- agg_compute outs i buf f ;; compute_fns outs (i + 1) r buf
  end.

(** The while loops of nextSelection (advancedQueries.c:409-415), nextAggregate
    (562-579) and nextKeyJoin (735-767), over the [next] function [nx] of the
    input operators; and the next functions themselves, advancedQueries.c:172-189,
    293-312, 395-418, 538-601, 712-770.  [true] = a record is in the record
    buffer. *)
Fixpoint sel_loop (nx : env -> op -> res (env * op * bool)) (fuel : nat) (e : env) (i : op)
  (pos : Z) (n : nat) (oper : Z) (val : list Z) (sg : bool) : res (env * op * bool) :=
  match fuel with
  | O => Fuel
  | S f =>
      '(e, i, r) <- nx e i ;;
      if negb r then Ok (e, i, false)
      else
        b <- deref (op_buf i) ;;
        d <- ld b pos n ;;
        v <- ld val 0 n ;;
        if compare d oper v sg then Ok (e, i, true)
        else sel_loop nx f e i pos n oper val sg
  end.

(** The loop of nextAggregate, advancedQueries.c:538-601. *)
Fixpoint agg_loop (nx : env -> op -> res (env * op * bool)) (fuel : nat) (e : env) (i : op)
  (grp : list Z -> list Z -> bool) (ins : schema) (fns : list aggf) (lastb : list Z)
  (usable : bool) (inGroup : bool)
  : res (env * op * list aggf * list Z * bool * bool * bool) :=
  match fuel with
  | O => Fuel
  | S f =>
      '(e, i, r) <- nx e i ;;
      if negb r then Ok (e, i, fns, lastb, usable, inGroup, false)
      else
        b <- deref (op_buf i) ;;
        if negb usable || grp lastb b then
          fns <- each_fn (agg_add ins b) fns ;;
          lb <- ld b 0 (Z.to_nat (getRecordSizeFromSchema ins)) ;;
          lastb <- st lastb 0 lb ;;
          agg_loop nx f e i grp ins fns lastb true true
        else Ok (e, i, fns, lastb, usable, inGroup, true)
  end.

(** Key comparison of the two inputs of a join (advancedQueries.c:737, 759). *)
Definition join_cmp (n : nat) (i1 i2 : op) : res Z :=
  b1 <- deref (op_buf i1) ;;
  b2 <- deref (op_buf i2) ;;
  k1 <- ld b1 0 n ;;
  k2 <- ld b2 0 n ;;
  Ok (compareUnsignedNumbers k1 k2).

(** The loop of nextKeyJoin, advancedQueries.c:712-770. *)
Fixpoint join_loop (nx : env -> op -> res (env * op * bool)) (fuel : nat) (e : env)
  (i1 i2 : op) (n : nat) (atCheck : bool) : res (env * op * op * bool) :=
  match fuel with
  | O => Fuel
  | S f =>
      '(e, i1, i2, ok) <-
        (if atCheck then Ok (e, i1, i2, true)
         else
           comp <- join_cmp n i1 i2 ;;
           if comp =? 0 then
             '(e, i1, r1) <- nx e i1 ;;
             if negb r1 then Ok (e, i1, i2, false)
             else '(e, i2, r2) <- nx e i2 ;; Ok (e, i1, i2, r2)
           else if comp <? 0 then '(e, i1, r1) <- nx e i1 ;; Ok (e, i1, i2, r1)
           else '(e, i2, r2) <- nx e i2 ;; Ok (e, i1, i2, r2)) ;;
      if negb ok then Ok (e, i1, i2, false)
      else
        comp <- join_cmp n i1 i2 ;;
        if comp =? 0 then Ok (e, i1, i2, true) else join_loop nx f e i1 i2 n false
  end.

(** [op->next], advancedQueries.c:121-123: the next function of the operator. *)
Fixpoint op_next (fuel : nat) (e : env) (o : op) : res (env * op * bool) :=
  match fuel with
  | O => Fuel
  | S f =>
      match o with
      | OScan db it s b =>
          buf <- deref b ;;
          let '(c, d) := e db in
          '(d, it, r, out) <- embedDBNext c d it ;;
          buf <- (match out with
                  | Some (k, dt) =>
                      p <- st buf 0 (le_enc (ksz c) k) ;; st p (keySize c) dt
                  | None => Ok buf
                  end) ;;
          Ok (upd_env e db d, OScan db it s (Some buf), negb (r =? 0))
      | OProj cols i s b =>
          ins <- deref (op_schema i) ;;
          '(e, i, r) <- op_next f e i ;;
          if negb r then Ok (e, OProj cols i s b, false)
          else
            dst <- deref b ;;
            src <- deref (op_buf i) ;;
            dst <- proj_copy ins src cols 0 dst ;;
            Ok (e, OProj cols i s (Some dst), true)
      | OSel col oper val i s b =>
          ins <- deref (op_schema i) ;;
          pos <- getColOffsetFromSchema ins col ;;
          c <- col_size ins col ;;
          '(e, i, r) <- sel_loop (op_next f) f e i pos (Z.to_nat (Z.abs c)) oper val (is_signed c) ;;
          if negb r then Ok (e, OSel col oper val i s b, false)
          else
            outs <- deref s ;;
            dst <- deref b ;;
            src <- deref (op_buf i) ;;
            bs <- ld src 0 (Z.to_nat (getRecordSizeFromSchema outs)) ;;
            dst <- st dst 0 bs ;;
            Ok (e, OSel col oper val i s (Some dst), true)
      | OAgg grp fns i s b lb usable =>
          ins <- deref (op_schema i) ;;
          lastb <- deref lb ;;
          fns <- each_fn (agg_reset ins) fns ;;
          fns <- (if usable then each_fn (agg_add ins lastb) fns else Ok fns) ;;
          '(e, i, fns, lastb, usable, inGroup, more) <-
            agg_loop (op_next f) f e i grp ins fns lastb usable usable ;;
          if negb inGroup then Ok (e, OAgg grp fns i s b (Some lastb) usable, false)
          else
            outs <- deref s ;;
            dst <- deref b ;;
            dst <- compute_fns outs 0 fns dst ;;
            src <- deref (op_buf i) ;;
            bs <- ld src 0 (Z.to_nat (getRecordSizeFromSchema ins)) ;;
            lastb <- st lastb 0 bs ;;
            Ok (e, OAgg grp fns i s (Some dst) (Some lastb) more, true)
      | OJoin i1 i2 s b first =>
          s1 <- deref (op_schema i1) ;;
          s2 <- deref (op_schema i2) ;;
          c <- col_size s1 0 ;;
          let n := Z.to_nat (Z.abs c) in
          '(e, i1, i2, r) <-
            (if first then
               '(e, i1, r1) <- op_next f e i1 ;;
               if negb r1 then Ok (e, i1, i2, false)
               else
                 '(e, i2, r2) <- op_next f e i2 ;;
                 if negb r2 then Ok (e, i1, i2, false)
                 else join_loop (op_next f) f e i1 i2 n true
             else join_loop (op_next f) f e i1 i2 n false) ;;
          if negb r then Ok (e, OJoin i1 i2 s b false, false)
          else
            dst <- deref b ;;
            b1 <- deref (op_buf i1) ;;
            b2 <- deref (op_buf i2) ;;
            let n1 := getRecordSizeFromSchema s1 in
            x <- ld b1 0 (Z.to_nat n1) ;;
            y <- ld b2 0 (Z.to_nat (getRecordSizeFromSchema s2)) ;;
            dst <- st dst 0 x ;;
            dst <- st dst n1 y ;;
            Ok (e, OJoin i1 i2 s (Some dst) false, true)
      end
  end.

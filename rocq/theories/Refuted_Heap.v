(** What the memory management of the query operators does not do (property C41):
    concrete executions of the model.  [blocks m] lists the live blocks; the client's
    own objects (iterators, comparison values, aggregate functions) stay live in
    every execution. *)
From Verif Require Import Base Config Spline Storage DB Recovery Schema Query Heap Spec SpecUtil SpecPage SpecStore Run SpecRun
  SpecIter SpecQuery SpecHeap.
Open Scope Z_scope.

Definition blocks (m : mem) : list nat :=
  filter (fun b => match m_blk m b with Some _ => true | None => false end) (seq 0 (m_next m)).
Definition emptyM : mem := mkM 0 (fun _ => None) [].
Definition cfgM : cfg := ex_cfg 64 32 4 2 8 1 None None.
Definition envM : res env :=
  '(s, _) <- embedDBInit cfgM noDisk [] ;; '(s, _) <- run cfgM s (puts 12 1 1) ;; Ok (fun _ => (cfgM, s)).
Definition scanM : plan := PScan 0 (mkQ None None None None) [4; 4].
Definition countM : plan := PAgg (fun _ _ => true) [FCount] scanM.
Definition joinM : plan := PJoin scanM scanM.

(** embedDBFreeOperatorRecursive after close does not free the operators below an
    aggregate, whose input pointer closeAggregate has set to NULL
    (advancedQueries.c:605), nor the second input of a join, which it does not know
    of.  Operator 3 is the scan under the count; 10 the second scan of the join. *)
Theorem C41_recursive_free_refuted : exists p q,
  plan_client p = 2%nat /\ plan_client q = 2%nat /\
  (e <- envM ;; '(_, m, r, xs) <- run_plan_h 40 40 e emptyM p ;; m <- close_h 40 m r ;; m <- free_h 40 m r ;; Ok (xs, blocks m)) = Ok ([[12; 0; 0; 0]], [0; 3; 7]%nat) /\
  (e <- envM ;; '(_, m, r, xs) <- run_plan_h 40 40 e emptyM q ;; m <- close_h 40 m r ;; m <- free_h 40 m r ;; Ok (length xs, blocks m)) = Ok (12%nat, [0; 7; 10]%nat).
Proof. exists countM, joinM. split; [reflexivity|]. split; [reflexivity|]. split; vm_compute; reflexivity. Qed.
Print Assumptions C41_recursive_free_refuted.

(** A second init of a join allocates its record buffer again and loses the first
    one (advancedQueries.c:700-704; the other operators check for NULL). *)
Theorem C41_init_twice_refuted : exists p l1 l2,
  (e <- envM ;; '(m, r) <- create_plan e emptyM p ;; m <- init_h 40 e m r ;; m <- close_h 40 m r ;; Ok (blocks m)) = Ok l1 /\
  (e <- envM ;; '(m, r) <- create_plan e emptyM p ;; m <- init_h 40 e m r ;; m <- init_h 40 e m r ;; m <- close_h 40 m r ;; Ok (blocks m)) = Ok l2 /\
  length l1 = (plan_ops p + plan_client p)%nat /\ length l2 = S (length l1).
Proof. exists joinM, [0; 3; 7; 10; 14]%nat, [0; 3; 7; 10; 14; 20]%nat. split; [vm_compute; reflexivity|]. split; [vm_compute; reflexivity|]. split; reflexivity. Qed.
Print Assumptions C41_init_twice_refuted.

(** Closing twice: harmless for scans, projections and selections, but closeAggregate
    and closeKeyJoin follow pointers that the first close has set to NULL. *)
Theorem C41_close_twice_refuted : exists p q k,
  (e <- envM ;; '(_, m, r, _) <- run_plan_h 40 40 e emptyM k ;; m <- close_h 40 m r ;; m <- close_h 40 m r ;; Ok (blocks m)) = Ok [0; 3; 7; 9]%nat /\
  (e <- envM ;; '(_, m, r, _) <- run_plan_h 40 40 e emptyM p ;; m <- close_h 40 m r ;; Ok (blocks m)) = Ok [0; 3; 7; 9]%nat /\
  (e <- envM ;; '(_, m, r, _) <- run_plan_h 40 40 e emptyM p ;; m <- close_h 40 m r ;; m <- close_h 40 m r ;; Ok (blocks m)) = UB /\
  (e <- envM ;; '(_, m, r, _) <- run_plan_h 40 40 e emptyM q ;; m <- close_h 40 m r ;; m <- close_h 40 m r ;; Ok (blocks m)) = UB.
Proof. exists countM, joinM, (PSel 0 2 [3; 0; 0; 0] scanM). split; [vm_compute; reflexivity|]. split; [vm_compute; reflexivity|]. split; vm_compute; reflexivity. Qed.
Print Assumptions C41_close_twice_refuted.

(** embedDBFreeOperatorRecursive instead of close leaks the last record of an
    aggregate (block 14) and everything in the second input of a join. *)
Theorem C41_free_instead_of_close_refuted : exists p q,
  (e <- envM ;; '(_, m, r, _) <- run_plan_h 40 40 e emptyM p ;; m <- free_h 40 m r ;; Ok (blocks m)) = Ok [0; 7; 14]%nat /\
  (e <- envM ;; '(_, m, r, _) <- run_plan_h 40 40 e emptyM q ;; m <- free_h 40 m r ;; Ok (blocks m)) = Ok [0; 7; 10; 11; 12; 13; 17]%nat.
Proof. exists countM, joinM. split; vm_compute; reflexivity. Qed.
Print Assumptions C41_free_instead_of_close_refuted.

(** embedDBCreateSchema on an impossible column returns NULL and leaks both blocks
    (schema.c:60-73). *)
Theorem C41_failed_schema_refuted : exists cols,
  (exists m, createSchema_h emptyM cols = Ok (m, None) /\ blocks m = [0; 1]%nat).
Proof. exists [(4, Some false); (0, Some true)]. eexists. split; vm_compute; reflexivity. Qed.
Print Assumptions C41_failed_schema_refuted.

(** Allocations that fail.  embedDBCreateSchema writes through the NULL it got;
    createTableScanOperator without memory for the state loses the operator;
    createProjectionOperator without memory for the operator loses the state; a
    table scan whose schema could not be copied reports no record at all; a
    selection without record buffer copies its first record to NULL. *)
Definition failM (n : nat) : mem := mkM 0 (fun _ => None) (repeat false n ++ [true]).
Theorem C41_out_of_memory_refuted :
  createSchema_h (failM 0) [(4, Some false)] = UB /\
  (exists m, createTableScan_h (mkM 4 (fun b => nth_error [BIter (mkIt 0 0 None None None None None); BCols [4; 4]; BSchema (Some 1%nat)] b) [false; true]) 0 (Some 0%nat) (Some 2%nat) = Ok (m, None) /\
     blocks m = [0; 1; 2; 4]%nat) /\
  (exists m, createProjection_h (failM 1) None [0] = Ok (m, None) /\ blocks m = [0]%nat) /\
  (e <- envM ;; '(_, m, r, xs) <- run_plan_h 40 40 e (failM 3) scanM ;; Ok xs) = Ok [] /\
  (e <- envM ;; '(_, m, r, xs) <- run_plan_h 40 40 e emptyM (PSel 0 2 [3; 0; 0; 0] scanM) ;; Ok (length xs)) = Ok 10%nat /\
  (e <- envM ;; '(_, m, r, xs) <- run_plan_h 40 40 e (failM 9) (PSel 0 2 [3; 0; 0; 0] scanM) ;; Ok (length xs)) = UB.
Proof.
  split; [vm_compute; reflexivity|]. split; [eexists; split; vm_compute; reflexivity|]. split; [eexists; split; vm_compute; reflexivity|].
  split; [vm_compute; reflexivity|]. split; vm_compute; reflexivity.
Qed.
Print Assumptions C41_out_of_memory_refuted.

(** The init functions report errors only on the console: a scan with a schema that
    does not fit the database is left without record buffer, and its next function
    writes the first record to NULL. *)
Theorem C41_next_after_failed_init_refuted : exists s,
  (e <- envM ;; '(m, r) <- create_plan e emptyM (PScan 0 (mkQ None None None None) s) ;; m <- init_h 40 e m r ;; Ok (blocks m)) = Ok [0; 3; 4; 5; 6]%nat /\
  (e <- envM ;; '(_, _, _, xs) <- run_plan_h 40 40 e emptyM (PScan 0 (mkQ None None None None) s) ;; Ok xs) = UB.
Proof. exists [4; 8]. split; vm_compute; reflexivity. Qed.
Print Assumptions C41_next_after_failed_init_refuted.

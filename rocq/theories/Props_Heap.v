(** Theorems about the memory management of the query operators (property C41).

    [rep m o t] (SpecHeap.v): the heap blocks of [t] in memory [m] represent the
    operator tree [o] of Query.v.  [fp t] are all these blocks, [structs t] the
    operators, [client t] what the client provided, [unreached t] the operators
    below an aggregate or in the second input of a join. *)
From Verif Require Import Base Config Storage DB Recovery Schema Query Heap Spec SpecUtil SpecPage SpecStore SpecIter Run SpecRun
  SpecQuery SpecHeap BaseFacts HeapFacts ExFacts ExQuery.
Open Scope Z_scope.

(** The life of a query, for every plan over reachable databases: creating,
    initialising and running it on the heap has no undefined access, returns
    exactly the records of the plan and leaves other memory alone; close then frees
    everything but the operators and what the client provided; freeing the
    operators one by one frees the rest; embedDBFreeOperatorRecursive frees it but
    for the operators below aggregates and in second inputs of joins. *)
Theorem C41_query_lifecycle :
  forall (KB PB : nat -> Z) (Ls : nat -> log) (e : env) p m0,
  (forall n, table (KB n) (PB n) (e n) (Ls n)) -> plan_ok (fun n => (fst (e n), Ls n)) KB p -> mem_ok m0 ->
  exists F, forall f n, (F <= f)%nat -> (length (denote (fun n => (fst (e n), Ls n)) p) < n)%nat ->
  exists e' m r ops cl rest m1 m2 m3,
    run_plan_h f n e m0 p = Ok (e', m, Some r, denote (fun n => (fst (e n), Ls n)) p) /\
    (forall b, live m0 b -> m_blk m b = m_blk m0 b) /\
    NoDup (ops ++ cl) /\ length ops = plan_ops p /\ length cl = plan_client p /\
    (forall b, In b (ops ++ cl) -> ~ live m0 b) /\
    close_h f m (Some r) = Ok m1 /\
    (forall b, live m1 b <-> live m0 b \/ In b (ops ++ cl)) /\ (forall b, live m0 b -> m_blk m1 b = m_blk m0 b) /\
    free_each m1 ops = Ok m2 /\
    (forall b, live m2 b <-> live m0 b \/ In b cl) /\ (forall b, live m0 b -> m_blk m2 b = m_blk m0 b) /\
    free_h f m1 (Some r) = Ok m3 /\
    NoDup rest /\ incl rest ops /\ length rest = plan_unreached p /\
    (forall b, live m3 b <-> live m0 b \/ In b (rest ++ cl)) /\ (forall b, live m0 b -> m_blk m3 b = m_blk m0 b).
Proof. exact queries_on_heap. Qed.
Print Assumptions C41_query_lifecycle.

(** A projection of a selection on a range scan: three operators, the iterator and
    the comparison value; embedDBFreeOperatorRecursive leaves only the last two. *)
Definition planH : plan := PProj [1; 0] (PSel 1 2 [66; 0; 0; 0] (PScan 0 (mkQ (Some 20) (Some 24) None None) [4; 4])).
Definition memH : mem := mkM 0 (fun _ => None) [].
Example C41_lifecycle_example : exists (e : env) F, forall f n, (F <= f)%nat -> (3 < n)%nat -> exists e' m r m1 m3 cl,
  run_plan_h f n e memH planH = Ok (e', m, Some r, [[66; 0; 0; 0; 22; 0; 0; 0]; [69; 0; 0; 0; 23; 0; 0; 0]; [72; 0; 0; 0; 24; 0; 0; 0]]) /\
  close_h f m (Some r) = Ok m1 /\ free_h f m1 (Some r) = Ok m3 /\ length cl = 2%nat /\ forall b, live m3 b <-> In b cl.
Proof.
  destruct tables_ex as (s0 & s1 & T). eexists.
  destruct (C41_query_lifecycle (fun _ => 2 ^ 31) (fun _ => 2 ^ 31) logsT _ planH memH T) as (F & H).
  - apply (plan_okb_ok dbT). vm_compute. reflexivity.
  - split; reflexivity.
  - exists F. intros f n Hf Hn. destruct (H f n Hf Hn) as (e' & m & r & ops & cl & rest & m1 & m2 & m3 & A & _ & _ & _ & L & _ & C & _ & _ & _ & _ & _ & D & _ & _ & R & V & _).
    destruct rest; [|discriminate]. exists e', m, r, m1, m3, cl. split; [rewrite A; reflexivity|]. split; [exact C|]. split; [exact D|]. split; [exact L|].
    intros b. rewrite V. cbn [app]. assert (~ live memH b) by (intros X; apply X; reflexivity). tauto.
Qed.

(** A key join of the table with a count of the other one: four operators, two of
    which embedDBFreeOperatorRecursive does not reach. *)
Definition planJ : plan := PJoin (PScan 0 (mkQ None None None None) [4; 4]) (PAgg (fun _ _ => false) [FMin 0 4; FCount] (PScan 1 (mkQ None None None None) [4; 4])).
Example C41_lifecycle_join_example : exists (e : env) F, forall f n, (F <= f)%nat -> (length (denote dbT planJ) < n)%nat -> exists e' m r m1 m2 m3 cl rest,
  run_plan_h f n e memH planJ = Ok (e', m, Some r, denote dbT planJ) /\
  close_h f m (Some r) = Ok m1 /\ (exists ops, length ops = 4%nat /\ free_each m1 ops = Ok m2) /\ free_h f m1 (Some r) = Ok m3 /\ length cl = 3%nat /\ length rest = 2%nat /\
  (forall b, live m2 b <-> In b cl) /\ forall b, live m3 b <-> In b (rest ++ cl).
Proof.
  destruct tables_ex as (s0 & s1 & T). eexists.
  destruct (C41_query_lifecycle (fun _ => 2 ^ 31) (fun _ => 2 ^ 31) logsT _ planJ memH T) as (F & H).
  - apply (plan_okb_ok dbT). vm_compute. reflexivity.
  - split; reflexivity.
  - exists F. intros f n Hf Hn. destruct (H f n Hf Hn) as (e' & m & r & ops & cl & rest & m1 & m2 & m3 & A & _ & _ & O & L & _ & C & _ & _ & Fe & V2 & _ & D & _ & _ & R & V & _).
    exists e', m, r, m1, m2, m3, cl, rest. split; [exact A|]. split; [exact C|]. split; [exists ops; auto|]. split; [exact D|]. split; [exact L|]. split; [exact R|].
    split; intros b; [rewrite V2|rewrite V]; assert (~ live memH b) by (intros X; apply X; reflexivity); tauto.
Qed.
Example C41_lifecycle_join_rows : length (denote dbT planJ) = 9%nat.
Proof. vm_compute. reflexivity. Qed.

(** One step of any represented tree.  Wherever the operators of Query.v make a
    step, so do those on the heap, with the same result; nothing is allocated or
    freed and only blocks of the tree are written. *)
Theorem C41_next_on_heap :
  forall f e o m t e' o' r, rep m o t -> NoDup (fp t) -> op_next f e o = Ok (e', o', r) ->
  exists m', next_h f e m (Some (root t)) = Ok (e', m', r) /\ rep m' o' t /\ (forall b, ~ In b (fp t) -> m_blk m' b = m_blk m b) /\
    m_next m' = m_next m.
Proof. exact next_on_heap. Qed.
Print Assumptions C41_next_on_heap.

(** A count per value of the data modulo 2 on a scan, with all its blocks; block 13
    belongs to something else. *)
Definition itE : iter := mkIt 0 0 None (Some 9) None None None.
Definition grpE (a b : list Z) : bool := nth 4 a 0 mod 2 =? nth 4 b 0 mod 2.
Definition blksE : list obj :=
  [BIter itE; BOp (mkOpr KScan (Some 2%nat) None (Some 3%nat) (Some 5%nat)); BScan 0 (Some 0%nat); BSchema (Some 4%nat); BCols [4; 4]; BBytes (repeat 0 8);
   BFns [afun_make FCount]; BAgg grpE (Some 6%nat) (Some 11%nat) 8 false; BOp (mkOpr KAgg (Some 7%nat) (Some 1%nat) (Some 9%nat) (Some 12%nat));
   BSchema (Some 10%nat); BCols [4]; BBytes (repeat 0 8); BBytes (repeat 0 4); BBytes [1]].
Definition memE : mem := mkM 14 (nth_error blksE) [].
Definition opE : op := OAgg grpE [afun_make FCount] (OScan 0 itE [4; 4] (Some (repeat 0 8))) (Some [4]) (Some (repeat 0 4)) (Some (repeat 0 8)) false.
Definition shapeE : shape := HAgg 8 7 6 (HScan 1 2 0 (Some (3, 4)%nat) (Some 5%nat)) (Some (9, 10)%nat) (Some 12%nat) (Some 11%nat).
Lemma repE : rep memE opE shapeE.
Proof. cbn. repeat split. exists 8. split; [reflexivity|]. intros ins _ E. injection E as <-. reflexivity. Qed.
Lemma nodupE : NoDup (fp shapeE).
Proof. cbn. repeat constructor; cbn; intuition discriminate. Qed.

Definition envE : res env :=
  '(s0, _) <- embedDBInit eA noDisk [] ;; '(s0, _) <- run eA s0 (puts 12 1 1) ;; Ok (fun n => (eA, s0)).
Example C41_next_example : exists e e' o' m', op_next 40 e opE = Ok (e', o', true) /\ op_buf o' = Some [1; 0; 0; 0] /\
  next_h 40 e memE (Some 8%nat) = Ok (e', m', true) /\ m_blk m' 12%nat = Some (BBytes [1; 0; 0; 0]) /\ m_blk m' 13%nat = Some (BBytes [1]).
Proof.
  assert (H : (e <- envE ;; '(_, o', r) <- op_next 40 e opE ;; Ok (r, op_buf o')) = Ok (true, Some [1; 0; 0; 0])) by (vm_compute; reflexivity).
  apply bind_inv in H as (e & _ & H). apply bind_inv in H as (((e' & o') & r) & En & H). injection H as -> Hb.
  destruct (C41_next_on_heap 40 e opE memE shapeE e' o' true repE nodupE En) as (m' & A & B & C & _).
  exists e, e', o', m'. split; [exact En|]. split; [exact Hb|]. split; [exact A|]. split.
  - pose proof (rep_buf _ _ _ B) as X. rewrite Hb in X. exact X.
  - rewrite C; [reflexivity|]. cbn. intuition discriminate.
Qed.

(** Initialisation of any represented tree, also of one initialised before unless a
    join is in it (C41_init_twice_refuted): it ends in a representation of the
    initialised tree with the same operators; all it adds is new memory, and no
    block outside the tree changes. *)
Theorem C41_init_on_heap :
  forall e o f m t o', rep m o t -> NoDup (fp t) -> mem_ok m -> (height t <= f)%nat -> joins_new o -> op_init e o = Ok o' ->
  exists m' t', init_h f e m (Some (root t)) = Ok m' /\ rep m' o' t' /\ NoDup (fp t') /\
    root t' = root t /\ structs t' = structs t /\ client t' = client t /\ unreached t' = unreached t /\ height t' = height t /\
    incl (fp t) (fp t') /\ (forall b, In b (fp t') -> In b (fp t) \/ ~ live m b) /\
    (forall b, ~ In b (fp t') -> m_blk m' b = m_blk m b) /\ mem_ok m'.
Proof. exact init_on_heap. Qed.
Print Assumptions C41_init_on_heap.

(** The same query before initialisation. *)
Definition blksI : list obj :=
  [BIter itE; BOp (mkOpr KScan (Some 2%nat) None (Some 3%nat) None); BScan 0 (Some 0%nat); BSchema (Some 4%nat); BCols [4; 4]; BBytes [1];
   BFns [afun_make FCount]; BAgg grpE (Some 6%nat) None 0 false; BOp (mkOpr KAgg (Some 7%nat) (Some 1%nat) None None)].
Definition memI : mem := mkM 9 (nth_error blksI) [].
Definition opI : op := OAgg grpE [afun_make FCount] (OScan 0 itE [4; 4] None) None None None false.
Definition shapeI : shape := HAgg 8 7 6 (HScan 1 2 0 (Some (3, 4)%nat) None) None None None.
Lemma repI : rep memI opI shapeI.
Proof. cbn. repeat split. exists 0. split; [reflexivity|]. congruence. Qed.
Lemma nodupI : NoDup (fp shapeI).
Proof. cbn. repeat constructor; cbn; intuition discriminate. Qed.
Lemma memI_ok : mem_ok memI.
Proof. split; [|reflexivity]. intros b Hb. cbn [m_blk memI]. apply nth_error_None. exact Hb. Qed.
Example C41_init_example : exists e m' t', init_h 2 e memI (Some 8%nat) = Ok m' /\ rep m' opE t' /\ (length (fp t') = 13)%nat /\ m_blk m' 5%nat = Some (BBytes [1]).
Proof.
  assert (H : (e <- envE ;; op_init e opI) = Ok opE) by (vm_compute; reflexivity). apply bind_inv in H as (e & _ & H).
  destruct (C41_init_on_heap e opI 2 memI shapeI opE repI nodupI memI_ok) as (m' & t' & A & R & N & _ & _ & _ & _ & _ & _ & I & O & _); [cbn; lia|exact Logic.I|exact H|].
  exists e, m', t'. split; [exact A|]. split; [exact R|]. split.
  - destruct t' as [| | |p st fn i sp bp lp|]; try (cbn in R; tauto). cbn [rep opE op_schema op_buf schp bufp] in R. destruct R as (_ & S & B & _ & _ & L & R').
    destruct i as [p' st' it' sp' bp'| | | |]; try (cbn in R'; tauto). cbn [rep op_schema op_buf schp bufp] in R'. destruct R' as (_ & S' & B' & _).
    destruct sp as [(? & ?)|], bp, lp, sp' as [(? & ?)|], bp'; try contradiction. reflexivity.
  - rewrite O; [reflexivity|]. intros Q. apply I in Q as [Q|Q]; [cbn in Q; intuition discriminate|]. apply Q. cbn. discriminate.
Qed.

(** Closing a represented tree at any time (before initialisation, between two
    records, after the end), then freeing its operators one by one or with
    embedDBFreeOperatorRecursive: what is left, and that nothing else changes. *)
Theorem C41_close_frees :
  forall f m o t, rep m o t -> NoDup (fp t) -> (height t <= f)%nat ->
  exists m1 m2 m3, close_h f m (Some (root t)) = Ok m1 /\
    (forall b, In b (fp t) -> (live m1 b <-> In b (structs t ++ client t))) /\
    free_each m1 (structs t) = Ok m2 /\
    (forall b, In b (fp t) -> (live m2 b <-> In b (client t))) /\
    free_h f m1 (Some (root t)) = Ok m3 /\
    (forall b, In b (fp t) -> (live m3 b <-> In b (unreached t ++ client t))) /\
    (forall b, ~ In b (fp t) \/ In b (client t) -> m_blk m1 b = m_blk m b /\ m_blk m2 b = m_blk m b /\ m_blk m3 b = m_blk m b).
Proof. exact close_free_spec. Qed.
Print Assumptions C41_close_frees.

Example C41_close_example : exists m1 m2 m3, close_h 2 memE (Some 8%nat) = Ok m1 /\ free_each m1 [8; 1]%nat = Ok m2 /\ free_h 2 m1 (Some 8%nat) = Ok m3 /\
  live m1 8%nat /\ ~ live m1 11%nat /\ ~ live m2 1%nat /\ live m3 1%nat /\ live m2 6%nat /\ m_blk m3 13%nat = Some (BBytes [1]).
Proof.
  destruct (C41_close_frees 2 memE opE shapeE repE nodupE) as (m1 & m2 & m3 & A & A' & B & B' & C & C' & D); [cbn; lia|].
  exists m1, m2, m3. split; [exact A|]. split; [exact B|]. split; [exact C|].
  rewrite (A' 8%nat), (A' 11%nat), (B' 1%nat), (C' 1%nat), (B' 6%nat) by (cbn; tauto). cbn [structs client unreached shapeE app In].
  split; [tauto|]. split; [intuition discriminate|]. split; [intuition discriminate|]. split; [tauto|]. split; [tauto|].
  apply D. left. cbn. intuition discriminate.
Qed.

(** embedDBFreeOperatorRecursive on a tree that has not been closed frees all of it
    but what the client provided, the last records of aggregates and the second
    inputs of joins. *)
Theorem C41_free_without_close :
  forall f m o t, rep m o t -> NoDup (fp t) -> (height t <= f)%nat ->
  exists m', free_h f m (Some (root t)) = Ok m' /\ (forall b, In b (fp t) -> (live m' b <-> In b (left_open t))) /\
    (forall b, ~ In b (fp t) \/ In b (left_open t) -> m_blk m' b = m_blk m b).
Proof. exact free_open_live. Qed.
Print Assumptions C41_free_without_close.

Example C41_free_without_close_example : exists m', free_h 2 memE (Some 8%nat) = Ok m' /\ ~ live m' 1%nat /\ ~ live m' 4%nat /\ live m' 11%nat /\ m_blk m' 13%nat = Some (BBytes [1]).
Proof.
  destruct (C41_free_without_close 2 memE opE shapeE repE nodupE) as (m' & A & B & C); [cbn; lia|]. exists m'. split; [exact A|].
  rewrite (B 1%nat), (B 4%nat), (B 11%nat) by (cbn; tauto). cbn [left_open shapeE ol app In]. split; [intuition discriminate|]. split; [intuition discriminate|]. split; [tauto|].
  apply C. left. cbn. intuition discriminate.
Qed.

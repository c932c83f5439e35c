(** Theorems about the query operators (properties C22, C23, C24, C25).

    [starts P sc keep k o rs] (SpecQuery.v): after its init function the operator
    [o] has schema [sc], its next calls return the records [rs] in the record
    buffer, and the [k] calls after them report the end; between any two calls
    the databases may change as long as [P] holds.  The theorems about one
    operator hold for every input operator of which this is known; every plan
    over reachable databases is one (C22_plans_are_inputs). *)
From Verif Require Import Base Config Storage DB Recovery Schema Query Spec SpecUtil SpecPage SpecStore SpecIter Run SpecRun
  SpecQuery QueryThms ExFacts ExQuery.
Open Scope Z_scope.

(** Whole query trees: creating the operators, initialising them and calling next
    until it returns 0 gives exactly the relational meaning of the tree over the
    retained records.  Joins and aggregates may share tables. *)
Theorem C22_plans_are_exact_partial :
  forall (KB PB : nat -> Z) (Ls : nat -> log) (e : env) p,
  (forall n, table (KB n) (PB n) (e n) (Ls n)) -> plan_ok (fun n => (fst (e n), Ls n)) KB p ->
  exists F, forall f n, (F <= f)%nat -> (length (denote (fun n => (fst (e n), Ls n)) p) < n)%nat ->
  exists e', run_plan f n e p = Ok (e', denote (fun n => (fst (e n), Ls n)) p).
Proof. exact plan_correct. Qed.
Print Assumptions C22_plans_are_exact_partial.

(** Selection data >= 66, then data and key swapped, on a range scan. *)
Definition scanA : plan := PScan 0 (mkQ (Some 20) (Some 24) None None) [4; 4].
Definition planA : plan := PProj [1; 0] (PSel 1 2 [66; 0; 0; 0] scanA).
Example C22_plan_example : exists e, (forall n, table (2 ^ 31) (2 ^ 31) (e n) (logsT n)) /\
  exists F, forall f n, (F <= f)%nat -> (3 < n)%nat -> exists e',
  run_plan f n e planA = Ok (e', [[66; 0; 0; 0; 22; 0; 0; 0]; [69; 0; 0; 0; 23; 0; 0; 0]; [72; 0; 0; 0; 24; 0; 0; 0]]).
Proof.
  destruct tables_ex as (s0 & s1 & T). eexists. split; [exact T|].
  destruct (C22_plans_are_exact_partial (fun _ => 2 ^ 31) (fun _ => 2 ^ 31) logsT _ planA T) as (F & H).
  - apply (plan_okb_ok dbT). vm_compute. reflexivity.
  - exists F. intros f n Hf Hn. destruct (H f n Hf) as (e' & E); [exact Hn|]. exists e'. rewrite E. f_equal.
Qed.

(** The databases stay usable: after any such queries, further ones still give
    their exact answers. *)
Theorem C22_queries_do_not_disturb_partial :
  forall (KB PB : nat -> Z) (Ls : nat -> log) (e : env),
  (forall n, table (KB n) (PB n) (e n) (Ls n)) ->
  exists P : env -> Prop, P e /\ forall p e1, plan_ok (fun n => (fst (e n), Ls n)) KB p -> P e1 ->
    exists F, forall f n, (F <= f)%nat -> (length (denote (fun n => (fst (e n), Ls n)) p) < n)%nat ->
    exists e2, run_plan f n e1 p = Ok (e2, denote (fun n => (fst (e n), Ls n)) p) /\ P e2.
Proof. exact plans_run. Qed.
Print Assumptions C22_queries_do_not_disturb_partial.

(** The same query twice. *)
Example C22_disturb_example : exists e : env, exists F, forall f n, (F <= f)%nat -> (3 < n)%nat -> exists e1,
  (exists r, run_plan f n e planA = Ok (e1, r) /\ length r = 3%nat) /\
  exists F, forall f n, (F <= f)%nat -> (3 < n)%nat -> exists e2 r, run_plan f n e1 planA = Ok (e2, r) /\ length r = 3%nat.
Proof.
  destruct tables_ex as (s0 & s1 & T). eexists.
  destruct (C22_queries_do_not_disturb_partial (fun _ => 2 ^ 31) (fun _ => 2 ^ 31) logsT _ T) as (P & He & H).
  assert (Hp : plan_ok dbT (fun _ => 2 ^ 31) planA) by (apply (plan_okb_ok dbT); vm_compute; reflexivity).
  destruct (H planA _ Hp He) as (F & H1). exists F. intros f n Hf Hn.
  destruct (H1 f n Hf Hn) as (e1 & E1 & He1). exists e1. split; [eexists; split; [exact E1|reflexivity]|].
  destruct (H planA _ Hp He1) as (F2 & H2). exists F2. intros f2 n2 Hf2 Hn2.
  destruct (H2 f2 n2 Hf2 Hn2) as (e2 & E2 & _). eexists _, _. split; [exact E2|reflexivity].
Qed.

(** Every plan over reachable databases is an input operator in the sense of the
    theorems below; only joins whose inputs are scans with bounds, and plans over
    them, are not known to report the end twice (C24_join_after_end_refuted). *)
Theorem C22_plans_are_inputs :
  forall (KB PB : nat -> Z) (Ls : nat -> log) (e : env) p k,
  (forall n, table (KB n) (PB n) (e n) (Ls n)) -> plan_ok (fun n => (fst (e n), Ls n)) KB p ->
  (plan_sticky p = false -> (k <= 1)%nat) ->
  exists (P : env -> Prop) o, P e /\ create e p = Ok o /\
    starts P (plan_schema p) (plan_keeps p) k o (denote (fun n => (fst (e n), Ls n)) p).
Proof. exact plan_starts. Qed.
Print Assumptions C22_plans_are_inputs.

Definition rowsA : list (list Z) :=
  [[20; 0; 0; 0; 60; 0; 0; 0]; [21; 0; 0; 0; 63; 0; 0; 0]; [22; 0; 0; 0; 66; 0; 0; 0]; [23; 0; 0; 0; 69; 0; 0; 0]; [24; 0; 0; 0; 72; 0; 0; 0]].
Example C22_inputs_example : exists (e : env) (P : env -> Prop) o, P e /\ create e scanA = Ok o /\ starts P [4; 4] false 2 o rowsA.
Proof.
  destruct tables_ex as (s0 & s1 & T).
  destruct (C22_plans_are_inputs (fun _ => 2 ^ 31) (fun _ => 2 ^ 31) logsT _ scanA 2 T) as (P & o & H1 & H2 & H3).
  - apply (plan_okb_ok dbT). vm_compute. reflexivity.
  - discriminate.
  - eexists _, P, o. split; [exact H1|]. split; [exact H2|]. exact H3.
Qed.

(** C22: a selection yields the input records that satisfy the predicate, in
    order, unmodified, then reports the end as often as its input does. *)
Theorem C22_selection_is_filter :
  forall EI sc kp k o rs col oper val, schema_ok sc -> col_in sc col -> bytes_ok val ->
  Z.abs (col_desc sc col) <= zlen val -> starts EI sc kp k o rs ->
  starts EI sc true k (OSel col oper val o None None) (filter (selects sc col oper val) rs).
Proof. exact starts_sel. Qed.
Print Assumptions C22_selection_is_filter.

Example C22_selection_example : exists (e : env) (P : env -> Prop) o, P e /\ create e scanA = Ok o /\
  starts P [4; 4] true 2 (OSel 0 5 [22; 0; 0; 0] o None None)
    [[20; 0; 0; 0; 60; 0; 0; 0]; [21; 0; 0; 0; 63; 0; 0; 0]; [23; 0; 0; 0; 69; 0; 0; 0]; [24; 0; 0; 0; 72; 0; 0; 0]].
Proof.
  destruct C22_inputs_example as (e & P & o & He & E & St). exists e, P, o. split; [auto|]. split; [auto|].
  apply (C22_selection_is_filter P [4; 4] false 2 o rowsA 0 5 [22; 0; 0; 0]); auto.
  - apply schema_okb_ok. reflexivity.
  - split; [discriminate|reflexivity].
  - apply bytesb_ok. reflexivity.
  - discriminate.
Qed.

(** C23: a projection yields for every input record the bytes of the requested
    columns in the requested order; its schema holds their descriptors. *)
Theorem C23_projection_is_column_selection :
  forall EI sc kp k o rs cols, schema_ok sc -> Forall (col_in sc) cols -> schema_ok (map (col_desc sc) cols) ->
  starts EI sc kp k o rs ->
  starts EI (map (col_desc sc) cols) true k (OProj cols o None None) (map (project sc cols) rs).
Proof. exact starts_proj. Qed.
Print Assumptions C23_projection_is_column_selection.

Example C23_projection_example : exists (e : env) (P : env -> Prop) o, P e /\ create e scanA = Ok o /\
  starts P [4; 4; 4] true 2 (OProj [1; 0; 1] o None None)
    (map (fun r => skipn 4 r ++ firstn 4 r ++ skipn 4 r) rowsA).
Proof.
  destruct C22_inputs_example as (e & P & o & He & E & St). exists e, P, o. split; [auto|]. split; [auto|].
  apply (C23_projection_is_column_selection P [4; 4] false 2 o rowsA [1; 0; 1]); auto.
  - apply schema_okb_ok. reflexivity.
  - repeat constructor; discriminate.
  - apply schema_okb_ok. reflexivity.
Qed.

(** C24: a key join of inputs with strictly ascending unsigned first columns
    yields all pairs with equal keys.  If an input may change its record buffer
    when it reports the end (a scan with bounds), the join is only known to
    report the end once. *)
Theorem C24_join_is_merge_join :
  forall EI s1 s2 kp1 kp2 k o1 o2 rs1 rs2, schema_ok s1 -> schema_ok s2 -> schema_ok (s1 ++ s2) ->
  col_in s1 0 -> col_in s2 0 -> 0 < col_desc s1 0 -> col_desc s1 0 = col_desc s2 0 ->
  keys_asc s1 rs1 -> keys_asc s2 rs2 -> (kp1 && kp2 = false -> (k <= 1)%nat) ->
  starts EI s1 kp1 k o1 rs1 -> starts EI s2 kp2 k o2 rs2 ->
  starts EI (s1 ++ s2) true k (OJoin o1 o2 None None true) (joined s1 s2 rs1 rs2).
Proof. exact starts_join. Qed.
Print Assumptions C24_join_is_merge_join.

(** A range of the first table joined with a selection on itself. *)
Example C24_join_example : exists (e : env) (P : env -> Prop) o1 o2, P e /\
  starts P [4; 4; 4; 4] true 1 (OJoin o1 (OSel 1 5 [66; 0; 0; 0] o2 None None) None None true)
    (map (fun r => r ++ r) [[20; 0; 0; 0; 60; 0; 0; 0]; [21; 0; 0; 0; 63; 0; 0; 0]; [23; 0; 0; 0; 69; 0; 0; 0]; [24; 0; 0; 0; 72; 0; 0; 0]]).
Proof.
  destruct C22_inputs_example as (e & P & o & He & E & St).
  assert (St1 : starts P [4; 4] false 1 o rowsA).
  { destruct St as (F & H). exists F. intros e1 He1. destruct (H e1 He1) as (o' & A & B & Y).
    exists o'. split; [auto|]. split; [auto|]. eapply QueryFacts.yields_mono; [| | |exact Y]; auto. }
  exists e, P, o, o. split; [auto|].
  apply (C24_join_is_merge_join P [4; 4] [4; 4] false true 1 o _ rowsA (filter (selects [4; 4] 1 5 [66; 0; 0; 0]) rowsA)); auto.
  - apply schema_okb_ok. reflexivity.
  - apply schema_okb_ok. reflexivity.
  - apply schema_okb_ok. reflexivity.
  - split; [discriminate|reflexivity].
  - split; [discriminate|reflexivity].
  - reflexivity.
  - apply keys_ascb_ok. reflexivity.
  - apply keys_ascb_ok. reflexivity.
  - apply (C22_selection_is_filter P [4; 4] false 1 o rowsA 1 5 [66; 0; 0; 0]); auto.
    + apply schema_okb_ok. reflexivity.
    + split; [discriminate|reflexivity].
    + apply bytesb_ok. reflexivity.
    + discriminate.
Qed.

(** C24: what the pairs are: one record for each key in both inputs, ascending. *)
Theorem C24_join_pairs :
  forall s1 s2 rs1 rs2 x, In x (joined s1 s2 rs1 rs2) <->
  exists r1 r2, In r1 rs1 /\ In r2 rs2 /\ field s1 0 r1 = field s2 0 r2 /\ x = r1 ++ r2.
Proof. exact joined_in. Qed.
Print Assumptions C24_join_pairs.
Theorem C24_join_ascending :
  forall s1 s2 rs1 rs2, col_in s1 0 -> Forall (row_ok s1) rs1 -> keys_asc s1 rs1 -> keys_asc s2 rs2 ->
  keys_asc (s1 ++ s2) (joined s1 s2 rs1 rs2).
Proof. exact joined_asc. Qed.
Print Assumptions C24_join_ascending.
Example C24_pairs_example : let rs2 := [[21; 0; 0; 0; 1]; [24; 0; 0; 0; 2]; [30; 0; 0; 0; 3]] in
  In [24; 0; 0; 0; 72; 0; 0; 0; 24; 0; 0; 0; 2] (joined [4; 4] [4; 1] rowsA rs2) /\
  keys_asc [4; 4; 4; 1] (joined [4; 4] [4; 1] rowsA rs2) /\ length (joined [4; 4] [4; 1] rowsA rs2) = 2%nat.
Proof.
  intros rs2. split; [|split].
  - apply C24_join_pairs. exists [24; 0; 0; 0; 72; 0; 0; 0], [24; 0; 0; 0; 2]. unfold rowsA, rs2. cbn. tauto.
  - apply (C24_join_ascending [4; 4] [4; 1]).
    + split; [discriminate|reflexivity].
    + repeat constructor; discriminate.
    + apply keys_ascb_ok. reflexivity.
    + apply keys_ascb_ok. reflexivity.
  - reflexivity.
Qed.

(** C25: an aggregate yields one record per maximal run.  Sums are exact modulo
    2^64; the quotient of an average is an arbitrary function of the exact sum and
    count (floating point is not modelled), of 4 or 8 bytes whatever size is asked
    for; the input must be known to report the
    end once more than the aggregate. *)
Theorem C25_aggregate_is_group_by :
  forall EI sc kp k o rs grp fs, schema_ok sc -> Forall (afun_ok sc) fs -> schema_ok (map afun_desc fs) ->
  zlen rs <= 2 ^ 31 -> starts EI sc kp (S k) o rs ->
  starts EI (map afun_desc fs) true k (OAgg grp (map afun_make fs) o None None None false)
    (map (aggregated sc fs) (runs grp rs)).
Proof. exact starts_agg. Qed.
Print Assumptions C25_aggregate_is_group_by.

(** Count, sum, minimum, maximum and (truncated) mean in groups of keys /2. *)
Definition half (a b : list Z) : bool := field [4; 4] 0 a / 2 =? field [4; 4] 0 b / 2.
Definition meanZ (sg : bool) (sum n : Z) : list Z := Base.le_enc 4 (sum / n).
Example C25_aggregate_example : exists (e : env) (P : env -> Prop) o, P e /\ create e scanA = Ok o /\
  starts P [4; -8; 4; 4; 4] true 1
    (OAgg half
       (map afun_make [FCount; FSum 1; FMin 0 4; FMax 1 4; FAvg 1 3 meanZ]) o None None None false)
    [[2; 0; 0; 0; 123; 0; 0; 0; 0; 0; 0; 0; 20; 0; 0; 0; 63; 0; 0; 0; 61; 0; 0; 0];
     [2; 0; 0; 0; 135; 0; 0; 0; 0; 0; 0; 0; 22; 0; 0; 0; 69; 0; 0; 0; 67; 0; 0; 0];
     [1; 0; 0; 0; 72; 0; 0; 0; 0; 0; 0; 0; 24; 0; 0; 0; 72; 0; 0; 0; 72; 0; 0; 0]].
Proof.
  destruct C22_inputs_example as (e & P & o & He & E & St). exists e, P, o. split; [auto|]. split; [auto|].
  apply (C25_aggregate_is_group_by P [4; 4] false 1 o rowsA half [FCount; FSum 1; FMin 0 4; FMax 1 4; FAvg 1 3 meanZ]); auto.
  - apply schema_okb_ok. reflexivity.
  - do 4 (constructor; [apply afun_okb_ok; reflexivity|]). constructor; [|constructor].
    split; [split; [discriminate|reflexivity]|]. split; [split; discriminate|].
    intros sg x n. split; [apply BaseFacts.le_enc_bytes|]. unfold meanZ. rewrite BaseFacts.le_enc_zlen. discriminate.
  - apply schema_okb_ok. reflexivity.
  - discriminate.
Qed.

(** C25: the runs are a partition of the input into non-empty pieces; the grouping
    predicate holds between neighbours in one run, and not across a boundary. *)
Theorem C25_runs_partition :
  forall grp rs, concat (runs grp rs) = rs /\ Forall (fun g => g <> []) (runs grp rs).
Proof. exact (fun grp rs => conj (runs_concat grp rs) (runs_nonempty grp rs)). Qed.
Print Assumptions C25_runs_partition.
Theorem C25_runs_group :
  forall grp rs, Forall (fun g => forall x y, neighbours g x y -> grp x y = true) (runs grp rs).
Proof. exact runs_inside. Qed.
Print Assumptions C25_runs_group.
Theorem C25_runs_maximal :
  forall grp rs g1 g2, neighbours (runs grp rs) g1 g2 ->
  forall x y a b, g1 = a ++ [x] -> g2 = y :: b -> grp x y = false.
Proof. exact runs_between. Qed.
Print Assumptions C25_runs_maximal.
Example C25_runs_example : let grp := fun a b => nth 0 a 0 / 2 =? nth 0 b 0 / 2 in
  length (runs grp rowsA) = 3%nat /\ concat (runs grp rowsA) = rowsA /\
  grp [20; 0; 0; 0; 60; 0; 0; 0] [21; 0; 0; 0; 63; 0; 0; 0] = true /\
  grp [21; 0; 0; 0; 63; 0; 0; 0] [22; 0; 0; 0; 66; 0; 0; 0] = false.
Proof.
  intros grp. split; [reflexivity|]. split; [apply C25_runs_partition|]. split.
  - pose proof (C25_runs_group grp rowsA) as H. inversion H as [|g gs Hg _ E]. apply Hg. exists [], []. reflexivity.
  - eapply (C25_runs_maximal grp rowsA); [exists []; eexists; reflexivity|exact (eq_refl ([[20; 0; 0; 0; 60; 0; 0; 0]] ++ [_]))|reflexivity].
Qed.

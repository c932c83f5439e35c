(** Theorems about the data area of databases with variable data, over the lifetimes
    of Props_VarReopen.v: calls, stops, reopenings and power failures inside puts
    (properties C02, C08 and C09). *)
From Verif Require Import Base Config Storage DB VarData Recovery Spec SpecPage SpecStore Run SpecRun SpecReopen SpecReopenIdx SpecVar SpecVarReopen
  VarReopenThms VarStoreThms ExFacts ExVar ExVarReopen.
Open Scope Z_scope.

(** C02: the retained records are the newest ones, whole erase blocks at a time; at
    most the area and at least the area less one block; each retained page lies at
    its place in the data file and the rest in the write buffer.  [_partial]: the
    lifetimes covered by [vlife]. *)
Theorem C02_var_retained_is_newest_suffix_partial :
  forall KB PB VB c dk s es c1 s1 xs, vlife c KB PB VB dk s es -> vlifetime c s es = Ok (c1, s1, xs) ->
  let L := vlog (snd (fst (vlife_spec c es))) in let n := zlen (pages L) in
  accepted L = concat (firstn (Z.to_nat (lo L)) (pages L)) ++ retained L /\
  0 <= lo L /\ lo L mod eraseSize c1 = 0 /\ n - lo L <= numData c1 /\
  Z.min n (numData c1 - eraseSize c1) <= n - lo L /\
  minD (sd s1) = lo L /\ nextD (sd s1) = n /\
  (forall id, lo L <= id < n -> stores c1 (fpg (fD (sio s1)) (id mod numData c1)) (nth (Z.to_nat id) (pages L) [])) /\
  stores c1 (wbuf (sd s1)) (cur L).
Proof. exact life_retained. Qed.
Print Assumptions C02_var_retained_is_newest_suffix_partial.

(** 52 puts fill the area of 8 pages; then a stop, more puts, a failure inside a put
    and more puts. *)
Definition ls1 : list vcode := map VC (vputs 52 1 3).
Definition ls2 : list vcode := ls1 ++ VLinear :: map VC (vputs 12 60 3).
Definition ls3 : list vcode := ls2 ++ VCrash 80 [1; 2; 3; 4] (Some (repeat 7 10)) 0 false :: map VC (vputs 12 90 3).
Example C02_var_example : exists s s1 xs, vlife eV (2 ^ 31) (2 ^ 31) (2 ^ 32) noDisk s (map vev ls3) /\
  vlifetime eV s (map vev ls3) = Ok (eVr, s1, xs) /\ nextD (sd s1) = 16 /\ minD (sd s1) = 8.
Proof.
  destruct (vlife_check_ok ls3 ltac:(vm_compute; reflexivity)) as (s & _ & L).
  destruct (life_run_ok _ _ _ _ _ _ _ L) as (s1 & xs & R & _).
  rewrite (vlife_last (map vev ls3) eVr ltac:(reflexivity)) in R.
  destruct (C02_var_retained_is_newest_suffix_partial _ _ _ _ _ _ _ _ _ _ L R) as (_ & _ & _ & _ & _ & E1 & E2 & _).
  exists s, s1, xs. split; [exact L|]. split; [exact R|]. rewrite E1, E2. vm_compute. auto.
Qed.

(** C08: reopening keeps all the sealed pages but at most one erase block of the
    oldest. *)
Theorem C08_var_recovery_loses_one_block_partial :
  forall KB PB VB c dk s es c', vlife c KB PB VB dk s (es ++ [VEvReopen c']) ->
  let L := vlog (snd (fst (vlife_spec c es))) in let L1 := recovered c' (pages L) in
  vlog (snd (fst (vlife_spec c (es ++ [VEvReopen c'])))) = L1 /\
  (lo L1 = lo L \/ lo L1 = lo L + eraseSize c') /\
  Z.min (zlen (pages L)) (numData c' - eraseSize c') <= zlen (pages L) - lo L1.
Proof. exact life_recovery_loss. Qed.
Print Assumptions C08_var_recovery_loses_one_block_partial.

Example C08_var_example : exists s, vlife eV (2 ^ 31) (2 ^ 31) (2 ^ 32) noDisk s (map vev ls1 ++ [VEvReopen eVr]) /\
  let L := vlog (snd (fst (vlife_spec eV (map vev ls1)))) in
  zlen (pages L) = 12 /\ lo L = 4 /\ lo (recovered eVr (pages L)) = 6.
Proof.
  destruct (vlife_check_ok (ls1 ++ [VLinear]) ltac:(vm_compute; reflexivity)) as (s & _ & L). rewrite map_app in L.
  exists s. split; [exact L|]. vm_compute. auto.
Qed.

(** C09: what any call of any session does to the data file: nothing, or it writes
    the next page at its place, erasing exactly the oldest block when the area is
    full.  The variable area and the calls on it never touch the data file. *)
Theorem C09_var_storage_discipline_partial :
  forall KB PB VB c dk s es o c0 s0 xs s1 x, vlife c KB PB VB dk s (es ++ [VEvOp o]) ->
  vlifetime c s es = Ok (c0, s0, xs) -> vstep c0 s0 o = Ok (s1, x) ->
  (fD (sio s1) = fD (sio s0) /\ nextD (sd s1) = nextD (sd s0) /\ minD (sd s1) = minD (sd s0)) \/
  (seals_page c0 (fD (sio s0)) (fD (sio s1)) (minD (sd s0)) (nextD (sd s0)) /\
   nextD (sd s1) = nextD (sd s0) + 1 /\
   minD (sd s1) = (if nextD (sd s0) - minD (sd s0) =? numData c0 then minD (sd s0) + eraseSize c0 else minD (sd s0))).
Proof. exact life_storage. Qed.
Print Assumptions C09_var_storage_discipline_partial.

(** The put of key 110 seals a page of the full area and drops the oldest block. *)
Definition put110 : vop := VPut 110 [1; 2; 3; 4] (Some [5; 6]).
Example C09_var_example : exists s s0 xs s1 x, vlife eV (2 ^ 31) (2 ^ 31) (2 ^ 32) noDisk s (map vev ls3 ++ [VEvOp put110]) /\
  vlifetime eV s (map vev ls3) = Ok (eVr, s0, xs) /\ vstep eVr s0 put110 = Ok (s1, x) /\
  seals_page eVr (fD (sio s0)) (fD (sio s1)) 8 16 /\ minD (sd s1) = 10.
Proof.
  destruct (vlife_check_ok (ls3 ++ [VC put110]) ltac:(vm_compute; reflexivity)) as (s & Es & L1). rewrite map_app in L1.
  destruct (vlife_check_ok ls3 ltac:(vm_compute; reflexivity)) as (s' & Es' & L). rewrite Es in Es'. injection Es' as <-.
  destruct (life_run_ok _ _ _ _ _ _ _ L) as (s0 & xs & R & _).
  rewrite (vlife_last (map vev ls3) eVr ltac:(reflexivity)) in R.
  destruct (life_run_ok _ _ _ _ _ _ _ L1) as (s1' & xs1 & R1 & _). rewrite vlifetime_app, R in R1.
  cbn [bind map vlifetime vevent_step vev] in R1.
  destruct (vstep eVr s0 put110) as [[s1 x]| |] eqn:E; [|discriminate R1|discriminate R1].
  destruct (C02_var_retained_is_newest_suffix_partial _ _ _ _ _ _ _ _ _ _ L R) as (_ & _ & _ & _ & _ & E1 & E2 & _).
  assert (R2 : vlifetime eV s (map vev ls3 ++ [VEvOp put110]) = Ok (eVr, s1, xs ++ [Some x])).
  { rewrite vlifetime_app, R. cbn [bind vlifetime vevent_step]. rewrite E. reflexivity. }
  destruct (C02_var_retained_is_newest_suffix_partial _ _ _ _ _ _ _ _ _ _ L1 R2) as (_ & _ & _ & _ & _ & F1 & F2 & _).
  assert (Q1 : lo (vlog (snd (fst (vlife_spec eV (map vev ls3))))) = 8) by (vm_compute; reflexivity).
  assert (Q2 : zlen (pages (vlog (snd (fst (vlife_spec eV (map vev ls3)))))) = 16) by (vm_compute; reflexivity).
  assert (Q3 : lo (vlog (snd (fst (vlife_spec eV (map vev ls3 ++ [VEvOp put110]))))) = 10) by (vm_compute; reflexivity).
  apply (eq_trans E1) in Q1. apply (eq_trans E2) in Q2. apply (eq_trans F1) in Q3. clear - L1 R E Q1 Q2 Q3.
  exists s, s0, xs, s1, x. split; [exact L1|]. split; [exact R|]. split; [exact E|].
  destruct (C09_var_storage_discipline_partial _ _ _ _ _ _ _ _ _ _ _ _ _ L1 R E) as [(_ & _ & H)|(H & _ & _)].
  - rewrite Q1, Q3 in H. discriminate H.
  - rewrite Q1, Q2 in H. auto.
Qed.

(** Theorems about closing, crashing and reopening (properties C06, C07, C08 and
    the recovery parts of C09, C31, C34).

    A lifetime (SpecReopen.v) is a list of events: operations, stops between two
    operations followed by reopening, and crashes after any storage operation
    inside an operation followed by reopening.  [lifetime_ok] states which
    lifetimes are covered: no bitmap index, at most 127 records per page
    (recovery reads the count as int8_t), keys continue to ascend, a maximum
    spline error of 1 once the area has wrapped (C06_reopen_spline_division_refuted),
    and no crash between the visible erase of block 0 and the next page write
    (C07_crash_after_erase_refuted).  [recovered c P] is the log a database with
    written pages [P] must serve after reopening. *)
From Verif Require Import Base Config Storage DB Recovery Spec SpecPage SpecStore Run SpecRun SpecIter SpecReopen
  ReopenThms ExFacts ExIter ExReopen.
Open Scope Z_scope.

(** C31 and C34: no lifetime reaches undefined behaviour or runs forever, every
    reopening succeeds, puts and flushes return 0, and gets never return data
    other than what was put. *)
Theorem C31_lifetime_defined_partial :
  forall KB PB c k s es, created c KB PB k s -> lifetime_ok c KB PB emptyLog es ->
  exists c1 s1 xs, lifetime c s es = Ok (c1, s1, xs) /\ lifetime_sound c emptyLog es xs.
Proof. exact c31_lifetime. Qed.
Print Assumptions C31_lifetime_defined_partial.

(** Three sessions with visible erases: two wraps, a close, a put interrupted
    after the page write, a put interrupted after the erase. *)
Definition life3 : list code :=
  map COp (puts 60 1 1) ++ [CReopen] ++ map COp (puts 14 100 1 ++ [HGet 105; HGet 3]) ++ [CCrash (HPut 200 [0; 1; 2; 3]) 0] ++
  map COp (puts 15 300 1) ++ [COp HFlush] ++ map COp (puts 14 320 1) ++ [CCrash (HPut 400 [0; 1; 2; 3]) 1] ++ [COp (HGet 314)].
Example C31_lifetime_example : exists s c1 s1 xs, created eE (2 ^ 31) (2 ^ 31) noDisk s /\
  lifetime eE s (map (ev eEr) life3) = Ok (c1, s1, xs) /\
  match last xs None with Some (OGet r (Some d)) => r = 0 /\ d = le_enc 4 (314 * 3) | _ => False end.
Proof.
  destruct eE_created as (s & C). exists s.
  destruct (C31_lifetime_defined_partial _ _ _ _ _ _ C (eEr_codes life3 ltac:(vm_compute; reflexivity))) as (c1 & s1 & xs & E & _).
  exists c1, s1, xs. split; [exact C|]. split; [exact E|]. destruct C as (_ & _ & _ & C).
  assert (Q : match embedDBInit eE noDisk [] with
              | Ok (s, _) => match lifetime eE s (map (ev eEr) life3) with
                | Ok (_, _, xs) => match last xs None with Some (OGet r (Some d)) => (r =? 0) && (if list_eq_dec Z.eq_dec d (le_enc 4 (314 * 3)) then true else false) | _ => false end
                | _ => false end
              | _ => false end = true) by (vm_compute; reflexivity).
  rewrite C, E in Q. destruct (last xs None) as [[| |r [d|]]|]; try discriminate.
  apply andb_prop in Q as [Q1 Q2]. destruct (list_eq_dec Z.eq_dec d (le_enc 4 (314 * 3))); [|discriminate]. split; [now apply Z.eqb_eq|auto].
Qed.

(** C06: stopping between two operations and reopening serves the log of all
    pages written (records not flushed are gone), starting at [rec_lo].  The
    served log decides gets at once, and every later calm history and scan. *)
Theorem C06_reopen_serves_partial :
  forall KB PB c k s es c', created c KB PB k s -> lifetime_ok c KB PB emptyLog (es ++ [EvReopen c']) ->
  exists s1 xs, lifetime c s (es ++ [EvReopen c']) = Ok (c', s1, xs) /\
    serves c' KB PB s1 (recovered c' (pages (snd (lifetime_spec c emptyLog es)))).
Proof. exact c06_reopen. Qed.
Print Assumptions C06_reopen_serves_partial.

Definition life1 : list code := map COp (puts 60 1 1) ++ [COp HFlush].
Example C06_example : exists s s1 xs s2, created eA (2 ^ 31) (2 ^ 31) noDisk s /\
  lifetime eA s (map (ev eAr) (life1 ++ [CReopen])) = Ok (eAr, s1, xs) /\
  run eAr s1 (map HGet [60; 45; 1]) = Ok (s2, [OGet 0 (Some (le_enc 4 180)); OGet 0 (Some (le_enc 4 135)); OGet (-1) None]).
Proof.
  destruct eA_created as (s & C). rewrite map_app.
  destruct (C06_reopen_serves_partial _ _ eA noDisk s (map (ev eAr) life1) eAr C) as (s1 & xs & E & Sv).
  { change [EvReopen eAr] with (map (ev eAr) [CReopen]). rewrite <- map_app. apply eAr_codes. vm_compute. reflexivity. }
  destruct Sv as [Sv _]. destruct (Sv [60; 45; 1]) as (s2 & E2).
  { apply keys_check; [reflexivity|vm_compute; reflexivity]. }
  exists s, s1, xs, s2. split; [exact C|]. split; [exact E|]. rewrite E2. apply (f_equal (fun x => Ok (s2, x))). vm_compute. reflexivity.
Qed.

(** C06: after a flush nothing at all is lost, provided the area has not wrapped,
    or the write position is not at a block boundary, or it is at the end of the
    area (in the remaining case one block is: C06_reopen_drops_block_refuted). *)
Theorem C06_flush_reopen_exact_partial :
  forall KB PB c k s es c', let es1 := es ++ [EvOp HFlush] in let L := snd (lifetime_spec c emptyLog es1) in
  created c KB PB k s -> lifetime_ok c KB PB emptyLog (es1 ++ [EvReopen c']) ->
  zlen (pages L) <= numData c' \/ zlen (pages L) mod eraseSize c' <> 0 \/ zlen (pages L) mod numData c' = 0 ->
  exists s1 xs, lifetime c s (es1 ++ [EvReopen c']) = Ok (c', s1, xs) /\ serves c' KB PB s1 L.
Proof. exact c06_flush. Qed.
Print Assumptions C06_flush_reopen_exact_partial.

(** After the reopening further puts, two of them refused, and a scan. *)
Example C06_exact_example : exists s s1 xs s2 s3, created eA (2 ^ 31) (2 ^ 31) noDisk s /\
  lifetime eA s (map (ev eAr) (life1 ++ [CReopen])) = Ok (eAr, s1, xs) /\
  run eAr s1 (puts 2 61 1 ++ [HPut 62 [0; 0; 0; 0]; HPut 7 [0; 0; 0; 0]] ++ puts 1 63 1) = Ok (s2, [OPut 0; OPut 0; OPut 1; OPut 1; OPut 0]) /\
  scan eAr s2 (mkQ (Some 59) None None None) 50 = Ok (s3, map (fun k => (k, le_enc 4 (k * 3))) [59; 60; 61; 62; 63]).
Proof.
  destruct eA_created as (s & C).
  assert (Q : map (ev eAr) (life1 ++ [CReopen]) = (map (ev eAr) (map COp (puts 60 1 1)) ++ [EvOp HFlush]) ++ [EvReopen eAr]).
  { unfold life1. rewrite !map_app. reflexivity. }
  destruct (C06_flush_reopen_exact_partial _ _ eA noDisk s (map (ev eAr) (map COp (puts 60 1 1))) eAr C) as (s1 & xs & E & Sv).
  { rewrite <- Q. apply eAr_codes. vm_compute. reflexivity. }
  { right. left. vm_compute. discriminate. }
  rewrite <- Q in E. destruct Sv as [_ Sv].
  specialize (Sv (puts 2 61 1 ++ [HPut 62 [0; 0; 0; 0]; HPut 7 [0; 0; 0; 0]] ++ puts 1 63 1)).
  destruct (spec_run (maxRec eAr) (numData eAr) (eraseSize eAr) (snd (lifetime_spec eA emptyLog
    (map (ev eAr) (map COp (puts 60 1 1)) ++ [EvOp HFlush]))) (puts 2 61 1 ++ [HPut 62 [0; 0; 0; 0]; HPut 7 [0; 0; 0; 0]] ++ puts 1 63 1)) as [L1 ys] eqn:Es.
  destruct Sv with (L1 := L1) (xs := ys) as (s2 & E2 & Sc).
  { apply hist_okb_ok. vm_compute. reflexivity. }
  { destruct C as (_ & _ & _ & C). apply calmb_ok.
    assert (K : match embedDBInit eA noDisk [] with
              | Ok (s, _) => match lifetime eA s (map (ev eAr) (life1 ++ [CReopen])) with
                | Ok (_, s1, _) => calmb eAr s1 (puts 2 61 1 ++ [HPut 62 [0; 0; 0; 0]; HPut 7 [0; 0; 0; 0]] ++ puts 1 63 1)
                | _ => false end
              | _ => false end = true) by (vm_compute; reflexivity).
    rewrite C, E in K. exact K. }
  { apply Z.ltb_lt. vm_compute. reflexivity. }
  { reflexivity. }
  vm_compute in Es. injection Es as <- <-.
  destruct (Sc (mkQ (Some 59) None None None) 50%nat) as (s3 & E3).
  { reflexivity. }
  { reflexivity. }
  { apply query_okb_ok; reflexivity. }
  { apply Nat.ltb_lt. vm_compute. reflexivity. }
  exists s, s1, xs, s2, s3. split; [exact C|]. split; [exact E|]. split.
  - rewrite E2. apply (f_equal (fun x => Ok (s2, x))). vm_compute. reflexivity.
  - rewrite E3. apply (f_equal (fun x => Ok (s3, x))). vm_compute. reflexivity.
Qed.

(** C07: a crash after any storage operation of an operation: reopening serves
    the log of the pages whose writes completed. *)
Theorem C07_crash_recovers_partial :
  forall KB PB c k s es o i c', created c KB PB k s -> lifetime_ok c KB PB emptyLog (es ++ [EvCrash o i c']) ->
  let c0 := fst (lifetime_spec c emptyLog es) in let L := snd (lifetime_spec c emptyLog es) in
  exists P l s1 xs, nth_error (op_points c0 L o) i = Some (P, l) /\
    (P = pages L \/ cur L <> [] /\ P = pages L ++ [cur L]) /\
    lifetime c s (es ++ [EvCrash o i c']) = Ok (c', s1, xs) /\ serves c' KB PB s1 (recovered c' P).
Proof. exact c07_crash. Qed.
Print Assumptions C07_crash_recovers_partial.

(** The put of 71 first erases block 1 (pages 2 and 3 of the area) and then writes
    page 10; the crash comes in between: pages 8 and 9 survive. *)
Definition life2 : list code := map COp (puts 77 1 1).
Example C07_example : exists s s1 xs s2, created eE (2 ^ 31) (2 ^ 31) noDisk s /\
  lifetime eE s (map (ev eEr) (life2 ++ [CCrash (HPut 78 [9; 9; 9; 9]) 1])) = Ok (eEr, s1, xs) /\
  run eEr s1 (map HGet [56; 57; 70; 71; 77]) =
    Ok (s2, [OGet (-1) None; OGet 0 (Some (le_enc 4 171)); OGet 0 (Some (le_enc 4 210)); OGet (-1) None; OGet (-1) None]).
Proof.
  destruct eE_created as (s & C). rewrite map_app.
  destruct (C07_crash_recovers_partial _ _ eE noDisk s (map (ev eEr) life2) (HPut 78 [9; 9; 9; 9]) 1 eEr C) as (P & l & s1 & xs & Hp & _ & E & Sv).
  { change [EvCrash (HPut 78 [9; 9; 9; 9]) 1 eEr] with (map (ev eEr) [CCrash (HPut 78 [9; 9; 9; 9]) 1]). rewrite <- map_app.
    apply eEr_codes. vm_compute. reflexivity. }
  destruct Sv as [Sv _]. destruct (Sv [56; 57; 70; 71; 77]) as (s2 & E2).
  { apply keys_check; [reflexivity|vm_compute; reflexivity]. }
  exists s, s1, xs, s2. split; [exact C|]. split; [exact E|]. rewrite E2. apply (f_equal (fun x => Ok (s2, x))).
  assert (K : nth_error (op_points (fst (lifetime_spec eE emptyLog (map (ev eEr) life2)))
                (snd (lifetime_spec eE emptyLog (map (ev eEr) life2))) (HPut 78 [9; 9; 9; 9])) 1 = Some (P, l)) by exact Hp.
  vm_compute in K. injection K as <- <-. vm_compute. reflexivity.
Qed.

(** The storage states listed by [op_points] are exactly those the operation goes
    through: as many storage operations, and after each the data file holds the
    pages stated. *)
Theorem C07_storage_states_partial :
  forall KB PB c k s es o, created c KB PB k s -> lifetime_ok c KB PB emptyLog (es ++ [EvOp o]) ->
  let c0 := fst (lifetime_spec c emptyLog es) in let L := snd (lifetime_spec c emptyLog es) in
  exists s0 xs s1 x new, lifetime c s es = Ok (c0, s0, xs) /\ step c0 s0 o = Ok (s1, x) /\
    trace (sio s1) = new ++ trace (sio s0) /\
    Forall2 (fun im p => disk_ok c0 (fst (fst im)) (fst p) (snd p)) new (op_points c0 L o).
Proof. exact c07_points. Qed.
Print Assumptions C07_storage_states_partial.

Example C07_states_example : exists s, created eE (2 ^ 31) (2 ^ 31) noDisk s /\
  lifetime_ok eE (2 ^ 31) (2 ^ 31) emptyLog (map (ev eEr) (life2 ++ [COp (HPut 78 [9; 9; 9; 9])])) /\
  length (op_points eE (snd (lifetime_spec eE emptyLog (map (ev eEr) life2))) (HPut 78 [9; 9; 9; 9])) = 2%nat.
Proof.
  destruct eE_created as (s & C). exists s. split; [exact C|]. split; [apply eEr_codes|]; vm_compute; reflexivity.
Qed.

(** C08: reopening gives up nothing or exactly the oldest erase block, and keeps
    at least the newest [numData - eraseSize] pages. *)
Theorem C08_recovery_loses_one_block_partial :
  forall KB PB c k s es c', created c KB PB k s -> lifetime_ok c KB PB emptyLog (es ++ [EvReopen c']) ->
  let L := snd (lifetime_spec c emptyLog es) in let L1 := recovered c' (pages L) in
  (lo L1 = lo L \/ lo L1 = lo L + eraseSize c') /\
  Z.min (zlen (pages L)) (numData c' - eraseSize c') <= zlen (pages L) - lo L1.
Proof. exact c08_recovery. Qed.
Print Assumptions C08_recovery_loses_one_block_partial.

Example C08_example : exists s, created eA (2 ^ 31) (2 ^ 31) noDisk s /\
  lifetime_ok eA (2 ^ 31) (2 ^ 31) emptyLog (map (ev eAr) (life2 ++ [CReopen])) /\
  let L := snd (lifetime_spec eA emptyLog (map (ev eAr) life2)) in
  zlen (pages L) = 10 /\ lo L = 6 /\ lo (recovered eAr (pages L)) = 8.
Proof.
  destruct eA_created as (s & C). exists s. split; [exact C|]. split; [apply eAr_codes; vm_compute; reflexivity|].
  vm_compute. repeat split.
Qed.

(** C09 in every session of a lifetime, before and after recovery. *)
Theorem C09_storage_discipline_lifetime :
  forall KB PB c k s es o c0 s0 xs s1 x, created c KB PB k s -> lifetime_ok c KB PB emptyLog (es ++ [EvOp o]) ->
  lifetime c s es = Ok (c0, s0, xs) -> step c0 s0 o = Ok (s1, x) ->
  (fD (sio s1) = fD (sio s0) /\ nextD (sd s1) = nextD (sd s0) /\ minD (sd s1) = minD (sd s0)) \/
  (seals_page c0 (fD (sio s0)) (fD (sio s1)) (minD (sd s0)) (nextD (sd s0)) /\
   nextD (sd s1) = nextD (sd s0) + 1 /\
   minD (sd s1) = (if nextD (sd s0) - minD (sd s0) =? numData c0 then minD (sd s0) + eraseSize c0 else minD (sd s0))).
Proof. exact c09_lifetime. Qed.
Print Assumptions C09_storage_discipline_lifetime.

Example C09_lifetime_example : exists s, created eE (2 ^ 31) (2 ^ 31) noDisk s /\
  lifetime_ok eE (2 ^ 31) (2 ^ 31) emptyLog (map (ev eEr) (life2 ++ [CReopen] ++ map COp (puts 15 300 1))).
Proof. destruct eE_created as (s & C). exists s. split; [exact C|]. apply eEr_codes. vm_compute. reflexivity. Qed.

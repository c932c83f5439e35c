(** Theorems about closing, crashing and reopening databases that may keep a bitmap
    index (properties C06, C07, C08 and the recovery parts of C09, C31, C34).

    As in Props_Reopen.v, with the index allowed; [EvCrash o i c'] stops after the
    first [i + 1] storage operations of [o], among them those on the index file.
    Covered are gets, puts, flushes that do not meet a full index page
    (C31_flush_full_index_refuted), and scans that do not use the bitmaps
    (C05_reopen_breaks_index_refuted).  The index area may change its size when the
    database is opened again. *)
From Verif Require Import Base Config Storage DB Recovery Spec SpecPage SpecStore Run SpecRun SpecIter SpecReopen SpecReopenIdx
  ReopenIdxThms ExFacts ExIter ExReopen ExReopenIdx.
Open Scope Z_scope.

(** C31 and C34: no lifetime reaches undefined behaviour or runs forever, every
    reopening succeeds whatever is left in the index file, puts and flushes return
    0, and gets never return data other than what was put. *)
Theorem C31_index_lifetime_defined_partial :
  forall KB PB c k s es, idx_created c KB PB k s -> ilife_ok c KB PB emptyLog 0 es ->
  exists c1 s1 xs, ilife c s es = Ok (c1, s1, xs) /\ ilife_sound c emptyLog 0 es xs.
Proof. exact c31_ilife. Qed.
Print Assumptions C31_index_lifetime_defined_partial.

(** Three sessions with visible erases: a wrap of the data area, flushes that wrap
    the index area, a close, a flush interrupted before the index page is
    written, a flush interrupted after it. *)
Definition flushes (n : nat) (k : Z) : list hop := concat (map (fun i => [HPut (k + Z.of_nat i) [1; 2; 3; 4]; HFlush]) (seq 0 n)).
Definition lifeX : list code :=
  map COp (puts 100 1 1 ++ flushes 11 200) ++ [CReopen] ++ map COp (puts 30 300 1 ++ [HGet 205; HGet 3]) ++ [CCrash HFlush 1] ++
  map COp (puts 5 400 1) ++ [CCrash HFlush 3] ++ map COp (flushes 2 500) ++ [COp (HGet 404)].
Example C31_index_lifetime_example : exists s c1 s1 xs, idx_created eY (2 ^ 31) (2 ^ 31) noDisk s /\
  ilife eY s (map (ev eYr) lifeX) = Ok (c1, s1, xs) /\
  match last xs None with Some (OGet r (Some d)) => r = 0 /\ d = le_enc 4 (404 * 3) | _ => False end.
Proof.
  destruct eY_created as (s & C). exists s.
  destruct (C31_index_lifetime_defined_partial _ _ _ _ _ _ C (eYr_codes lifeX ltac:(vm_compute; reflexivity))) as (c1 & s1 & xs & E & _).
  exists c1, s1, xs. split; [exact C|]. split; [exact E|]. destruct C as (_ & _ & _ & C).
  assert (Q : match embedDBInit eY noDisk [] with
              | Ok (s, _) => match ilife eY s (map (ev eYr) lifeX) with
                | Ok (_, _, xs) => match last xs None with Some (OGet r (Some d)) => (r =? 0) && (if list_eq_dec Z.eq_dec d (le_enc 4 (404 * 3)) then true else false) | _ => false end
                | _ => false end
              | _ => false end = true) by (vm_compute; reflexivity).
  rewrite C, E in Q. destruct (last xs None) as [[| |r [d|]]|]; try discriminate.
  apply andb_prop in Q as [Q1 Q2]. destruct (list_eq_dec Z.eq_dec d (le_enc 4 (404 * 3))); [|discriminate]. split; [now apply Z.eqb_eq|auto].
Qed.

(** C06: stopping between two operations and reopening serves the log of all pages
    written. *)
Theorem C06_index_reopen_serves_partial :
  forall KB PB c k s es c', idx_created c KB PB k s -> ilife_ok c KB PB emptyLog 0 (es ++ [EvReopen c']) ->
  exists s1 xs, ilife c s (es ++ [EvReopen c']) = Ok (c', s1, xs) /\
    serves c' KB PB s1 (recovered c' (pages (snd (fst (ilife_spec c emptyLog 0 es))))).
Proof. exact c06_ireopen. Qed.
Print Assumptions C06_index_reopen_serves_partial.

Definition lifeX1 : list code := map COp (puts 100 1 1 ++ [HFlush]).
Example C06_index_example : exists s s1 xs s2, idx_created eX (2 ^ 31) (2 ^ 31) noDisk s /\
  ilife eX s (map (ev eXr) (lifeX1 ++ [CReopen])) = Ok (eXr, s1, xs) /\
  run eXr s1 (map HGet [100; 45; 1]) = Ok (s2, [OGet 0 (Some (le_enc 4 300)); OGet 0 (Some (le_enc 4 135)); OGet (-1) None]).
Proof.
  destruct eX_created as (s & C). rewrite map_app.
  destruct (C06_index_reopen_serves_partial _ _ eX noDisk s (map (ev eXr) lifeX1) eXr C) as (s1 & xs & E & Sv).
  { change [EvReopen eXr] with (map (ev eXr) [CReopen]). rewrite <- map_app. apply eXr_codes. vm_compute. reflexivity. }
  destruct Sv as [Sv _]. destruct (Sv [100; 45; 1]) as (s2 & E2).
  { apply keys_check; [reflexivity|vm_compute; reflexivity]. }
  exists s, s1, xs, s2. split; [exact C|]. split; [exact E|]. rewrite E2. apply (f_equal (fun x => Ok (s2, x))). vm_compute. reflexivity.
Qed.

(** C06: after a flush nothing is lost, unless the area has wrapped and the write
    position is at a block boundary inside the area. *)
Theorem C06_index_flush_reopen_exact_partial :
  forall KB PB c k s es c', let es1 := es ++ [EvOp HFlush] in let L := snd (fst (ilife_spec c emptyLog 0 es1)) in
  idx_created c KB PB k s -> ilife_ok c KB PB emptyLog 0 (es1 ++ [EvReopen c']) ->
  zlen (pages L) <= numData c' \/ zlen (pages L) mod eraseSize c' <> 0 \/ zlen (pages L) mod numData c' = 0 ->
  exists s1 xs, ilife c s (es1 ++ [EvReopen c']) = Ok (c', s1, xs) /\ serves c' KB PB s1 L.
Proof. exact c06_iflush. Qed.
Print Assumptions C06_index_flush_reopen_exact_partial.

Example C06_index_exact_example : exists s s1 xs s2, idx_created eX (2 ^ 31) (2 ^ 31) noDisk s /\
  ilife eX s (map (ev eXr) (lifeX1 ++ [CReopen])) = Ok (eXr, s1, xs) /\
  run eXr s1 (map HGet [100; 97; 49]) = Ok (s2, [OGet 0 (Some (le_enc 4 300)); OGet 0 (Some (le_enc 4 291)); OGet 0 (Some (le_enc 4 147))]).
Proof.
  destruct eX_created as (s & C).
  assert (Q : map (ev eXr) (lifeX1 ++ [CReopen]) = (map (ev eXr) (map COp (puts 100 1 1)) ++ [EvOp HFlush]) ++ [EvReopen eXr]).
  { unfold lifeX1. rewrite !map_app. reflexivity. }
  destruct (C06_index_flush_reopen_exact_partial _ _ eX noDisk s (map (ev eXr) (map COp (puts 100 1 1))) eXr C) as (s1 & xs & E & Sv).
  { rewrite <- Q. apply eXr_codes. vm_compute. reflexivity. }
  { right. left. vm_compute. discriminate. }
  rewrite <- Q in E. destruct Sv as [Sv _]. destruct (Sv [100; 97; 49]) as (s2 & E2).
  { apply keys_check; [reflexivity|vm_compute; reflexivity]. }
  exists s, s1, xs, s2. split; [exact C|]. split; [exact E|]. rewrite E2. apply (f_equal (fun x => Ok (s2, x))). vm_compute. reflexivity.
Qed.

(** C07: a crash after any storage operation of an operation, on the data file or
    on the index file: reopening serves the log of the data pages whose writes
    completed. *)
Theorem C07_index_crash_recovers_partial :
  forall KB PB c k s es o i c', idx_created c KB PB k s -> ilife_ok c KB PB emptyLog 0 (es ++ [EvCrash o i c']) ->
  let c0 := fst (fst (ilife_spec c emptyLog 0 es)) in let L := snd (fst (ilife_spec c emptyLog 0 es)) in
  exists P s1 xs, fst (crash_point c0 L o i) = P /\ (P = pages L \/ cur L <> [] /\ P = pages L ++ [cur L]) /\
    ilife c s (es ++ [EvCrash o i c']) = Ok (c', s1, xs) /\ serves c' KB PB s1 (recovered c' P).
Proof. exact c07_icrash. Qed.
Print Assumptions C07_index_crash_recovers_partial.

(** The flush writes data page 8 and then the index page; the crash comes in
    between, so the index page is missing. *)
Example C07_index_example : exists s s1 xs s2, idx_created eX (2 ^ 31) (2 ^ 31) noDisk s /\
  ilife eX s (map (ev eXr) (map COp (puts 100 1 1) ++ [CCrash HFlush 1])) = Ok (eXr, s1, xs) /\
  run eXr s1 (map HGet [100; 97; 49]) = Ok (s2, [OGet 0 (Some (le_enc 4 300)); OGet 0 (Some (le_enc 4 291)); OGet 0 (Some (le_enc 4 147))]).
Proof.
  destruct eX_created as (s & C). rewrite map_app.
  destruct (C07_index_crash_recovers_partial _ _ eX noDisk s (map (ev eXr) (map COp (puts 100 1 1))) HFlush 1 eXr C)
    as (P & s1 & xs & Hp & _ & E & Sv).
  { change [EvCrash HFlush 1 eXr] with (map (ev eXr) [CCrash HFlush 1]). rewrite <- map_app. apply eXr_codes. vm_compute. reflexivity. }
  destruct Sv as [Sv _]. subst P. destruct (Sv [100; 97; 49]) as (s2 & E2).
  { apply keys_check; [reflexivity|vm_compute; reflexivity]. }
  exists s, s1, xs, s2. split; [exact C|]. split; [exact E|]. rewrite E2. apply (f_equal (fun x => Ok (s2, x))). vm_compute. reflexivity.
Qed.

(** The storage states inside an operation: after each storage operation the data
    file holds the pages stated by [crash_point]. *)
Theorem C07_index_storage_states_partial :
  forall KB PB c k s es o, idx_created c KB PB k s -> ilife_ok c KB PB emptyLog 0 (es ++ [EvOp o]) ->
  let c0 := fst (fst (ilife_spec c emptyLog 0 es)) in let L := snd (fst (ilife_spec c emptyLog 0 es)) in
  exists s0 xs s1 x, ilife c s es = Ok (c0, s0, xs) /\ step c0 s0 o = Ok (s1, x) /\
    forall i, let p := crash_point c0 L o i in disk_ok c0 (fst (fst (crash_image s0 s1 i))) (fst p) (snd p).
Proof. exact c07_ipoints. Qed.
Print Assumptions C07_index_storage_states_partial.

(** Four storage operations: erase of data pages, data page, erase of index pages,
    index page. *)
Definition lifeX2 : list code := map COp (puts 100 1 1 ++ flushes 14 200 ++ [HPut 300 [0; 1; 2; 3]]).
Example C07_index_states_example : exists s, idx_created eY (2 ^ 31) (2 ^ 31) noDisk s /\
  ilife_ok eY (2 ^ 31) (2 ^ 31) emptyLog 0 (map (ev eYr) (lifeX2 ++ [COp HFlush])) /\
  match embedDBInit eY noDisk [] with
  | Ok (s, _) => match ilife eY s (map (ev eYr) lifeX2) with
    | Ok (_, s0, _) => match step eY s0 HFlush with
      | Ok (s1, _) => Some (length (trace (sio s1)) - length (trace (sio s0)))%nat
      | _ => None end
    | _ => None end
  | _ => None end = Some 4%nat.
Proof.
  destruct eY_created as (s & C). exists s. split; [exact C|]. split; [apply eYr_codes|]; vm_compute; reflexivity.
Qed.

(** C08: reopening gives up nothing or exactly the oldest erase block, and keeps
    at least the newest [numData - eraseSize] pages. *)
Theorem C08_index_recovery_loses_one_block_partial :
  forall KB PB c k s es c', idx_created c KB PB k s -> ilife_ok c KB PB emptyLog 0 (es ++ [EvReopen c']) ->
  let L := snd (fst (ilife_spec c emptyLog 0 es)) in let L1 := recovered c' (pages L) in
  (lo L1 = lo L \/ lo L1 = lo L + eraseSize c') /\
  Z.min (zlen (pages L)) (numData c' - eraseSize c') <= zlen (pages L) - lo L1.
Proof. exact c08_irecovery. Qed.
Print Assumptions C08_index_recovery_loses_one_block_partial.

Example C08_index_example : exists s, idx_created eX (2 ^ 31) (2 ^ 31) noDisk s /\
  ilife_ok eX (2 ^ 31) (2 ^ 31) emptyLog 0 (map (ev eXr) (map COp (puts 125 1 1) ++ [CReopen])) /\
  let L := snd (fst (ilife_spec eX emptyLog 0 (map (ev eXr) (map COp (puts 125 1 1))))) in
  zlen (pages L) = 10 /\ lo L = 2 /\ lo (recovered eXr (pages L)) = 4.
Proof.
  destruct eX_created as (s & C). exists s. split; [exact C|]. split; [apply eXr_codes; vm_compute; reflexivity|].
  vm_compute. repeat split.
Qed.

(** C09 in every session of a lifetime. *)
Theorem C09_index_storage_discipline_lifetime :
  forall KB PB c k s es o c0 s0 xs s1 x, idx_created c KB PB k s -> ilife_ok c KB PB emptyLog 0 (es ++ [EvOp o]) ->
  ilife c s es = Ok (c0, s0, xs) -> step c0 s0 o = Ok (s1, x) ->
  (fD (sio s1) = fD (sio s0) /\ nextD (sd s1) = nextD (sd s0) /\ minD (sd s1) = minD (sd s0)) \/
  (seals_page c0 (fD (sio s0)) (fD (sio s1)) (minD (sd s0)) (nextD (sd s0)) /\
   nextD (sd s1) = nextD (sd s0) + 1 /\
   minD (sd s1) = (if nextD (sd s0) - minD (sd s0) =? numData c0 then minD (sd s0) + eraseSize c0 else minD (sd s0))).
Proof. exact c09_ilife. Qed.
Print Assumptions C09_index_storage_discipline_lifetime.

Example C09_index_lifetime_example : exists s, idx_created eY (2 ^ 31) (2 ^ 31) noDisk s /\
  ilife_ok eY (2 ^ 31) (2 ^ 31) emptyLog 0 (map (ev eYr) (lifeX ++ [CReopen] ++ map COp (puts 15 600 1))).
Proof. destruct eY_created as (s & C). exists s. split; [exact C|]. apply eYr_codes. vm_compute. reflexivity. Qed.

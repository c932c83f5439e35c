(** Theorems about record-level consistency (properties C19, C20 and the parts of
    C31 and C34 concerning it).

    A lifetime (SpecRlc.v) is a list of events: operations, stops between two
    operations, and crashes after any storage operation inside an operation.  A
    stop or crash is followed by opening the storage, possibly after several
    attempts that crash themselves after any of their storage operations.  Erases
    may destroy the block (eraseFill) or have no effect.  [rlc_ok] states which
    lifetimes are covered: ascending keys, configurations that agree on the
    stored data, a maximum spline error of 1 once the area has wrapped.
    [rlc_quiet] excludes executions in which a flush completes an erase block
    (C19_flush_at_block_end_refuted, C20_flush_at_block_end_refuted) or a page
    write overwrites the physical page in the read buffer
    (C19_stale_read_buffer_refuted).  [rlc_life] is the specification: which log
    is left and what is returned. *)
From Verif Require Import Base Config Storage DB Recovery Spec SpecPage SpecStore Run SpecRun SpecIter SpecReopen SpecRlc
  RlcThms ExFacts ExReopen ExRlc.
Open Scope Z_scope.

(** C19: every operation of a lifetime returns what the log specifies, a stop
    loses nothing, not even records that were never flushed, a crash inside an
    operation loses at most that operation, and the database left serves the
    log.  In particular nothing is undefined and everything terminates. *)
Theorem C19_rlc_lifetime_partial :
  forall KB PB c k s es, rlc_created c KB PB k s -> rlc_ok c KB PB es -> rlc_quiet c s es ->
  exists c1 s1 xs L, rlifetime c s es = Ok (c1, s1, xs) /\
    rlc_life (maxRec c) (numData c) (eraseSize c) emptyLog es xs L /\ rlc_serves c1 KB s1 L.
Proof. exact c19_lifetime. Qed.
Print Assumptions C19_rlc_lifetime_partial.

(** Two wraps, a stop with an opening attempt cut off, a put cut off between
    sealing the page and moving the reserved blocks (two opening attempts cut
    off as well), a put cut off at its end, and gets of the surviving records. *)
Definition rlife1 : list rcode :=
  map ROp (puts 100 1 1) ++ [RStop [0%nat; 1%nat]] ++ map ROp (puts 5 101 1 ++ [HGet 100; HGet 105; HGet 3]) ++
  [RCrash (HPut 106 [0; 1; 2; 3]) 1 [0%nat; 0%nat]] ++ map ROp (puts 38 107 1 ++ [HFlush] ++ puts 4 145 1) ++
  [RCrash (HPut 150 [9; 9; 9; 9]) 0 []; ROp (HGet 105); ROp (HGet 148); ROp (HGet 150); ROp (HGet 141)].
Example C19_lifetime_example : exists s c1 s1 xs L, rlc_created eR (2 ^ 31) (2 ^ 31) noDisk s /\
  rlifetime eR s (map (rev_of eRr) rlife1) = Ok (c1, s1, xs) /\
  rlc_life (maxRec eR) (numData eR) (eraseSize eR) emptyLog (map (rev_of eRr) rlife1) xs L /\
  skipn (length xs - 3) xs =
    [Some (OGet 0 (Some (le_enc 4 444))); Some (OGet 0 (Some [9; 9; 9; 9])); Some (OGet 0 (Some (le_enc 4 423)))].
Proof.
  destruct eR_created as (s & C). destruct (eR_ok rlife1 s C ltac:(vm_compute; reflexivity)) as [O Q].
  destruct (C19_rlc_lifetime_partial _ _ _ _ _ _ C O Q) as (c1 & s1 & xs & L & E & Lf & _).
  exists s, c1, s1, xs, L. split; [exact C|]. split; [exact E|]. split; [exact Lf|]. destruct C as (_ & _ & _ & _ & C).
  assert (K : match after eR (map (rev_of eRr) rlife1) with Ok (_, _, xs) => skipn (length xs - 3) xs | _ => [] end =
    [Some (OGet 0 (Some (le_enc 4 444))); Some (OGet 0 (Some [9; 9; 9; 9])); Some (OGet 0 (Some (le_enc 4 423)))])
    by (vm_compute; reflexivity).
  rewrite (after_eq eR s _ C), E in K. exact K.
Qed.

(** C19: whatever crashes happen, every record whose put was acknowledged is in
    the log, and a get returns it unless its page was evicted; at least the last
    [numData - 3 * eraseSize] pages are never evicted. *)
Theorem C19_acknowledged_survives_partial :
  forall KB PB c k s es, rlc_created c KB PB k s -> rlc_ok c KB PB es -> rlc_quiet c s es ->
  exists c1 s1 xs L, rlifetime c s es = Ok (c1, s1, xs) /\ rlc_serves c1 KB s1 L /\
    zlen (pages L) - lo L >= Z.min (zlen (pages L)) (numData c - 3 * eraseSize c) /\
    forall key d, In (RvOp (HPut key d)) es ->
      In (mkR key d 0) (accepted L) /\ (In (mkR key d 0) (retained L) -> lookup L key = OGet 0 (Some d)).
Proof. exact c19_acked. Qed.
Print Assumptions C19_acknowledged_survives_partial.

(** Three records put, none flushed, power lost inside the fourth put and inside
    the first opening attempt: all three are returned. *)
Definition rlife2 : list rcode := map ROp (puts 3 1 1) ++ [RCrash (HPut 4 [0; 0; 0; 0]) 1 [0%nat]].
Example C19_acknowledged_example : exists s c1 s1 xs L s2, rlc_created eQ (2 ^ 31) (2 ^ 31) noDisk s /\
  rlifetime eQ s (map (rev_of eQr) rlife2) = Ok (c1, s1, xs) /\
  In (mkR 2 (le_enc 4 6) 0) (accepted L) /\
  run c1 s1 (map HGet [1; 2; 3]) = Ok (s2, map (lookup L) [1; 2; 3]) /\
  map (lookup L) [1; 2; 3] = map (fun k => OGet 0 (Some (le_enc 4 (3 * k)))) [1; 2; 3].
Proof.
  destruct eQ_created as (s & C). destruct (eQ_ok rlife2 s C ltac:(vm_compute; reflexivity)) as [O Q].
  destruct (C19_acknowledged_survives_partial _ _ _ _ _ _ C O Q) as (c1 & s1 & xs & L & E & [Sv _] & _ & A).
  destruct (Sv [1; 2; 3]) as (s2 & E2).
  { apply Forall_forall. intros k [<-|[<-|[<-|[]]]]; split; (apply Z.leb_le || apply Z.ltb_lt); vm_compute; reflexivity. }
  exists s, c1, s1, xs, L, s2. split; [exact C|]. split; [exact E|].
  split; [apply A; right; left; reflexivity|]. split; [exact E2|]. destruct C as (_ & _ & _ & _ & C).
  assert (K : match after eQ (map (rev_of eQr) rlife2) with
              | Ok (c1, s1, _) => match run c1 s1 (map HGet [1; 2; 3]) with Ok (_, ys) => ys | _ => [] end | _ => [] end =
              map (fun k => OGet 0 (Some (le_enc 4 (3 * k)))) [1; 2; 3]) by (vm_compute; reflexivity).
  rewrite (after_eq eQ s _ C), E, E2 in K. exact K.
Qed.

(** C20: no storage operation of a put or flush changes a byte of a page that is
    sealed before and retained after it: temporary pages and erases only touch
    the reserved blocks and the block being retired. *)
Theorem C20_put_flush_keep_pages_partial :
  forall KB PB c k s es o, rlc_created c KB PB k s -> rlc_ok c KB PB (es ++ [RvOp o]) -> rlc_quiet c s (es ++ [RvOp o]) ->
  exists c1 s1 xs L s2, let L' := rlc_step (maxRec c) (numData c) (eraseSize c) L o in
    rlifetime c s es = Ok (c1, s1, xs) /\ rlc_life (maxRec c) (numData c) (eraseSize c) emptyLog es xs L /\
    step c1 s1 o = Ok (s2, rlc_out L o) /\
    trace (sio s2) = new_images s1 s2 ++ trace (sio s1) /\
    keeps c (fD (sio s1)) (zlen (pages L)) (lo L') (new_images s1 s2).
Proof. exact c20_op. Qed.
Print Assumptions C20_put_flush_keep_pages_partial.

(** A put after two wraps that seals a page, erases two blocks and writes a
    temporary page. *)
Definition rlife3 : list rcode := map ROp (puts 98 1 1).
Example C20_put_example : exists s c1 s1 xs L s2, rlc_created eR (2 ^ 31) (2 ^ 31) noDisk s /\
  rlifetime eR s (map (rev_of eRr) rlife3) = Ok (c1, s1, xs) /\
  step c1 s1 (HPut 99 [0; 1; 2; 3]) = Ok (s2, OPut 0) /\ length (new_images s1 s2) = 4%nat /\
  keeps eR (fD (sio s1)) (zlen (pages L)) (lo (rlc_step (maxRec eR) (numData eR) (eraseSize eR) L (HPut 99 [0; 1; 2; 3]))) (new_images s1 s2).
Proof.
  destruct eR_created as (s & C).
  destruct (eR_ok (rlife3 ++ [ROp (HPut 99 [0; 1; 2; 3])]) s C ltac:(vm_compute; reflexivity)) as [O Q].
  rewrite map_app in O, Q. cbn [map rev_of] in O, Q.
  destruct (C20_put_flush_keep_pages_partial _ _ _ _ _ _ _ C O Q) as (c1 & s1 & xs & L & s2 & E & Lf & E2 & Et & K).
  exists s, c1, s1, xs, L, s2. split; [exact C|]. split; [exact E|]. split; [exact E2|]. split; [|exact K].
  destruct C as (_ & _ & _ & _ & C).
  assert (M : match images eR (map (rev_of eRr) rlife3) (HPut 99 [0; 1; 2; 3]) with Ok n => n | _ => 0%nat end = 4%nat)
    by (vm_compute; reflexivity).
  unfold images in M. rewrite (after_eq eR s _ C), E in M. cbn [bind] in M. rewrite E2 in M. exact M.
Qed.

(** C20: recovery after any crash, and after any number of attempts cut off, does
    not change a byte of a retained page either.  [F] is the data file left by
    the crash, [L1] the log it stands for. *)
Theorem C20_recovery_keeps_pages_partial :
  forall KB PB c k s es o i t c', let e := RvCrash o i t c' in
  rlc_created c KB PB k s -> rlc_ok c KB PB (es ++ [e]) -> rlc_quiet c s (es ++ [e]) ->
  exists c1 s1 xs L s2 F L1 s3,
    rlifetime c s es = Ok (c1, s1, xs) /\ rlc_life (maxRec c) (numData c) (eraseSize c) emptyLog es xs L /\
    step c1 s1 o = Ok (s2, rlc_out L o) /\
    kD (cut s1 s2 i) = Some F /\ In L1 (rlc_crash (maxRec c) (numData c) (eraseSize c) L o) /\
    keep c (fD (sio s1)) F (zlen (pages L)) (lo L1) /\
    boot (cut s1 s2 i) t c' = Ok (s3, 0) /\ keeps c F (zlen (pages L1)) (lo L1) (trace (sio s3)).
Proof. exact c20_recovery. Qed.
Print Assumptions C20_recovery_keeps_pages_partial.

(** A crash between sealing a page at the end of a block and moving the reserved
    blocks, then an attempt cut off, then an opening that erases a block. *)
Definition rlife4 : list rcode := rlife3 ++ [RCrash (HPut 99 [0; 1; 2; 3]) 3 [0%nat]].
Lemma rlife4_ok : rlc_okb eR eRr (map (rev_of eRr) rlife4) && opened eR (fun s => rlc_quietb eR s (map (rev_of eRr) rlife4)) = true.
Proof. vm_compute. reflexivity. Qed.
Lemma rlife4_images :
  match after eR (map (rev_of eRr) rlife3) with
  | Ok (c1, s1, _) => match step c1 s1 (HPut 99 [0; 1; 2; 3]) with
    | Ok (s2, _) => match boot (cut s1 s2 3) [(eRr, 0%nat)] eRr with Ok (s3, _) => length (trace (sio s3)) | _ => 0%nat end
    | _ => 0%nat end
  | _ => 0%nat end = 3%nat.
Proof. vm_compute. reflexivity. Qed.
Example C20_recovery_example : exists s c1 s1 xs s2 F s3, rlc_created eR (2 ^ 31) (2 ^ 31) noDisk s /\
  rlifetime eR s (map (rev_of eRr) rlife3) = Ok (c1, s1, xs) /\
  step c1 s1 (HPut 99 [0; 1; 2; 3]) = Ok (s2, OPut 0) /\ kD (cut s1 s2 3) = Some F /\
  boot (cut s1 s2 3) [(eRr, 0%nat)] eRr = Ok (s3, 0) /\ trace (sio s3) <> [] /\
  exists L1, keeps eR F (zlen (pages L1)) (lo L1) (trace (sio s3)).
Proof.
  destruct eR_created as (s & C).
  destruct (eR_ok rlife4 s C rlife4_ok) as [O Q].
  unfold rlife4 in O, Q. rewrite map_app in O, Q. cbn [map rev_of] in O, Q.
  destruct (C20_recovery_keeps_pages_partial _ _ _ _ _ _ _ _ _ _ C O Q) as (c1 & s1 & xs & L & s2 & F & L1 & s3 & E & Lf & E2 & EF & HL & K1 & E3 & K).
  exists s, c1, s1, xs, s2, F, s3. split; [exact C|]. split; [exact E|]. split; [exact E2|]. split; [exact EF|]. split; [exact E3|].
  destruct C as (_ & _ & _ & _ & C). pose proof rlife4_images as M.
  rewrite (after_eq eR s _ C), E, E2, E3 in M. split; [intros X; rewrite X in M; discriminate M|].
  exists L1. exact K.
Qed.

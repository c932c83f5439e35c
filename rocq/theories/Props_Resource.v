(** Memory and file handles of the core (property C43).

    Programs of client calls run on [Resource.v], where every block and FILE* has an
    address and a use of an invalid one is undefined, and on [SpecResource.v], which
    has no addresses and rejects ([None]) programs that break the rules listed there. *)
From Verif Require Import Base Config Spline Storage DB VarData Recovery Run SpecAny AnyFacts Resource SpecResource ResourceFacts ExFacts Props_Any.
Open Scope Z_scope.

(** C43: embedDBInit answers as embedDBInit without addresses, on every storage and with every
    pattern of storage faults: it uses no invalid pointer. *)
Theorem C43_opening : forall c k fs m0, enough c (r_fail m0) = true ->
  outcome (kopen c k fs m0) = embedDBInit c k fs.
Proof. exact opening_same. Qed.
Print Assumptions C43_opening.

(** C43: every program that keeps the rules gets the answers of the specification, so the core
    uses no invalid pointer and frees nothing twice (the outcome [UB] of both sides can only come
    from the database operations themselves).  The client's own blocks are left alone, and when
    the database, the iterators and the streams are closed, memory is as it was before
    embedDBInit: every block is freed and every file closed.  Allocations of streams may fail at
    will, and the database may be closed and opened again with other parameters. *)
Theorem C43_programs : forall c k fs m0 i0 z p r, client_mem m0 -> enough c (r_fail m0) = true ->
  iopen c k fs (r_fail m0) = Ok (i0, z) -> iprog i0 p = Some r ->
  exists w0, kopen c k fs m0 = Ok (w0, z) /\ outcome (kprog w0 p) = ioutcome r /\
  (forall i ys, r = Ok (i, ys) -> exists w, kprog w0 p = Ok (w, ys) /\
     (i_ph i <> IsBroken -> forall b, (b < r_next m0)%nat -> r_blk (w_m w) b = r_blk m0 b) /\
     (settled i -> forall b, r_blk (w_m w) b = r_blk m0 b)).
Proof. exact run_ok. Qed.
Print Assumptions C43_programs.

(** A client with three blocks of its own. *)
Definition mem3 (l : list bool) : rmem := mkRM 3 (fun b => if (b <? 3)%nat then Some KPart else None) l.
Lemma mem3_client l : client_mem (mem3 l).
Proof. intros b H. cbn [mem3 r_blk r_next] in *. destruct (Nat.ltb_spec b 3); [exfalso; apply (Nat.lt_irrefl b); eapply Nat.lt_le_trans; eassumption | reflexivity]. Qed.

(** Everything but record-level consistency; the second configuration reopens. *)
Definition cA : cfg := ex_cfg 128 (1 + 2 + 8 + 16 + 32) 8 2 8 1 None None.
Definition cB : cfg := ex_cfg 128 (1 + 2 + 8 + 16) 8 2 8 1 None None.
Definition noDisk0 : disk := mkDisk None None None.
Definition kputs (n : nat) (k0 : Z) : list kcall :=
  map (fun n => let k := k0 + Z.of_nat n in
         KPutVar k (le_enc 4 (k * 3)) (if k mod 4 =? 0 then None else Some (repeat (k mod 256) 10))) (seq 0 n).
(** 40 puts, a lookup with its stream read in two pieces, two scans (one with a query bitmap) at
    a time, a lookup without variable data, closing with a scan and a stream left over, which
    are closed afterwards; reopening; more puts, a lookup, a scan. *)
Definition prog : list kcall :=
  kputs 40 1 ++
  [KGetVar 0 5; KRead 0 4; KRead 0 20; KFree 0;
   KIter 0 (Some 3) None (Some (le_enc 4 20)) None; KNext 0; KNext 0; KNextVar 0 1;
   KIter 1 None None None None; KNext 1; KIterClose 0; KGetVar 0 8; KFree 0;
   KClose; KIterClose 1; KFree 1; KInit cB []] ++
  kputs 12 60 ++
  [KGetVar 2 70; KRead 2 100; KFlush; KGet 10; KIter 0 None None None (Some (le_enc 4 60)); KNextVar 0 3;
   KIterClose 0; KClose; KFree 2; KFree 3].
(** The second stream cannot be allocated: embedDBNextVar returns 0, the stream stays NULL. *)
Definition lack : list bool := repeat false 8 ++ [true].

Definition settledb (i : ideal) : bool :=
  match i_ph i with IsShut => true | _ => false end &&
  forallb (fun x => match x with None => true | _ => false end) (i_it i) &&
  forallb (fun v => match v with VHas _ => false | _ => true end) (i_st i).
Lemma settledb_ok i : settledb i = true -> settled i.
Proof.
  unfold settledb, settled. intros H. apply andb_prop in H. destruct H as (H & H3). apply andb_prop in H. destruct H as (H1 & H2).
  split; [destruct (i_ph i); congruence|]. rewrite forallb_forall in H2, H3.
  split; apply Forall_forall; intros x Hx; [specialize (H2 x Hx); destruct x; congruence|].
  specialize (H3 x Hx). intros st E. subst x. discriminate H3.
Qed.
(** The program runs in the specification; whether it ends settled, and five answers from [n]. *)
Definition runs (c : cfg) (k : disk) (p : list kcall) (l : list bool) (n : nat) : option (bool * list kout) :=
  match iopen c k [] l with
  | Ok (i, 0) => match iprog i p with Some (Ok (i, ys)) => Some (settledb i, firstn 5 (skipn n ys)) | _ => None end
  | _ => None
  end.
Lemma runs_ok : forall c k p m n ys5, client_mem m -> enough c (r_fail m) = true ->
  runs c k p (r_fail m) n = Some (true, ys5) ->
  exists w0 w ys, kopen c k [] m = Ok (w0, 0) /\ kprog w0 p = Ok (w, ys) /\
    firstn 5 (skipn n ys) = ys5 /\ forall b, r_blk (w_m w) b = r_blk m b.
Proof.
  intros c k p m n ys5 CM E H. unfold runs in H.
  destruct (iopen c k [] (r_fail m)) as [[i0 z]| |] eqn:O; try discriminate H.
  destruct z; try discriminate H.
  destruct (iprog i0 p) as [[[i ys]| |]|] eqn:P; try discriminate H.
  destruct (C43_programs c k [] m i0 0 p _ CM E O P) as (w0 & K & _ & F).
  destruct (F i ys eq_refl) as (w & KP & _ & S). exists w0, w, ys.
  assert (H1 : settledb i = true) by congruence. assert (H2 : firstn 5 (skipn n ys) = ys5) by congruence.
  split; [exact K|]. split; [exact KP|]. split; [exact H2|]. apply S. apply settledb_ok. exact H1.
Qed.

Example C43_programs_example : exists w0 w ys,
  kopen cA noDisk0 [] (mem3 []) = Ok (w0, 0) /\ kprog w0 prog = Ok (w, ys) /\
  firstn 5 (skipn 40 ys) =
    [RInt 0 (Some [15; 0; 0; 0]); RBytes (Some [5; 5; 5; 5]); RBytes (Some [5; 5; 5; 5; 5; 5]); RDone; RDone] /\
  forall b, r_blk (w_m w) b = r_blk (mem3 []) b.
Proof. apply (runs_ok cA noDisk0 prog (mem3 [])); [apply mem3_client | vm_compute; reflexivity | vm_compute; reflexivity]. Qed.
Example C43_programs_lack_example : exists w0 w ys,
  kopen cA noDisk0 [] (mem3 lack) = Ok (w0, 0) /\ kprog w0 prog = Ok (w, ys) /\
  firstn 5 (skipn 43 ys) = [RDone; RDone; RRec 1 (Some (7, [21; 0; 0; 0])); RRec 1 (Some (8, [24; 0; 0; 0])); RRec 0 (Some (9, [27; 0; 0; 0]))] /\
  forall b, r_blk (w_m w) b = r_blk (mem3 lack) b.
Proof. apply (runs_ok cA noDisk0 prog (mem3 lack)); [apply mem3_client | vm_compute; reflexivity | vm_compute; reflexivity]. Qed.

(** C43 with C42: with a sound layout, embedDBInit with its pointers is defined on files of any
    contents and with any storage faults, and returns 0 or -1. *)
Theorem C43_opening_any_contents : forall c k fs m0, workable c -> disk_sized c k -> enough c (r_fail m0) = true ->
  exists w z, kopen c k fs m0 = Ok (w, z) /\ (z = 0 \/ z = -1).
Proof.
  intros c k fs m0 W D E. destruct (C42_opening_any_contents c k fs W D) as (s & r & O & R & _).
  pose proof (C43_opening c k fs m0 E) as K. rewrite O in K.
  destruct (kopen c k fs m0) as [[w z]| |]; cbn in K; try discriminate K.
  exists w, z. split; [reflexivity|]. assert (z = r) by congruence. subst z. exact R.
Qed.
Print Assumptions C43_opening_any_contents.
(** Accidental bytes in all three files, failing storage calls; 40 puts on the result. *)
Definition nputs : list kcall :=
  map (fun i => KPutVar (Z.of_nat i + 2000000000) (le_enc 4 7) (Some [1; 2; 3; 4; 5])) (seq 0 40) ++ [KClose].
Definition opened (c : cfg) (k : disk) (fs : list bool) (m : rmem) (p : list kcall) : option (Z * option bool) :=
  match iopen c k fs (r_fail m) with
  | Ok (i, z) => Some (z, match iprog i p with Some (Ok (i, _)) => Some (settledb i) | _ => None end)
  | _ => None
  end.
Lemma opened_ok : forall c k fs m p, client_mem m -> enough c (r_fail m) = true -> opened c k fs m p = Some (0, Some true) ->
  exists w0 w ys, kopen c k fs m = Ok (w0, 0) /\ kprog w0 p = Ok (w, ys) /\ forall b, r_blk (w_m w) b = r_blk m b.
Proof.
  intros c k fs m p CM E H. unfold opened in H.
  destruct (iopen c k fs (r_fail m)) as [[i0 z]| |] eqn:O; try discriminate H.
  assert (z = 0) by congruence. subst z.
  destruct (iprog i0 p) as [[[i ys]| |]|] eqn:P; try discriminate H.
  destruct (C43_programs c k fs m i0 0 p _ CM E O P) as (w0 & K & _ & F).
  destruct (F i ys eq_refl) as (w & KP & _ & S). exists w0, w, ys.
  split; [exact K|]. split; [exact KP|]. apply S. apply settledb_ok. congruence.
Qed.
Example C43_any_contents_example : workable cN /\ disk_sized cN kN /\ enough cN (r_fail (mem3 lack)) = true /\
  exists w0 w ys, kopen cN kN fN (mem3 lack) = Ok (w0, 0) /\ kprog w0 nputs = Ok (w, ys) /\ forall b, r_blk (w_m w) b = r_blk (mem3 lack) b.
Proof.
  split; [exact cN_workable|]. split; [exact kN_sized|]. split; [vm_compute; reflexivity|].
  apply opened_ok; [apply mem3_client | vm_compute; reflexivity | vm_compute; reflexivity].
Qed.

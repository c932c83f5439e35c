(** Programs that break a rule of SpecResource.v, or run out of memory: what the rules are
    needed for (property C43). *)
From Verif Require Import Base Config Spline Storage DB VarData Recovery Run Resource SpecResource ExFacts Props_Resource.
Open Scope Z_scope.

(** How a program ends: its answers, and how many blocks and files of the core are left. *)
Definition left (m : rmem) (w : world) : nat :=
  length (filter (fun b => match r_blk (w_m w) b with Some _ => true | None => false end)
            (seq (r_next m) (r_next (w_m w) - r_next m))).
Definition ends (c : cfg) (k : disk) (m : rmem) (p : list kcall) : res (Z * list kout * nat) :=
  '(w, z) <- kopen c k [] m ;; '(w, ys) <- kprog w p ;; Ok (z, ys, left m w).
Definition few : list kcall := kputs 3 1.

(** The plain way: nothing left. *)
Example C43_close_once : ends cA noDisk0 (mem3 []) (few ++ [KClose]) = Ok (0, repeat (RInt 0 None) 3 ++ [RDone], 0%nat).
Proof. vm_compute. reflexivity. Qed.

(** embedDBClose twice: fclose(NULL) (desktopFileInterface.c:65). *)
Theorem C43_close_twice_refuted : exists c k m p,
  ends c k m (p ++ [KClose]) <> UB /\ ends c k m (p ++ [KClose; KClose]) = UB.
Proof. exists cA, noDisk0, (mem3 []), few. split; [vm_compute; discriminate | vm_compute; reflexivity]. Qed.

(** embedDBCloseIterator twice: the bitmap is freed twice; queryBitmap is not set to NULL
    (embedDB.c:1626-1630). *)
Theorem C43_iterator_closed_twice_refuted : exists c k m p i,
  ends c k m (p ++ [KIterClose i]) <> UB /\ ends c k m (p ++ [KIterClose i; KIterClose i]) = UB.
Proof.
  exists cA, noDisk0, (mem3 []), (few ++ [KIter 0 None None (Some (le_enc 4 1)) None]), 0%nat.
  split; [vm_compute; discriminate | vm_compute; reflexivity].
Qed.

(** embedDBInitIterator again without closing: the first bitmap is lost (embedDB.c:1591). *)
Theorem C43_iterator_again_refuted : exists c k m p ys,
  ends c k m (p ++ [KIterClose 0; KClose]) = Ok (0, ys, 1%nat).
Proof.
  exists cA, noDisk0, (mem3 []), (few ++ [KIter 0 None None (Some (le_enc 4 1)) None; KIter 0 None None (Some (le_enc 4 1)) None]).
  eexists. vm_compute. reflexivity.
Qed.

(** The scan of embedDBExample.h:252-264: it frees varStream, which is NULL, and never
    itVarStream (variable 1): each record with variable data leaves a block behind. *)
Theorem C43_example_scan_refuted : exists c k m ys,
  ends c k m (kputs 3 1 ++ [KGetVar 0 1; KRead 0 12; KFree 0; KIter 0 (Some 1) (Some 3) None None;
    KNextVar 0 1; KRead 1 12; KNextVar 0 1; KRead 1 12; KNextVar 0 1; KRead 1 12; KNextVar 0 1;
    KIterClose 0; KClose]) = Ok (0, ys, 3%nat) /\
  nth_error ys 13 = Some (RRec 0 None).
Proof. exists cA, noDisk0, (mem3 []). eexists. split; vm_compute; reflexivity. Qed.

(** embedDBGetVar of a key that is not there leaves the pointer as it was, so a client that
    frees after every call frees twice (the header promises NULL, embedDB.h:334). *)
Theorem C43_stream_not_found_refuted : exists c k m p,
  ends c k m (p ++ [KGetVar 0 1; KFree 0; KGetVar 0 999]) <> UB /\
  ends c k m (p ++ [KGetVar 0 1; KFree 0; KGetVar 0 999; KFree 0]) = UB.
Proof. exists cA, noDisk0, (mem3 []), few. split; [vm_compute; discriminate | vm_compute; reflexivity]. Qed.

(** An embedDBInit that fails keeps the spline (six blocks), and embedDBClose cannot release
    it: the data file was not opened. *)
Theorem C43_failed_init_refuted : exists c k m,
  ends c k m [] = Ok (-1, [], 6%nat) /\ ends c k m [KClose] = UB.
Proof. exists cB, noDisk0, (mem3 []). split; vm_compute; reflexivity. Qed.

(** embedDBInit on an open database: the old spline and the three files are lost. *)
Theorem C43_init_twice_refuted : exists c k m p ys,
  ends c k m (p ++ [KInit c []; KClose]) = Ok (0, ys, 9%nat).
Proof. exists cA, noDisk0, (mem3 []), few. eexists. vm_compute. reflexivity. Qed.

(** No memory for the spline: splineInit writes through NULL (embedDB.c:221-222). *)
Theorem C43_no_memory_init_refuted : exists c k l, enough c l = false /\ ends c k (mem3 l) [] = UB.
Proof. exists cA, noDisk0, [true]. split; vm_compute; reflexivity. Qed.
(** No memory for the query bitmap: the build function gets NULL (embedDB.c:1595-1596). *)
Theorem C43_no_memory_iterator_refuted : exists c k l p,
  ends c k (mem3 []) p <> UB /\ enough c l = true /\ ends c k (mem3 l) p = UB.
Proof.
  exists cA, noDisk0, (repeat false 6 ++ [true]), (few ++ [KIter 0 None None (Some (le_enc 4 1)) None; KIterClose 0; KClose]).
  split; [vm_compute; discriminate|]. split; vm_compute; reflexivity.
Qed.

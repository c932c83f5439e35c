(** Calls that do not end (property C34): a concrete execution. *)
From Verif Require Import Base Config Spline Storage DB Recovery Util Spec Run ExTerm.
Open Scope Z_scope.

(** Binary search with an index file; 6 data pages in blocks of 1. *)
Definition eBM := ex_cfg 64 (1 + 32 + 128 + 256) 6 1 8 1 None (Some 0).
Definition hBM : list hop := map (fun i => HPut (100 + Z.of_nat i) (le_enc 4 7)) (seq 0 36) ++ [HFlush].

(** C34: when the writes of two of the first six pages have failed, a get of a key below
    all stored keys never returns: the loop of binarySearch exceeds every bound.  (All
    puts reported success: C30_put_ignores_failed_write_refuted.) *)
Theorem C34_binary_after_failed_writes_refuted : exists c fs s0 h s out,
  embedDBInit c noDisk fs = Ok (s0, 0) /\ run c s0 h = Ok (s, out) /\ minD (sd s) = 0 /\ nextD (sd s) = 6 /\
  Forall (fun x => x = OPut 0 \/ x = OFlush 0) out /\
  forall fuel, binary_loop c s 50 fuel (minD (sd s)) (nextD (sd s) - 1)
                 (u32 (minD (sd s) + (nextD (sd s) - 1)) / 2) = Fuel.
Proof.
  assert (X : match embedDBInit eBM noDisk [false; true; false; true] with
    | Ok (s0, r0) => (r0 =? 0) && match run eBM s0 hBM with
       | Ok (s, out) => (minD (sd s) =? 0) && (nextD (sd s) =? 6) &&
           forallb (fun x => match x with OPut 0 | OFlush 0 => true | _ => false end) out &&
           match bsteps eBM 50 40 (s, 0, 5, 2) with Some y => stuck eBM 50 y | None => false end
       | _ => false end
    | _ => false end = true) by (vm_compute; reflexivity).
  destruct (embedDBInit eBM noDisk [false; true; false; true]) as [[s0 r0]| |] eqn:E0; try discriminate.
  apply andb_prop in X as [X0 X]. destruct (run eBM s0 hBM) as [[s out]| |] eqn:E1; try discriminate.
  apply andb_prop in X as [X X4]. apply andb_prop in X as [X X3]. apply andb_prop in X as [X1 X2].
  apply Z.eqb_eq in X0, X1, X2. subst r0.
  exists eBM, [false; true; false; true], s0, hBM, s, out.
  do 4 (split; [assumption|]). split.
  - apply Forall_forall. intros x Hx. rewrite forallb_forall in X3. specialize (X3 x Hx).
    destruct x as [r|r|r d]; [destruct r; try discriminate; auto|destruct r; try discriminate; auto|discriminate].
  - rewrite X1, X2. apply (steps_stuck eBM 50 40). exact X4.
Qed.
Print Assumptions C34_binary_after_failed_writes_refuted.

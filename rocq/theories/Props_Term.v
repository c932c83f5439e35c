(** Termination of every call in every state, whatever the storage holds and whichever
    storage calls fail, and the number of storage calls (property C34). *)
From Verif Require Import Base Config Spline Storage DB VarData Recovery Util Spec Run SpecFlash SpecTerm TermFacts ExFacts.
Open Scope Z_scope.

(** C34: puts, flushes, gets, scans, variable-data calls and stream reads end, in every
    state.  Not covered: binary search before the first page was overwritten, where
    failed writes make it loop for ever (C34_binary_after_failed_writes_refuted). *)
Theorem C34_every_call_terminates_partial : forall c s o,
  numbers_fit c s -> args_unsigned o -> call_step c s o <> Fuel.
Proof. exact every_call_terminates. Qed.
Print Assumptions C34_every_call_terminates_partial.

(** C34: opening ends, whatever is on the storage. *)
Theorem C34_opening_terminates : forall c k fs,
  0 <= eraseSize c -> 0 <= numData c -> 0 <= numIndex c -> 0 <= numVar c ->
  embedDBInit c k fs <> Fuel.
Proof. exact init_terminates. Qed.
Print Assumptions C34_opening_terminates.

(** C34: a get reads at most every retained page once; with binary search at most about
    log2 of their number. *)
Theorem C34_get_page_reads : forall c s key s' r d,
  numbers_fit c s -> embedDBGet c s key = Ok (s', r, d) -> calls_at_most (get_reads c s) s s'.
Proof. exact get_calls. Qed.
Print Assumptions C34_get_page_reads.

(** C34: one step of a scan reads at most two pages (data and index) for every page ahead
    of the iterator. *)
Theorem C34_next_page_reads : forall c s it s' it' r o,
  numbers_fit c s -> 0 <= itPage it -> 0 <= itRec it -> embedDBNext c s it = Ok (s', it', r, o) ->
  calls_at_most (2 * Z.max (nextD (sd s) - itPage it + 1) 0) s s'.
Proof. exact next_calls. Qed.
Print Assumptions C34_next_page_reads.

(** C34: the number of storage calls of a put and of a flush does not depend on the size
    of the database. *)
Theorem C34_put_storage_calls : forall c s k d s' r,
  embedDBPut c s k d = Ok (s', r) -> calls_at_most (if useRLC c then 10 else 5) s s'.
Proof. exact put_calls. Qed.
Print Assumptions C34_put_storage_calls.
Theorem C34_flush_storage_calls : forall c s s' r,
  embedDBFlush c s = Ok (s', r) -> calls_at_most 7 s s'.
Proof. exact flush_calls. Qed.
Print Assumptions C34_flush_storage_calls.

(** 60 puts with failing writes and erases, then lookups and a scan from any place. *)
Definition fsT : list bool := [false; true; false; false; true; true; false; true] ++ repeat false 60.
Definition itT : iter := mkIt 5 3 (Some 10) None None None None.
Example C34_every_call_example : exists s0 s out,
  embedDBInit eA noDisk fsT = Ok (s0, 0) /\ run eA s0 (puts 60 1 1) = Ok (s, out) /\ numbers_fit eA s /\
  minD (sd s) = 0 /\ nextD (sd s) = 8 /\
  call_step eA s (CGet 30) <> Fuel /\ call_step eA s (CNext itT) <> Fuel /\ call_step eA s CFlush <> Fuel /\
  (forall s' r d, embedDBGet eA s 30 = Ok (s', r, d) -> calls_at_most 8 s s') /\
  (forall s' it' r o, embedDBNext eA s itT = Ok (s', it', r, o) -> calls_at_most 8 s s') /\
  (forall s' r, embedDBPut eA s 99 (le_enc 4 1) = Ok (s', r) -> calls_at_most 5 s s') /\
  (forall s' r, embedDBFlush eA s = Ok (s', r) -> calls_at_most 7 s s') /\
  zlen (faults (sio s)) = 60.
Proof.
  assert (X : match embedDBInit eA noDisk fsT with
    | Ok (s0, r0) => (r0 =? 0) && match run eA s0 (puts 60 1 1) with
       | Ok (s, out) => numbers_fitb eA s && (minD (sd s) =? 0) && (nextD (sd s) =? 8) && (zlen (faults (sio s)) =? 60)
       | _ => false end
    | _ => false end = true) by (vm_compute; reflexivity).
  destruct (embedDBInit eA noDisk fsT) as [[s0 r0]| |] eqn:E0; try discriminate.
  apply andb_prop in X as [X0 X]. destruct (run eA s0 (puts 60 1 1)) as [[s out]| |] eqn:E1; try discriminate.
  apply andb_prop in X as [X X4]. apply andb_prop in X as [X X3]. apply andb_prop in X as [X1 X2].
  apply Z.eqb_eq in X0, X2, X3, X4. subst r0. apply numbers_fit_check in X1.
  exists s0, s, out. split; [reflexivity|]. do 2 (split; [assumption|]). do 2 (split; [assumption|]).
  do 3 (split; [apply C34_every_call_terminates_partial; [exact X1|cbn; auto; lia]|]).
  split; [intros s' r d H; apply C34_get_page_reads in H; [|exact X1]; unfold get_reads in H; rewrite X2, X3 in H; exact H|].
  split; [intros s' it' r o H; apply C34_next_page_reads in H; [|exact X1|cbn; lia|cbn; lia]; rewrite X3 in H; exact H|].
  split; [intros s' r H; apply C34_put_storage_calls in H; exact H|].
  split; [intros s' r H; apply C34_flush_storage_calls in H; exact H|exact X4].
Qed.

(** A damaged file: four pages of bytes 255 in an index configuration, opened again. *)
Definition junk : file := mkFile 8 (fun _ => repeat 255 128).
Example C34_opening_example :
  embedDBInit (ex_cfg 128 (1 + 2 + 8) 8 2 8 1 None None) (mkDisk (Some junk) (Some junk) None) [] <> Fuel.
Proof. apply C34_opening_terminates; vm_compute; discriminate. Qed.

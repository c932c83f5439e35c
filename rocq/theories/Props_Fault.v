(** Theorems about storage failures (property C30).  The file interface reports a
    failing read, write or erase by returning 0 and changes nothing (Storage.v);
    which calls fail is given by the fault script, so quantifying over states
    quantifies over all schedules of faults. *)
From Verif Require Import Base Config Storage DB Recovery Spec SpecPage SpecStore Run SpecRun SpecFault
  FaultFacts ExFacts ExRlc.
Open Scope Z_scope.

(** C30: in every state and configuration, a flush during which a storage
    operation failed returns -1; a flush during which none failed does what the
    same flush does on storage that never fails.  [p] lists the operations. *)
Theorem C30_flush_reports_failures :
  forall c s s' r, embedDBFlush c s = Ok (s', r) ->
  exists p, consumed s s' p /\ (In true p -> r = -1) /\
    (~ In true p -> embedDBFlush c (heal s) = Ok (heal s', r)).
Proof. exact flush_tracks. Qed.
Print Assumptions C30_flush_reports_failures.

(** 45 records on a ring of 4 pages: the flush erases the oldest block and then
    writes a page.  The second of these fails. *)
Example C30_flush_example : match go eA [] (puts 45 1 1) with
  | Ok (s, _) => match embedDBFlush eA (with_faults s [false; true; false]) with
    | Ok (s', r) => consumed (with_faults s [false; true; false]) s' [false; true] /\ r = -1
    | _ => False end
  | _ => False end.
Proof. vm_compute. split; reflexivity. Qed.

(** C30: after a flush that failed, at whatever operation, every record that was
    waiting in the write buffer is still returned.  Missing: records already on
    storage (C30_get_after_failed_flush_refuted) and what a repeated flush makes
    durable (C30_flush_retry_loses_records_refuted). *)
Theorem C30_failed_flush_keeps_buffer_partial :
  forall c KB PB k h s xs fs s' ret, scenario c KB PB h -> reached c k h s xs ->
  embedDBFlush c (with_faults s fs) = Ok (s', ret) -> ret <> 0 ->
  forall r, In r (cur (log_of c h)) -> embedDBGet c s' (rkey r) = Ok (s', 0, Some (rdata r)).
Proof. exact c30_keeps. Qed.
Print Assumptions C30_failed_flush_keeps_buffer_partial.

Lemma eA_puts45 : exists s xs, reached eA noDisk (puts 45 1 1) s xs /\
  match embedDBFlush eA (with_faults s [false; true]) with Ok (_, r) => r = -1 | _ => False end.
Proof.
  assert (C : match embedDBInit eA noDisk [] with
              | Ok (s, r) => r = 0 /\ match run eA s (puts 45 1 1) with
                | Ok (s, _) => match embedDBFlush eA (with_faults s [false; true]) with Ok (_, r) => r = -1 | _ => False end
                | _ => False end
              | _ => False end) by (vm_compute; split; reflexivity).
  destruct (embedDBInit eA noDisk []) as [[s0 r0]| |] eqn:E0; try contradiction. destruct C as [-> C].
  destruct (run eA s0 (puts 45 1 1)) as [[s xs]| |] eqn:E; try contradiction.
  exists s, xs. split; [exists s0; auto|exact C].
Qed.
Example C30_buffer_example : exists s xs s' ret, reached eA noDisk (puts 45 1 1) s xs /\
  embedDBFlush eA (with_faults s [false; true]) = Ok (s', ret) /\ ret <> 0 /\
  length (cur (log_of eA (puts 45 1 1))) = 3%nat /\
  forall r, In r (cur (log_of eA (puts 45 1 1))) -> embedDBGet eA s' (rkey r) = Ok (s', 0, Some (rdata r)).
Proof.
  destruct eA_puts45 as (s & xs & R & F).
  destruct (embedDBFlush eA (with_faults s [false; true])) as [[s' ret]| |] eqn:E; try contradiction. subst ret.
  exists s, xs, s', (-1). split; [exact R|]. split; [exact E|]. split; [discriminate|]. split; [vm_compute; reflexivity|].
  apply (C30_failed_flush_keeps_buffer_partial eA (2 ^ 31) (2 ^ 31) noDisk (puts 45 1 1) s xs _ s' (-1) ltac:(scen) R E). discriminate.
Qed.

(** C30: with record-level consistency, in every state and configuration and
    under every schedule of faults, when a put returns 0 the page that was in the
    write buffer, with the record just added, is on storage. *)
Theorem C30_rlc_put_is_on_storage :
  forall c s k d s', useRLC c = true -> embedDBPut c s k d = Ok (s', 0) -> on_storage (fD (sio s')) (wbuf (sd s')).
Proof. exact c30_rlc. Qed.
Print Assumptions C30_rlc_put_is_on_storage.

(** The write of the first put fails: it returns -1.  The erase in the fourth fails,
    its write succeeds. *)
Example C30_rlc_example : exists s s' d, go eR [true; false; false; false; true; false] (puts 3 1 1) = Ok (s, [OPut (-1); OPut 0; OPut 0]) /\
  In true (faults (sio s)) /\ embedDBPut eR s 4 d = Ok (s', 0) /\ on_storage (fD (sio s')) (wbuf (sd s')).
Proof.
  assert (C : match go eR [true; false; false; false; true; false] (puts 3 1 1) with
              | Ok (s, xs) => xs = [OPut (-1); OPut 0; OPut 0] /\ faults (sio s) = [true; false] /\
                  match embedDBPut eR s 4 (le_enc 4 3) with Ok (_, r) => r = 0 | _ => False end
              | _ => False end) by (vm_compute; repeat split; reflexivity).
  destruct (go eR [true; false; false; false; true; false] (puts 3 1 1)) as [[s xs]| |] eqn:E; try contradiction. destruct C as (-> & F & C).
  destruct (embedDBPut eR s 4 (le_enc 4 3)) as [[s' r]| |] eqn:E2; try contradiction. subst r.
  exists s, s', (le_enc 4 3). split; [reflexivity|]. split; [rewrite F; now left|]. split; [exact E2|].
  exact (C30_rlc_put_is_on_storage eR s 4 _ s' eq_refl E2).
Qed.

(** Theorems about failing reads (property C30): gets, iterator steps and scans.
    [heal s] is the state [s] on storage that never fails, [consumed s s' p] lists
    the storage operations of a call with their fate, and [refilled s s'] says that
    a call has changed nothing but the read buffers and put nothing into them but
    what storage has (SpecFault.v).  What the reads of a put, of opening, of an
    iterator at the end of a scan and of a stream do when they fail is in
    Refuted_Fault.v. *)
From Verif Require Import Base Config Storage DB Recovery Spec SpecPage SpecStore SpecIter Run SpecRun SpecFault
  LogFacts RunFacts ReachFacts FaultFacts FaultReadFacts ExFacts.
Open Scope Z_scope.

(** C30: in every state and configuration in which a get has a result on storage
    that does not fail: a get during which no read failed has that result, and a
    get during which a read failed returns -1 and no data; neither changes storage
    or what is buffered for writing. *)
Theorem C30_get_reports_failures :
  forall c s k h r d, embedDBGet c (heal s) k = Ok (h, r, d) ->
  exists s' r' d' p, embedDBGet c s k = Ok (s', r', d') /\ consumed s s' p /\ refilled s s' /\
    ((~ In true p /\ r' = r /\ d' = d /\ heal s' = h) \/ (In true p /\ r' = -1 /\ d' = None)).
Proof. exact get_soft. Qed.
Print Assumptions C30_get_reports_failures.

(** 27 records, three pages on storage: the first read for key 3 fails. *)
Example C30_get_example : match go eA [] (puts 27 1 1) with
  | Ok (s, _) =>
      match embedDBGet eA (heal (with_faults s [true])) 3 with Ok (_, r, d) => r = 0 /\ d = Some [9; 0; 0; 0] | _ => False end /\
      match embedDBGet eA (with_faults s [true]) 3 with Ok (_, r, d) => r = -1 /\ d = None | _ => False end
  | _ => False end.
Proof. vm_compute. repeat split. Qed.

(** C30: an iterator step during which no read failed does what it does on sound
    storage.  One during which a read failed returns 0, and can be repeated: once
    storage works, the same iterator gives what the failed step should have
    given ([resumes]: the same state, iterator, return value and record). *)
Theorem C30_next_can_be_repeated :
  forall c s it h it0 r0 o0, 0 <= nextD (sd s) < 2 ^ 32 - 1 -> 0 <= itPage it ->
  embedDBNext c (heal s) it = Ok (h, it0, r0, o0) ->
  exists s' it' r o p, embedDBNext c s it = Ok (s', it', r, o) /\ consumed s s' p /\ refilled s s' /\
    ((~ In true p /\ it' = it0 /\ r = r0 /\ o = o0 /\ heal s' = h) \/
     (In true p /\ r = 0 /\ exists o1, embedDBNext c (heal s') it' = Ok (h, it0, r0, o1) /\ (r0 = 1 -> o1 = o0))).
Proof. exact next_soft. Qed.
Print Assumptions C30_next_can_be_repeated.

(** A scan from key 12 on: the read of the first page fails. *)
Example C30_next_example : match go eA [] (puts 27 1 1) with
  | Ok (s, _) => match embedDBInitIterator eA s (Some 12) None None None with
    | Ok it =>
        match embedDBNext eA (heal s) it with Ok (_, _, r, o) => r = 1 /\ o = Some (12, [36; 0; 0; 0]) | _ => False end /\
        match embedDBNext eA (with_faults s [true]) it with
        | Ok (s', it', r, _) => r = 0 /\
            match embedDBNext eA (heal s') it' with Ok (_, _, r, o) => r = 1 /\ o = Some (12, [36; 0; 0; 0]) | _ => False end
        | _ => False end
    | _ => False end
  | _ => False end.
Proof. vm_compute. repeat split. Qed.

(** C30: a scan during which a read failed has returned a prefix of the result,
    and continuing with the same iterator returns the rest. *)
Theorem C30_scan_can_be_continued :
  forall c n s it h it0 xs, 0 <= nextD (sd s) < 2 ^ 32 - 1 -> 0 <= itPage it ->
  drain c (heal s) it n = Ok (h, it0, xs) ->
  exists s' it' ys p, drain c s it n = Ok (s', it', ys) /\ consumed s s' p /\ refilled s s' /\
    ((~ In true p /\ it' = it0 /\ ys = xs /\ heal s' = h) \/
     (In true p /\ exists zs, xs = ys ++ zs /\ drain c (heal s') it' n = Ok (h, it0, zs))).
Proof. exact drain_soft. Qed.
Print Assumptions C30_scan_can_be_continued.

(** 27 records: the scan stops at the second page and goes on from there. *)
Example C30_scan_example : match go eA [] (puts 27 1 1) with
  | Ok (s, _) => match embedDBInitIterator eA s None None None None with
    | Ok it => match drain eA (with_faults s [false; true]) it 40 with
      | Ok (s', it', ys) => map fst ys = [1; 2; 3; 4; 5; 6; 7] /\
          match drain eA (heal s') it' 40 with Ok (_, _, zs) => map fst (ys ++ zs) = put_keys (puts 27 1 1) | _ => False end
      | _ => False end
    | _ => False end
  | _ => False end.
Proof. vm_compute. split; reflexivity. Qed.

(** C30 against the specification: after any calm history, on storage on which
    any reads fail, each of a sequence of gets returns what it has to return or
    -1; when storage works again, all gets are exact.  Missing: binary search. *)
Theorem C30_gets_on_failing_storage_partial :
  forall c KB PB h k s xs fs ks, quiet c KB PB h -> calmly c k h s xs -> useBinary c = false ->
  Forall (key_ok c KB (spec_log c h)) ks ->
  exists s' ys t, run c (with_faults s fs) (map HGet ks) = Ok (s', ys) /\
    Forall2 (fun k y => y = lookup (spec_log c h) k \/ y = OGet (-1) None) ks ys /\
    refilled (with_faults s fs) s' /\ run c (heal s') (map HGet ks) = Ok (t, map (lookup (spec_log c h)) ks).
Proof. exact c30_gets. Qed.
Print Assumptions C30_gets_on_failing_storage_partial.

(** C30: likewise for scans without a bitmap. *)
Theorem C30_scan_on_failing_storage_partial :
  forall c KB PB h k s xs fs q n, quiet c KB PB h -> calmly c k h s xs -> useBinary c = false ->
  uses_bitmap c q = false -> query_ok KB q -> (length (retained (spec_log c h)) < n)%nat ->
  exists it s' it' ys zs t it2 p, embedDBInitIterator c (with_faults s fs) (qMinK q) (qMaxK q) (qMinD q) (qMaxD q) = Ok it /\
    drain c (with_faults s fs) it n = Ok (s', it', ys) /\ ys ++ zs = answer c (spec_log c h) q /\
    consumed (with_faults s fs) s' p /\ refilled (with_faults s fs) s' /\
    (~ In true p -> zs = []) /\ (In true p -> drain c (heal s') it' n = Ok (t, it2, zs)).
Proof. exact c30_scan. Qed.
Print Assumptions C30_scan_on_failing_storage_partial.

(** 60 puts into a ring of 4 pages: the oldest keys are evicted.  Reads 1 and 3 fail. *)
Example C30_gets_example : exists s xs s' ys t, calmly eA noDisk (puts 60 1 1) s xs /\
  run eA (with_faults s [true; false; true]) (map HGet [40; 50; 60; 33; 3]) = Ok (s', ys) /\
  run eA (heal s') (map HGet [40; 50; 60; 33; 3]) = Ok (t, map (lookup (spec_log eA (puts 60 1 1))) [40; 50; 60; 33; 3]) /\
  map (lookup (spec_log eA (puts 60 1 1))) [40; 50; 60; 33; 3] =
    [OGet 0 (Some [120; 0; 0; 0]); OGet 0 (Some [150; 0; 0; 0]); OGet 0 (Some [180; 0; 0; 0]); OGet 0 (Some [99; 0; 0; 0]); OGet (-1) None].
Proof.
  destruct (calmly_ex eA (puts 60 1 1)) as (s & xs & R); [vm_compute; reflexivity|vm_compute; reflexivity|].
  destruct (C30_gets_on_failing_storage_partial eA (2 ^ 31) (2 ^ 31) (puts 60 1 1) noDisk s xs [true; false; true] [40; 50; 60; 33; 3])
    as (s' & ys & t & E & _ & _ & E2); [quiet_ex|exact R|reflexivity|apply keys_check; [reflexivity|vm_compute; reflexivity]|].
  exists s, xs, s', ys, t. split; [exact R|]. split; [exact E|]. split; [exact E2|]. vm_compute. reflexivity.
Qed.
Example C30_failing_scan_example : exists s xs it s' it' ys zs, calmly eA noDisk (puts 60 1 1) s xs /\
  embedDBInitIterator eA s (Some 45) None None None = Ok it /\
  drain eA (with_faults s [false; true]) it 100 = Ok (s', it', ys) /\
  ys ++ zs = answer eA (spec_log eA (puts 60 1 1)) (mkQ (Some 45) None None None) /\ length (ys ++ zs) = 16%nat.
Proof.
  destruct (calmly_ex eA (puts 60 1 1)) as (s & xs & R); [vm_compute; reflexivity|vm_compute; reflexivity|].
  destruct (C30_scan_on_failing_storage_partial eA (2 ^ 31) (2 ^ 31) (puts 60 1 1) noDisk s xs [false; true] (mkQ (Some 45) None None None) 100)
    as (it & s' & it' & ys & zs & t & it2 & p & E1 & E2 & E3 & _).
  - quiet_ex.
  - exact R.
  - reflexivity.
  - reflexivity.
  - split; intros k E; [injection E as <-; lia|discriminate].
  - apply Nat.ltb_lt. vm_compute. reflexivity.
  - exists s, xs, it, s', it', ys, zs. split; [exact R|]. split; [exact E1|]. split; [exact E2|]. split; [exact E3|].
    rewrite E3. vm_compute. reflexivity.
Qed.

(** Payload lookups on storage whose reads fail (property C30).

    [heal s] is [s] with sound storage, [with_faults s fs] is [s] with the fault script
    [fs]; [consumed s s' p]: the call from [s] to [s'] attempted one storage operation
    for each entry of [p], [true] for those that failed; [refilled s s']: the call
    changed nothing but read buffers, which hold what storage has. *)
From Verif Require Import Base Config Storage DB VarData Recovery Spec SpecPage SpecStore Run SpecRun SpecFault SpecVar
  FaultVarFacts FaultVarThms VarThms ExFacts ExVar Props_Var.
Open Scope Z_scope.

(** C30: embedDBGetVar of a record that is not in the write buffer, in every state and
    with every pattern of failing reads, returns what it returns on sound storage or
    reports the failure and delivers no stream; it changes nothing but read buffers.
    (For a record in the write buffer: C30_getvar_ignores_failed_write_refuted.) *)
Theorem C30_getvar_reports_failures_partial :
  forall c s k h r d vs, (forall n dt, searchBuffer c (wbuf (sd s)) k = Ok (n, dt) -> n = -1) ->
  embedDBGetVar c (heal s) k = Ok (h, r, d, vs) ->
  exists s' r' d' vs' p, embedDBGetVar c s k = Ok (s', r', d', vs') /\ consumed s s' p /\ refilled s s' /\
    ((~ In true p /\ r' = r /\ d' = d /\ vs' = vs /\ heal s' = h) \/
     (In true p /\ r' = -1 /\ vs' = None /\ (d' = None \/ d' = d))).
Proof. exact getVar_soft. Qed.
Print Assumptions C30_getvar_reports_failures_partial.

(** C30: embedDBVarDataStreamRead returns the bytes it returns on sound storage, or 0
    ([None]) if one of its reads failed. *)
Theorem C30_stream_read_reports_failures :
  forall c s st len h st0 o, embedDBVarDataStreamRead c (heal s) st len = Ok (h, st0, o) ->
  exists s' st' o' p, embedDBVarDataStreamRead c s st len = Ok (s', st', o') /\ consumed s s' p /\ refilled s s' /\
    ((~ In true p /\ st' = st0 /\ o' = o /\ heal s' = h) \/ (In true p /\ o' = None)).
Proof. exact stream_soft. Qed.
Print Assumptions C30_stream_read_reports_failures.

(** C30: when already its first read fails, the call can be repeated.  (Not when a later
    one fails: C30_failed_stream_read_refuted.) *)
Theorem C30_stream_read_can_be_repeated_partial :
  forall c s st len h st0 o fs, embedDBVarDataStreamRead c (heal s) st len = Ok (h, st0, o) ->
  (fileOffset st / pageSize c) mod numVar c <> bufV (sv s) -> faults (sio s) = true :: fs ->
  exists s', embedDBVarDataStreamRead c s st len = Ok (s', st, None) /\ faults (sio s') = fs /\
    embedDBVarDataStreamRead c (heal s') st len = Ok (h, st0, o).
Proof. exact stream_first_soft. Qed.
Print Assumptions C30_stream_read_can_be_repeated_partial.

(** C30: after every covered history, looking up a stored payload and reading its stream
    in pieces on failing storage delivers the payload, or the lookup reports the failure,
    or the pieces are right up to the first read that returns 0 bytes. *)
Theorem C30_payloads_on_failing_storage_partial :
  forall KB PB VB c dk h1 k d b h2 s ns fs, let h := h1 ++ VPut k d (Some b) :: h2 in
  vscenario c KB PB VB h -> vreached c dk h s -> var_clean c s -> lookup_inside c s k ns ->
  refused (vlog (vstore_of c h1)) k = false -> In k (map rkey (retained (vlog (vstore_of c h)))) ->
  ~ In k (map rkey (cur (vlog (vstore_of c h)))) -> var_intact c VB dk h s k ->
  exists s' p, consumed (with_faults s fs) s' p /\ refilled (with_faults s fs) s' /\
  ((~ In true p /\ getvar_read c (with_faults s fs) k ns = Ok (s', OVGetVar 0 (Some d) (Some (pieces b ns)))) \/
   (In true p /\ exists d', (d' = None \/ d' = Some d) /\ getvar_read c (with_faults s fs) k ns = Ok (s', OVGetVar (-1) d' None)) \/
   (In true p /\ exists m, (m < length ns)%nat /\
      getvar_read c (with_faults s fs) k (firstn (S m) ns) = Ok (s', OVGetVar 0 (Some d) (Some (firstn m (pieces b ns) ++ [[]]))))).
Proof. exact c30_payloads. Qed.
Print Assumptions C30_payloads_on_failing_storage_partial.

(** A payload of 120 bytes over three pages.  The read of the variable page fails in the lookup; the
    same lookup works when no read fails. *)
Example C30_getvar_example : match vgo eV hv2 with
  | Some s =>
      match embedDBGetVar eV (with_faults s [true]) 40 with Ok (_, r, d, vs) => r = -1 /\ d = Some [1; 2; 3; 4] /\ vs = None | _ => False end /\
      match embedDBGetVar eV (heal s) 40 with Ok (_, r, _, vs) => r = 0 /\ option_map totalBytes vs = Some 120 | _ => False end /\
      searchBuffer eV (wbuf (sd s)) 40 = Ok (-1, None)
  | None => False end.
Proof. vm_compute. repeat split. Qed.

(** The first read of the stream fails, is repeated and works. *)
Example C30_stream_example : match vgo eV hv2 with
  | Some s => match embedDBGetVar eV s 40 with
    | Ok (s, _, _, Some st) =>
        let s := set_v s (v_rbuf (sv s) (vrbuf (sv s)) 5) in    (* another page is in the buffer *)
        match embedDBVarDataStreamRead eV (with_faults s [true]) st 30 with
        | Ok (s', st', o) => st' = st /\ o = None /\
            match embedDBVarDataStreamRead eV (heal s') st' 30 with Ok (_, _, o) => o = Some (repeat 9 30) | _ => False end
        | _ => False end
    | _ => False end
  | None => False end.
Proof. vm_compute. repeat split. Qed.

(** The payload read in five pieces: the lookup fails, the third read fails (while the
    third page is fetched for the second last piece), nothing fails. *)
Definition ns5 : list Z := [70; 30; 0; 40; 5].
Example C30_payloads_example : exists s, vreached eV noDisk hv2 s /\ forall fs,
  exists s' p, consumed (with_faults s fs) s' p /\
  ((~ In true p /\ getvar_read eV (with_faults s fs) 40 ns5 = Ok (s', OVGetVar 0 (Some [1; 2; 3; 4]) (Some (pieces (repeat 9 120) ns5)))) \/
   (In true p /\ exists d', (d' = None \/ d' = Some [1; 2; 3; 4]) /\ getvar_read eV (with_faults s fs) 40 ns5 = Ok (s', OVGetVar (-1) d' None)) \/
   (In true p /\ exists m, (m < 5)%nat /\
      getvar_read eV (with_faults s fs) 40 (firstn (S m) ns5) = Ok (s', OVGetVar 0 (Some [1; 2; 3; 4]) (Some (firstn m (pieces (repeat 9 120) ns5) ++ [[]]))))).
Proof.
  destruct (ready_ok eV hv2 40 ns5 ltac:(vm_compute; reflexivity)) as (s & Re & Cl & Hi). exists s. split; [exact Re|]. intros fs.
  destruct (C30_payloads_on_failing_storage_partial (2 ^ 31) (2 ^ 31) (2 ^ 32) eV noDisk hv 40 [1; 2; 3; 4] (repeat 9 120)
    [VPut 41 [1; 2; 3; 4] None; VGetVar 13 [100]; VFlush] s ns5 fs) as (s' & p & C & _ & D).
  - vscen.
  - exact Re.
  - exact Cl.
  - exact Hi.
  - vm_compute. reflexivity.
  - vm_compute. tauto.
  - intros H. vm_compute in H. exact H.
  - apply capb_ok; [vm_compute; reflexivity|vm_compute; reflexivity|exact Re].
  - exists s', p. split; [exact C|exact D].
Qed.
Definition pay (fs : list bool) (ns : list Z) : option vout :=
  match vgo eV hv2 with
  | Some s => match getvar_read eV (with_faults s fs) 40 ns with Ok (_, x) => Some x | _ => None end
  | None => None end.
Example C30_payloads_cases :
  pay [true] ns5 = Some (OVGetVar (-1) (Some [1; 2; 3; 4]) None) /\
  pay [false; false; true] (firstn 4 ns5) = Some (OVGetVar 0 (Some [1; 2; 3; 4]) (Some (firstn 3 (pieces (repeat 9 120) ns5) ++ [[]]))) /\
  pay [false; false; false; true] ns5 = Some (OVGetVar 0 (Some [1; 2; 3; 4]) (Some (pieces (repeat 9 120) ns5))).
Proof. vm_compute. repeat split. Qed.

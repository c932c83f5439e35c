(** Theorems about variable-length data over several sessions: a database is
    created, stopped between any two calls or inside a put, reopened over the storage
    left behind, written further, stopped again, and so on (properties C06, C07, C15,
    C16 and C31 for the variable area).

    [vlife c KB PB VB dk s es] (SpecVarReopen.v) states what is covered: [s] is a
    new database with variable data, as in Props_Var.v; [es] interleaves calls,
    reopenings and crashes inside puts, each followed by a reopening; each reopening uses the storage left by the last session, without
    the reset flag, with or without the bitmap index (with enough buffer blocks),
    under a possibly different search mode.  Keys of accepted puts ascend over all
    sessions.  An area whose only variable page carries key 0 is not reopened
    (C06_var_key_zero_refuted).  [vlife_spec] computes the configuration and the
    abstract store (records and payloads) that a lifetime leaves. *)
From Verif Require Import Base Config Storage DB VarData Recovery Spec SpecPage SpecStore Run SpecRun SpecReopen SpecReopenIdx SpecVar SpecVarReopen
  VarReopenThms ExFacts ExVar ExVarReopen.
Open Scope Z_scope.

(** C31, C06: no lifetime reaches undefined behaviour, every reopening succeeds,
    every call returns what the abstract store says, and the session ends in the
    configuration of the last reopening. *)
Theorem C31_var_lifetime_defined_partial :
  forall KB PB VB c dk s es, vlife c KB PB VB dk s es ->
  exists s1 xs, vlifetime c s es = Ok (fst (fst (vlife_spec c es)), s1, xs) /\ vlife_outs (c, emptyVS, []) es xs.
Proof. exact life_run_ok. Qed.
Print Assumptions C31_var_lifetime_defined_partial.

(** 15 payloads, more than the area holds; a stop with records in the buffer; three
    sessions more, one ended by a flush, one in binary-search mode. *)
Definition lv1 : list vcode := map VC (vputs 15 1 50) ++ [VLinear].
Definition lv2 : list vcode := lv1 ++ map VC (vputs 4 20 20 ++ [VPut 30 [1; 2; 3; 4] (Some (repeat 9 70)); VPut 31 [1; 2; 3; 4] None; VFlush]).
Definition lv3 : list vcode := lv2 ++ VBinary :: map VC (VGetVar 30 [20; 60] :: vputs 3 40 10) ++ [VLinear; VC (VGet 22)].
Example C31_var_lifetime_example : exists s, vlife eV (2 ^ 31) (2 ^ 31) (2 ^ 32) noDisk s (map vev lv3).
Proof. destruct (vlife_check_ok lv3 ltac:(vm_compute; reflexivity)) as (s & _ & L). exists s. exact L. Qed.

(** C15: a payload stored in any session comes back whole in every later one, while
    its record is retained and the payload has not been overwritten. *)
Theorem C15_var_lifetime_round_trip_partial :
  forall KB PB VB c dk s es1 k d b es2 c2 s2 xs2 ns, let es := es1 ++ VEvOp (VPut k d (Some b)) :: es2 in
  vlife c KB PB VB dk s es -> refused (vlog (snd (fst (vlife_spec c es1)))) k = false ->
  vlifetime c s es = Ok (c2, s2, xs2) ->
  var_ready c2 s2 (snd (fst (vlife_spec c es))) k -> lookup_inside c2 s2 k ns ->
  In k (map rkey (retained (vlog (snd (fst (vlife_spec c es)))))) -> vlife_intact VB c s es s2 k ->
  exists s', getvar_read c2 s2 k ns = Ok (s', OVGetVar 0 (Some d) (Some (pieces b ns))).
Proof. exact life_stored. Qed.
Print Assumptions C15_var_lifetime_round_trip_partial.

(** The payload of key 30 after two more sessions. *)
Example C15_var_lifetime_example : exists s c2 s2 xs2 s', vlifetime eV s (map vev lv3) = Ok (c2, s2, xs2) /\
  getvar_read c2 s2 30 [20; 60] = Ok (s', OVGetVar 0 (Some [1; 2; 3; 4]) (Some [repeat 9 20; repeat 9 50])).
Proof.
  destruct (vlife_check_ok lv3 ltac:(vm_compute; reflexivity)) as (s & Es & L).
  destruct (C31_var_lifetime_defined_partial _ _ _ _ _ _ _ L) as (s2 & xs2 & R & _).
  rewrite (vlife_last (map vev lv3) eVr ltac:(reflexivity)) in R.
  destruct (end_check_ok lv3 30 [20; 60] _ _ _ _ ltac:(vm_compute; reflexivity) Es R) as (Cl & Hi).
  set (es1 := lv1 ++ map VC (vputs 4 20 20)). set (es2 := VC (VPut 31 [1; 2; 3; 4] None) :: VC VFlush ::
    VBinary :: map VC (VGetVar 30 [20; 60] :: vputs 3 40 10) ++ [VLinear; VC (VGet 22)]).
  assert (Sp : lv3 = es1 ++ VC (VPut 30 [1; 2; 3; 4] (Some (repeat 9 70))) :: es2) by (vm_compute; reflexivity).
  assert (Rf : refused (vlog (snd (fst (vlife_spec eV (map vev es1))))) 30 = false) by (vm_compute; reflexivity).
  assert (It : vlife_intact (2 ^ 32) eV s (map vev lv3) s2 30).
  { rewrite Sp in R |- *. eapply room_check_ok; [vm_compute; reflexivity|exact Es|exact R|exact Rf]. }
  assert (Ev : map vev lv3 = map vev es1 ++ VEvOp (VPut 30 [1; 2; 3; 4] (Some (repeat 9 70))) :: map vev es2) by (rewrite Sp, map_app; reflexivity).
  destruct (C15_var_lifetime_round_trip_partial (2 ^ 31) (2 ^ 31) (2 ^ 32) eV noDisk s (map vev es1) 30 [1; 2; 3; 4] (repeat 9 70) (map vev es2)
    eVr s2 xs2 [20; 60]) as (s' & E).
  - rewrite <- Ev. exact L.
  - exact Rf.
  - rewrite <- Ev. exact R.
  - split; [exact Cl|intros H; exfalso; vm_compute in H; repeat (destruct H as [H|H]; [discriminate|]); exact H].
  - exact Hi.
  - rewrite <- Ev. vm_compute. tauto.
  - rewrite <- Ev. exact It.
  - exists s, eVr, s2, xs2, s'. split; [exact R|exact E].
Qed.

(** C15, C02: stream lookups of arbitrary keys after a lifetime. *)
Theorem C15_var_lifetime_lookup_partial :
  forall KB PB VB c dk s es c1 s1 xs k ns, vlife c KB PB VB dk s es -> vlifetime c s es = Ok (c1, s1, xs) -> 0 <= k < KB ->
  let V1 := snd (fst (vlife_spec c es)) in
  var_ready c1 s1 V1 k -> lookup_inside c1 s1 k ns ->
  (useBinary c1 = true -> In k (map rkey (accepted (vlog V1))) -> In k (map rkey (retained (vlog V1)))) ->
  (payload k (vpay V1) <> None -> vlife_intact VB c s es s1 k) ->
  exists s', getvar_read c1 s1 k ns = Ok (s', vlookup V1 k ns).
Proof. exact life_lookup. Qed.
Print Assumptions C15_var_lifetime_lookup_partial.

(** Key 41 was in the write buffer when the third session stopped: it is gone. *)
Example C15_var_lifetime_lookup_example : exists s c2 s2 xs2 s', vlifetime eV s (map vev lv3) = Ok (c2, s2, xs2) /\
  getvar_read c2 s2 41 [10] = Ok (s', OVGetVar (-1) None None).
Proof.
  destruct (vlife_check_ok lv3 ltac:(vm_compute; reflexivity)) as (s & Es & L).
  destruct (C31_var_lifetime_defined_partial _ _ _ _ _ _ _ L) as (s2 & xs2 & R & _).
  rewrite (vlife_last (map vev lv3) eVr ltac:(reflexivity)) in R.
  destruct (end_check_ok lv3 41 [10] _ _ _ _ ltac:(vm_compute; reflexivity) Es R) as (Cl & Hi).
  destruct (C15_var_lifetime_lookup_partial (2 ^ 31) (2 ^ 31) (2 ^ 32) eV noDisk s (map vev lv3) eVr s2 xs2 41 [10] L R) as (s' & E).
  - lia.
  - split; [exact Cl|intros H; exfalso; vm_compute in H; repeat (destruct H as [H|H]; [discriminate|]); exact H].
  - exact Hi.
  - intros H. exfalso. vm_compute in H. discriminate.
  - intros H. exfalso. apply H. vm_compute. reflexivity.
  - exists s, eVr, s2, xs2, s'. split; [exact R|]. rewrite E. reflexivity.
Qed.

(** C16 over several sessions: a lookup of a payload delivers it whole or reports it
    as overwritten. *)
Theorem C16_var_lifetime_reported_partial :
  forall KB PB VB c dk s es1 k d b es2 c1 s1 xs1 c2 s2 xs2 ns, let es := es1 ++ VEvOp (VPut k d (Some b)) :: es2 in
  vlife c KB PB VB dk s es -> vlifetime c s es1 = Ok (c1, s1, xs1) -> vlifetime c s es = Ok (c2, s2, xs2) ->
  var_ready c2 s2 (snd (fst (vlife_spec c es))) k -> lookup_inside c2 s2 k ns ->
  vlife_full (c, emptyVS, []) es -> (forall x, In x (snd (vlife_spec c es)) -> x + 1 < KB) ->
  refused (vlog (snd (fst (vlife_spec c es1)))) k = false ->
  In k (map rkey (retained (vlog (snd (fst (vlife_spec c es)))))) ->
  exists s' x, getvar_read c2 s2 k ns = Ok (s', x) /\
    (x = OVGetVar 0 (Some d) (Some (pieces b ns)) \/ x = OVGetVar 1 (Some d) None) /\
    (nextV (sv s1) + 1 + numVar c < nextV (sv s2) -> x = OVGetVar 1 (Some d) None) /\
    (vlife_intact VB c s es s2 k -> x = OVGetVar 0 (Some d) (Some (pieces b ns))).
Proof. exact life_report. Qed.
Print Assumptions C16_var_lifetime_reported_partial.

(** Key 1 is still stored after the second session, but its payload was overwritten. *)
Definition lv4 : list vcode := lv1 ++ map VC (vputs 4 20 50).
Example C16_var_lifetime_example : exists s c2 s2 xs2 s', vlifetime eV s (map vev lv4) = Ok (c2, s2, xs2) /\
  getvar_read c2 s2 1 [100] = Ok (s', OVGetVar 1 (Some [3; 0; 0; 0]) None).
Proof.
  destruct (vlife_check_ok lv4 ltac:(vm_compute; reflexivity)) as (s & Es & L).
  destruct (C31_var_lifetime_defined_partial _ _ _ _ _ _ _ L) as (s2 & xs2 & R & _).
  rewrite (vlife_last (map vev lv4) eVr ltac:(reflexivity)) in R.
  destruct (end_check_ok lv4 1 [100] _ _ _ _ ltac:(vm_compute; reflexivity) Es R) as (Cl & Hi).
  set (es2 := map VC (vputs 14 2 50) ++ VLinear :: map VC (vputs 4 20 50)).
  assert (Sp : lv4 = VC (VPut 1 [3; 0; 0; 0] (Some (repeat 1 50))) :: es2) by (vm_compute; reflexivity).
  assert (Ev : map vev lv4 = [] ++ VEvOp (VPut 1 [3; 0; 0; 0] (Some (repeat 1 50))) :: map vev es2) by (rewrite Sp; reflexivity).
  destruct (C16_var_lifetime_reported_partial (2 ^ 31) (2 ^ 31) (2 ^ 32) eV noDisk s [] 1 [3; 0; 0; 0] (repeat 1 50) (map vev es2)
    eV s [] eVr s2 xs2 [100]) as (s' & x & E & _ & Far & _).
  - rewrite <- Ev. exact L.
  - reflexivity.
  - rewrite <- Ev. exact R.
  - rewrite <- Ev. split; [exact Cl|intros H; exfalso; vm_compute in H; repeat (destruct H as [H|H]; [discriminate|]); exact H].
  - exact Hi.
  - rewrite <- Ev. vm_compute. repeat split; discriminate.
  - assert (F : forallb (fun x => x + 1 <? 2 ^ 31) (snd (vlife_spec eV (map vev lv4))) = true) by (vm_compute; reflexivity).
    rewrite <- Ev. rewrite forallb_forall in F. intros x Hx. apply Z.ltb_lt, F. exact Hx.
  - reflexivity.
  - rewrite <- Ev. vm_compute. tauto.
  - exists s, eVr, s2, xs2, s'. split; [exact R|]. rewrite E, Far; [reflexivity|].
    eapply (far_check_ok [] lv4); [vm_compute; reflexivity|exact Es|reflexivity|exact R].
Qed.

(** C06: right after a reopening, lookups serve exactly the records on written data
    pages that recovery keeps, with their payloads. *)
Theorem C06_var_reopen_partial :
  forall KB PB VB c dk s es c', vlife c KB PB VB dk s (es ++ [VEvReopen c']) ->
  let V := snd (fst (vlife_spec c es)) in let V1 := mkVS (recovered c' (pages (vlog V))) (survivors V) in
  exists s1 xs, vlifetime c s (es ++ [VEvReopen c']) = Ok (c', s1, xs) /\
  forall k ns, 0 <= k < KB -> lookup_inside c' s1 k ns ->
  (useBinary c' = true -> In k (map rkey (accepted (vlog V1))) -> In k (map rkey (retained (vlog V1)))) ->
  (payload k (vpay V1) <> None -> vlife_intact VB c s (es ++ [VEvReopen c']) s1 k) ->
  exists s', getvar_read c' s1 k ns = Ok (s', vlookup V1 k ns).
Proof. exact life_reopen_lookup. Qed.
Print Assumptions C06_var_reopen_partial.

(** Key 12 was on a written page when the first session stopped. *)
Example C06_var_reopen_example : exists s s1 xs s', vlifetime eV s (map vev lv1) = Ok (eVr, s1, xs) /\
  getvar_read eVr s1 12 [100] = Ok (s', OVGetVar 0 (Some [36; 0; 0; 0]) (Some [repeat 12 50])).
Proof.
  destruct (vlife_check_ok lv1 ltac:(vm_compute; reflexivity)) as (s & Es & L).
  assert (Ev : map vev lv1 = map vev (map VC (vputs 15 1 50)) ++ [VEvReopen eVr]) by (unfold lv1; rewrite map_app; reflexivity).
  assert (Sp : lv1 = map VC (vputs 11 1 50) ++ VC (VPut 12 [36; 0; 0; 0] (Some (repeat 12 50))) :: (map VC (vputs 3 13 50) ++ [VLinear])) by (vm_compute; reflexivity).
  destruct (C06_var_reopen_partial (2 ^ 31) (2 ^ 31) (2 ^ 32) eV noDisk s (map vev (map VC (vputs 15 1 50))) eVr) as (s1 & xs & R & H).
  - rewrite <- Ev. exact L.
  - rewrite <- Ev in R, H.
    assert (Hi : lookup_inside eVr s1 12 [100]) by (eapply (inside_check_ok lv1); [vm_compute; reflexivity|exact Es|exact R]).
    destruct (H 12 [100]) as (s' & E); [clear; lia|exact Hi|intros U; discriminate U| |].
    + intros _. rewrite Sp in R |- *.
      eapply room_check_ok; [vm_compute; reflexivity|exact Es|exact R|vm_compute; reflexivity].
    + exists s, s1, xs, s'. split; [exact R|]. rewrite E. vm_compute. reflexivity.
Qed.

(** C06: after a flush, stopping and reopening changes no lookup, unless the data
    area wrapped and the next page to write starts an erase block
    (C06_reopen_drops_block_refuted). *)
Theorem C06_var_flush_reopen_partial :
  forall KB PB VB c dk s es c', let es1 := es ++ [VEvOp VFlush] in vlife c KB PB VB dk s (es1 ++ [VEvReopen c']) ->
  let V := snd (fst (vlife_spec c es1)) in let n := zlen (pages (vlog V)) in
  n <= numData c' \/ n mod eraseSize c' <> 0 \/ n mod numData c' = 0 ->
  exists s1 xs, vlifetime c s (es1 ++ [VEvReopen c']) = Ok (c', s1, xs) /\
  forall k ns, 0 <= k < KB -> lookup_inside c' s1 k ns ->
  (useBinary c' = true -> In k (map rkey (accepted (vlog V))) -> In k (map rkey (retained (vlog V)))) ->
  (payload k (vpay V) <> None -> vlife_intact VB c s (es1 ++ [VEvReopen c']) s1 k) ->
  exists s', getvar_read c' s1 k ns = Ok (s', vlookup V k ns).
Proof. exact life_flush_reopen. Qed.
Print Assumptions C06_var_flush_reopen_partial.

(** The last payload of the second session, read in binary-search mode. *)
Example C06_var_flush_reopen_example : exists s s1 xs s', vlifetime eV s (map vev (lv2 ++ [VBinary])) = Ok (eVrb, s1, xs) /\
  getvar_read eVrb s1 30 [70] = Ok (s', OVGetVar 0 (Some [1; 2; 3; 4]) (Some [repeat 9 70])).
Proof.
  destruct (vlife_check_ok (lv2 ++ [VBinary]) ltac:(vm_compute; reflexivity)) as (s & Es & L).
  set (es1 := lv1 ++ map VC (vputs 4 20 20)). set (es2 := [VC (VPut 31 [1; 2; 3; 4] None); VC VFlush; VBinary]).
  assert (Sp : lv2 ++ [VBinary] = es1 ++ VC (VPut 30 [1; 2; 3; 4] (Some (repeat 9 70))) :: es2) by (vm_compute; reflexivity).
  set (es := lv1 ++ map VC (vputs 4 20 20 ++ [VPut 30 [1; 2; 3; 4] (Some (repeat 9 70)); VPut 31 [1; 2; 3; 4] None])).
  assert (Sq : lv2 ++ [VBinary] = (es ++ [VC VFlush]) ++ [VBinary]) by (vm_compute; reflexivity).
  assert (Ev : map vev (lv2 ++ [VBinary]) = (map vev es ++ [VEvOp VFlush]) ++ [VEvReopen eVrb]) by (rewrite Sq, !map_app; reflexivity).
  destruct (C06_var_flush_reopen_partial (2 ^ 31) (2 ^ 31) (2 ^ 32) eV noDisk s (map vev es) eVrb) as (s1 & xs & R & H).
  - rewrite <- Ev. exact L.
  - left. vm_compute. discriminate.
  - rewrite <- Ev in R, H.
    assert (Hi : lookup_inside eVrb s1 30 [70]) by (eapply (inside_check_ok (lv2 ++ [VBinary])); [vm_compute; reflexivity|exact Es|exact R]).
    destruct (H 30 [70]) as (s' & E); [clear; lia|exact Hi| | |].
    + intros _ _. vm_compute. tauto.
    + intros _. rewrite Sp in R |- *. eapply room_check_ok; [vm_compute; reflexivity|exact Es|exact R|vm_compute; reflexivity].
    + exists s, s1, xs, s'. split; [exact R|]. rewrite E. vm_compute. reflexivity.
Qed.

(** The same with a bitmap index: 140 records with payloads, more pages than the data area
    and one index page hold; a flush; a stop with records in the buffer; another session. *)
Definition lxv : list (option vop) := map Some (vputs 140 1 20) ++ [None] ++ map Some (vputs 6 190 30 ++ [VFlush] ++ vputs 3 200 10).
Example C06_var_index_example : exists s s1 xs s', vlifetime eVI s (map xev (lxv ++ [None])) = Ok (eVIr, s1, xs) /\
  nextI (si s1) = 2 /\
  getvar_read eVIr s1 195 [20; 20] = Ok (s', OVGetVar 0 (Some [73; 2; 0; 0]) (Some [repeat 195 20; repeat 195 10])).
Proof.
  destruct (xlife_check_ok (lxv ++ [None]) ltac:(vm_compute; reflexivity)) as (s & Es & L).
  assert (Ev : map xev (lxv ++ [None]) = map xev lxv ++ [VEvReopen eVIr]) by (rewrite map_app; reflexivity).
  set (es1 := map Some (vputs 140 1 20) ++ [None] ++ map Some (vputs 5 190 30)). set (es2 := map Some ([VFlush] ++ vputs 3 200 10) ++ [None]).
  assert (Sp : lxv ++ [None] = es1 ++ Some (VPut 195 [73; 2; 0; 0] (Some (repeat 195 30))) :: es2) by (vm_compute; reflexivity).
  destruct (C06_var_reopen_partial (2 ^ 31) (2 ^ 31) (2 ^ 32) eVI noDisk s (map xev lxv) eVIr) as (s1 & xs & R & H).
  - rewrite <- Ev. exact L.
  - rewrite <- Ev in R, H.
    assert (Hi : lookup_inside eVIr s1 195 [20; 20]) by (eapply (xinside_check_ok (lxv ++ [None])); [vm_compute; reflexivity|exact Es|exact R]).
    destruct (H 195 [20; 20]) as (s' & E); [clear; lia|exact Hi|intros U; discriminate U| |].
    + intros _. rewrite Sp in R |- *. eapply xroom_check_ok; [vm_compute; reflexivity|exact Es|exact R|vm_compute; reflexivity].
    + exists s, s1, xs, s'. split; [exact R|]. split; [|rewrite E; vm_compute; reflexivity].
      assert (N : ('(_, s1) <- xend (lxv ++ [None]) ;; Ok (nextI (si s1))) = Ok 2) by (vm_compute; reflexivity).
      rewrite (xend_ok _ _ _ _ _ Es R) in N. injection N as N. exact N.
Qed.

(** C07: when the power fails inside embedDBPutVar, after any number of its storage
    operations, in any session, the next opening succeeds and finds the data pages
    of before the put ([b = false]) or of after it; lookups then serve exactly the
    records on these pages that recovery keeps, each with its whole payload, and
    none of the records that were in the write buffer.  The lifetime continues from
    there: all theorems of this file apply to [es1].  Not covered: a crash inside
    embedDBFlush (C07_var_flush_crash_refuted), an only variable page with key 0
    (C06_var_key_zero_refuted), and on storage that really erases a put that erases
    the first block of the data area (C07_crash_after_erase_refuted). *)
Theorem C07_var_put_crash_partial :
  forall KB PB VB c dk s es k d v i c' c1 s1 xs, vlife c KB PB VB dk s es -> vlifetime c s es = Ok (c1, s1, xs) ->
  let V := snd (fst (vlife_spec c es)) in let o := VPut k d v in
  vput_ok KB PB (vlife_spec c es) o -> block0_safe c1 (zlen (pages (vlog V))) ->
  vreopen_ok c1 c' KB PB VB (zlen (pages (vlog V)) + 1) -> vcalm c1 s1 [o] -> vlife_cost c es + vcost c o + 2 * pageSize c < VB ->
  exists s2 y, vstep c1 s1 o = Ok (s2, y) /\
    (image_anchored c1 (crash_image s1 s2 i) ->
     exists b s3, let es1 := es ++ [VEvCrash o i c' b] in
       let W := vcrash_store c1 V o b in let V1 := mkVS (recovered c' (pages (vlog W))) (survivors W) in
       embedDBInit c' (disk_of_image (crash_image s1 s2 i)) [] = Ok (s3, 0) /\ vlife c KB PB VB dk s es1 /\
       forall j ns, 0 <= j < KB -> lookup_inside c' s3 j ns ->
         (useBinary c' = true -> In j (map rkey (accepted (vlog V1))) -> In j (map rkey (retained (vlog V1)))) ->
         (payload j (vpay V1) <> None -> vlife_intact VB c s es1 s3 j) ->
         exists s', getvar_read c' s3 j ns = Ok (s', vlookup V1 j ns)).
Proof. exact life_crash. Qed.
Print Assumptions C07_var_put_crash_partial.

(** A put with a payload of 120 bytes writes a variable page, erases a block of the
    data area, writes the data page and two more variable pages.  After the first of these
    operations the page of the records 40 to 43 is not found ... *)
Definition lv5 : list vcode := lv2 ++ VBinary :: map VC (VGetVar 30 [20; 60] :: vputs 4 40 20).
Definition put60 : vop := VPut 60 [1; 2; 3; 4] (Some (repeat 7 120)).
Definition crash60 (i : nat) (b : bool) : list vcode := lv5 ++ [VCrash 60 [1; 2; 3; 4] (Some (repeat 7 120)) i b].
Example C07_var_put_crash_example0 : exists s s1 xs s', vlifetime eV s (map vev (crash60 0 false)) = Ok (eVr, s1, xs) /\
  getvar_read eVr s1 43 [20] = Ok (s', OVGetVar (-1) None None).
Proof.
  destruct (vlife_check_ok (crash60 0 false) ltac:(vm_compute; reflexivity)) as (s & Es & L).
  destruct (C31_var_lifetime_defined_partial _ _ _ _ _ _ _ L) as (s1 & xs & R & _).
  rewrite (vlife_last (map vev (crash60 0 false)) eVr ltac:(reflexivity)) in R.
  destruct (end_check_ok (crash60 0 false) 43 [20] _ _ _ _ ltac:(vm_compute; reflexivity) Es R) as (Cl & Hi).
  destruct (C15_var_lifetime_lookup_partial (2 ^ 31) (2 ^ 31) (2 ^ 32) eV noDisk s (map vev (crash60 0 false)) eVr s1 xs 43 [20] L R) as (s' & E).
  - lia.
  - split; [exact Cl|intros H; exfalso; vm_compute in H; repeat (destruct H as [H|H]; [discriminate|]); exact H].
  - exact Hi.
  - intros H. exfalso. vm_compute in H. discriminate.
  - intros H. exfalso. apply H. vm_compute. reflexivity.
  - exists s, s1, xs, s'. split; [exact R|]. rewrite E. vm_compute. reflexivity.
Qed.

(** ... after four of them it is, with all its payloads, though the put had not come
    to its end; the database goes on storing records. *)
Definition lv6 : list vcode := crash60 3 true ++ map VC (vputs 2 70 20).
Example C07_var_put_crash_example : exists s c2 s2 xs2 s', vlifetime eV s (map vev lv6) = Ok (c2, s2, xs2) /\
  getvar_read c2 s2 43 [10; 20] = Ok (s', OVGetVar 0 (Some [129; 0; 0; 0]) (Some [repeat 43 10; repeat 43 10])).
Proof.
  destruct (vlife_check_ok lv6 ltac:(vm_compute; reflexivity)) as (s & Es & L).
  destruct (C31_var_lifetime_defined_partial _ _ _ _ _ _ _ L) as (s2 & xs2 & R & _).
  rewrite (vlife_last (map vev lv6) eVr ltac:(reflexivity)) in R.
  destruct (end_check_ok lv6 43 [10; 20] _ _ _ _ ltac:(vm_compute; reflexivity) Es R) as (Cl & Hi).
  set (es1 := lv2 ++ VBinary :: map VC (VGetVar 30 [20; 60] :: vputs 3 40 20)).
  set (es2 := VCrash 60 [1; 2; 3; 4] (Some (repeat 7 120)) 3 true :: map VC (vputs 2 70 20)).
  assert (Sp : lv6 = es1 ++ VC (VPut 43 [129; 0; 0; 0] (Some (repeat 43 20))) :: es2) by (vm_compute; reflexivity).
  assert (Rf : refused (vlog (snd (fst (vlife_spec eV (map vev es1))))) 43 = false) by (vm_compute; reflexivity).
  assert (It : vlife_intact (2 ^ 32) eV s (map vev lv6) s2 43).
  { rewrite Sp in R |- *. eapply room_check_ok; [vm_compute; reflexivity|exact Es|exact R|exact Rf]. }
  assert (Ev : map vev lv6 = map vev es1 ++ VEvOp (VPut 43 [129; 0; 0; 0] (Some (repeat 43 20))) :: map vev es2) by (rewrite Sp, map_app; reflexivity).
  destruct (C15_var_lifetime_round_trip_partial (2 ^ 31) (2 ^ 31) (2 ^ 32) eV noDisk s (map vev es1) 43 [129; 0; 0; 0] (repeat 43 20) (map vev es2)
    eVr s2 xs2 [10; 20]) as (s' & E).
  - rewrite <- Ev. exact L.
  - exact Rf.
  - rewrite <- Ev. exact R.
  - split; [exact Cl|intros H; exfalso; vm_compute in H; repeat (destruct H as [H|H]; [discriminate|]); exact H].
  - exact Hi.
  - rewrite <- Ev. vm_compute. tauto.
  - rewrite <- Ev. exact It.
  - exists s, eVr, s2, xs2, s'. split; [exact R|exact E].
Qed.

(** The hypotheses of C07_var_put_crash_partial hold there. *)
Example C07_var_put_crash_meets : exists s s1 xs, vlife eV (2 ^ 31) (2 ^ 31) (2 ^ 32) noDisk s (map vev lv5) /\
  vlifetime eV s (map vev lv5) = Ok (eVrb, s1, xs) /\ vput_ok (2 ^ 31) (2 ^ 31) (vlife_spec eV (map vev lv5)) put60 /\
  block0_safe eVrb (zlen (pages (vlog (snd (fst (vlife_spec eV (map vev lv5))))))) /\
  vreopen_ok eVrb eVr (2 ^ 31) (2 ^ 31) (2 ^ 32) (zlen (pages (vlog (snd (fst (vlife_spec eV (map vev lv5)))))) + 1) /\
  vcalm eVrb s1 [put60] /\ vlife_cost eV (map vev lv5) + vcost eV put60 + 2 * pageSize eV < 2 ^ 32.
Proof.
  destruct (vlife_check_ok (crash60 3 true) ltac:(vm_compute; reflexivity)) as (s & Es & L').
  assert (Ev : map vev (crash60 3 true) = map vev lv5 ++ [VEvCrash put60 3 eVr true]) by (unfold crash60; rewrite map_app; reflexivity).
  destruct (vlife_check_ok lv5 ltac:(vm_compute; reflexivity)) as (s0 & Es0 & L). rewrite Es in Es0. injection Es0 as <-.
  destruct (C31_var_lifetime_defined_partial _ _ _ _ _ _ _ L) as (s1 & xs & R & _).
  rewrite (vlife_last (map vev lv5) eVrb ltac:(reflexivity)) in R.
  exists s, s1, xs. split; [exact L|]. split; [exact R|].
  pose proof (vl_ops _ _ _ _ _ _ _ L') as Ho. rewrite Ev in Ho. apply vlife_ok_app in Ho as [_ [Ho _]].
  destruct (crash_parts _ _ _ _ _ _ _ _ eVrb Ho (vlife_last (map vev lv5) eVrb ltac:(reflexivity))) as (Po & Bs & Rk).
  pose proof (vl_calm _ _ _ _ _ _ _ L') as Ca. rewrite Ev in Ca. destruct (vlife_calm_app _ _ _ _ _ _ _ Ca R) as [_ [[Cm _] _]].
  split; [exact Po|]. split; [exact Bs|]. split; [exact Rk|]. split; [exact Cm|]. vm_compute. reflexivity.
Qed.

(** Properties C15 and C19 for record-level consistency together with variable
    data. *)
From Verif Require Import Base Config Spline Storage DB VarData Recovery Spec Util SpecPage SpecStore Run SpecRun SpecReopen
  SpecVar SpecRlc SpecRlcVar ExVar ExRlc ExRlcVar RlcVarThms.
Open Scope Z_scope.

(** C19: every lifetime of puts with and without variable data, flushes, lookups,
    stops and crashes (at any storage operation of an operation) runs through, with
    every opening succeeding (also after openings that were cut off), and behaves as the store of [wlife]: a stop loses
    nothing; a crash inside an operation leaves the store before or after it, or,
    for a put, the sealed page without the record, or the record without its
    payload.  Afterwards every lookup of a key whose record was not cut off from its
    payload delivers the record and payload of that store, as long as the payload
    was not overwritten.  Not covered: key 0 with data, bitmaps and index, binary
    search. *)
Theorem C19_var_lifetime_partial c KB PB VB k s es :
  wcreated c KB PB VB k s -> wok c KB PB VB es -> wquiet c s es ->
  exists c1 s1 xs U, wlifetime c s es = Ok (c1, s1, xs) /\
    wlife (maxRec c) (numData c) (eraseSize c) emptyW es xs U /\
    forall j ns, 0 <= j < KB -> ~ In j (wtorn U) -> var_fresh s1 -> lookup_inside c1 s1 j ns ->
      (payload j (wpay U) <> None -> wintact VB c s es s1 j) ->
      exists s2, getvar_read c1 s1 j ns = Ok (s2, vlookup (mkVS (wlog U) (wpay U)) j ns).
Proof. exact (wlifetime_ok c KB PB VB k s es). Qed.
Print Assumptions C19_var_lifetime_partial.

(** Five puts, a crash inside the sixth after which its payload is missing, a
    restart, puts, a flush, a crash inside a put of which nothing remains, lookups. *)
Definition wlife1 : list wcode :=
  map XOp (vputs 5 1 10) ++ [XCrash (VPut 6 (le_enc 4 18) (Some (repeat 6 10))) 1 [0%nat; 1%nat]; XOp (VPut 7 (le_enc 4 21) None); XStop []] ++
  map XOp (vputs 3 8 10) ++ [XOp VFlush; XCrash (VPut 11 (le_enc 4 33) None) 1 [2%nat]; XOp (VGet 6); XOp (VGet 10); XOp (VGet 11); XOp (VGetVar 9 [4; 100])].
Example C19_var_lifetime_example : exists s c1 s1 xs U, wcreated eW (2 ^ 31) (2 ^ 31) (2 ^ 32) noDisk s /\
  wlifetime eW s (map (wev_of eWr) wlife1) = Ok (c1, s1, xs) /\
  wlife (maxRec eW) (numData eW) (eraseSize eW) emptyW (map (wev_of eWr) wlife1) xs U /\
  skipn (length xs - 4) xs =
    [Some (OVGet 0 (Some (le_enc 4 18))); Some (OVGet 0 (Some (le_enc 4 30))); Some (OVGet (-1) None);
     Some (OVGetVar 0 (Some (le_enc 4 27)) (Some [repeat 9 4; repeat 9 6]))].
Proof.
  destruct eW_created as (s & C). destruct (eW_ok wlife1 s C ltac:(vm_compute; reflexivity)) as [O Q].
  destruct (C19_var_lifetime_partial _ _ _ _ _ _ _ C O Q) as (c1 & s1 & xs & U & E & Lf & _).
  exists s, c1, s1, xs, U. split; [exact C|]. split; [exact E|]. split; [exact Lf|]. destruct C as (_ & _ & _ & C).
  assert (K : match wafter eW (map (wev_of eWr) wlife1) with Ok (_, _, xs) => skipn (length xs - 4) xs | _ => [] end =
    [Some (OVGet 0 (Some (le_enc 4 18))); Some (OVGet 0 (Some (le_enc 4 30))); Some (OVGet (-1) None);
     Some (OVGetVar 0 (Some (le_enc 4 27)) (Some [repeat 9 4; repeat 9 6]))])
    by (vm_compute; reflexivity).
  rewrite (wafter_eq eW s _ C), E in K. exact K.
Qed.

(** C15 and C19: a put that returned has stored record and payload for good.
    Whatever stops and crashes follow, the record is in the store, and looking it up
    delivers exactly its bytes, unless its page was reused for newer records. *)
Theorem C19_var_payload_survives_partial c KB PB VB k s es :
  wcreated c KB PB VB k s -> wok c KB PB VB es -> wquiet c s es ->
  exists c1 s1 xs U, wlifetime c s es = Ok (c1, s1, xs) /\
    wlife (maxRec c) (numData c) (eraseSize c) emptyW es xs U /\
    forall j d v, In (WOp (VPut j d v)) es ->
      In (mkR j d 0) (accepted (wlog U)) /\
      forall ns, var_fresh s1 -> lookup_inside c1 s1 j ns -> (v <> None -> wintact VB c s es s1 j) ->
        exists s2 x, getvar_read c1 s1 j ns = Ok (s2, x) /\
          (x = OVGetVar 0 (Some d) (option_map (fun b => pieces b ns) v) \/
           x = OVGetVar (-1) None None /\ find_key j (retained (wlog U)) = None).
Proof. exact (wlifetime_payload c KB PB VB k s es). Qed.
Print Assumptions C19_var_payload_survives_partial.

(** The record that only the write buffer and the temporary pages held when power
    failed, twice, inside later puts. *)
Definition wlife2a : list wcode := map XOp (vputs 5 1 10).
Definition wlife2b : list wcode :=
  [XCrash (VPut 7 (le_enc 4 21) (Some (repeat 7 10))) 1 [0%nat]; XOp (VPut 8 (le_enc 4 24) None); XCrash (VPut 9 (le_enc 4 27) (Some (repeat 9 60))) 3 [1%nat]].
Example C19_var_payload_survives_example : exists s c1 s1 xs s2, wcreated eW (2 ^ 31) (2 ^ 31) (2 ^ 32) noDisk s /\
  wlifetime eW s (map (wev_of eWr) (wlife2a ++ XOp (VPut 6 (le_enc 4 18) (Some (repeat 6 10))) :: wlife2b)) = Ok (c1, s1, xs) /\
  getvar_read c1 s1 6 [4; 100] = Ok (s2, OVGetVar 0 (Some (le_enc 4 18)) (Some [repeat 6 4; repeat 6 6])).
Proof.
  destruct eW_created as (s & C).
  destruct (eW_ok (wlife2a ++ XOp (VPut 6 (le_enc 4 18) (Some (repeat 6 10))) :: wlife2b) s C ltac:(vm_compute; reflexivity)) as [O Q].
  destruct (C19_var_payload_survives_partial _ _ _ _ _ _ _ C O Q) as (c1 & s1 & xs & U & E & _ & Sv).
  destruct (Sv 6 (le_enc 4 18) (Some (repeat 6 10))) as [_ Sv2].
  { rewrite map_app. apply in_or_app. right. left. reflexivity. }
  pose proof C as (_ & _ & _ & C'). pose proof E as E'. rewrite map_app in E'. cbn [map wev_of] in E'.
  destruct (wready_ok eW (2 ^ 32) s (map (wev_of eWr) wlife2a) (WOp (VPut 6 (le_enc 4 18) (Some (repeat 6 10)))) (map (wev_of eWr) wlife2b) 6 [4; 100] _ _ got0 c1 s1 xs C' eq_refl
              ltac:(vm_compute; reflexivity) E') as (Fr & Li & Wi & Gt).
  destruct (Sv2 [4; 100] Fr Li) as (s2 & x & Ex & Hx).
  { intros _. rewrite map_app. cbn [map wev_of]. exact Wi. }
  exists s, c1, s1, xs, s2. split; [exact C|]. split; [exact E|].
  destruct Hx as [->|[-> _]]; [exact Ex|]. specialize (Gt s2 _ Ex). discriminate Gt.
Qed.

(** Theorems about variable-length data (properties C15, C16, C17, C18 and the
    variable-data part of C31).

    [vscenario c KB PB VB h] (SpecVar.v) states which databases and histories are
    covered: a reset database with variable data and without record-level
    consistency, at most 127 records per page, at least two erase blocks of
    variable pages, less than [VB] bytes of variable storage used; when erasing
    destroys a block ([eraseFill <> None]) the variable area must not fill up
    (C16_destructive_erase_refuted).  A history consists of puts with or without
    variable data, flushes, gets and stream lookups of records that are not in the
    write buffer.  [vreached c dk h s]: [s] is the state after a calm execution of
    [h] over storage [dk].  In [s] the lookup under consideration happens; it may
    be of any record, buffered ones included.

    [var_clean]: the variable read buffer holds what storage holds at its page
    (C15_stale_cache_refuted); [lookup_inside]: no read but the last starts exactly
    at a page boundary (C17_page_end_refuted). *)
From Verif Require Import Base Config Storage DB VarData Recovery Spec SpecPage SpecStore Run SpecRun SpecVar VarThms ExFacts ExVar.
Open Scope Z_scope.

(** C31: no calm history of puts with variable data, flushes, gets and stream
    lookups reaches undefined behaviour; puts and flushes return what they should,
    and gets return exactly the retained records. *)
Theorem C31_var_history_defined_partial :
  forall KB PB VB c dk h s0, vscenario c KB PB VB h -> embedDBInit c dk [] = Ok (s0, 0) -> vcalm c s0 h ->
  exists s xs, vrun c s0 h = Ok (s, xs) /\ vouts_ok c emptyVS h xs.
Proof. exact (fun KB PB VB c dk h s0 => var_run_ok c KB PB VB h dk s0). Qed.
Print Assumptions C31_var_history_defined_partial.

(** 15 payloads of 50 bytes, more than the area holds, and a lookup. *)
Definition hv : list vop := vputs 15 1 50 ++ [VGetVar 12 [100]].
(** Then a payload of three pages, a record without data, a lookup and a flush. *)
Definition hv2 : list vop :=
  hv ++ [VPut 40 [1; 2; 3; 4] (Some (repeat 9 120)); VPut 41 [1; 2; 3; 4] None; VGetVar 13 [100]; VFlush].
Example C31_var_example : vscenario eV (2 ^ 31) (2 ^ 31) (2 ^ 32) hv2 /\
  exists s0, embedDBInit eV noDisk [] = Ok (s0, 0) /\ vcalm eV s0 hv2.
Proof.
  split; [vscen|]. destruct (embedDBInit eV noDisk []) as [[s0 r]| |] eqn:E; [|exfalso; vm_compute in E; discriminate ..].
  assert (K : match embedDBInit eV noDisk [] with Ok (s, r) => (r =? 0) && vcalmb eV s hv2 | _ => false end = true) by (vm_compute; reflexivity).
  rewrite E in K. apply andb_prop in K as [K1 K2]. apply Z.eqb_eq in K1. subst r. exists s0. split; [auto|now apply vcalmb_ok].
Qed.

(** C15: the payload of an accepted record comes back whole, however it lies over
    pages, as long as the record is retained and the payload has not been
    overwritten. *)
Theorem C15_var_round_trip_partial :
  forall KB PB VB c dk h1 k d b h2 s ns, let h := h1 ++ VPut k d (Some b) :: h2 in
  vscenario c KB PB VB h -> vreached c dk h s -> var_clean c s -> lookup_inside c s k ns ->
  refused (vlog (vstore_of c h1)) k = false -> In k (map rkey (retained (vlog (vstore_of c h)))) ->
  var_intact c VB dk h s k ->
  exists s', getvar_read c s k ns = Ok (s', OVGetVar 0 (Some d) (Some (pieces b ns))).
Proof. exact (fun KB PB VB c dk h1 k d b h2 s ns Sc Re Cl Hi Rf Hr Hv => c15_stored KB PB VB c dk h1 k d (Some b) h2 s ns Sc Re Cl Hi Rf Hr (fun _ => Hv)). Qed.
Print Assumptions C15_var_round_trip_partial.

(** The payload of three pages, read in unequal pieces. *)
Example C15_example : exists s s', vreached eV noDisk hv2 s /\
  getvar_read eV s 40 [70; 30; 0; 40; 5] =
    Ok (s', OVGetVar 0 (Some [1; 2; 3; 4]) (Some [repeat 9 70; repeat 9 30; []; repeat 9 20; []])).
Proof.
  destruct (ready_ok eV hv2 40 [70; 30; 0; 40; 5] ltac:(vm_compute; reflexivity)) as (s & Re & Cl & Hi). exists s.
  destruct (C15_var_round_trip_partial (2 ^ 31) (2 ^ 31) (2 ^ 32) eV noDisk hv 40 [1; 2; 3; 4] (repeat 9 120)
    [VPut 41 [1; 2; 3; 4] None; VGetVar 13 [100]; VFlush] s [70; 30; 0; 40; 5]) as (s' & E).
  - vscen.
  - exact Re.
  - exact Cl.
  - exact Hi.
  - vm_compute. reflexivity.
  - vm_compute. tauto.
  - apply capb_ok; [vm_compute; reflexivity|vm_compute; reflexivity|exact Re].
  - exists s'. split; [exact Re|]. rewrite E. reflexivity.
Qed.

(** C15 and C02 for stream lookups of arbitrary keys: the return value, the data
    and the stream are those of the abstract store; unknown keys give -1. *)
Theorem C15_lookup_decides_partial :
  forall KB PB VB c dk h s k ns, vscenario c KB PB VB h -> vreached c dk h s -> 0 <= k < KB ->
  var_clean c s -> lookup_inside c s k ns ->
  (useBinary c = true -> In k (map rkey (accepted (vlog (vstore_of c h)))) ->
     In k (map rkey (retained (vlog (vstore_of c h))))) ->
  (payload k (vpay (vstore_of c h)) <> None -> var_intact c VB dk h s k) ->
  exists s', getvar_read c s k ns = Ok (s', vlookup (vstore_of c h) k ns).
Proof. exact (fun KB PB VB c dk h s k ns => var_lookup c KB PB VB h dk s k ns). Qed.
Print Assumptions C15_lookup_decides_partial.

(** An absent key, in binary-search mode. *)
Example C15_lookup_example : exists s s', vreached eVb noDisk hv2 s /\
  getvar_read eVb s 39 [10] = Ok (s', OVGetVar (-1) None None).
Proof.
  destruct (ready_ok eVb hv2 39 [10] ltac:(vm_compute; reflexivity)) as (s & Re & Cl & Hi). exists s.
  destruct (C15_lookup_decides_partial (2 ^ 31) (2 ^ 31) (2 ^ 32) eVb noDisk hv2 s 39 [10]) as (s' & E).
  - vscen.
  - exact Re.
  - lia.
  - exact Cl.
  - exact Hi.
  - intros _ H. exfalso. vm_compute in H. repeat (destruct H as [H|H]; [discriminate|]). exact H.
  - intros H. exfalso. apply H. vm_compute. reflexivity.
  - exists s'. split; [exact Re|]. rewrite E. reflexivity.
Qed.

(** C16: when every put carries variable data, a lookup delivers the payload whole
    or reports it as overwritten, never anything else.  It reports it once the
    area has been rewritten since ([s1] is the state before the put), and delivers
    it as long as it is intact. *)
Theorem C16_overwritten_reported_partial :
  forall KB PB VB c dk h1 k d b h2 s1 s ns, let h := h1 ++ VPut k d (Some b) :: h2 in
  vscenario c KB PB VB h -> vreached c dk h1 s1 -> vreached c dk h s ->
  var_clean c s -> lookup_inside c s k ns -> all_data c emptyVS h ->
  (forall r, In r (accepted (vlog (vstore_of c h))) -> rkey r + 1 < KB) ->
  refused (vlog (vstore_of c h1)) k = false -> In k (map rkey (retained (vlog (vstore_of c h)))) ->
  exists s' x, getvar_read c s k ns = Ok (s', x) /\
    (x = OVGetVar 0 (Some d) (Some (pieces b ns)) \/ x = OVGetVar 1 (Some d) None) /\
    (nextV (sv s1) + 1 + numVar c < nextV (sv s) -> x = OVGetVar 1 (Some d) None) /\
    (var_intact c VB dk h s k -> x = OVGetVar 0 (Some d) (Some (pieces b ns))).
Proof. exact c16_report. Qed.
Print Assumptions C16_overwritten_reported_partial.

(** Key 1 is still in the data area but its payload is gone. *)
Example C16_example : exists s s', vreached eV noDisk hv s /\
  getvar_read eV s 1 [100] = Ok (s', OVGetVar 1 (Some [3; 0; 0; 0]) None).
Proof.
  destruct (ready_ok eV hv 1 [100] ltac:(vm_compute; reflexivity)) as (s & Re & Cl & Hi). exists s.
  destruct (vgo eV []) as [s1|] eqn:E1; [|exfalso; vm_compute in E1; discriminate].
  destruct (C16_overwritten_reported_partial (2 ^ 31) (2 ^ 31) (2 ^ 32) eV noDisk [] 1 [3; 0; 0; 0] (repeat 1 50)
    (vputs 14 2 50 ++ [VGetVar 12 [100]]) s1 s [100]) as (s' & x & E & _ & Far & _).
  - vscen.
  - apply vgo_ok. exact E1.
  - exact Re.
  - exact Cl.
  - exact Hi.
  - vm_compute. repeat split; discriminate.
  - assert (F : forallb (fun r => rkey r + 1 <? 2 ^ 31) (accepted (vlog (vstore_of eV hv))) = true) by (vm_compute; reflexivity).
    rewrite forallb_forall in F. intros r Hr. apply Z.ltb_lt, F. exact Hr.
  - reflexivity.
  - vm_compute. tauto.
  - exists s'. split; [exact Re|]. rewrite E, Far; [reflexivity|].
    assert (G : match vgo eV [], vgo eV hv with Some s1, Some s => nextV (sv s1) + 1 + numVar eV <? nextV (sv s) | _, _ => false end = true) by (vm_compute; reflexivity).
    destruct (vgo eV hv) as [s2|] eqn:E2; [|rewrite E1 in G; discriminate]. rewrite E1 in G.
    rewrite (vreached_fun _ _ _ _ _ Re (vgo_ok _ _ _ E2)). now apply Z.ltb_lt.
Qed.

(** C17: the pieces read are consecutive and make up the payload, after which
    nothing more comes. *)
Theorem C17_stream_reads_compose_partial :
  forall KB PB VB c dk h1 k d b h2 s ns, let h := h1 ++ VPut k d (Some b) :: h2 in
  vscenario c KB PB VB h -> vreached c dk h s -> var_clean c s -> lookup_inside c s k ns ->
  refused (vlog (vstore_of c h1)) k = false -> In k (map rkey (retained (vlog (vstore_of c h)))) ->
  var_intact c VB dk h s k -> Forall (fun n => 0 <= n) ns ->
  exists s' xs, getvar_read c s k ns = Ok (s', OVGetVar 0 (Some d) (Some xs)) /\
    Forall2 (fun x n => zlen x <= n) xs ns /\
    concat xs = firstn (Z.to_nat (fold_right Z.add 0 ns)) b /\
    (zlen b <= fold_right Z.add 0 ns -> concat xs = b).
Proof. exact c17_reads. Qed.
Print Assumptions C17_stream_reads_compose_partial.

(** A payload with distinct bytes over two pages, still in the write buffer, on
    storage whose erases destroy. *)
Definition bytes70 : list Z := map Z.of_nat (seq 1 70).
Example C17_example : exists s s' xs, vreached eVe noDisk [VPut 7 [1; 2; 3; 4] (Some bytes70)] s /\
  getvar_read eVe s 7 [20; 20; 20; 20] = Ok (s', OVGetVar 0 (Some [1; 2; 3; 4]) (Some xs)) /\ concat xs = bytes70.
Proof.
  destruct (ready_ok eVe [VPut 7 [1; 2; 3; 4] (Some bytes70)] 7 [20; 20; 20; 20] ltac:(vm_compute; reflexivity)) as (s & Re & Cl & Hi). exists s.
  destruct (C17_stream_reads_compose_partial (2 ^ 31) (2 ^ 31) 512 eVe noDisk [] 7 [1; 2; 3; 4] bytes70 [] s [20; 20; 20; 20])
    as (s' & xs & E & _ & _ & All).
  - vscen.
  - exact Re.
  - exact Cl.
  - exact Hi.
  - reflexivity.
  - vm_compute. tauto.
  - left. vm_compute. discriminate.
  - repeat constructor; lia.
  - exists s', xs. split; [exact Re|]. split; [exact E|]. apply All. vm_compute. discriminate.
Qed.

(** C18: a record put with NULL variable data is read without a stream (for
    embedDBPut see C18_sticky_flag_refuted), whatever the other records carry; by
    C15 a record put with variable data has one while it is intact. *)
Theorem C18_no_data_no_stream_partial :
  forall KB PB VB c dk h1 k d h2 s ns, let h := h1 ++ VPut k d None :: h2 in
  vscenario c KB PB VB h -> vreached c dk h s -> var_clean c s -> lookup_inside c s k ns ->
  refused (vlog (vstore_of c h1)) k = false -> In k (map rkey (retained (vlog (vstore_of c h)))) ->
  exists s', getvar_read c s k ns = Ok (s', OVGetVar 0 (Some d) None).
Proof. exact (fun KB PB VB c dk h1 k d h2 s ns Sc Re Cl Hi Rf Hr => c15_stored KB PB VB c dk h1 k d None h2 s ns Sc Re Cl Hi Rf Hr (fun H => match H eq_refl with end)). Qed.
Print Assumptions C18_no_data_no_stream_partial.

Example C18_example : exists s s', vreached eV noDisk hv2 s /\
  getvar_read eV s 41 [10] = Ok (s', OVGetVar 0 (Some [1; 2; 3; 4]) None).
Proof.
  destruct (ready_ok eV hv2 41 [10] ltac:(vm_compute; reflexivity)) as (s & Re & Cl & Hi). exists s.
  destruct (C18_no_data_no_stream_partial (2 ^ 31) (2 ^ 31) (2 ^ 32) eV noDisk (hv ++ [VPut 40 [1; 2; 3; 4] (Some (repeat 9 120))]) 41 [1; 2; 3; 4]
    [VGetVar 13 [100]; VFlush] s [10]) as (s' & E).
  - vscen.
  - exact Re.
  - exact Cl.
  - exact Hi.
  - vm_compute. reflexivity.
  - vm_compute. tauto.
  - exists s'. split; [exact Re|exact E].
Qed.

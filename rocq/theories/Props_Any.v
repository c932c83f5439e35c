(** Memory safety on storage with any contents and any storage faults (property C42).

    [workable c] (SpecAny.v): the page layout has no overlaps and no divisor is zero.
    [disk_sized c k]: the files consist of whole pages; their bytes are arbitrary.
    [buffers_fit c s]: every buffer and every stored page has the size of a page.
    [counts_fit c s]: the write buffers claim no more entries than fit.
    [claims p]: the number of entries in the header of page [p]. *)
From Verif Require Import Base Config Spline Storage DB VarData Recovery Util Spec SpecPage Run SpecFlash SpecTerm SpecAny AnyFacts ExFacts.
Open Scope Z_scope.

(** C42: embedDBInit returns 0 or -1 whatever the files hold and whichever storage calls fail,
    with every combination of parameters; after 0 the buffers are sound and the write buffers
    are empty (without record-level consistency). *)
Theorem C42_opening_any_contents : forall c k fs, workable c -> disk_sized c k ->
  exists s r, embedDBInit c k fs = Ok (s, r) /\ (r = 0 \/ r = -1) /\
  (r = 0 -> buffers_fit c s /\ (useRLC c = false -> counts_fit c s) /\
            (useIndex c = true -> claims (iwbuf (si s)) = 0)).
Proof. exact opening_any. Qed.
Print Assumptions C42_opening_any_contents.

(** C42: one put, put with variable data or flush, in every such state. *)
Theorem C42_writing_any_contents : forall c s o,
  workable c -> (useBinary c = true -> noClean c = true) ->
  buffers_fit c s -> counts_fit c s -> write_ok c s o ->
  exists s', call_step c s o = Ok s' /\ buffers_fit c s' /\ counts_fit c s'.
Proof. exact writing_any. Qed.
Print Assumptions C42_writing_any_contents.

(** C42: any sequence of them (with flushes if there is no index, see C31_flush_full_index_refuted). *)
Theorem C42_writes_any_contents : forall c os,
  workable c -> (useBinary c = true -> noClean c = true) ->
  forall s, buffers_fit c s -> counts_fit c s ->
  Forall (fun o => write_ok c s o /\ (o = CFlush -> useIndex c = false)) os ->
  exists s', calls c s os = Ok s' /\ buffers_fit c s' /\ counts_fit c s'.
Proof. exact writes_any. Qed.
Print Assumptions C42_writes_any_contents.

(** C42, lookups and scans: only if every stored page claims between one record and as many as
    fit (Refuted_Any.v: the claims are not checked), and, for a lookup, the index finds a place. *)
Theorem C42_get_any_contents_partial : forall c s key,
  workable c -> buffers_fit c s -> pages_sane c s -> 0 <= claims (wbuf (sd s)) <= maxRec c ->
  lookup_defined c s key -> embedDBGet c s key <> UB.
Proof. exact get_any. Qed.
Print Assumptions C42_get_any_contents_partial.
Theorem C42_next_any_contents_partial : forall c s it,
  workable c -> buffers_fit c s -> pages_sane c s -> 0 <= claims (wbuf (sd s)) <= maxRec c ->
  0 <= itRec it -> (itBM it <> None -> useIndex c = true) -> embedDBNext c s it <> UB.
Proof. exact next_any. Qed.
Print Assumptions C42_next_any_contents_partial.

(** C42: reading from any stream, whatever lengths and offsets it holds. *)
Theorem C42_stream_any_contents : forall c s t n,
  workable c -> useVar c = true -> buffers_fit c s -> 0 <= n ->
  exists s' t' o, embedDBVarDataStreamRead c s t n = Ok (s', t', o) /\ buffers_fit c s'.
Proof. exact stream_any. Qed.
Print Assumptions C42_stream_any_contents.

(** A configuration with everything but record-level consistency; pages with plausible page
    numbers and otherwise accidental bytes; some storage calls fail. *)
Definition cN : cfg := ex_cfg 128 (1 + 2 + 8 + 16) 8 2 8 1 (Some 255) None.
Definition noise (n : Z) : page :=
  le_enc 4 (n + 16) ++ [Z.abs (3 - n); 0] ++ map (fun i => (Z.of_nat i * Z.of_nat i * 37 + n * 101 + 11) mod 256) (seq 0 122).
Definition kN : disk := mkDisk (Some (mkFile 7 noise)) (Some (mkFile 5 noise)) (Some (mkFile 8 noise)).
Definition fN : list bool := repeat false 14 ++ [true; false; true] ++ repeat false 20 ++ [true].
Lemma cN_workable : workable cN.
Proof.
  constructor; [|reflexivity|num|num|intros _; num|intros _; num].
  constructor; [num|num|num|reflexivity|num|num|num|intros _; num|intros _; num| |num|num|right; num].
  intros _ d b _ Hb. cbn [cN ex_cfg updBM]. now rewrite ex_upd_length.
Qed.
Lemma kN_sized : disk_sized cN kN.
Proof.
  intros f [E|[E|E]]; injection E as <-; apply file_sized_check; vm_compute; reflexivity.
Qed.
Definition opsN : list call :=
  map (fun i => CPutVar (Z.of_nat i + 2000000000) (le_enc 4 7) (Some [1; 2; 3; 4; 5])) (seq 0 40) ++
  map (fun i => CPut (Z.of_nat i + 2000000100) (le_enc 4 9)) (seq 0 40).
Definition tN : stream := mkStream 4000000000 17 4294967000.
Example C42_opening_example : exists s s',
  embedDBInit cN kN fN = Ok (s, 0) /\ nextD (sd s) = 23 /\ minD (sd s) = 16 /\
  calls cN s opsN = Ok s' /\ buffers_fit cN s' /\ counts_fit cN s' /\
  nextD (sd s') = 32 /\ faults (sio s') = [] /\
  (exists s'' t o, embedDBVarDataStreamRead cN s' tN 200 = Ok (s'', t, o)).
Proof.
  destruct (C42_opening_any_contents cN kN fN cN_workable kN_sized) as (s & r & E & _ & H).
  assert (X : ('(s, r) <- embedDBInit cN kN fN ;; Ok (r, nextD (sd s), minD (sd s))) = Ok (0, 23, 16)) by (vm_compute; reflexivity).
  rewrite E in X. cbn [bind] in X. injection X as -> X1 X2. destruct (H eq_refl) as (F & C & _). specialize (C eq_refl).
  destruct (C42_writes_any_contents cN opsN cN_workable ltac:(discriminate) s F C) as (s' & E' & F' & C').
  { apply Forall_app. split; apply Forall_map, Forall_forall; intros i _; (split; [|discriminate]); cbn [write_ok].
    - split; [reflexivity|]. intros _. exists (2 ^ 25). reflexivity.
    - reflexivity. }
  assert (Y : ('(s, r) <- embedDBInit cN kN fN ;; s' <- calls cN s opsN ;; Ok (nextD (sd s'), faults (sio s'))) = Ok (32, []))
    by (vm_compute; reflexivity).
  rewrite E in Y. cbn [bind] in Y. rewrite E' in Y. cbn [bind] in Y. injection Y as Y1 Y2.
  exists s, s'. do 8 (split; [assumption|]).
  destruct (C42_stream_any_contents cN s' tN 200 cN_workable eq_refl F') as (s'' & t & o & Es & _); [lia|]. eauto.
Qed.

(** The same with record-level consistency, if the page restored into the write buffer
    claims no more records than fit ([counts_fit], see C42_rlc_put_refuted). *)
Definition cNr : cfg := ex_cfg 128 (1 + 2 + 8 + 16 + 64) 8 2 8 1 (Some 255) None.
Lemma cNr_workable : workable cNr.
Proof.
  constructor; [|reflexivity|num|num|intros _; num|intros _; num].
  constructor; [num|num|num|reflexivity|num|num|num|intros _; num|intros _; num| |num|num|right; num].
  intros _ d b _ Hb. cbn [cNr ex_cfg updBM]. now rewrite ex_upd_length.
Qed.
Definition noiseR (n : Z) : page :=
  le_enc 4 (if n <? 5 then n + 16 else if n =? 5 then 3 else 21) ++ [Z.abs (3 - n); 0] ++
  map (fun i => (Z.of_nat i * Z.of_nat i * 37 + n * 101 + 11) mod 256) (seq 0 122).
Definition kNr : disk := mkDisk (Some (mkFile 8 noiseR)) (Some (mkFile 5 noise)) (Some (mkFile 8 noise)).
Definition fNr : list bool := repeat false 40 ++ [true; false; true] ++ repeat false 20 ++ [true].
Example C42_rlc_writing_example : exists s s',
  embedDBInit cNr kNr fNr = Ok (s, 0) /\ claims (wbuf (sd s)) = 4 /\ faults (sio s') = [] /\
  calls cNr s opsN = Ok s' /\ buffers_fit cNr s' /\ counts_fit cNr s' /\ nextD (sd s) + 8 < nextD (sd s').
Proof.
  destruct (C42_opening_any_contents cNr kNr fNr cNr_workable) as (s & r & E & _ & H).
  { intros f [Ef|[Ef|Ef]]; injection Ef as <-; apply file_sized_check; vm_compute; reflexivity. }
  assert (X : ('(s, r) <- embedDBInit cNr kNr fNr ;; Ok (r, claims (wbuf (sd s)))) = Ok (0, 4)) by (vm_compute; reflexivity).
  rewrite E in X. cbn [bind] in X. injection X as -> X.
  destruct (H eq_refl) as (F & _ & Ci).
  assert (C : counts_fit cNr s).
  { constructor; [rewrite X; split; apply Z.leb_le; vm_compute; reflexivity|]. intros U. rewrite (Ci U). split; [apply Z.leb_le|apply Z.leb_le]; vm_compute; reflexivity. }
  destruct (C42_writes_any_contents cNr opsN cNr_workable ltac:(discriminate) s F C) as (s' & E' & F' & C').
  { apply Forall_app. split; apply Forall_map, Forall_forall; intros i _; (split; [|discriminate]); cbn [write_ok].
    - split; [reflexivity|]. intros _. exists (2 ^ 25). reflexivity.
    - reflexivity. }
  assert (Y : ('(s, r) <- embedDBInit cNr kNr fNr ;; s' <- calls cNr s opsN ;; Ok (nextD (sd s) + 8 <? nextD (sd s'), faults (sio s'))) = Ok (true, []))
    by (vm_compute; reflexivity).
  rewrite E in Y. cbn [bind] in Y. rewrite E' in Y. cbn [bind] in Y. injection Y as Y Y2. apply Z.ltb_lt in Y.
  exists s, s'. auto 9.
Qed.

(** The same noise with claims of 1 to 5 records: lookups and scans over accidental keys, with a
    bitmap, from the middle of a page, with failing reads to come. *)
Definition noise2 (n : Z) : page :=
  le_enc 4 (n + 16) ++ [Z.abs (3 - n) + 1; 0] ++ map (fun i => (Z.of_nat i * Z.of_nat i * 37 + n * 101 + 11) mod 256) (seq 0 122).
Definition kN2 : disk := mkDisk (Some (mkFile 7 noise2)) (Some (mkFile 5 noise2)) (Some (mkFile 8 noise2)).
Definition fN2 : list bool := repeat false 50 ++ [true; false; true].
Definition itN : iter := mkIt 17 2 (Some 5) None (Some (le_enc 4 1)) None (Some (repeat 255 8)).
Example C42_reading_example : exists s, embedDBInit cN kN2 fN2 = Ok (s, 0) /\
  pages_sane cN s /\ nextD (sd s) = 23 /\
  embedDBGet cN s 1000000 <> UB /\ embedDBGet cN s 2088533116 <> UB /\ embedDBNext cN s itN <> UB.
Proof.
  assert (K : disk_sized cN kN2).
  { intros f [E|[E|E]]; injection E as <-; apply file_sized_check; vm_compute; reflexivity. }
  destruct (C42_opening_any_contents cN kN2 fN2 cN_workable K) as (s & r & E & _ & H).
  set (fd := fun s key => match spl (sd s) with Some sp => match spl_find (cmpK cN) sp key with UB => false | _ => true end | None => true end).
  assert (X : ('(s, r) <- embedDBInit cN kN2 fN2 ;; Ok (r, nextD (sd s), pages_saneb cN s, fd s 1000000, fd s 2088533116))
    = Ok (0, 23, true, true, true)) by (vm_compute; reflexivity).
  rewrite E in X. cbn [bind] in X. injection X as -> X1 X2 X3 X4. destruct (H eq_refl) as (F & C & _).
  specialize (C eq_refl). apply pages_sane_check in X2.
  assert (LD : forall key, fd s key = true -> lookup_defined cN s key).
  { intros key. unfold fd, lookup_defined. change (useBinary cN) with false. cbv iota. intros Q sp S. rewrite S in Q.
    intros U. rewrite U in Q. discriminate Q. }
  exists s. do 3 (split; [assumption|]).
  split; [|split].
  - apply (C42_get_any_contents_partial cN s _ cN_workable F X2 (cf_w _ _ C) (LD _ X3)).
  - apply (C42_get_any_contents_partial cN s _ cN_workable F X2 (cf_w _ _ C) (LD _ X4)).
  - apply (C42_next_any_contents_partial cN s itN cN_workable F X2 (cf_w _ _ C)); [cbn; lia|reflexivity].
Qed.

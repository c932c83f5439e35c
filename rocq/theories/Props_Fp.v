(** Theorems about the floating-point computations (property C44).

    [fl] rounds to float and [fd] to long double; [rounds p] (SpecFp.v) is all that is
    assumed of them, for a precision of [p >= 16] bits.  [near p], rounding to nearest, is
    an instance, so the theorems cover IEEE float (24), double (53), x87 long double
    (64) and wider ones. *)
From Verif Require Import Base Config Spline Storage DB VarData Recovery Spec SpecSpline SpecPage SpecStore Run SpecRun
  SpecReopen ReopenThms ReachFacts SpecVar ExFacts ExVar ExReopen Fp SpecFp NearFacts FpFacts FpRunFacts FpOpenFacts FpVarFacts ExFp Props_Spline.
From Coq Require Import QArith.
Open Scope Z_scope.

(** Rounding to nearest meets the assumption at every precision. *)
Theorem C44_nearest_is_a_rounding : forall p, 0 < p -> rounds p (near p).
Proof. exact near_rounds. Qed.
Print Assumptions C44_nearest_is_a_rounding.
Example C44_third : (f32 (1 # 3) == 11184811 # 2 ^ 25)%Q.
Proof. vm_compute. reflexivity. Qed.

(** The model's conversion to an integer type of range [lo, hi] is C's: the fraction is
    discarded, also of negative numbers, and a value that does not fit is undefined. *)
Theorem C44_conversion_truncates : forall lo hi x,
  (forall z, to_int lo hi x = Ok z <-> lo <= z <= hi /\ towards_zero x z) /\
  ((forall z, towards_zero x z -> z < lo \/ hi < z) -> to_int lo hi x = UB).
Proof. exact to_int_iff. Qed.
Print Assumptions C44_conversion_truncates.
Example C44_conversion_example : towards_zero (-7 # 2) (-3) /\ to_int (-128) 127 (-7 # 2) = Ok (-3) /\ to_int (-128) 127 (300 # 1) = UB.
Proof. split; [split; intros H; vm_compute in H |- *; [exfalso; apply H|split]; congruence || auto|]. split; vm_compute; reflexivity. Qed.

(** The location estimated for a key between the first and the last key of a page is
    defined and inside the page. *)
Theorem C44_estimate_in_page :
  forall c KB PB p fl pg rs k, setting c KB PB -> maxRec c <= 255 -> rounds p fl -> 16 <= p ->
  holds c pg rs -> ascending rs -> Forall (rec_ok c KB) rs ->
  (exists a b, In a rs /\ In b rs /\ rkey a <= k <= rkey b) ->
  exists e, estimate fl c pg k = Ok e /\ 0 <= e < zlen rs.
Proof. exact fp_estimate. Qed.
Print Assumptions C44_estimate_in_page.

Example C44_estimate_example : exists s0 s xs e, embedDBInit eA noDisk [] = Ok (s0, 0) /\
  run eA s0 (puts 6 1 1000) = Ok (s, xs) /\ estimate f32 eA (wbuf (sd s)) 3500 = Ok e /\ 0 <= e < 6.
Proof.
  destruct (eA_open noDisk) as (s0 & H). exists s0.
  destruct (buffer_page eA (2 ^ 31) (2 ^ 31) (puts 6 1 1000) noDisk s0 ltac:(scen) H) as (s & xs & E & Hh & Ha & Hr).
  destruct (C44_estimate_in_page eA (2 ^ 31) (2 ^ 31) 24 f32 (wbuf (sd s)) _ 3500 eA_set ltac:(vm_compute; discriminate) f32_ok
    ltac:(lia) Hh Ha Hr) as (e & Ee & B).
  { exists (mkR 1 (le_enc 4 3) 0), (mkR 5001 (le_enc 4 15003) 0). vm_compute. repeat split; auto 10; discriminate. }
  exists s, xs, e. split; [exact H|]. split; [exact E|]. split; [exact Ee|]. exact B.
Qed.

(** For a key below the page it never is defined (keys of at most 4 bytes): the 64-bit
    difference wraps around.  embedDBGet does not ask for one, once a page was
    written; embedDBGetVar does (C44_getvar_older_key). *)
Theorem C44_estimate_below_page :
  forall c KB PB p fl pg rs k, setting c KB PB -> maxRec c <= 255 -> rounds p fl -> 16 <= p -> keySize c <= 4 ->
  holds c pg rs -> ascending rs -> Forall (rec_ok c KB) rs -> rs <> [] ->
  0 <= k -> (forall a, In a rs -> k < rkey a) -> estimate fl c pg k = UB.
Proof. exact fp_below. Qed.
Print Assumptions C44_estimate_below_page.

Example C44_below_example : exists s0 s xs, embedDBInit eA noDisk [] = Ok (s0, 0) /\
  run eA s0 (puts 20 100 10) = Ok (s, xs) /\ estimate f32 eA (wbuf (sd s)) 110 = UB.
Proof.
  destruct (eA_open noDisk) as (s0 & H). exists s0.
  destruct (buffer_page eA (2 ^ 31) (2 ^ 31) (puts 20 100 10) noDisk s0 ltac:(scen) H) as (s & xs & E & Hh & Ha & Hr).
  exists s, xs. split; [exact H|]. split; [exact E|].
  apply (C44_estimate_below_page eA (2 ^ 31) (2 ^ 31) 24 f32 (wbuf (sd s)) _ 110 eA_set ltac:(vm_compute; discriminate) f32_ok
    ltac:(lia) ltac:(vm_compute; discriminate) Hh Ha Hr).
  - vm_compute. discriminate.
  - lia.
  - assert (Q : forallb (fun a => 110 <? rkey a) (cur (log_of eA (puts 20 100 10))) = true) by (vm_compute; reflexivity).
    rewrite forallb_forall in Q. intros a Ia. specialize (Q a Ia). apply Z.ltb_lt in Q. exact Q.
Qed.

(** So embedDBGetVar, which searches the write buffer first without looking at its key
    range, is undefined for every key older than a non-empty write buffer, whatever was
    put before. *)
Theorem C44_getvar_older_key :
  forall KB PB VB c dk h s p fl fd k,
  vscenario c KB PB VB h -> vreached c dk h s -> keySize c <= 4 -> rounds p fl -> 16 <= p ->
  cur (vlog (vstore_of c h)) <> [] -> 0 <= k -> (forall a, In a (cur (vlog (vstore_of c h))) -> k < rkey a) ->
  embedDBGetVar_fp fl fd c s k = UB.
Proof. exact fp_getvar_history. Qed.
Print Assumptions C44_getvar_older_key.

Example C44_getvar_example : exists s, vreached eV noDisk (vputs 6 10 5) s /\ embedDBGetVar_fp f32 f80 eV s 11 = UB.
Proof.
  destruct (ready_ok eV (vputs 6 10 5) 15 [5] ltac:(vm_compute; reflexivity)) as (s & Re & _ & _). exists s. split; [exact Re|].
  apply (C44_getvar_older_key (2 ^ 31) (2 ^ 31) (2 ^ 32) eV noDisk (vputs 6 10 5) s 24 f32 f80 11).
  - vscen.
  - exact Re.
  - vm_compute. discriminate.
  - exact f32_ok.
  - lia.
  - vm_compute. discriminate.
  - lia.
  - assert (Q : forallb (fun a => 11 <? rkey a) (cur (vlog (vstore_of eV (vputs 6 10 5)))) = true) by (vm_compute; reflexivity).
    rewrite forallb_forall in Q. intros a Ia. specialize (Q a Ia). apply Z.ltb_lt in Q. exact Q.
Qed.

(** The error statistic of a full page, taken at every page write, is defined, and
    state->maxError keeps the value maxRecordsPerPage of embedDBInit: the model may omit
    it. *)
Theorem C44_max_error_constant :
  forall c KB PB p fl pg rs, setting c KB PB -> maxRec c <= 255 -> rounds p fl -> 16 <= p ->
  holds c pg rs -> ascending rs -> Forall (rec_ok c KB) rs -> zlen rs = maxRec c ->
  (exists e, getMaxError fl c pg pg = Ok e /\ 0 <= e <= maxRec c) /\
  updateMaxiumError fl c pg pg (maxRec c) = Ok (maxRec c).
Proof. exact fp_maxerr. Qed.
Print Assumptions C44_max_error_constant.

(** Keys far from a straight line: the error is 5 of 7. *)
Definition hBent : list hop := map (fun k => HPut k (le_enc 4 1)) [1; 2; 3; 4; 5; 6; 2000000000].
Example C44_max_error_example : exists s0 s xs, embedDBInit eA noDisk [] = Ok (s0, 0) /\
  run eA s0 hBent = Ok (s, xs) /\ getMaxError f32 eA (wbuf (sd s)) (wbuf (sd s)) = Ok 5 /\
  updateMaxiumError f32 eA (wbuf (sd s)) (wbuf (sd s)) 7 = Ok 7.
Proof.
  destruct (eA_open noDisk) as (s0 & H). exists s0.
  destruct (buffer_page eA (2 ^ 31) (2 ^ 31) hBent noDisk s0 ltac:(scen) H) as (s & xs & E & Hh & Ha & Hr).
  destruct (C44_max_error_constant eA (2 ^ 31) (2 ^ 31) 24 f32 (wbuf (sd s)) _ eA_set ltac:(vm_compute; discriminate) f32_ok
    ltac:(lia) Hh Ha Hr ltac:(vm_compute; reflexivity)) as [_ U].
  exists s, xs. split; [exact H|]. split; [exact E|]. split; [|exact U].
  assert (Q : match embedDBInit eA noDisk [] with
              | Ok (s, _) => match run eA s hBent with Ok (s, _) => getMaxError f32 eA (wbuf (sd s)) (wbuf (sd s)) | _ => UB end
              | _ => UB end = Ok 5) by (vm_compute; reflexivity).
  rewrite H, E in Q. exact Q.
Qed.

(** The learned index with a long double of [p] bits: if [KB * PB <= 2^p], rounding
    changes nothing, whatever was added and cleaned (so C10 and C12 hold as they
    stand). *)
Theorem C44_find_exact :
  forall KB PB f size e g ops cmp q p fd,
  4 <= size < 2 ^ 32 -> 0 <= e < 2 ^ 32 -> 0 <= f -> e <= 1 \/ f = 0 ->
  PB <= 2 ^ 31 -> 0 < KB -> KB * PB <= 2 ^ 63 -> f + zlen (added ops) + e < PB ->
  Forall (fun k => 0 <= k < KB) (added ops) -> zascending (added ops) -> cleans_ok f ops ->
  cmp_ok cmp KB -> 0 <= q < KB -> added ops <> [] ->
  rounds p fd -> 16 <= p -> KB * PB <= 2 ^ p ->
  spl_find_fp fd cmp (srun (spl_init size e g) f ops) q = spl_find cmp (srun (spl_init size e g) f ops) q.
Proof. exact fp_find_history. Qed.
Print Assumptions C44_find_exact.

Example C44_find_example :
  spl_find_fp f64 ex_scmp (srun (spl_init 4 1 (7, 7)) 0 ex_ops) 299 = spl_find ex_scmp (srun (spl_init 4 1 (7, 7)) 0 ex_ops) 299 /\
  spl_find ex_scmp (srun (spl_init 4 1 (7, 7)) 0 ex_ops) 299 = Ok (7, 6, 8).
Proof.
  split; [|vm_compute; reflexivity].
  apply (C44_find_exact (2 ^ 32) (2 ^ 20) 0 4 1 (7, 7) ex_ops ex_scmp 299 53 f64); try (cbn; repeat split; lia).
  - repeat (constructor; [lia|]). constructor.
  - apply ex_scmp_ok.
  - discriminate.
  - exact f64_ok.
Qed.

(** With less precision the range can be wrong by one page, never by more
    ([16 * PB <= 2^p]: page numbers of 20 bits for a 24-bit long double). *)
Theorem C44_find_off_by_one :
  forall KB PB f size e g ops cmp q pg p fd,
  4 <= size < 2 ^ 32 -> 0 <= e < 2 ^ 32 -> 0 <= f -> e <= 1 \/ f = 0 ->
  PB <= 2 ^ 31 -> 0 < KB -> KB * PB <= 2 ^ 63 -> f + zlen (added ops) + e < PB ->
  Forall (fun k => 0 <= k < KB) (added ops) -> zascending (added ops) -> cleans_ok f ops ->
  cmp_ok cmp KB -> 0 <= q < KB -> page_of (added ops) q pg ->
  rounds p fd -> 16 <= p -> 16 * PB <= 2 ^ p ->
  exists loc low high, spl_find_fp fd cmp (srun (spl_init size e g) f ops) q = Ok (loc, low, high) /\
    low - 1 <= f + Z.of_nat pg <= high + 1.
Proof. exact fp_near_history. Qed.
Print Assumptions C44_find_off_by_one.

Definition far_ops : list sop := map SAdd (map (fun k => k * 2 ^ 24) [0; 1; 3] ++ [3 * 2 ^ 24 + 1] ++ map (fun k => k * 2 ^ 24) [4; 5; 6; 7]).
Example C44_off_by_one_example :
  exists loc low high, spl_find_fp f32 ex_scmp (srun (spl_init 8 1 (7, 7)) 0 far_ops) (3 * 2 ^ 24 - 1) = Ok (loc, low, high) /\
    low - 1 <= 0 + Z.of_nat 1 <= high + 1.
Proof.
  apply (C44_find_off_by_one (2 ^ 32) (2 ^ 20) 0 8 1 (7, 7) far_ops ex_scmp (3 * 2 ^ 24 - 1) 1 24 f32); try (cbn; repeat split; lia).
  - repeat (constructor; [cbn; lia|]). constructor.
  - apply ex_scmp_ok.
  - exists (2 ^ 24). cbn. split; auto. split; [lia|]. intros k' [= <-]. lia.
  - exact f32_ok.
Qed.

(** Partly: without binary search (C44_binary_search_miss_refuted) and record-level
    consistency.  Whole histories of puts, flushes and gets: computed
    with any such roundings they give the states and results of the model with exact
    arithmetic, so every theorem about [run] holds.  [lookups_fit]: gets before the
    first page write ask for keys inside the write buffer. *)
Theorem C44_histories_partial :
  forall c KB PB h k s0 pf pd fl fd,
  scenario c KB PB h -> useBinary c = false -> embedDBInit c k [] = Ok (s0, 0) -> lookups_fit c emptyLog h ->
  rounds pf fl -> 16 <= pf -> rounds pd fd -> 16 <= pd -> KB * PB <= 2 ^ pd ->
  run_fp fl fd c s0 h = run c s0 h /\
  exists s xs, run_fp fl fd c s0 h = Ok (s, xs) /\
    sound_outs (maxRec c) (numData c) (eraseSize c) emptyLog h xs.
Proof. exact fp_histories. Qed.
Print Assumptions C44_histories_partial.

Definition hFp : list hop :=
  puts 4 10 7 ++ [HGet 17; HGet 20] ++ puts 56 101 3 ++ [HFlush; HGet 263; HGet 20] ++ puts 9 1000 50000000.
Example C44_histories_example : exists s0 s xs, embedDBInit eA noDisk [] = Ok (s0, 0) /\
  run_fp f32 f80 eA s0 hFp = Ok (s, xs) /\ run eA s0 hFp = Ok (s, xs).
Proof.
  destruct (eA_open noDisk) as (s0 & H). exists s0.
  destruct (C44_histories_partial eA (2 ^ 31) (2 ^ 31) hFp noDisk s0 24 64 f32 f80) as [E (s & xs & E1 & _)].
  - scen.
  - reflexivity.
  - exact H.
  - apply fitb_ok. vm_compute. reflexivity.
  - exact f32_ok.
  - lia.
  - exact f80_ok.
  - lia.
  - vm_compute. discriminate.
  - exists s, xs. split; [exact H|]. split; [exact E1|]. rewrite <- E. exact E1.
Qed.

(** Partly (C44_reopen_partial_page_refuted, C44_reopen_long_keys_refuted): reopening with
    keys of at most 4 bytes is not affected if all stored pages are full:
    the statistics taken of them while opening are defined. *)
Theorem C44_reopen_full_pages_partial :
  forall KB PB p fl c k s es c' c0 s0 xs,
  created c KB PB k s -> lifetime_ok c KB PB emptyLog (es ++ [EvReopen c']) ->
  lifetime c s es = Ok (c0, s0, xs) ->
  rounds p fl -> 16 <= p -> keySize c' <= 4 ->
  Forall (fun pg => zlen pg = maxRec c') (pages (snd (lifetime_spec c emptyLog es))) ->
  exists s1, embedDBInit c' (disk_of s0) [] = Ok (s1, 0) /\ embedDBInit_fp fl c' (disk_of s0) = Ok (s1, 0).
Proof. exact fp_reopen. Qed.
Print Assumptions C44_reopen_full_pages_partial.

Definition lifeFp : list code := map COp (puts 60 1 1).
Example C44_reopen_example : exists s c0 s0 xs s1, created eA (2 ^ 31) (2 ^ 31) noDisk s /\
  lifetime eA s (map (ev eAr) lifeFp) = Ok (c0, s0, xs) /\ embedDBInit_fp f32 eAr (disk_of s0) = Ok (s1, 0).
Proof.
  destruct eA_created as (s & C). exists s.
  assert (K : lifetime_ok eA (2 ^ 31) (2 ^ 31) emptyLog (map (ev eAr) lifeFp ++ [EvReopen eAr])).
  { change [EvReopen eAr] with (map (ev eAr) [CReopen]). rewrite <- map_app. apply eAr_codes. vm_compute. reflexivity. }
  destruct (c31_lifetime _ _ _ _ _ _ C (eAr_codes lifeFp ltac:(vm_compute; reflexivity))) as (c0 & s0 & xs & E & _).
  destruct (C44_reopen_full_pages_partial _ _ 24 f32 _ _ _ _ _ _ _ _ C K E f32_ok ltac:(lia)) as (s1 & _ & E1).
  - vm_compute. discriminate.
  - assert (Q : forallb (fun pg => zlen pg =? maxRec eAr) (pages (snd (lifetime_spec eA emptyLog (map (ev eAr) lifeFp)))) = true) by (vm_compute; reflexivity).
    rewrite forallb_forall in Q. rewrite Forall_forall. intros pg Hp. apply Z.eqb_eq. apply Q. exact Hp.
  - exists c0, s0, xs, s1. split; [exact C|]. split; [exact E|exact E1].
Qed.

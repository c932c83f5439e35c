(** Theorems about embedDBInit (property C29).

    [areas c] (SpecInit.v): every area is a whole number of erase blocks and has its
    minimal size, and enough page buffers and spline points are configured.
    [sizes_ok c]: the true sizes of header and record fit their types and the page;
    Refuted_Init.v shows that embedDBInit does not check this. *)
From Verif Require Import Base Config Storage DB Recovery Spec SpecPage SpecStore Run SpecRun SpecInit
  InitFacts ExFacts.
Open Scope Z_scope.

(** C29, the areas: whatever the configuration, the storage contents and the storage
    faults, a result of 0 means that the areas are whole numbers of erase blocks. *)
Theorem C29_init_checks_areas :
  forall c k fs s, embedDBInit c k fs = Ok (s, 0) -> areas c.
Proof. exact init_areas. Qed.
Print Assumptions C29_init_checks_areas.

Example C29_areas_example : areas eX.
Proof. destruct (eX_open noDisk) as (s & H). exact (C29_init_checks_areas _ _ _ _ H). Qed.

(** C29, usability: if embedDBInit returns 0 and the sizes are sound, at least one
    record fits a page, and every history of puts, flushes and gets runs to its end
    without leaving a page buffer. *)
Theorem C29_accepted_is_usable_partial :
  forall c KB PB, sizes_ok c -> ranges c KB PB -> plain_flags c ->
  forall k s h, embedDBInit c k [] = Ok (s, 0) -> useReset c = true -> plain_history c KB PB h ->
  1 <= maxRec c /\ exists s' xs, run c s h = Ok (s', xs) /\ length xs = length h.
Proof. exact usable. Qed.
Print Assumptions C29_accepted_is_usable_partial.

(** C29, converse: sound configurations are accepted, whatever is on storage. *)
Theorem C29_usable_is_accepted_partial :
  forall c KB PB, sizes_ok c -> ranges c KB PB -> plain_flags c ->
  forall k, areas c -> useReset c = true -> exists s, embedDBInit c k [] = Ok (s, 0).
Proof. exact accepted_config. Qed.
Print Assumptions C29_usable_is_accepted_partial.

Lemma eX_sizes : sizes_ok eX.
Proof.
  constructor; [num|num|num|num|num|intros _; num|intros _|intros _; num|num|num|num].
  split; [reflexivity|]. split; [num|]. intros d b _ Hb. cbn [eX ex_cfg updBM]. now rewrite ex_upd_length.
Qed.
Lemma eX_ranges : ranges eX (2 ^ 31) (2 ^ 31).
Proof. constructor; [num|num|num|intros _; num|intros _; num|num|num|num|num|exact ex_cmp_exact]. Qed.
Lemma eX_flags : plain_flags eX.
Proof. constructor; try reflexivity. discriminate. Qed.

Definition hI : list hop := puts 200 1 1 ++ map HGet [200; 150; 1; 77].
Example C29_usable_example : exists s s' xs,
  embedDBInit eX noDisk [] = Ok (s, 0) /\ run eX s hI = Ok (s', xs) /\ length xs = 204%nat.
Proof.
  destruct (eX_open noDisk) as (s0 & H0).
  destruct (C29_usable_is_accepted_partial eX (2 ^ 31) (2 ^ 31) eX_sizes eX_ranges eX_flags noDisk
    (C29_init_checks_areas _ _ _ _ H0) eq_refl) as (s & H).
  destruct (C29_accepted_is_usable_partial eX (2 ^ 31) (2 ^ 31) eX_sizes eX_ranges eX_flags noDisk s hI H eq_refl)
    as (_ & s' & xs & R & L).
  { assert (Sc : scenario eX (2 ^ 31) (2 ^ 31) hI) by scen. constructor; apply Sc. }
  exists s, s', xs. auto.
Qed.

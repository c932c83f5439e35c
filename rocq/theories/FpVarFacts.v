(** embedDBGetVar with floating-point arithmetic: keys older than the write buffer. *)
From Verif Require Import Base BaseFacts Config Spline Storage DB VarData Recovery Spec SpecPage SpecStore Run SpecRun SpecVar
  LogFacts StoreFacts VarRunFacts VarThms Fp SpecFp FpRunFacts.
From Coq Require Import QArith.
Open Scope Z_scope.

Lemma fp_getvar_history KB PB VB c dk h s pf fl fd k :
  vscenario c KB PB VB h -> vreached c dk h s -> keySize c <= 4 -> rounds pf fl -> 16 <= pf ->
  cur (vlog (vstore_of c h)) <> [] -> 0 <= k -> (forall a, In a (cur (vlog (vstore_of c h))) -> k < rkey a) ->
  embedDBGetVar_fp fl fd c s k = UB.
Proof.
  intros Sc Re K4 R P Ne K0 K. pose proof (v_set _ _ _ _ _ Sc) as G. pose proof (v_var _ _ _ _ _ Sc) as V.
  destruct (reached_VInv c KB PB VB h dk s Sc Re) as (L & VR & VP & lv & o & Y & _ & St & _).
  rewrite <- St in Ne, K. pose proof (y_inv _ _ _ _ _ _ _ _ _ _ _ _ _ _ _ Y) as I.
  pose proof (i_wf _ _ _ _ _ _ _ _ I) as W. pose proof (w_asc _ _ _ W) as A. pose proof (w_recs _ _ _ W) as Rc.
  unfold accepted in A, Rc. rewrite asc_app in A. rewrite Forall_app in Rc.
  pose proof (vs_rec _ _ V).
  eapply (fp_getvar c KB PB pf fl fd s (cur L) k G); try tauto; try lia.
  - apply (vs_use _ _ V).
  - apply (i_w _ _ _ _ _ _ _ _ I).
  - intros E. apply Ne. unfold store_is, bareL. cbn [vlog cur]. now rewrite E.
  - intros a Ia. change (rkey a) with (rkey (bare a)). apply K. unfold store_is, bareL. cbn [vlog cur]. apply in_map. exact Ia.
Qed.

(** Property C37 for payload lookups. *)
From Coq Require Import Lia.
From Verif Require Import Base Config Spline Storage DB VarData Recovery Spec SpecPage SpecStore Run SpecRun SpecVar ExVar Props_Var VarFlushFacts.
Open Scope Z_scope.

(** C37: a flush that does not force an eviction changes no later payload lookup: the
    return value, the data and all bytes of the stream are the same, for keys present
    and absent, on pages and in the write buffer, under the conditions of
    C15_lookup_decides_partial. *)
Theorem C37_flush_neutral_for_payloads_partial :
  forall KB PB VB c dk h s s' k ns,
  vscenario c KB PB VB (h ++ [VFlush]) -> vreached c dk h s -> vreached c dk (h ++ [VFlush]) s' -> 0 <= k < KB ->
  (let L := vlog (vstore_of c h) in cur L = [] \/ zlen (pages L) - lo L < numData c) ->
  var_clean c s -> var_clean c s' -> lookup_inside c s k ns -> lookup_inside c s' k ns ->
  (useBinary c = true -> In k (map rkey (accepted (vlog (vstore_of c h)))) -> In k (map rkey (retained (vlog (vstore_of c h))))) ->
  (payload k (vpay (vstore_of c h)) <> None -> var_intact c VB dk h s k /\ var_intact c VB dk (h ++ [VFlush]) s' k) ->
  exists t t' x, getvar_read c s k ns = Ok (t, x) /\ getvar_read c s' k ns = Ok (t', x).
Proof. exact c37_var. Qed.
Print Assumptions C37_flush_neutral_for_payloads_partial.

(** The record looked up is in the write buffer before the flush and on a page after it. *)
Definition hw : list vop := vputs 6 1 50 ++ [VPut 40 [1; 2; 3; 4] (Some (repeat 9 120)); VPut 41 [1; 2; 3; 4] None].
Example C37_payload_example : exists s s', vreached eV noDisk hw s /\ vreached eV noDisk (hw ++ [VFlush]) s' /\
  In 40 (map rkey (cur (vlog (vstore_of eV hw)))) /\ cur (vlog (vstore_of eV (hw ++ [VFlush]))) = [] /\
  exists t t' x, getvar_read eV s 40 [70; 30; 0; 40; 5] = Ok (t, x) /\ getvar_read eV s' 40 [70; 30; 0; 40; 5] = Ok (t', x).
Proof.
  destruct (ready_ok eV hw 40 [70; 30; 0; 40; 5] ltac:(vm_compute; reflexivity)) as (s & Re & Cl & Hi).
  destruct (ready_ok eV (hw ++ [VFlush]) 40 [70; 30; 0; 40; 5] ltac:(vm_compute; reflexivity)) as (s' & Re' & Cl' & Hi').
  exists s, s'. split; [exact Re|]. split; [exact Re'|]. split; [vm_compute; tauto|]. split; [vm_compute; reflexivity|].
  apply (C37_flush_neutral_for_payloads_partial (2 ^ 31) (2 ^ 31) (2 ^ 32) eV noDisk hw s s' 40 [70; 30; 0; 40; 5]).
  - vscen.
  - exact Re.
  - exact Re'.
  - lia.
  - cbv zeta. right. vm_compute. reflexivity.
  - exact Cl.
  - exact Cl'.
  - exact Hi.
  - exact Hi'.
  - intros H. exfalso. vm_compute in H. discriminate H.
  - intros _. split.
    + apply (capb_ok eV (2 ^ 32) (vputs 6 1 50) 40 [1; 2; 3; 4] (repeat 9 120) [VPut 41 [1; 2; 3; 4] None]); [vm_compute; reflexivity|vm_compute; reflexivity|exact Re].
    + apply (capb_ok eV (2 ^ 32) (vputs 6 1 50) 40 [1; 2; 3; 4] (repeat 9 120) [VPut 41 [1; 2; 3; 4] None; VFlush]); [vm_compute; reflexivity|vm_compute; reflexivity|exact Re'].
Qed.

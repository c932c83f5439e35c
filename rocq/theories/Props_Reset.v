(** Opening with the reset flag (property C36), in every configuration, over any previous
    storage contents and with any fault script. *)
From Verif Require Import Base Config Spline Storage DB VarData Recovery Run SpecIter ResetFacts.
Open Scope Z_scope.

(** C36: every get of the opened database reports a missing key. *)
Theorem C36_reset_is_empty : forall c k fs s0 key,
  0 <= keySize c -> useReset c = true -> embedDBInit c k fs = Ok (s0, 0) ->
  embedDBGet c s0 key = Ok (s0, -1, None).
Proof. exact reset_get. Qed.
Print Assumptions C36_reset_is_empty.

(** C36: so does every lookup with variable data. *)
Theorem C36_reset_var_lookup_is_empty : forall c k fs s0 key,
  0 <= keySize c -> useReset c = true -> useVar c = true -> embedDBInit c k fs = Ok (s0, 0) ->
  embedDBGetVar c s0 key = Ok (s0, -1, None, None).
Proof. exact reset_getvar. Qed.
Print Assumptions C36_reset_var_lookup_is_empty.

(** C36: every scan is empty.  Not covered: binary-search mode, where starting an iterator
    is undefined (C36_reset_scan_binary_refuted), and bitmap scans without an index with at
    least one entry per page (C36_reset_scan_bitmap_refuted). *)
Theorem C36_reset_scan_is_empty_partial : forall c k fs s0 q n,
  0 <= keySize c -> useReset c = true -> useBinary c = false -> embedDBInit c k fs = Ok (s0, 0) ->
  (uses_bitmap c q = true -> useIndex c = true /\ maxIdx c <> 0) -> (0 < n)%nat ->
  scan c s0 q n = Ok (s0, []).
Proof. exact reset_scan. Qed.
Print Assumptions C36_reset_scan_is_empty_partial.

(** C36: and the first step of a scan with variable data reports the end. *)
Theorem C36_reset_var_scan_is_empty_partial : forall c k fs s0 q,
  0 <= keySize c -> useReset c = true -> useBinary c = false -> embedDBInit c k fs = Ok (s0, 0) ->
  (uses_bitmap c q = true -> useIndex c = true /\ maxIdx c <> 0) ->
  exists it it', embedDBInitIterator c s0 (qMinK q) (qMaxK q) (qMinD q) (qMaxD q) = Ok it /\
    embedDBNextVar c s0 it = Ok (s0, it', 0, None, None).
Proof. exact reset_nextvar. Qed.
Print Assumptions C36_reset_var_scan_is_empty_partial.

(** Index, bitmap, summaries, variable data and record-level consistency, over files full of
    pages of ones. *)
Definition eAll : cfg := ex_cfg 128 (1 + 2 + 8 + 16 + 32 + 64) 8 2 8 1 None None.
Definition old : disk :=
  let f := Some (mkFile 8 (fun _ => repeat 1 128)) in mkDisk f f f.
Definition qData : query := mkQ (Some 5) None (Some [1; 0; 0; 0]) None.
Example C36_example : exists s0, embedDBInit eAll old [true; false] = Ok (s0, 0) /\
  embedDBGet eAll s0 60 = Ok (s0, -1, None) /\ embedDBGetVar eAll s0 60 = Ok (s0, -1, None, None) /\
  uses_bitmap eAll qData = true /\ scan eAll s0 qData 5 = Ok (s0, []) /\
  exists it it', embedDBInitIterator eAll s0 (qMinK qData) (qMaxK qData) (qMinD qData) (qMaxD qData) = Ok it /\
    embedDBNextVar eAll s0 it = Ok (s0, it', 0, None, None).
Proof.
  assert (E : match embedDBInit eAll old [true; false] with Ok (_, r) => r =? 0 | _ => false end = true) by (vm_compute; reflexivity).
  destruct (embedDBInit eAll old [true; false]) as [[s0 r]| |] eqn:I; try discriminate E.
  apply Z.eqb_eq in E. subst r. exists s0. split; [reflexivity|].
  assert (K : 0 <= keySize eAll) by discriminate.
  assert (M : uses_bitmap eAll qData = true -> useIndex eAll = true /\ maxIdx eAll <> 0) by (split; [reflexivity|discriminate]).
  split; [apply (C36_reset_is_empty _ _ _ _ _ K eq_refl I)|].
  split; [apply (C36_reset_var_lookup_is_empty _ _ _ _ _ K eq_refl eq_refl I)|].
  split; [reflexivity|]. split; [apply (C36_reset_scan_is_empty_partial _ _ _ _ _ _ K eq_refl eq_refl I M); repeat constructor|].
  apply (C36_reset_var_scan_is_empty_partial _ _ _ _ _ K eq_refl eq_refl I M).
Qed.

(** C36: in binary-search mode the first scan of a reset database is undefined: the
    iterator reads the spline, which was never allocated (embedDB.c:1609). *)
Theorem C36_reset_scan_binary_refuted : exists c k s0, useReset c = true /\ embedDBInit c k [] = Ok (s0, 0) /\
  scan c s0 (mkQ None None None None) 5 = UB.
Proof.
  set (c := ex_cfg 64 (32 + 128 + 256) 4 2 8 1 None None).
  assert (E : match embedDBInit c old [] with
    | Ok (s0, r) => (r =? 0) && match scan c s0 (mkQ None None None None) 5 with UB => true | _ => false end | _ => false end = true)
    by (vm_compute; reflexivity).
  exists c, old. destruct (embedDBInit c old []) as [[s0 r]| |]; try discriminate E.
  apply andb_prop in E. destruct E as [E1 E2]. apply Z.eqb_eq in E1. subst r. exists s0. split; [reflexivity|]. split; [reflexivity|].
  destruct (scan c s0 _ 5); try discriminate E2. reflexivity.
Qed.
Print Assumptions C36_reset_scan_binary_refuted.

(** C36: with bitmaps but without an index, a scan with a bound on the data divides by the
    uninitialised number of index entries of a page (embedDB.c:1745). *)
Theorem C36_reset_scan_bitmap_refuted : exists c k s0, useReset c = true /\ useBinary c = false /\
  embedDBInit c k [] = Ok (s0, 0) /\ scan c s0 qData 5 = UB.
Proof.
  set (c := ex_cfg 64 (8 + 32) 4 2 8 1 None None).
  assert (E : match embedDBInit c old [] with
    | Ok (s0, r) => (r =? 0) && match scan c s0 qData 5 with UB => true | _ => false end | _ => false end = true)
    by (vm_compute; reflexivity).
  exists c, old. destruct (embedDBInit c old []) as [[s0 r]| |]; try discriminate E.
  apply andb_prop in E. destruct E as [E1 E2]. apply Z.eqb_eq in E1. subst r. exists s0. split; [reflexivity|]. split; [reflexivity|].
  split; [reflexivity|]. destruct (scan c s0 _ 5); try discriminate E2. reflexivity.
Qed.
Print Assumptions C36_reset_scan_bitmap_refuted.

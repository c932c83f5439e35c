(** Configurations that embedDBInit accepts although they cannot be used (property
    C29): concrete executions of the model. *)
From Verif Require Import Base Config Spline Storage DB VarData Recovery Util Spec SpecPage Run SpecRun SpecInit SpecVar.
Open Scope Z_scope.

(** [gen keySize dataSize pageSize bitmapSize numVarPages parameters]: erase blocks of 2
    pages, 8 data pages, 8 index pages, 8 spline points, 6 page buffers. *)
Definition gen (ks ds ps bm nv par : Z) : cfg :=
  mkCfg ks ds ps bm 2 8 8 nv 8 1 6 par int32Comparator_wrap ex_cmpD ex_upd ex_build
        (fun _ _ => 1) None None (repeat 171 (Z.to_nat ps)) (7, 7) false 0 true.

(** The sizes are [int8_t]: 4-byte keys with 124-byte data give a record size of
    -128; opening succeeds, and the second put leaves the page buffer. *)
Theorem C29_record_size_overflow_refuted : exists c d d',
  init_result (fresh c noDisk) = Ok 0 /\ length d = dsz c /\ length d' = dsz c /\
  true_header c + 3 * true_record c <= pageSize c /\
  go c [] [HPut 1 d; HPut 2 d'] = UB.
Proof.
  exists (gen 4 124 512 8 8 32), (repeat 5 124), (repeat 6 124).
  split; [vm_compute; reflexivity|]. split; [reflexivity|]. split; [reflexivity|].
  split; [vm_compute; discriminate|]. vm_compute. reflexivity.
Qed.
Print Assumptions C29_record_size_overflow_refuted.

(** No check that a record fits a page: a 26-byte header on 32-byte pages leaves
    room for none; opening succeeds, and the first put leaves the page buffer. *)
Theorem C29_no_record_fits_refuted : exists c d,
  init_result (fresh c noDisk) = Ok 0 /\ length d = dsz c /\ maxRec c = 0 /\
  go c [] [HPut 1 d] = UB.
Proof.
  exists (gen 4 4 32 20 8 33), (repeat 5 4). repeat split; vm_compute; reflexivity.
Qed.
Print Assumptions C29_no_record_fits_refuted.

(** Zero variable pages are accepted; storing enough variable data divides by zero. *)
Theorem C29_no_variable_pages_refuted : exists c d x,
  init_result (fresh c noDisk) = Ok 0 /\ length d = dsz c /\
  ('(s, _) <- fresh c noDisk ;; embedDBPutVar c s 1 d (Some x)) = UB.
Proof.
  exists (gen 4 4 64 8 0 (32 + 16)), (repeat 5 4), (repeat 6 100). repeat split; vm_compute; reflexivity.
Qed.
Print Assumptions C29_no_variable_pages_refuted.

(** C35 (and C01, C03): page summaries without an 8-byte bitmap lie on top of the first
    record: a put overwrites its own key, the record is not found, and the next
    larger key is refused. *)
Theorem C35_summary_overwrites_record_refuted : exists c d,
  init_result (fresh c noDisk) = Ok 0 /\ length d = dsz c /\ useMaxMin c = true /\
  outs (go c [] [HPut 1 d; HGet 1; HPut 2 d]) = Ok [OPut 0; OGet (-1) None; OPut 1].
Proof.
  exists (gen 4 4 64 8 8 (32 + 2)), (repeat 5 4). repeat split; vm_compute; reflexivity.
Qed.
Print Assumptions C35_summary_overwrites_record_refuted.

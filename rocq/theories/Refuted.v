(** Properties that the code does not have in full generality: concrete
    executions of the model.  Each theorem gives the witness; the positive
    theorems with the needed restriction are in the other Props files. *)
From Verif Require Import Base Config Spline Storage DB Recovery Util Spec Run.
Open Scope Z_scope.

(** Configurations: 64-byte pages with 7 records of 4+4 bytes; 4 data pages in
    erase blocks of 2; flag 32 = EMBEDDB_RESET_DATA. *)
Definition cA := ex_cfg 64 32 4 2 8 1 None None.
Definition cA_open := ex_cfg 64 0 4 2 8 1 None None.
Definition cA_erase := ex_cfg 64 32 4 2 8 1 (Some 255) None.
Definition cA_erase_open := ex_cfg 64 0 4 2 8 1 (Some 255) None.
Definition cA_err2 := ex_cfg 64 32 4 2 8 2 None None.
Definition cA_err2_open := ex_cfg 64 0 4 2 8 2 None None.
Definition cBig := ex_cfg 4096 32 4 2 8 1 None None.

(** C01 (and C38): the read cache is not invalidated when its physical page is
    overwritten after wrap-around, so a retained record is not found. *)
Theorem C01_stale_cache_refuted : exists c h k r,
  init_result (fresh c noDisk) = Ok 0 /\ zascending (put_keys h) /\
  find_key k (retained (fold_left (log_step (maxRec c) (numData c) (eraseSize c)) h emptyLog)) = Some r /\
  last_out (go c [] (h ++ [HGet k])) = Ok (Some (OGet (-1) None)).
Proof.
  exists cA, (puts 8 1 1 ++ [HGet 1] ++ puts 28 9 1), 30. eexists.
  split; [vm_compute; reflexivity|]. split; [vm_compute; repeat split|].
  split; vm_compute; reflexivity.
Qed.
Print Assumptions C01_stale_cache_refuted.

(** C01: with more than 255 records per page, record 255 of the write buffer is
    reported missing because its index is converted to int8_t -1. *)
Theorem C01_large_page_refuted : exists c h k r,
  init_result (fresh c noDisk) = Ok 0 /\ zascending (put_keys h) /\
  find_key k (retained (fold_left (log_step (maxRec c) (numData c) (eraseSize c)) h emptyLog)) = Some r /\
  exists d, last_out (go c [] (h ++ [HGet k])) = Ok (Some (OGet (-1) d)).
Proof.
  exists cBig, (puts 256 1 1), 256. eexists.
  split; [vm_compute; reflexivity|]. split; [vm_compute; repeat split|].
  split; [vm_compute; reflexivity|]. eexists. vm_compute; reflexivity.
Qed.
Print Assumptions C01_large_page_refuted.

(** C03: after flushing a partly filled page the order check looks at an unused
    slot, so a smaller key is accepted (and the larger one is no longer found). *)
Theorem C03_smaller_key_after_flush_refuted : exists c k k' d,
  k' < k /\ init_result (fresh c noDisk) = Ok 0 /\
  outs (go c [] [HPut k d; HFlush; HPut k' d; HGet k]) =
  Ok [OPut 0; OFlush 0; OPut 0; OGet (-1) None].
Proof.
  exists cA, 5, 3, [1; 2; 3; 4]. split; [lia|]. split; vm_compute; reflexivity.
Qed.
Print Assumptions C03_smaller_key_after_flush_refuted.

(** C06: a flushed record that is readable before closing is lost by a clean
    reopen: after wrap-around at an erase-block boundary recovery drops the
    oldest retained block. *)
Theorem C06_reopen_drops_block_refuted : exists c c' h k d,
  zascending (put_keys h) /\
  last_out (go c [] (h ++ [HFlush; HGet k])) = Ok (Some (OGet 0 (Some d))) /\
  outs (go_reopen c c' (h ++ [HFlush]) [HGet k]) = Ok [OGet (-1) None].
Proof.
  exists cA, cA_open, (puts 42 1 1), 20. eexists.
  split; [vm_compute; repeat split|]. split; vm_compute; reflexivity.
Qed.
Print Assumptions C06_reopen_drops_block_refuted.

(** C06: with a maximum error of 2 the rebuilt spline can hold a point twice, and
    looking up that key divides zero by zero. *)
Theorem C06_reopen_spline_division_refuted : exists c c' h k d,
  zascending (put_keys h) /\
  last_out (go c [] (h ++ [HFlush; HGet k])) = Ok (Some (OGet 0 (Some d))) /\
  outs (go_reopen c c' (h ++ [HFlush]) [HGet k]) = UB.
Proof.
  exists cA_err2, cA_err2_open, (puts 56 1 1), 36. eexists.
  split; [vm_compute; repeat split|]. split; vm_compute; reflexivity.
Qed.
Print Assumptions C06_reopen_spline_division_refuted.

(** C07: a crash between the erase of block 0 and the write of its first page
    loses every record: recovery takes the id of an erased page as the smallest. *)
Theorem C07_crash_after_erase_refuted : exists c c' h i k d,
  zascending (put_keys h) /\
  last_out (go c [] (h ++ [HGet k])) = Ok (Some (OGet 0 (Some d))) /\
  outs (go_crash c c' h i [HGet k]) = Ok [OGet (-1) None].
Proof.
  exists cA_erase, cA_erase_open, (puts 36 1 1), 1%nat, 22. eexists.
  split; [vm_compute; repeat split|]. split; vm_compute; reflexivity.
Qed.
Print Assumptions C07_crash_after_erase_refuted.

(** C30: embedDBPut returns 0 although the page write failed, and the records of
    that page are gone. *)
Theorem C30_put_ignores_failed_write_refuted : exists c fs h k,
  zascending (put_keys h) /\ In k (put_keys h) /\
  last_out (go c fs h) = Ok (Some (OPut 0)) /\
  last_out (go c fs (h ++ [HGet k])) = Ok (Some (OGet (-1) None)).
Proof.
  exists cA, [false; false; true], (puts 8 1 1 ++ [HGet 1] ++ puts 7 9 1), 9.
  split; [vm_compute; repeat split|]. split; [vm_compute; auto 20|].
  split; vm_compute; reflexivity.
Qed.
Print Assumptions C30_put_ignores_failed_write_refuted.

(** C14 (and C01, C02): with binary search and a storage whose erase is a no-op,
    an evicted record is still returned; spline mode reports it missing. *)
Definition cBin8 := ex_cfg 64 (32 + 128 + 256) 8 4 8 1 None (Some 0).
Definition cSpl8 := ex_cfg 64 32 8 4 8 1 None None.
Theorem C14_evicted_key_found_refuted : exists c c' h k d,
  zascending (put_keys h) /\ useBinary c = true /\ useBinary c' = false /\
  maxRec c = maxRec c' /\ numData c = numData c' /\ eraseSize c = eraseSize c' /\
  find_key k (retained (fold_left (log_step (maxRec c) (numData c) (eraseSize c)) h emptyLog)) = None /\
  last_out (go c [] (h ++ [HGet k])) = Ok (Some (OGet 0 (Some d))) /\
  last_out (go c' [] (h ++ [HGet k])) = Ok (Some (OGet (-1) None)).
Proof.
  exists cBin8, cSpl8, (puts 64 1 1), 23. eexists.
  split; [vm_compute; repeat split|]. do 6 (split; [vm_compute; reflexivity|]). split; vm_compute; reflexivity.
Qed.
Print Assumptions C14_evicted_key_found_refuted.

(** C31: binarySearch reaches its end without a return statement. *)
Theorem C31_binary_missing_return_refuted : exists c h,
  init_result (fresh c noDisk) = Ok 0 /\ zascending (put_keys h) /\ go c [] (h ++ [HGet 2]) = UB.
Proof.
  exists (ex_cfg 64 (32 + 128 + 256) 8 4 8 1 None None), (puts 8 1 2).
  split; [vm_compute; reflexivity|]. split; [vm_compute; repeat split|]. vm_compute. reflexivity.
Qed.
Print Assumptions C31_binary_missing_return_refuted.

(** C31: in binary-search mode without the no-clean flag, the wrap-around cleans
    a spline that was never allocated. *)
Theorem C31_binary_wrap_cleans_null_spline_refuted : exists c h,
  init_result (fresh c noDisk) = Ok 0 /\ zascending (put_keys h) /\ go c [] h = UB.
Proof.
  exists (ex_cfg 64 (32 + 128) 8 4 8 1 None (Some 0)), (puts 64 1 1).
  split; [vm_compute; reflexivity|]. split; [vm_compute; repeat split|]. vm_compute. reflexivity.
Qed.
Print Assumptions C31_binary_wrap_cleans_null_spline_refuted.

(** C31: a flush while the buffered index page is full writes its bitmap behind
    the page buffer. *)
Definition cIdx8 := ex_cfg 128 (1 + 2 + 8 + 32) 8 2 8 1 None None.
Theorem C31_flush_full_index_refuted : exists c h,
  init_result (fresh c noDisk) = Ok 0 /\ zascending (put_keys h) /\ go c [] (h ++ [HFlush]) = UB.
Proof.
  exists cIdx8, (puts 169 1 1).
  split; [vm_compute; reflexivity|]. split; [vm_compute; repeat split|]. vm_compute. reflexivity.
Qed.
Print Assumptions C31_flush_full_index_refuted.

(** C32 (and C38): because of the stale read cache, the result of a get depends
    on which key was read before it. *)
Theorem C32_read_order_refuted : exists c h k k' d,
  zascending (put_keys h) /\
  last_out (go c [] (h ++ [HGet k])) = Ok (Some (OGet (-1) None)) /\
  last_out (go c [] (h ++ [HGet k'; HGet k])) = Ok (Some (OGet 0 (Some d))).
Proof.
  exists cA, (puts 8 1 1 ++ [HGet 1] ++ puts 28 9 1), 30, 20. eexists.
  split; [vm_compute; repeat split|]. split; vm_compute; reflexivity.
Qed.
Print Assumptions C32_read_order_refuted.

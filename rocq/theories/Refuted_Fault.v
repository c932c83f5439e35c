(** Consequences of failed storage operations (properties C30 and C31): concrete
    executions of the model. *)
From Verif Require Import Base Config Spline Storage DB VarData Recovery Util Spec SpecPage SpecStore SpecIter SpecVar Run SpecRun
  SpecFault.
Open Scope Z_scope.

(** 7 records of 4+4 bytes on 64-byte pages, 4 data pages in blocks of 2; opened
    with and without the reset flag. *)
Definition fA := ex_cfg 64 32 4 2 8 1 None None.
Definition fAo := ex_cfg 64 0 4 2 8 1 None None.

(** C30: writePage advances the page number before it writes.  A flush fails and
    says so, and the client flushes again, which succeeds; the failed attempt
    has left a page number without a page, and opening the storage again finds
    none of the records, although both puts and the second flush returned 0. *)
Theorem C30_flush_retry_loses_records_refuted : exists c co fs h k,
  zascending (put_keys h) /\ In k (put_keys h) /\ outs (go c fs (h ++ [HFlush; HFlush])) =
    Ok (repeat (OPut 0) (length h) ++ [OFlush (-1); OFlush 0]) /\
  ('(s, _) <- go c fs (h ++ [HFlush; HFlush]) ;; 
   '(s, r) <- embedDBInit co (disk_of s) [] ;; '(s, xs) <- run co s [HGet k] ;; Ok (r, xs)) = Ok (0, [OGet (-1) None]).
Proof.
  exists fA, fAo, [true], (puts 3 1 1), 3.
  split; [vm_compute; repeat split|]. split; [vm_compute; auto|]. split; vm_compute; reflexivity.
Qed.
Print Assumptions C30_flush_retry_loses_records_refuted.

(** C30, C31: after a failed flush and a successful one, a get reads the page that
    was never written, takes its record count 0 for a number of records, and
    reads outside of the page. *)
Theorem C30_get_after_failed_flush_refuted : exists c fs h k,
  zascending (put_keys h) /\ In k (put_keys h) /\ (exists s xs, go c fs h = Ok (s, xs)) /\
  go c fs (h ++ [HGet k]) = UB.
Proof.
  exists fA, [false; false; true], (puts 15 1 1 ++ [HFlush; HFlush] ++ puts 3 30 1), 14.
  split; [vm_compute; repeat split|]. split; [vm_compute; auto 20|]. split; [vm_compute; do 2 eexists; reflexivity|vm_compute; reflexivity].
Qed.
Print Assumptions C30_get_after_failed_flush_refuted.

(** C30, C04: embedDBNext returns 0 when it cannot read a page, as it does after the
    last record.  The second read of a scan fails: the client is told that the
    scan is over after 7 of 27 records. *)
Theorem C30_failed_read_ends_scan_refuted : exists c h fs q n,
  zascending (put_keys h) /\
  ('(s, _) <- go c [] h ;; '(_, ys) <- scan c (with_faults s fs) q n ;; Ok (map fst ys)) = Ok [1; 2; 3; 4; 5; 6; 7] /\
  ('(s, _) <- go c [] h ;; '(_, ys) <- scan c s q n ;; Ok (map fst ys)) = Ok (put_keys h).
Proof.
  exists fA, (puts 27 1 1), [false; true], (mkQ None None None None), 40%nat.
  split; [vm_compute; repeat split|]. split; vm_compute; reflexivity.
Qed.
Print Assumptions C30_failed_read_ends_scan_refuted.

(** C30, C08: embedDBPut ignores the result of reading the last page for its order
    check (embedDB.c:1013-1015) and compares with whatever page the read buffer
    holds.  After a get of key 3 from the first page, one failed read lets a put
    of key 9 succeed although key 17 is stored; without the failure it is refused. *)
Theorem C30_failed_read_admits_old_key_refuted : exists c h fs k d,
  In 17 (put_keys h) /\ k < 17 /\
  ('(s, _) <- go c [] h ;; '(_, x) <- step c (with_faults s fs) (HPut k d) ;; Ok x) = Ok (OPut 0) /\
  ('(s, _) <- go c [] h ;; '(_, x) <- step c s (HPut k d) ;; Ok x) = Ok (OPut 1).
Proof.
  exists fA, (puts 7 1 1 ++ [HFlush] ++ puts 7 11 1 ++ [HFlush; HGet 3]), [true], 9, [1; 2; 3; 4].
  split; [vm_compute; tauto|]. split; [reflexivity|]. split; vm_compute; reflexivity.
Qed.
Print Assumptions C30_failed_read_admits_old_key_refuted.

(** C30, C06: recovery takes a page it cannot read for the end of the data
    (embedDB.c:322-350).  One failed read while opening: embedDBInit returns 0 and
    none of the records is found; without the failure all are. *)
Theorem C30_failed_read_while_opening_refuted : exists c co h fs ks,
  zascending (put_keys h) /\ (forall k, In k ks -> In k (put_keys h)) /\
  ('(s, _) <- go c [] (h ++ [HFlush]) ;; '(s, r) <- embedDBInit co (disk_of s) fs ;;
   '(_, xs) <- run co s (map HGet ks) ;; Ok (r, xs)) = Ok (0, map (fun _ => OGet (-1) None) ks) /\
  ('(s, _) <- go c [] (h ++ [HFlush]) ;; '(s, r) <- embedDBInit co (disk_of s) [] ;;
   '(_, xs) <- run co s (map HGet ks) ;; Ok (r, xs)) = Ok (0, map (fun k => OGet 0 (Some (le_enc 4 (3 * k)))) ks).
Proof.
  exists fA, fAo, (puts 20 1 1), [true], [1; 3; 12; 20].
  split; [vm_compute; repeat split|]. split; [vm_compute; tauto|]. split; vm_compute; reflexivity.
Qed.
Print Assumptions C30_failed_read_while_opening_refuted.

(** C30, C17: embedDBVarDataStreamRead moves the stream before it reads the next
    page, and over the header of that page only after it has read it
    (embedDB.c:1950-1965).  The read of the second page fails and the call returns
    0; repeating it returns the 8 bytes of that page's header and then the payload
    from byte 53 on, as if that were the payload. *)
Definition fV := ex_cfg 64 (16 + 32) 8 2 8 1 None None.
Definition read_twice (fs : list bool) (b : list Z) : res (option (list (list Z))) :=
  '(s, _) <- embedDBInit fV noDisk [] ;; '(s, _) <- vrun fV s [VPut 7 [1; 2; 3; 4] (Some b); VFlush] ;;
  '(s, _, _, st) <- embedDBGetVar fV s 7 ;;
  match st with
  | Some st => '(_, _, xs) <- stream_reads fV (with_faults s fs) st [zlen b; zlen b] ;; Ok (Some xs)
  | None => Ok None
  end.
Theorem C30_failed_stream_read_refuted : exists fs b,
  read_twice fs b = Ok (Some [[]; le_enc 4 1 ++ le_enc 4 7 ++ firstn 40 (skipn 52 b)]) /\
  read_twice [] b = Ok (Some [b; []]).
Proof. exists [true], (map Z.of_nat (seq 1 100)). split; vm_compute; reflexivity. Qed.
Print Assumptions C30_failed_stream_read_refuted.

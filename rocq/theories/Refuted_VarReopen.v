(** Properties of variable-length data over several sessions that the code does not
    have in full generality: concrete executions of the model. *)
From Verif Require Import Base Config Spline Storage DB VarData Recovery Util Spec SpecPage SpecStore Run SpecRun SpecReopen SpecVar SpecVarReopen
  Refuted_Var.
Open Scope Z_scope.

(** [cV] opened without the reset flag. *)
Definition cVr : cfg := ex_cfg 64 16 8 2 8 1 None None.
(** The results of the last [n] events of a lifetime of [cV]. *)
Definition lifeR (n : nat) (es : list vevent) : res (list (option vout)) :=
  '(s, _) <- embedDBInit cV noDisk [] ;; '(_, _, l) <- vlifetime cV s es ;; Ok (skipn (length l - n) l).

(** C06 and C15: an area of one variable page whose header key is 0 is taken for an
    empty one.  After the reopening the page is written over: the flushed payload of
    key 0 is reported as overwritten although one page of eight was in use, and the
    new record, key 5, is delivered with the payload of key 0 (the page left in the
    read buffer by recovery). *)
Theorem C06_var_key_zero_refuted : exists d0 d5,
  lifeR 6 (map VEvOp [VPut 0 d0 (Some (repeat 7 20)); VFlush; VGetVar 0 [30]] ++
           VEvReopen cVr :: map VEvOp [VPut 5 d5 (Some (repeat 9 20)); VFlush; VGetVar 0 [30]; VGetVar 5 [30]]) =
    Ok [Some (OVGetVar 0 (Some d0) (Some [repeat 7 20])); None; Some (OVPut 0); Some (OVFlush 0);
        Some (OVGetVar 1 (Some d0) None); Some (OVGetVar 0 (Some d5) (Some [repeat 7 20]))].
Proof. exists [1; 2; 3; 4], [5; 6; 7; 8]. vm_compute. reflexivity. Qed.
Print Assumptions C06_var_key_zero_refuted.

(** C06 and C16: recovery counts the payloads that begin on the first page it keeps
    as overwritten: after a flush, closing and reopening, the payload of key 9 is
    reported as overwritten although it was served just before. *)
Theorem C06_var_reopen_drops_payload_refuted : exists h k d b,
  lifeR 1 (map VEvOp (h ++ [VFlush; VGetVar k [60]])) = Ok [Some (OVGetVar 0 (Some d) (Some [b]))] /\
  lifeR 1 (map VEvOp (h ++ [VFlush]) ++ [VEvReopen cVr; VEvOp (VGetVar k [60])]) = Ok [Some (OVGetVar 1 (Some d) None)].
Proof. exists (vputsR 16 1 50), 9. eexists. eexists. split; vm_compute; reflexivity. Qed.
Print Assumptions C06_var_reopen_drops_payload_refuted.

(** C07 and C15: embedDBFlush writes the data page before the variable page.  After a
    crash between the two, the record of key 20 is on storage and its payload is not:
    the reopened database returns 0 and delivers the payload of key 4. *)
Definition crashR (h : list vop) (i : nat) (h' : list vop) : res (list vout) :=
  '(s, _) <- vgoR cV h ;;
  match nth_error (trace (sio s)) i with
  | None => UB
  | Some im => '(s, _) <- embedDBInit cVr (disk_of_image im) [] ;; '(_, xs) <- vrun cVr s h' ;; Ok xs
  end.
Theorem C07_var_flush_crash_refuted : exists h k d i,
  payload k (vpay (vstore_of cV h)) = Some (repeat k 20) /\
  crashR (h ++ [VFlush]) i [VGetVar k [30]] = Ok [OVGetVar 0 (Some d) (Some [repeat 4 20])] /\ k <> 4.
Proof. exists (vputsR 20 1 20), 20. eexists. exists 1%nat. split; [vm_compute; reflexivity|]. split; [vm_compute; reflexivity|discriminate]. Qed.
Print Assumptions C07_var_flush_crash_refuted.

(** Record-level consistency with variable data: what a crash inside a put may
    do to the payload.  Concrete executions of the model. *)
From Verif Require Import Base Config Spline Storage DB VarData Recovery Util Spec SpecPage SpecStore Run SpecRun SpecReopen SpecVar SpecRlc SpecRlcVar.
Open Scope Z_scope.

Fixpoint vputsW (n : nat) (k len : Z) : list vop :=
  match n with
  | O => []
  | S n' => VPut k (le_enc 4 (k * 3)) (Some (repeat (k mod 256) (Z.to_nat len))) :: vputsW n' (k + 1) len
  end.
(** 64-byte pages, record-level consistency, variable data; the second to reopen. *)
Definition cRV : cfg := ex_cfg 64 (16 + 32 + 64) 16 2 8 1 None None.
Definition cRVr : cfg := ex_cfg 64 (16 + 64) 16 2 8 1 None None.
Definition wgoR (h : list vop) (o : vop) (i : nat) (h' : list vop) : res (list (option vout)) :=
  '(s, _) <- embedDBInit cRV noDisk [] ;;
  '(_, _, xs) <- wlifetime cRV s (map WOp h ++ WCrash o i [] cRVr :: map WOp h') ;;
  Ok (skipn (length h + 1) xs).

(** C19 and C15: record-level consistency writes the record before its payload.
    If power fails in between, the record survives; its location field points at the
    place where the payload was going to be written.  As long as nothing was stored
    there, the stream lookup fails. *)
Theorem C19_var_crash_no_payload_refuted : exists h o i k d b,
  o = VPut k d (Some b) /\
  wgoR h o i [VGet k; VGetVar k [100]] = Ok [Some (OVGet 0 (Some d)); Some (OVGetVar (-1) (Some d) None)].
Proof. exists (vputsW 3 1 10), (VPut 4 (le_enc 4 12) (Some (repeat 4 10))), 1%nat. eexists. eexists. eexists. split; [reflexivity|]. vm_compute. reflexivity. Qed.
Print Assumptions C19_var_crash_no_payload_refuted.

(** Once the variable area has wrapped, the place still holds the payload of an
    older record: the lookup succeeds and delivers that one, here the bytes of key 4
    for key 12. *)
Theorem C19_var_crash_wrong_payload_refuted : exists h o i k d b,
  o = VPut k d (Some b) /\ b = repeat 12 10 /\
  wgoR h o i [VGetVar k [100]] = Ok [Some (OVGetVar 0 (Some d) (Some [repeat 4 10]))].
Proof. exists (vputsW 11 1 10), (VPut 12 (le_enc 4 36) (Some (repeat 12 10))), 1%nat. eexists. eexists. eexists. split; [reflexivity|]. split; [reflexivity|]. vm_compute. reflexivity. Qed.
Print Assumptions C19_var_crash_wrong_payload_refuted.

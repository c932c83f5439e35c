(** Payload lookups on failing storage: what does not hold (property C30). *)
From Verif Require Import Base Config Storage DB VarData Recovery Spec SpecPage SpecStore Run SpecRun SpecFault SpecVar ExFacts ExVar.
Open Scope Z_scope.

(** Looking up the last of [n] records with payloads of 20 bytes. *)
Definition last_payload (n : nat) (fs : list bool) : res vout :=
  '(s, _) <- embedDBInit eV noDisk [] ;; '(s, _) <- vrun eV s (vputs n 1 20) ;;
  '(_, x) <- getvar_read eV (with_faults s fs) (Z.of_nat n) [40] ;; Ok x.

(** C30: embedDBGetVar writes the variable page when the record is still in the write
    buffer and ignores the result (embedDB.c:1555).  When the write fails it reads what
    the page held before the wrap-around and returns 0 with the payload of another record:
    here record 18 with the payload of record 2. *)
Theorem C30_getvar_ignores_failed_write_refuted : exists n fs,
  last_payload n [] = Ok (OVGetVar 0 (Some (le_enc 4 (3 * Z.of_nat n))) (Some [repeat (Z.of_nat n) 20])) /\
  last_payload n fs = Ok (OVGetVar 0 (Some (le_enc 4 (3 * Z.of_nat n))) (Some [repeat 2 20])) /\ (2 < n)%nat.
Proof. exists 18%nat, [true]. split; [vm_compute; reflexivity|]. split; [vm_compute; reflexivity|]. repeat constructor. Qed.
Print Assumptions C30_getvar_ignores_failed_write_refuted.

(** Results and keys of [n] calls of embedDBNextVar. *)
Fixpoint nextvars (c : cfg) (s : state) (it : iter) (n : nat) : res (list (Z * option Z)) :=
  match n with
  | O => Ok []
  | S n => '(s, it, r, o, _) <- embedDBNextVar c s it ;; l <- nextvars c s it n ;; Ok ((r, option_map fst o) :: l)
  end.
Definition scan_var (h : list vop) (fs : list bool) (n : nat) : res (list (Z * option Z)) :=
  '(s, _) <- embedDBInit eV noDisk [] ;; '(s, _) <- vrun eV s h ;;
  it <- embedDBInitIterator eV s None None None None ;; nextvars eV (with_faults s fs) it n.

(** C30: embedDBNextVar returns 0, as at the end of a scan, when a page of variable data
    cannot be read, but the iterator has moved on: the record is lost for the scan (unlike
    embedDBNext, C30_next_can_be_repeated). *)
Theorem C30_nextvar_skips_record_refuted : exists h fs,
  scan_var h [] 4 = Ok [(1, Some 1); (1, Some 2); (1, Some 3); (1, Some 4)] /\
  scan_var h fs 4 = Ok [(0, Some 1); (1, Some 2); (1, Some 3); (1, Some 4)].
Proof. exists (vputs 10 1 20 ++ [VFlush]), [false; true]. split; vm_compute; reflexivity. Qed.
Print Assumptions C30_nextvar_skips_record_refuted.

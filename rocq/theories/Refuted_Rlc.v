(** Record-level consistency: what the code does not guarantee outside the
    hypotheses of Props_Rlc.v, shown by concrete executions of the model. *)
From Verif Require Import Base Config Storage DB Recovery Spec SpecPage SpecStore Run SpecRun SpecIter SpecReopen SpecRlc
  RlcThms ExFacts ExReopen ExRlc.
Open Scope Z_scope.

(** embedDBFlush does not move the reserved blocks when the page it writes is the
    last one of a block, so later pages are written into them. *)

(** C19: after such a flush and eight more puts, stopping and reopening loses the
    ten records flushed before, although only 4 of the 8 pages are used. *)
Theorem C19_flush_at_block_end_refuted : exists c c' es,
  rlc_db c (2 ^ 31) (2 ^ 31) /\ useVar c = false /\ rlc_ok c (2 ^ 31) (2 ^ 31) es /\
  es = map RvOp (puts 10 1 1 ++ [HFlush] ++ puts 8 11 1) ++ [RvStop [] c'] /\
  match after c es with
  | Ok (_, _, xs) => filter (fun x => match x with Some (OPut r) => negb (r =? 0) | _ => false end) xs = []
  | _ => False
  end /\
  getting c es [1; 10; 11; 18] = Ok [OGet (-1) None; OGet (-1) None; OGet 0 (Some (le_enc 4 33)); OGet 0 (Some (le_enc 4 54))].
Proof.
  exists eR, eRr, (map (rev_of eRr) (map ROp (puts 10 1 1 ++ [HFlush] ++ puts 8 11 1) ++ [RStop []])).
  split; [exact eR_db|]. split; [reflexivity|]. split; [apply rlc_okb_ok; [constructor; reflexivity|exact eRr_db|reflexivity|vm_compute; discriminate|vm_compute; reflexivity]|].
  split; [reflexivity|]. split; vm_compute; reflexivity.
Qed.
Print Assumptions C19_flush_at_block_end_refuted.

(** C20 and C01: the temporary pages overwrite and the erases destroy the pages
    sealed after such a flush: without any crash, acknowledged records that
    should be retained are not found. *)
Theorem C20_flush_at_block_end_refuted : exists c h,
  rlc_db c (2 ^ 31) (2 ^ 31) /\ useVar c = false /\ Forall (op_plain c (2 ^ 31)) h /\ zascending (put_keys h) /\
  match go c [] h with
  | Ok (s, xs) => filter (fun x => match x with OPut r => negb (r =? 0) | _ => false end) xs = [] /\
                  outs (run c s (map HGet [10; 11; 17; 18])) =
                  Ok [OGet 0 (Some (le_enc 4 30)); OGet (-1) None; OGet (-1) None; OGet 0 (Some (le_enc 4 54))]
  | _ => False
  end.
Proof.
  exists eR, (puts 10 1 1 ++ [HFlush] ++ puts 12 11 1). split; [exact eR_db|]. split; [reflexivity|].
  split; [apply ops_plain; vm_compute; reflexivity|]. split; [apply zascb_ok; vm_compute; reflexivity|].
  vm_compute. auto.
Qed.
Print Assumptions C20_flush_at_block_end_refuted.

(** C31: a get may then read outside the page buffer (an erased page holds a
    record count of 65535). *)
Theorem C31_rlc_flush_get_refuted : exists c h k,
  rlc_db c (2 ^ 31) (2 ^ 31) /\ useVar c = false /\ Forall (op_plain c (2 ^ 31)) h /\ zascending (put_keys h) /\
  match go c [] h with Ok (s, _) => step c s (HGet k) = UB | _ => False end.
Proof.
  exists eR, (puts 10 1 1 ++ [HFlush] ++ puts 20 11 1), 18. split; [exact eR_db|]. split; [reflexivity|].
  split; [apply ops_plain; vm_compute; reflexivity|]. split; [apply zascb_ok; vm_compute; reflexivity|].
  vm_compute. reflexivity.
Qed.
Print Assumptions C31_rlc_flush_get_refuted.

(** C19: the read buffer is not invalidated when the physical page it holds is
    overwritten: after a get of key 1, 43 more puts and a wrap-around, the page
    with keys 57 to 63 is not found, although it was just written.  Reopening
    finds it again. *)
Theorem C19_stale_read_buffer_refuted : exists c c' es ks,
  rlc_db c (2 ^ 31) (2 ^ 31) /\ useVar c = false /\ rlc_ok c (2 ^ 31) (2 ^ 31) es /\
  es = map RvOp (puts 21 1 1 ++ [HGet 1] ++ puts 43 22 1) /\ ks = [57; 60; 63] /\
  getting c es ks = Ok [OGet (-1) None; OGet (-1) None; OGet (-1) None] /\
  getting c (es ++ [RvStop [] c']) ks = Ok (map (fun k => OGet 0 (Some (le_enc 4 (k * 3)))) ks).
Proof.
  exists eR, eRr, (map (rev_of eRr) (map ROp (puts 21 1 1 ++ [HGet 1] ++ puts 43 22 1))), [57; 60; 63]. split; [exact eR_db|]. split; [reflexivity|].
  split; [apply rlc_okb_ok; [constructor; reflexivity|exact eRr_db|reflexivity|vm_compute; discriminate|vm_compute; reflexivity]|].
  split; [reflexivity|]. split; [reflexivity|]. split; vm_compute; reflexivity.
Qed.
Print Assumptions C19_stale_read_buffer_refuted.

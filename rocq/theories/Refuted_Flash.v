(** Where flash storage is not used as it must be (property C39): concrete executions
    of the model in which a page that holds data changes without an erase. *)
From Verif Require Import Base Config Spline Storage DB VarData Recovery Util Spec SpecPage Run SpecRun SpecFlash FlashThms.
Open Scope Z_scope.

Definition gA := ex_cfg 64 32 8 2 8 1 (Some 255) None.
Definition gAo := ex_cfg 64 0 8 2 8 1 (Some 255) None.
Definition gR := ex_cfg 64 96 8 2 8 1 (Some 255) None.
Definition gR1 := ex_cfg 64 96 8 1 8 1 (Some 255) None.

(** C39: after reopening a database whose data area has wrapped around and whose last
    session stopped at the end of an erase block, the first write goes to a page that
    still holds old records: recovery takes the block for erased. *)
Theorem C39_reopen_refuted : exists c co x h h' s xs s1 s2 ys,
  zascending (put_keys (h ++ h')) /\ eraseFill c = Some x /\ useRLC c = false /\
  go c [] h = Ok (s, xs) /\ embedDBInit co (disk_of s) [] = Ok (s1, 0) /\ trace (sio s1) = [] /\
  run co s1 h' = Ok (s2, ys) /\ ~ no_overwrite co x (trace (sio s2)) (image_of s1).
Proof.
  exists gA, gAo, 255, (puts 73 1 1), (puts 22 1000 1).
  assert (C : match go gA [] (puts 73 1 1) with
              | Ok (s, _) => match embedDBInit gAo (disk_of s) [] with
                | Ok (s1, r) => r = 0 /\ trace (sio s1) = [] /\ match run gAo s1 (puts 22 1000 1) with
                  | Ok (s2, _) => over_at gAo 255 3 2 (trace (sio s2)) (image_of s1) = true
                  | _ => False end
                | _ => False end
              | _ => False end) by (vm_compute; auto).
  destruct (go gA [] (puts 73 1 1)) as [[s xs]| |]; try contradiction.
  destruct (embedDBInit gAo (disk_of s) []) as [[s1 r]| |] eqn:E1; try contradiction. destruct C as (-> & T & C).
  destruct (run gAo s1 (puts 22 1000 1)) as [[s2 ys]| |] eqn:E2; try contradiction.
  exists s, xs, s1, s2, ys. split; [vm_compute; repeat split|]. split; [reflexivity|]. split; [reflexivity|]. split; [reflexivity|].
  split; [exact E1|]. split; [exact T|]. split; [exact E2|]. exact (over_at_ok _ _ _ _ _ _ C).
Qed.
Print Assumptions C39_reopen_refuted.

Lemma go_over c x i q fs h n : match go c fs h with
    | Ok (s, xs) => over_at c x i q (trace (sio s)) (emptyFile, emptyFile, emptyFile) = true /\ length xs = n
    | _ => False end ->
  exists s xs, go c fs h = Ok (s, xs) /\ length xs = n /\ ~ no_overwrite c x (trace (sio s)) (emptyFile, emptyFile, emptyFile).
Proof.
  destruct (go c fs h) as [[s xs]| |]; try contradiction. intros (H & L). exists s, xs. split; [reflexivity|]. split; [exact L|].
  exact (over_at_ok _ _ _ _ _ _ H).
Qed.

(** C39: with record-level consistency, flushing writes a page without moving the
    temporary pages ahead: pages that hold temporary records are overwritten. *)
Fixpoint flushed (n : nat) (k : Z) : list hop :=
  match n with O => [] | S n' => HPut k (le_enc 4 k) :: HFlush :: flushed n' (k + 1) end.
Theorem C39_rlc_flush_refuted : exists c x h,
  zascending (put_keys h) /\ useRLC c = true /\ eraseFill c = Some x /\ 2 <= eraseSize c /\
  exists s xs, go c [] h = Ok (s, xs) /\ length xs = length h /\
    ~ no_overwrite c x (trace (sio s)) (emptyFile, emptyFile, emptyFile).
Proof.
  exists gR, 255, (flushed 12 1).
  split; [vm_compute; repeat split|]. split; [reflexivity|]. split; [reflexivity|]. split; [vm_compute; discriminate|].
  apply (go_over gR 255 27 2). vm_compute. auto.
Qed.
Print Assumptions C39_rlc_flush_refuted.

(** C39: with record-level consistency and erase blocks of one page, which
    embedDBInit accepts, temporary pages are never erased, and the third put
    overwrites the page of the first. *)
Theorem C39_rlc_single_page_blocks_refuted : exists c x h,
  zascending (put_keys h) /\ eraseFill c = Some x /\ eraseSize c = 1 /\ ~ In HFlush h /\
  exists s xs, go c [] h = Ok (s, xs) /\ length xs = length h /\
    ~ no_overwrite c x (trace (sio s)) (emptyFile, emptyFile, emptyFile).
Proof.
  exists gR1, 255, (puts 3 1 1).
  split; [vm_compute; repeat split|]. split; [reflexivity|]. split; [reflexivity|]. split; [intros [H|[H|[H|[]]]]; discriminate|].
  apply (go_over gR1 255 0 1). vm_compute. auto.
Qed.
Print Assumptions C39_rlc_single_page_blocks_refuted.

(** C39: a write that fails once advances the page number but not the count of free
    pages; after that the block that is erased is no longer the one written next. *)
Theorem C39_failed_write_refuted : exists c x fs h,
  zascending (put_keys h) /\ eraseFill c = Some x /\ useRLC c = false /\ count_occ Bool.bool_dec fs true = 1%nat /\
  exists s xs, go c fs h = Ok (s, xs) /\ length xs = length h /\
    ~ no_overwrite c x (trace (sio s)) (emptyFile, emptyFile, emptyFile).
Proof.
  exists gA, 255, [false; false; true], (puts 3 1 1 ++ [HFlush] ++ puts 80 10 1).
  split; [vm_compute; repeat split|]. split; [reflexivity|]. split; [reflexivity|]. split; [reflexivity|].
  apply (go_over gA 255 5 0). vm_compute. auto.
Qed.
Print Assumptions C39_failed_write_refuted.

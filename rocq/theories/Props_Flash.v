(** How flash storage is used (property C39), and that reading calls change nothing
    (property C32).

    [flash_run c a t P b] (SpecFlash.v): from the image [a] of the three areas, with
    nothing programmed, the images [t], newest first, come about by programming pages
    that are not programmed and by erasing whole aligned blocks; [P] are the pages
    programmed at the end.  [calls c s0 os]: any calls, with any arguments, return or
    fail as they like. *)
From Verif Require Import Base Config Storage DB VarData Recovery Util Spec SpecPage SpecStore Run SpecRun
  SpecFlash FlashFacts FlashThms.
Open Scope Z_scope.

(** C39: without record-level consistency, in a session that starts empty, every
    storage operation of every sequence of calls programs an unprogrammed page or
    erases one aligned block: of the data, the index and the variable area. *)
Theorem C39_flash_discipline :
  forall c dk s0 os s, sizes c -> useReset c = true -> useRLC c = false ->
  embedDBInit c dk [] = Ok (s0, 0) -> (In CFlushVar os -> useVar c = true) ->
  calls c s0 os = Ok s -> zlen (trace (sio s)) < 2 ^ 32 - 2 ->
  exists P, flash_run c (image_of s0) (trace (sio s)) P (image_of s).
Proof. exact flash_thm. Qed.
Print Assumptions C39_flash_discipline.

(** C39: with record-level consistency the same holds for blocks of at least two
    pages if embedDBFlush is not called; Refuted_Flash.v shows that both conditions
    are needed. *)
Theorem C39_flash_discipline_rlc_partial :
  forall c dk s0 os s, sizes c -> 2 <= eraseSize c -> numData c < 2 ^ 31 -> useReset c = true -> useRLC c = true ->
  embedDBInit c dk [] = Ok (s0, 0) -> (In CFlushVar os -> useVar c = true) -> ~ In CFlush os ->
  calls c s0 os = Ok s -> zlen (trace (sio s)) < 2 ^ 32 - 2 ->
  exists P, flash_run c (image_of s0) (trace (sio s)) P (image_of s).
Proof. exact flash_rlc_thm. Qed.
Print Assumptions C39_flash_discipline_rlc_partial.

(** C39, in terms of contents: on storage whose erase leaves the byte [x], a page only
    ever changes by an erase, or from the erased state. *)
Theorem C39_no_overwrite :
  forall c x dk s0 os s, sizes c -> useReset c = true -> useRLC c = false -> eraseFill c = Some x ->
  embedDBInit c dk [] = Ok (s0, 0) -> (In CFlushVar os -> useVar c = true) ->
  calls c s0 os = Ok s -> zlen (trace (sio s)) < 2 ^ 32 - 2 ->
  no_overwrite c x (trace (sio s)) (image_of s0).
Proof. exact no_overwrite_plain. Qed.
Print Assumptions C39_no_overwrite.

Theorem C39_no_overwrite_rlc_partial :
  forall c x dk s0 os s, sizes c -> 2 <= eraseSize c -> numData c < 2 ^ 31 -> useReset c = true -> useRLC c = true ->
  eraseFill c = Some x -> embedDBInit c dk [] = Ok (s0, 0) -> (In CFlushVar os -> useVar c = true) -> ~ In CFlush os ->
  calls c s0 os = Ok s -> zlen (trace (sio s)) < 2 ^ 32 - 2 ->
  no_overwrite c x (trace (sio s)) (image_of s0).
Proof. exact no_overwrite_rlc. Qed.
Print Assumptions C39_no_overwrite_rlc_partial.

(** C32: in every state and configuration and under every schedule of faults, a get,
    an iterator step and a stream read change nothing but the read buffers. *)
Theorem C32_reads_change_nothing :
  forall c s o s', reading o = true -> call_step c s o = Ok s' -> read_only s s'.
Proof. exact reading_ro. Qed.
Print Assumptions C32_reads_change_nothing.

(** Data, index and variable area of 8 pages of 64 bytes in blocks of 2; all wrap. *)
Definition eF := ex_cfg 64 (32 + 16 + 8 + 1) 8 2 8 1 (Some 255) None.
Fixpoint cputs (n : nat) (k : Z) : list call :=
  match n with
  | O => []
  | S n' => CPutVar k (le_enc 4 (k * 3)) (if k mod 3 =? 0 then None else Some (repeat (k mod 256) 13)) :: cputs n' (k + 1)
  end.
Definition hF : list call := cputs 160 1 ++ [CFlush; CGetVar 159; CFlushVar] ++ cputs 104 200 ++ [CGet 290; CFlush; CPut 1000 (le_enc 4 1)].
(** Record-level consistency with variable data. *)
Definition eFR := ex_cfg 64 (32 + 64 + 16) 8 2 8 1 (Some 255) None.
Fixpoint rputs (n : nat) (k : Z) : list call :=
  match n with O => [] | S n' => CPutVar k (le_enc 4 (k * 3)) (Some (repeat (k mod 256) 13)) :: CGet (k - 3) :: rputs n' (k + 1) end.

Ltac sizes_ex := constructor; [reflexivity|vm_compute; reflexivity|split; vm_compute; reflexivity|intros _; split; vm_compute; reflexivity|intros _; split; vm_compute; reflexivity].
Lemma eF_sizes : sizes eF. Proof. sizes_ex. Qed.
Lemma eFR_sizes : sizes eFR. Proof. sizes_ex. Qed.

Example C39_example : exists s0 s P, embedDBInit eF noDisk [] = Ok (s0, 0) /\ calls eF s0 hF = Ok s /\
  zlen (trace (sio s)) = 204 /\ flash_run eF (image_of s0) (trace (sio s)) P (image_of s) /\
  no_overwrite eF 255 (trace (sio s)) (image_of s0).
Proof.
  assert (C : match embedDBInit eF noDisk [] with
              | Ok (s0, r) => r = 0 /\ match calls eF s0 hF with Ok s => zlen (trace (sio s)) = 204 | _ => False end
              | _ => False end) by (vm_compute; split; reflexivity).
  destruct (embedDBInit eF noDisk []) as [[s0 r]| |] eqn:E0; try contradiction. destruct C as (-> & C).
  destruct (calls eF s0 hF) as [s| |] eqn:E; try contradiction.
  destruct (C39_flash_discipline eF noDisk s0 hF s eF_sizes eq_refl eq_refl E0 (fun _ => eq_refl) E) as (P & HP); [rewrite C; reflexivity|].
  exists s0, s, P. split; [reflexivity|]. split; [exact E|]. split; [exact C|]. split; [exact HP|].
  apply (C39_no_overwrite eF 255 noDisk s0 hF s eF_sizes eq_refl eq_refl eq_refl E0 (fun _ => eq_refl) E). rewrite C. reflexivity.
Qed.

Example C39_rlc_example : exists s0 s P, embedDBInit eFR noDisk [] = Ok (s0, 0) /\ calls eFR s0 (rputs 90 1) = Ok s /\
  zlen (trace (sio s)) = 311 /\ flash_run eFR (image_of s0) (trace (sio s)) P (image_of s) /\
  no_overwrite eFR 255 (trace (sio s)) (image_of s0).
Proof.
  assert (C : match embedDBInit eFR noDisk [] with
              | Ok (s0, r) => r = 0 /\ match calls eFR s0 (rputs 90 1) with Ok s => zlen (trace (sio s)) = 311 | _ => False end
              | _ => False end) by (vm_compute; split; reflexivity).
  destruct (embedDBInit eFR noDisk []) as [[s0 r]| |] eqn:E0; try contradiction. destruct C as (-> & C).
  destruct (calls eFR s0 (rputs 90 1)) as [s| |] eqn:E; try contradiction.
  assert (B : 2 <= eraseSize eFR) by (vm_compute; discriminate).
  assert (NF : forall n k, ~ In CFlush (rputs n k)).
  { induction n as [|n IH]; intros k; cbn [rputs]; [easy|]. intros [H|[H|H]]; [discriminate|discriminate|]. exact (IH _ H). }
  assert (L : zlen (trace (sio s)) < 2 ^ 32 - 2) by (rewrite C; reflexivity).
  destruct (C39_flash_discipline_rlc_partial eFR noDisk s0 (rputs 90 1) s eFR_sizes B eq_refl eq_refl eq_refl E0 (fun _ => eq_refl) (NF _ _) E L) as (P & HP).
  exists s0, s, P. split; [reflexivity|]. split; [exact E|]. split; [exact C|]. split; [exact HP|].
  exact (C39_no_overwrite_rlc_partial eFR 255 noDisk s0 (rputs 90 1) s eFR_sizes B eq_refl eq_refl eq_refl eq_refl E0 (fun _ => eq_refl) (NF _ _) E L).
Qed.

Example C32_reads_example : exists s s', go eF [false; true] (puts 60 1 1) = Ok (s, repeat (OPut 0) 60) /\
  call_step eF s (CGet 36) = Ok s' /\ bufD (sd s') <> bufD (sd s) /\ read_only s s'.
Proof.
  assert (C : match go eF [false; true] (puts 60 1 1) with
              | Ok (s, xs) => xs = repeat (OPut 0) 60 /\ match call_step eF s (CGet 36) with Ok s' => bufD (sd s') <> bufD (sd s) | _ => False end
              | _ => False end) by (vm_compute; split; [reflexivity|discriminate]).
  destruct (go eF [false; true] (puts 60 1 1)) as [[s xs]| |]; try contradiction. destruct C as (-> & C).
  destruct (call_step eF s (CGet 36)) as [s'| |] eqn:E; try contradiction.
  exists s, s'. split; [reflexivity|]. split; [exact E|]. split; [exact C|]. exact (C32_reads_change_nothing eF s (CGet 36) s' eq_refl E).
Qed.

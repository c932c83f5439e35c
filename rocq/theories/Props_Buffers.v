(** Theorems about the array of page buffers (property C45).  DB.v, VarData.v and
    Recovery.v keep the page buffers as separate pages and let every access outside one
    page be undefined; these theorems justify that for sequences of accesses.  Missing:
    the reduction of each function of these files to such a sequence.  With fewer than
    two blocks the data read buffer lies outside the array (Refuted_Buffers.v). *)
From Verif Require Import Base Config Storage DB Recovery SpecPage Run SpecInit ExFacts ExRlcVar Buffers SpecBuffers BuffersFacts.
Open Scope Z_scope.

(** C45: once embedDBInit has accepted the configuration, every sequence of accesses
    to buffers in use that is defined on separate pages is defined on the array, reads the same bytes, and
    leaves the same pages in it. *)
Theorem C45_buffers_separate_partial :
  forall c k fs s m os f f' xs,
  embedDBInit c k fs = Ok (s, 0) -> data_room c -> 0 <= pageSize c ->
  represents c m f -> Forall (bop_ok c) os -> buf_run c f os = Ok (f', xs) ->
  exists m', flat_run c m (map (numbered c) os) = Ok (m', xs) /\ represents c m' f'.
Proof. exact buffers_separate. Qed.
Print Assumptions C45_buffers_separate_partial.

(** C45: every array of bufferSizeInBlocks pages is such a family of pages at the start. *)
Theorem C45_buffers_represented :
  forall c k fs s m,
  embedDBInit c k fs = Ok (s, 0) -> data_room c -> 0 <= pageSize c -> zlen m = bufBlocks c * pageSize c ->
  exists f, represents c m f.
Proof. exact buffers_represented. Qed.
Print Assumptions C45_buffers_represented.

(** Index and variable data: all six buffers. *)
Definition bX := ex_cfg 64 (1 + 2 + 8 + 16 + 32) 8 2 8 1 None None.
Definition bX_ops : list (bop role) :=
  [BInit DataWrite; BInit IndexWrite; BInit VarWrite;
   BStore DataWrite 56 (le_enc 8 77); BStore VarWrite 0 [9; 9; 9; 9];
   BFill DataRead (repeat 5 64); BFill IndexRead (repeat 6 64); BFill VarRead (repeat 7 64);
   BStore IndexWrite 60 [1; 2; 3; 4];
   BLoad DataWrite 56 8; BLoad DataRead 0 4; BLoad IndexRead 60 4; BLoad VarWrite 0 6;
   BCopy DataWrite DataRead; BCopy VarWrite VarRead; BLoad VarWrite 62 2; BOut DataWrite].
Lemma buffers_case c m os n ys :
  match embedDBInit c noDisk [] with Ok (_, r) => r =? 0 | _ => false end = true ->
  useIndex c = true -> 0 <= pageSize c -> zlen m = bufBlocks c * pageSize c -> Forall (bop_ok c) os ->
  match buf_run c (fun b : role => rd m (Z.to_nat (pageSize c * number c b)) (psz c)) os with Ok (_, xs) => skipn n xs = ys | _ => False end ->
  exists s f f' xs m', embedDBInit c noDisk [] = Ok (s, 0) /\ represents c m f /\ buf_run c f os = Ok (f', xs) /\
    flat_run c m (map (numbered c) os) = Ok (m', xs) /\ represents c m' f' /\ skipn n xs = ys.
Proof.
  intros I U P L F C. destruct (embedDBInit c noDisk []) as [[s r]| |] eqn:E; try discriminate I. apply Z.eqb_eq in I. subst r.
  assert (D : data_room c) by now left.
  pose proof (rep_exists c m P (init_room _ _ _ _ E D) L) as R.
  destruct (buf_run c _ os) as [[f' xs]| |] eqn:Q in C; try contradiction.
  destruct (C45_buffers_separate_partial _ _ _ _ _ _ _ _ _ E D P R F Q) as (m' & G & R').
  exists s. eexists. exists f', xs, m'. split; [reflexivity|]. split; [exact R|]. auto.
Qed.
Example C45_buffers_example : exists s f f' xs m', let m := repeat 171 (Z.to_nat (6 * 64)) in
  embedDBInit bX noDisk [] = Ok (s, 0) /\ represents bX m f /\ buf_run bX f bX_ops = Ok (f', xs) /\
  flat_run bX m (map (numbered bX) bX_ops) = Ok (m', xs) /\ represents bX m' f' /\
  skipn 9 xs = [[77; 0; 0; 0; 0; 0; 0; 0]; [5; 5; 5; 5]; [6; 6; 6; 6]; [9; 9; 9; 9; 0; 0]; []; []; [7; 7]; repeat 5 64].
Proof.
  cbv zeta. apply buffers_case.
  - vm_compute. reflexivity.
  - vm_compute. reflexivity.
  - vm_compute. discriminate.
  - vm_compute. reflexivity.
  - assert (U : useIndex bX = true) by (vm_compute; reflexivity). assert (V : useVar bX = true) by (vm_compute; reflexivity).
    unfold bX_ops. repeat apply Forall_cons; [..|apply Forall_nil]; cbn [bop_ok in_use]; auto.
  - vm_compute. reflexivity.
Qed.

(** Reading pages through the buffer over the desktop and SD interfaces (property C47).
    [reads rdr ps k ns]: the results of readPage, over the interface
    with the function [rdr], for the pages [ns], one after the other, and the
    buffer after each call.  [honest]: a result of 0 means that the buffer holds the page.
    [complete]: 0 is returned exactly for the pages that the file has. *)
From Verif Require Import Base Config Storage DB Recovery Run Drivers SpecDrivers ExFacts ExDrivers DriverFacts DriverRead SpecDriverRead DriverReadFacts.
Open Scope Z_scope.

(** C47, desktop, for files of whole pages below 4 GiB, when no seek fails and failing transfers have not
    moved any byte ([clean]).  Refuted_DriverRead.v shows that each of these is needed. *)
Theorem C47_reads_honest_partial : forall c f num k ns,
  0 < pageSize c -> num * pageSize c < 2 ^ 32 -> bytes_of (pageSize c) (bts (cdev k)) f -> zlen (cbuf k) = pageSize c ->
  num <= cid k \/ file_read f (cid k) = Some (cbuf k) -> clean (fates (cdev k)) -> Forall (fun n => 0 <= n < num) ns ->
  Forall2 (honest f) ns (snd (reads desk_read (pageSize c) k ns)) /\
  (fates (cdev k) = [] -> Forall2 (complete f) ns (snd (reads desk_read (pageSize c) k ns))).
Proof. exact desk_reads_thm. Qed.
Print Assumptions C47_reads_honest_partial.

(** C47, SD card, moreover for pages below 32768 bytes and reads that do not start behind the end
    of the file. *)
Theorem C47_sd_reads_honest_partial : forall c f num k ns,
  0 < pageSize c < 2 ^ 15 -> num * pageSize c < 2 ^ 32 -> bytes_of (pageSize c) (bts (cdev k)) f -> zlen (cbuf k) = pageSize c ->
  num <= cid k \/ file_read f (cid k) = Some (cbuf k) -> clean (fates (cdev k)) -> Forall (fun n => 0 <= n < num /\ n <= flen f) ns ->
  Forall2 (honest f) ns (snd (reads sd_read (pageSize c) k ns)) /\
  (fates (cdev k) = [] -> Forall2 (complete f) ns (snd (reads sd_read (pageSize c) k ns))).
Proof. exact sd_reads_thm. Qed.
Print Assumptions C47_sd_reads_honest_partial.

(** Three pages of 10 bytes, the third read of the file fails, page 7 is behind the end. *)
Definition f3 : file := mkFile 3 (fun q => pg 10 (q + 1)).
Definition k3 : cache := mkCache (pg 10 99) (2 ^ 32 - 1) (mkDev (pg 10 1 ++ pg 10 2 ++ pg 10 3) 4 [Fine; Fine; Fine; Fine; Fine; Bad 0]).
Lemma f3_bytes : bytes_of 10 (bts (cdev k3)) f3.
Proof.
  constructor; [reflexivity|discriminate|]. intros q Hq. change (flen f3) with 3 in Hq.
  assert (E : q = 0 \/ q = 1 \/ q = 2) by lia. destruct E as [->|[->| ->]]; vm_compute; reflexivity.
Qed.
Example C47_sd_reads_example :
  Forall2 (honest f3) [0; 2; 1; 3; 1] (snd (reads sd_read 10 k3 [0; 2; 1; 3; 1])) /\
  snd (reads sd_read 10 k3 [0; 2; 1; 3; 1]) = [(0, pg 10 1); (0, pg 10 3); (-1, pg 10 3); (-1, pg 10 3); (0, pg 10 2)].
Proof.
  split; [|vm_compute; reflexivity].
  apply (C47_sd_reads_honest_partial (e10 false) f3 8 k3); try reflexivity.
  - split; reflexivity.
  - exact f3_bytes.
  - left. discriminate.
  - repeat constructor.
  - repeat (constructor; [cbn [flen f3]; lia|]). constructor.
Qed.
Example C47_reads_example :
  Forall2 (honest f3) [0; 0; 2; 1; 2; 7; 1] (snd (reads desk_read 10 k3 [0; 0; 2; 1; 2; 7; 1])) /\
  snd (reads desk_read 10 k3 [0; 0; 2; 1; 2; 7; 1]) =
    [(0, pg 10 1); (0, pg 10 1); (0, pg 10 3); (-1, pg 10 3); (0, pg 10 3); (-1, pg 10 3); (0, pg 10 2)].
Proof.
  split; [|vm_compute; reflexivity].
  apply (C47_reads_honest_partial (e10 false) f3 8 k3); try reflexivity.
  - exact f3_bytes.
  - left. discriminate.
  - repeat constructor.
  - repeat (constructor; [lia|]). constructor.
Qed.

(** Reading pages through the buffer: what fails (property C47). *)
From Verif Require Import Base Config Storage DB Recovery Spec SpecPage SpecStore Run SpecRun Drivers SpecDrivers ExFacts ExDrivers DriverRead SpecDriverRead.
Open Scope Z_scope.

(** Two pages of records that the database wrote. *)
Definition pages2 : page * page :=
  match kD (left_by eA (puts 12 1 1 ++ [HFlush])) with Some f => (fpg f 0, fpg f 1) | None => ([], []) end.
Definition pA := fst pages2.
Definition pB := snd pages2.

(** C47: a read that fails half way leaves part of another page in the buffer, but the number of
    the page that was there before.  The next read of that page is answered from the buffer with
    success, and a key of the page is not found. *)
Theorem C47_short_read_refuted : exists c k ns b key x,
  bts (cdev k) = pA ++ pB /\ fates (cdev k) = [Fine; Fine; Fine; Bad 30] /\ ns = [0; 1; 0] /\
  map fst (snd (reads desk_read (pageSize c) k ns)) = [0; -1; 0] /\ nth_error (snd (reads desk_read (pageSize c) k ns)) 2 = Some (0, b) /\ b <> pA /\
  searchBuffer c pA key = Ok (0, Some x) /\ searchBuffer c b key = Ok (-1, None).
Proof.
  exists eA, (mkCache (pg 64 0) (2 ^ 32 - 1) (mkDev (pA ++ pB) 0 [Fine; Fine; Fine; Bad 30])), [0; 1; 0]. eexists _, 1, _.
  split; [reflexivity|]. split; [reflexivity|]. split; [reflexivity|]. split; [vm_compute; reflexivity|]. split; [vm_compute; reflexivity|].
  split; [vm_compute; discriminate|]. split; vm_compute; reflexivity.
Qed.
Print Assumptions C47_short_read_refuted.

(** C47: the same without any failing call if the last page of the file is incomplete, as after
    a crash during a write. *)
Theorem C47_incomplete_page_refuted : exists c k ns b key x,
  bts (cdev k) = pA ++ firstn 30 pB /\ fates (cdev k) = [] /\ ns = [0; 1; 0] /\
  map fst (snd (reads desk_read (pageSize c) k ns)) = [0; -1; 0] /\ nth_error (snd (reads desk_read (pageSize c) k ns)) 2 = Some (0, b) /\ b <> pA /\
  searchBuffer c pA key = Ok (0, Some x) /\ searchBuffer c b key = Ok (-1, None).
Proof.
  exists eA, (mkCache (pg 64 0) (2 ^ 32 - 1) (mkDev (pA ++ firstn 30 pB) 0 [])), [0; 1; 0]. eexists _, 1, _.
  split; [reflexivity|]. split; [reflexivity|]. split; [reflexivity|]. split; [vm_compute; reflexivity|]. split; [vm_compute; reflexivity|].
  split; [vm_compute; discriminate|]. split; vm_compute; reflexivity.
Qed.
Print Assumptions C47_incomplete_page_refuted.

(** C47: after a failed seek, the page at the old position is taken for the one asked for,
    here for page 5 of a file of two pages. *)
Theorem C47_failed_seek_refuted : exists c k,
  bts (cdev k) = pA ++ pB /\ fates (cdev k) = [Fine; Fine; Bad 0; Fine] /\ pA <> pB /\
  snd (reads desk_read (pageSize c) k [0; 5]) = [(0, pA); (0, pB)].
Proof.
  exists eA, (mkCache (pg 64 0) (2 ^ 32 - 1) (mkDev (pA ++ pB) 0 [Fine; Fine; Bad 0; Fine])).
  split; [reflexivity|]. split; [reflexivity|]. split; [vm_compute; discriminate|]. vm_compute. reflexivity.
Qed.
Print Assumptions C47_failed_seek_refuted.

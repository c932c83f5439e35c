(** The storage interfaces when calls of the C library or of SdFat fail (property C40).
    [fates d] are the fates of the library calls to come: [Bad k] fails after moving [k]
    bytes.  [confined ps q b b']: only pages that the call [q] writes have changed.
    Refuted_Drivers.v shows what remains: failed seeks on the desktop, and failed writes
    of a whole page on an SD card. *)
From Verif Require Import Base Config Storage Drivers SpecDrivers SpecDriverFault DriverFacts DriverFaultFacts ExDrivers.
Open Scope Z_scope.

(** C40, desktop: after a seek that worked, a read, write or mock erase that moves fewer
    bytes than asked for is reported by 0, and changes no other page. *)
Theorem C40_desktop_failed_transfer :
  forall mock ps num d q k fs,
  0 < ps -> num * ps < 2 ^ 32 -> fates d = Fine :: Bad k :: fs -> req_ok ps num q -> Z.of_nat k < moved mock ps q ->
  exists d' a, desk_step mock ps d q = Ok (d', a) /\ result a = 0 /\ confined ps q (bts d) (bts d').
Proof. exact desk_fault. Qed.
Print Assumptions C40_desktop_failed_transfer.

(** C40, SD card: whatever library calls fail, a call returns and changes no page but the
    one it writes. *)
Theorem C40_sd_failures_confined :
  forall bits ps num d q,
  4 <= ps -> 0 <= bits <= 32 -> num * ps <= 2 ^ bits -> zlen (bts d) < 2 ^ bits -> req_ok ps num q -> q <> QOpen true ->
  exists d' a, sd_step bits ps d q = Ok (d', a) /\ confined ps q (bts d) (bts d').
Proof. exact sd_any. Qed.
Print Assumptions C40_sd_failures_confined.

(** C40, SD card: a write behind the end of the file is reported by -1 when any of the
    writes that fill the gap is incomplete. *)
Theorem C40_sd_failed_gap :
  forall bits ps num d n p j k fs,
  4 <= ps -> 0 <= bits <= 32 -> num * ps <= 2 ^ bits -> req_ok ps num (QWrite n p) ->
  (k < 4)%nat -> fates d = Fine :: repeat Fine j ++ Bad k :: fs -> zlen (bts d) + 4 * Z.of_nat j < n * ps ->
  exists d', sd_step bits ps d (QWrite n p) = Ok (d', ADone (-1)) /\ confined ps (QWrite n p) (bts d) (bts d').
Proof. exact sd_pad_fault. Qed.
Print Assumptions C40_sd_failed_gap.

(** C40, SD card: a failing read is reported by 0, whether the seek worked or not. *)
Theorem C40_sd_failed_read :
  forall bits ps d n buf x k fs,
  0 < ps -> fates d = x :: Bad k :: fs ->
  exists d' buf', sd_step bits ps d (QRead n buf) = Ok (d', ARead 0 buf') /\ bts d' = bts d.
Proof. exact sd_read_fault. Qed.
Print Assumptions C40_sd_failed_read.

(** Four pages of 10 bytes: a write of page 1, an erase of pages 1 and 2, and a read of
    page 3 that stop half way. *)
Definition dev40 (fs : list fate) := mkDev (pg 10 1 ++ pg 10 2 ++ pg 10 3 ++ pg 10 4) 0 fs.
Example C40_desktop_fault_example :
  (exists d' a, desk_step false 10 (dev40 [Fine; Bad 6]) (QWrite 1 (pg 10 9)) = Ok (d', a) /\ result a = 0 /\
     confined 10 (QWrite 1 (pg 10 9)) (bts (dev40 [])) (bts d')) /\
  (exists d' a, desk_step true 10 (dev40 [Fine; Bad 12]) (QErase 1 3) = Ok (d', a) /\ result a = 0 /\
     confined 10 (QErase 1 3) (bts (dev40 [])) (bts d')) /\
  desk_step false 10 (dev40 [Fine; Bad 6]) (QRead 3 (pg 10 9)) =
    Ok (mkDev (bts (dev40 [])) 36 [], ARead 0 (pg 6 4 ++ pg 4 9)).
Proof.
  split; [|split].
  - apply (C40_desktop_failed_transfer false 10 8 (dev40 [Fine; Bad 6]) (QWrite 1 (pg 10 9)) 6 []); try reflexivity. cbn [req_ok]. split; [lia|reflexivity].
  - apply (C40_desktop_failed_transfer true 10 8 (dev40 [Fine; Bad 12]) (QErase 1 3) 12 []); try reflexivity. cbn [req_ok]. lia.
  - vm_compute. reflexivity.
Qed.
Example C40_sd_fault_example :
  (exists d', sd_step 16 10 (dev40 [Fine; Fine; Fine; Bad 2]) (QWrite 6 (pg 10 9)) = Ok (d', ADone (-1)) /\
     confined 10 (QWrite 6 (pg 10 9)) (bts (dev40 [])) (bts d')) /\
  (exists d' a, sd_step 16 10 (dev40 [Fine; Bad 3]) (QWrite 1 (pg 10 9)) = Ok (d', a) /\
     confined 10 (QWrite 1 (pg 10 9)) (bts (dev40 [])) (bts d')) /\
  (exists d' buf', sd_step 16 10 (dev40 [Bad 0; Bad 3]) (QRead 1 (pg 10 9)) = Ok (d', ARead 0 buf') /\ bts d' = bts (dev40 [])).
Proof.
  split; [|split].
  - apply (C40_sd_failed_gap 16 10 8 (dev40 [Fine; Fine; Fine; Bad 2]) 6 (pg 10 9) 2 2 []); try reflexivity; try (cbn [req_ok]; split; [lia|reflexivity]); try lia.
  - apply (C40_sd_failures_confined 16 10 8 (dev40 [Fine; Bad 3])); try reflexivity; try (cbn [req_ok]; split; [lia|reflexivity]); try lia; try discriminate.
  - apply (C40_sd_failed_read 16 10 (dev40 [Bad 0; Bad 3]) 1 (pg 10 9) (Bad 0) 3 []); reflexivity.
Qed.

(** What the storage interfaces do not guarantee (property C40, and C06 on DataFlash):
    concrete executions. *)
From Verif Require Import Base Config Spline Storage DB Recovery Util Spec Run Drivers SpecDrivers ExDrivers.
Open Scope Z_scope.

(** The answers of a driver. *)
Definition answers {D} (x : res (D * list ans)) : res (list ans) := match x with Ok (_, l) => Ok l | UB => UB | Fuel => Fuel end.

(** C40, desktop: in an area of more than 4 GiB the byte offset wraps around, and a write
    replaces another page. *)
Theorem C40_desktop_offset_refuted : exists c num qs,
  0 < pageSize c /\ desktop_cfg c false /\ Forall (req_ok (pageSize c) num) qs /\
  answers (serve (desk_step false (pageSize c)) (mkDev [] 0 []) qs) <> Ok (snd (page_run c emptyFile qs)).
Proof.
  exists (ex_cfg 512 32 8 2 8 1 None None), (2 ^ 23 + 1), [QWrite 0 (pg 512 1); QWrite (2 ^ 23) (pg 512 2); QRead 0 (pg 512 0)].
  split; [reflexivity|]. split; [repeat split|]. split.
  - reqs_ex.
  - vm_compute. discriminate.
Qed.
Print Assumptions C40_desktop_offset_refuted.

(** C40, desktop: fseek failures are ignored: a read returns another page as if it were
    the right one, and a write destroys another page and reports success. *)
Theorem C40_desktop_seek_failure_refuted : exists d,
  bts d = pg 64 1 ++ pg 64 2 /\
  answers (serve (desk_step false 64) d [QRead 0 (pg 64 0); QRead 0 (pg 64 0)]) = Ok [ARead 1 (pg 64 1); ARead 1 (pg 64 2)] /\
  exists d', serve (desk_step false 64) d [QRead 0 (pg 64 0); QWrite 0 (pg 64 3)] = Ok (d', [ARead 1 (pg 64 1); ADone 1]) /\
    bts d' = pg 64 1 ++ pg 64 3.
Proof.
  exists (mkDev (pg 64 1 ++ pg 64 2) 0 [Fine; Fine; Bad 0]). split; [reflexivity|]. split; [vm_compute; reflexivity|].
  eexists. split; vm_compute; reflexivity.
Qed.
Print Assumptions C40_desktop_seek_failure_refuted.

(** C40, mock erase: a failed fseek is reported as -1, which the callers take for
    success (embedDB.c tests for 0); nothing was erased. *)
Theorem C40_mock_erase_failure_refuted : exists d d' r,
  serve (desk_step true 64) d [QErase 0 1] = Ok (d', [ADone r]) /\ r <> 0 /\ bts d' = bts d /\ bts d = pg 64 7.
Proof.
  exists (mkDev (pg 64 7) 0 [Bad 0]). eexists _, (-1). split; [vm_compute; reflexivity|]. split; [discriminate|]. split; vm_compute; reflexivity.
Qed.
Print Assumptions C40_mock_erase_failure_refuted.

(** C40, SD card: reading a page behind the end returns the page after the one that was
    read last, with a result that says success. *)
Theorem C40_sd_read_behind_end_refuted : exists c qs,
  sd_cfg c /\ Forall (req_ok (pageSize c) 8) qs /\
  answers (serve (sd_step 32 (pageSize c)) (mkDev [] 0 []) qs) = Ok [ADone 1; ADone 1; ARead 1 (pg 64 1); ARead 1 (pg 64 2)] /\
  snd (page_run c emptyFile qs) = [ADone 1; ADone 1; ARead 1 (pg 64 1); ARead 0 (pg 64 0)].
Proof.
  exists (on_storage 255 true (ex_cfg 64 32 8 2 8 1 None None)), [QWrite 0 (pg 64 1); QWrite 1 (pg 64 2); QRead 0 (pg 64 0); QRead 5 (pg 64 0)].
  split; [repeat split|]. split; [reqs_ex|]. split; vm_compute; reflexivity.
Qed.
Print Assumptions C40_sd_read_behind_end_refuted.

(** C40, SD card: a write of which no byte reaches the card is reported as success, and
    so (as -1) is a write whose seek failed. *)
Theorem C40_sd_lost_write_refuted : exists d1 d2 d1' d2' r,
  bts d1 = pg 64 7 /\ bts d2 = pg 64 7 /\
  serve (sd_step 32 64) d1 [QWrite 0 (pg 64 1)] = Ok (d1', [ADone 1]) /\ bts d1' = bts d1 /\
  serve (sd_step 32 64) d2 [QWrite 0 (pg 64 1)] = Ok (d2', [ADone r]) /\ r <> 0 /\ bts d2' = bts d2.
Proof.
  exists (mkDev (pg 64 7) 0 [Fine; Bad 0]), (mkDev (pg 64 7) 0 [Bad 0]). eexists _, _, (-1).
  split; [reflexivity|]. split; [reflexivity|]. split; [vm_compute; reflexivity|]. split; [vm_compute; reflexivity|].
  split; [vm_compute; reflexivity|]. split; [discriminate|]. vm_compute. reflexivity.
Qed.
Print Assumptions C40_sd_lost_write_refuted.

(** C40, SD card where size_t has 16 bits (AVR): once the file is longer than 64 KiB,
    overwriting a page fills earlier pages with 255. *)
Fixpoint fill_pages (k : nat) (n : Z) : list req :=
  match k with O => [] | S k' => QWrite n (pg 512 (n mod 256)) :: fill_pages k' (n + 1) end.
Theorem C40_sd_size16_refuted : exists c qs,
  sd_cfg c /\ pageSize c = 512 /\ qs = fill_pages 129 0 /\
  match serve (sd_step 16 512) (mkDev [] 0 []) (qs ++ [QWrite 3 (pg 512 99)]) with
  | Ok (d, _) => rd (bts d) 512 1024 = pg 1024 255
  | _ => False
  end.
Proof.
  exists (on_storage 255 true (ex_cfg 512 32 256 2 8 1 None None)), (fill_pages 129 0).
  split; [repeat split|]. split; [reflexivity|]. split; [reflexivity|]. vm_compute. reflexivity.
Qed.
Print Assumptions C40_sd_size16_refuted.

(** C40, SD card: pages of 32768 bytes can be written but not read back: the byte count
    is an int16_t. *)
Theorem C40_sd_large_page_refuted :
  match serve (sd_step 32 32768) (mkDev [] 0 []) [QWrite 0 (pg 32768 5); QRead 0 []] with
  | Ok (d, [ADone r; ARead r' _]) => r = 1 /\ r' = 0 /\ zlen (bts d) = 32768
  | _ => False
  end.
Proof. vm_compute. repeat split. Qed.
Print Assumptions C40_sd_large_page_refuted.

(** C06 on DataFlash: opening with the reset flag leaves the pages of the old database.
    If the new one is closed before it has filled the area, the next opening takes old
    pages for its own: a key is found that the new database never contained. *)
Theorem C06_dataflash_old_pages_refuted : exists c c' old h k d,
  dataflash_cfg c /\ dataflash_cfg c' /\ ~ In k (put_keys h) /\
  last_out (match embedDBInit c old [] with Ok (s, 0) => run c s (h ++ [HFlush; HGet k]) | _ => UB end) = Ok (Some (OGet (-1) None)) /\
  outs (match embedDBInit c old [] with
        | Ok (s, 0) => match run c s (h ++ [HFlush]) with
                       | Ok (s, _) => match embedDBInit c' (disk_of s) [] with Ok (s, 0) => run c' s [HGet k] | _ => UB end
                       | _ => UB end
        | _ => UB end) = Ok [OGet 0 (Some d)].
Proof.
  exists eDF, eDFr, (left_by eDF (puts 28 1000 1)), (puts 7 1 1), 1010. eexists. split; [split; reflexivity|]. split; [split; reflexivity|].
  split; [vm_compute; intuition congruence|]. split; vm_compute; reflexivity.
Qed.
Print Assumptions C06_dataflash_old_pages_refuted.

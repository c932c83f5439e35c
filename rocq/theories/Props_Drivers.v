(** The storage interfaces shipped with EmbedDB (property C40).

    [serve step d qs] runs the calls [qs] on a driver at the level of bytes (Drivers.v);
    [page_run c f qs] runs them on the page files that the model of the database uses
    (Storage.v).  [bytes_of ps b f]: the bytes [b] are the pages of [f].  [fates d = []]:
    no call of the C library fails. *)
From Verif Require Import Base Config Storage DB Recovery Spec SpecPage SpecStore Run SpecRun
  ReachFacts StoreThms ExFacts Drivers SpecDrivers DriverFacts ExDrivers Props_Store.
Open Scope Z_scope.

(** C40, desktop files, with and without the mock erase: for areas below 4 GiB all
    answers are those of a page file, and so are the contents afterwards. *)
Theorem C40_desktop_interface :
  forall c mock num qs d f,
  0 < pageSize c -> desktop_cfg c mock -> num * pageSize c < 2 ^ 32 -> fates d = [] -> bytes_of (pageSize c) (bts d) f ->
  Forall (req_ok (pageSize c) num) qs ->
  exists d', serve (desk_step mock (pageSize c)) d qs = Ok (d', snd (page_run c f qs)) /\
    bytes_of (pageSize c) (bts d') (fst (page_run c f qs)).
Proof. intros c mock num qs d f P. exact (desk_thm c P mock num qs d f). Qed.
Print Assumptions C40_desktop_interface.

(** C40, SD card: the same, with holes of bytes 255, for pages of 4 to 32767 bytes, areas
    that size_t ([bits] bits) can measure, and as long as no read starts behind the end
    of the file.  Refuted_Drivers.v shows that each of the three is needed. *)
Theorem C40_sd_interface_partial :
  forall c bits num qs d f,
  0 < pageSize c -> sd_cfg c -> 4 <= pageSize c < 2 ^ 15 -> 16 <= bits <= 32 -> 0 <= num -> num * pageSize c < 2 ^ bits ->
  flen f <= num -> fates d = [] -> bytes_of (pageSize c) (bts d) f ->
  Forall (req_ok (pageSize c) num) qs -> reads_inside c f qs ->
  exists d', serve (sd_step bits (pageSize c)) d qs = Ok (d', snd (page_run c f qs)) /\
    bytes_of (pageSize c) (bts d') (fst (page_run c f qs)).
Proof. intros c bits num qs d f P. exact (sd_thm c P bits num qs d f). Qed.
Print Assumptions C40_sd_interface_partial.

(** C40, DataFlash: three areas that do not overlap answer like three page files that are
    never emptied, whatever is on the chip. *)
Theorem C40_dataflash_interface :
  forall c start num ch qs,
  0 < pageSize c -> dataflash_cfg c -> areas start num -> (forall q, pageSize c <= zlen (ch q)) ->
  Forall (fun x => req_ok (pageSize c) (num (fst x)) (snd x)) qs ->
  df_serve start num (pageSize c) ch qs = Ok (pages_run c (area_file start num (pageSize c) ch) qs).
Proof. intros c start num ch qs P. exact (df_area_thm c P start num ch qs). Qed.
Print Assumptions C40_dataflash_interface.

Example C40_desktop_example : forall mock, exists d',
  serve (desk_step mock 10) (mkDev [] 0 []) calls10 = Ok (d', snd (page_run (e10 mock) emptyFile calls10)) /\
  bytes_of 10 (bts d') (fst (page_run (e10 mock) emptyFile calls10)).
Proof.
  intros mock. apply (C40_desktop_interface (e10 mock) mock 8 calls10 (mkDev [] 0 []) emptyFile); try reflexivity.
  - destruct mock; repeat split.
  - apply (empty_bytes (e10 mock)).
  - exact calls10_ok.
Qed.
Example C40_desktop_answers : snd (page_run (e10 true) emptyFile calls10) =
  [ADone 1; ADone 1; ARead 1 (pg 10 0); ARead 1 (pg 10 0); ARead 0 (pg 10 9); ADone 1; ARead 1 (pg 10 1);
   ADone 1; ADone 1; ARead 1 (pg 10 3); ARead 1 (pg 10 2); ADone 1; ARead 0 (pg 10 9)].
Proof. vm_compute. reflexivity. Qed.
Example C40_sd_example : exists d',
  serve (sd_step 16 10) (mkDev [] 0 []) calls10 = Ok (d', snd (page_run e10sd emptyFile calls10)) /\
  bytes_of 10 (bts d') (fst (page_run e10sd emptyFile calls10)).
Proof.
  apply (C40_sd_interface_partial e10sd 16 8 calls10 (mkDev [] 0 []) emptyFile); try reflexivity; try (vm_compute; split; congruence).
  - repeat split.
  - vm_compute. discriminate.
  - vm_compute. discriminate.
  - apply (empty_bytes e10sd).
  - exact calls10_ok.
  - vm_compute. repeat split; discriminate.
Qed.
Definition start3 (w : which) : Z := match w with WD => 0 | WI => 8 | WV => 10 end.
Definition num3 (w : which) : Z := match w with WD => 8 | WI => 2 | WV => 6 end.
Example C40_dataflash_example :
  df_serve start3 num3 10 (fun q => pg 16 (q mod 7)) (map (pair WD) calls10 ++ map (pair WV) [QRead 5 (pg 10 9); QWrite 0 (pg 10 4); QRead 0 (pg 10 9)] ++ [(WD, QRead 7 (pg 10 9))]) =
  Ok [ADone 1; ADone 1; ARead 1 (pg 10 1); ARead 1 (pg 10 2); ARead 1 (pg 10 4); ADone 1; ARead 1 (pg 10 1);
      ADone 1; ADone 1; ARead 1 (pg 10 3); ARead 1 (pg 10 2); ADone 1; ARead 1 (pg 10 1); ARead 1 (pg 10 1); ADone 1; ARead 1 (pg 10 4); ARead 1 (pg 10 0)].
Proof.
  erewrite (C40_dataflash_interface e10df start3 num3).
  - vm_compute. reflexivity.
  - reflexivity.
  - split; reflexivity.
  - constructor.
    + intros []; vm_compute; discriminate.
    + intros []; vm_compute; split; discriminate.
    + intros [] []; cbn; intros; try congruence; lia.
  - intros q. unfold pg, zlen. rewrite repeat_length. vm_compute. discriminate.
  - cbn [map app]. unfold calls10. reqs_ex.
Qed.

(** The theorems about sessions hold on DataFlash too: a reset leaves the pages of the
    database that used the chip before, and the new database is not affected. *)
Example C01_dataflash_example : exists s0 s,
  embedDBInit eDF (left_by eDF (puts 60 1000 1)) [] = Ok (s0, 0) /\
  run eDF s0 (hA ++ [HFlush] ++ map HGet [60; 1; 99; 1050]) = Ok (s, spec_outs eDF (hA ++ [HFlush] ++ map HGet [60; 1; 99; 1050])).
Proof.
  destruct (eDF_open (left_by eDF (puts 60 1000 1))) as (s0 & H).
  destruct (C01_get_exact_puts_then_gets_partial eDF (2 ^ 31) (2 ^ 31) hA [HFlush] [60; 1; 99; 1050] (left_by eDF (puts 60 1000 1)) s0) as (s & R).
  - apply eDF_ok; [vm_compute; reflexivity|vm_compute; repeat split|vm_compute; reflexivity].
  - repeat constructor.
  - auto.
  - reflexivity.
  - exact H.
  - exists s0, s. split; [exact H|exact R].
Qed.

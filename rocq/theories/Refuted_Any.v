(** Contents of storage that make calls on the opened database undefined, or opening slow
    (property C42). *)
From Verif Require Import Base Config Spline Storage DB VarData Recovery Util Spec SpecPage Run SpecFlash SpecAny AnyFacts ExFacts Props_Any.
Open Scope Z_scope.

(** A page with number [id], a claim of [n] records and the records [rs] (key, data). *)
Definition mk (id n : Z) (rs : list (Z * Z)) : page :=
  let p := le_enc 4 id ++ le_enc 2 n ++ flat_map (fun r => le_enc 4 (fst r) ++ le_enc 4 (snd r)) rs in
  p ++ repeat 0 (128 - length p).
Definition file_of (ps : list page) : file := mkFile (zlen ps) (fun n => nth (Z.to_nat n) ps []).
Definition disk_D (ps : list page) : disk := mkDisk (Some (file_of ps)) None None.
Definition cP : cfg := ex_cfg 128 0 8 2 8 1 None None.
Definition cR : cfg := ex_cfg 128 64 8 2 8 1 None None.
Lemma pair_inv {A B} (a a' : A) (b b' : B) : (a, b) = (a', b') -> a = a' /\ b = b'.
Proof. intros E. split; [exact (f_equal fst E)|exact (f_equal snd E)]. Qed.
Lemma cP_workable : workable cP.
Proof. constructor; [lay; discriminate|reflexivity|num|num|discriminate|discriminate]. Qed.
Lemma cR_workable : workable cR.
Proof. constructor; [lay; discriminate|reflexivity|num|num|discriminate|discriminate]. Qed.
Lemma disk_D_sized c ps : fileb_sized c (file_of ps) = true -> disk_sized c (disk_D ps).
Proof. intros H f [E|[E|E]]; cbn in E; try discriminate. injection E as <-. apply file_sized_check. exact H. Qed.

(** Recovery checks the record count of the first page only: with a damaged count in the second
    one a lookup reads records in front of the page buffer. *)
Theorem C42_get_any_contents_refuted : exists c k s key,
  workable c /\ disk_sized c k /\ embedDBInit c k [] = Ok (s, 0) /\ buffers_fit c s /\ counts_fit c s /\
  embedDBGet c s key = UB.
Proof.
  set (k := disk_D [mk 0 2 [(10, 1); (20, 2)]; mk 1 60000 [(30, 3); (40, 4)]]).
  assert (K : disk_sized cP k) by (apply disk_D_sized; vm_compute; reflexivity).
  destruct (C42_opening_any_contents cP k [] cP_workable K) as (s & r & E & _ & H).
  exists cP, k, s, 40.
  assert (X : match embedDBInit cP k [] with Ok (s, r) => (r, match embedDBGet cP s 40 with UB => true | _ => false end) | _ => (1, false) end = (0, true))
    by (vm_compute; reflexivity).
  rewrite E in X. apply pair_inv in X as [-> X]. destruct (H eq_refl) as (F & C & _). specialize (C eq_refl).
  do 2 (split; [first [exact cP_workable|exact K]|]). do 3 (split; [assumption|]).
  destruct (embedDBGet cP s 40); [discriminate X|reflexivity|discriminate X].
Qed.
Print Assumptions C42_get_any_contents_refuted.

(** The same damage, seen by a scan: 60000 records are read from a page of 15. *)
Theorem C42_next_any_contents_refuted : exists c k s it,
  workable c /\ disk_sized c k /\ embedDBInit c k [] = Ok (s, 0) /\ buffers_fit c s /\ counts_fit c s /\
  embedDBInitIterator c s (Some 1000) None None None = Ok it /\ embedDBNext c s it = UB.
Proof.
  set (k := disk_D [mk 0 2 [(10, 1); (20, 2)]; mk 1 60000 [(30, 3); (40, 4)]]).
  assert (K : disk_sized cP k) by (apply disk_D_sized; vm_compute; reflexivity).
  destruct (C42_opening_any_contents cP k [] cP_workable K) as (s & r & E & _ & H).
  assert (X : match embedDBInit cP k [] with
    | Ok (s, r) => (r, match embedDBInitIterator cP s (Some 1000) None None None with
        | Ok it => match embedDBNext cP s it with UB => true | _ => false end | _ => false end)
    | _ => (1, false) end = (0, true)) by (vm_compute; reflexivity).
  rewrite E in X. apply pair_inv in X as [-> X]. destruct (H eq_refl) as (F & C & _). specialize (C eq_refl).
  destruct (embedDBInitIterator cP s (Some 1000) None None None) as [it| |] eqn:Ei; [|discriminate X|discriminate X].
  exists cP, k, s, it. do 2 (split; [first [exact cP_workable|exact K]|]). do 4 (split; [assumption|]).
  destruct (embedDBNext cP s it); [discriminate X|reflexivity|discriminate X].
Qed.
Print Assumptions C42_next_any_contents_refuted.

(** Sane pages whose first keys are equal: splineFind divides by zero. *)
Theorem C42_equal_first_keys_refuted : exists c k s key,
  workable c /\ disk_sized c k /\ embedDBInit c k [] = Ok (s, 0) /\ pages_sane c s /\ embedDBGet c s key = UB.
Proof.
  set (k := disk_D [mk 0 2 [(10, 1); (20, 2)]; mk 1 2 [(10, 3); (40, 4)]]).
  assert (K : disk_sized cP k) by (apply disk_D_sized; vm_compute; reflexivity).
  destruct (C42_opening_any_contents cP k [] cP_workable K) as (s & r & E & _ & H).
  assert (X : match embedDBInit cP k [] with
    | Ok (s, r) => (r, pages_saneb cP s, match embedDBGet cP s 10 with UB => true | _ => false end)
    | _ => (1, false, false) end = (0, true, true)) by (vm_compute; reflexivity).
  rewrite E in X. apply pair_inv in X as [X X2]. apply pair_inv in X as [-> X1]. rename X2 into X. apply pages_sane_check in X1.
  exists cP, k, s, 10. do 2 (split; [first [exact cP_workable|exact K]|]). do 2 (split; [assumption|]).
  destruct (embedDBGet cP s 10); [discriminate X|reflexivity|discriminate X].
Qed.
Print Assumptions C42_equal_first_keys_refuted.

(** With record-level consistency the write buffer is restored from a page whose record count
    is not checked: the next put reads behind the buffer. *)
Theorem C42_rlc_put_refuted : exists c k s,
  workable c /\ disk_sized c k /\ embedDBInit c k [] = Ok (s, 0) /\ buffers_fit c s /\
  embedDBPut c s 100 (le_enc 4 1) = UB.
Proof.
  set (k := disk_D [mk 7 0 []; mk 7 0 []; mk 0 500 [(10, 1)]; mk 7 0 []]).
  assert (K : disk_sized cR k) by (apply disk_D_sized; vm_compute; reflexivity).
  destruct (C42_opening_any_contents cR k [] cR_workable K) as (s & r & E & _ & H).
  assert (X : match embedDBInit cR k [] with
    | Ok (s, r) => (r, match embedDBPut cR s 100 (le_enc 4 1) with UB => true | _ => false end)
    | _ => (1, false) end = (0, true)) by (vm_compute; reflexivity).
  rewrite E in X. apply pair_inv in X as [-> X]. destruct (H eq_refl) as (F & _).
  exists cR, k, s. do 2 (split; [first [exact cR_workable|exact K]|]). do 2 (split; [assumption|]).
  destruct (embedDBPut cR s 100 (le_enc 4 1)); [discriminate X|reflexivity|discriminate X].
Qed.
Print Assumptions C42_rlc_put_refuted.

(** Opening a file of three pages can take thousands of page reads (as many as the damaged page
    numbers say, up to 2^32): the spline is rebuilt for every page number in between. *)
Theorem C42_opening_reads_refuted : exists c k s,
  workable c /\ disk_sized c k /\ numData c = 8 /\ embedDBInit c k (repeat false 3000) = Ok (s, 0) /\
  zlen (faults (sio s)) < 1000.
Proof.
  set (k := disk_D [mk 2000 2 [(10, 1); (20, 2)]; mk 7 0 []; mk 2 0 []]).
  assert (K : disk_sized cP k) by (apply disk_D_sized; vm_compute; reflexivity).
  destruct (C42_opening_any_contents cP k (repeat false 3000) cP_workable K) as (s & r & E & _ & H).
  assert (X : match embedDBInit cP k (repeat false 3000) with Ok (s, r) => (r, zlen (faults (sio s)) <? 1000) | _ => (1, false) end = (0, true))
    by (vm_compute; reflexivity).
  rewrite E in X. apply pair_inv in X as [-> X]. apply Z.ltb_lt in X.
  exists cP, k, s. do 2 (split; [first [exact cP_workable|exact K]|]). auto.
Qed.
Print Assumptions C42_opening_reads_refuted.

(** A stored location of variable data may point to the last bytes of a page: the length is then
    read behind the buffer. *)
Definition cVr : cfg := ex_cfg 128 16 8 2 8 1 None None.
Definition mkv (id n : Z) (rs : list (Z * Z * Z)) : page :=
  let p := le_enc 4 id ++ le_enc 2 n ++ flat_map (fun r => le_enc 4 (fst (fst r)) ++ le_enc 4 (snd (fst r)) ++ le_enc 4 (snd r)) rs in
  p ++ repeat 0 (128 - length p).
Lemma cVr_workable : workable cVr.
Proof. constructor; [lay; discriminate|reflexivity|num|num|intros _; num|discriminate]. Qed.
Theorem C42_getvar_any_contents_refuted : exists c k s key,
  workable c /\ disk_sized c k /\ embedDBInit c k [] = Ok (s, 0) /\ pages_sane c s /\ embedDBGetVar c s key = UB.
Proof.
  set (k := mkDisk (Some (file_of [mkv 0 2 [(10, 1, 8); (20, 2, 126)]])) None (Some (file_of [mk 0 0 [(5, 5)]; mk 1 20 []]))).
  assert (K : disk_sized cVr k).
  { intros f [E|[E|E]]; cbn in E; try discriminate; injection E as <-; apply file_sized_check; vm_compute; reflexivity. }
  destruct (C42_opening_any_contents cVr k [] cVr_workable K) as (s & r & E & _ & H).
  assert (X : match embedDBInit cVr k [] with
    | Ok (s, r) => (r, pages_saneb cVr s, match embedDBGetVar cVr s 20 with UB => true | _ => false end)
    | _ => (1, false, false) end = (0, true, true)) by (vm_compute; reflexivity).
  rewrite E in X. apply pair_inv in X as [X X2]. apply pair_inv in X as [-> X1]. rename X2 into X. apply pages_sane_check in X1.
  exists cVr, k, s, 20. do 2 (split; [first [exact cVr_workable|exact K]|]). do 2 (split; [assumption|]).
  destruct (embedDBGetVar cVr s 20); [discriminate X|reflexivity|discriminate X].
Qed.
Print Assumptions C42_getvar_any_contents_refuted.

(** Payload lookups on damaged storage (property C42).

    [pages_sane c s] (SpecAny.v): every data page claims between one record and as many as fit.
    [pages_located c s] (SpecAnyVar.v): the location of every record's variable data leaves room
    for the length inside a page.  Neither is checked by the code (C42_getvar_any_contents_refuted). *)
From Verif Require Import Base Config Spline Storage DB VarData Recovery Util Spec SpecPage Run SpecFlash SpecAny AnyFacts ExFacts Props_Any Refuted_Any SpecAnyVar AnyVarFacts.
Open Scope Z_scope.

(** C42: embedDBGetVar, whatever lengths, page numbers and payload bytes the files hold and
    whichever storage calls fail; at most 127 records per page. *)
Theorem C42_getvar_any_contents_partial : forall c, workable c -> useVar c = true -> maxRec c <= 127 ->
  forall s key, buffers_fit c s -> pages_sane c s -> pages_located c s ->
  0 <= claims (wbuf (sd s)) <= maxRec c -> lookup_defined c s key ->
  embedDBGetVar c s key <> UB.
Proof. exact getVar_any. Qed.
Print Assumptions C42_getvar_any_contents_partial.

(** A location in the last four bytes of a page far outside the area; the bytes there say that
    the payload has 3573787221 bytes. *)
Definition kX : disk :=
  mkDisk (Some (file_of [mkv 0 3 [(10, 1, 8); (20, 2, 128 * 1001 + 124); (30, 3, NOVAR)]])) None
         (Some (file_of [mk 0 0 [(5, 5)]; le_enc 4 1 ++ repeat 17 120 ++ [85; 170; 3; 213]])).
Definition locatedb (c : cfg) (p : page) : bool :=
  forallb (fun i => (location c p (Z.of_nat i) =? NOVAR) || (location c p (Z.of_nat i) mod pageSize c + 4 <=? pageSize c))
          (seq 0 (Z.to_nat (claims p))).
Lemma locatedb_ok c p : locatedb c p = true -> page_located c p.
Proof.
  unfold locatedb. intros H i Hi. change (le_dec (bytes_at p 4 2)) with (claims p) in Hi. rewrite forallb_forall in H.
  specialize (H (Z.to_nat i)). cbv beta in H. rewrite Z2Nat.id in H by lia.
  assert (X : In (Z.to_nat i) (seq 0 (Z.to_nat (claims p)))) by (apply in_seq; lia). specialize (H X).
  apply orb_true_iff in H as [H|H]; [left; now apply Z.eqb_eq|right; now apply Z.leb_le].
Qed.
Example C42_getvar_example : exists s, embedDBInit cVr kX [] = Ok (s, 0) /\
  embedDBGetVar cVr s 20 <> UB /\ embedDBGetVar cVr s 10 <> UB /\ embedDBGetVar cVr s 25 <> UB /\
  match embedDBGetVar cVr s 20 with Ok (_, r, Some d, Some t) => r = 0 /\ d = le_enc 4 2 /\ totalBytes t = 3573787221 | _ => False end.
Proof.
  assert (K : disk_sized cVr kX).
  { intros f [E|[E|E]]; cbn in E; try discriminate; injection E as <-; apply file_sized_check; vm_compute; reflexivity. }
  destruct (C42_opening_any_contents cVr kX [] cVr_workable K) as (s & r & E & _ & H).
  assert (X : match embedDBInit cVr kX [] with
    | Ok (s, r) => (r, pages_saneb cVr s, locatedb cVr (wbuf (sd s)) && locatedb cVr (rbuf (sd s)) && fileb (fD (sio s)) (locatedb cVr),
        forallb (fun k => match spl (sd s) with Some sp => match spl_find (cmpK cVr) sp k with UB => false | _ => true end | None => false end) [20; 10; 25],
        match embedDBGetVar cVr s 20 with Ok (_, r, Some d, Some t) => (r, d, totalBytes t) | _ => (1, [], 0) end)
    | _ => (1, false, false, false, (1, [], 0)) end = (0, true, true, true, (0, le_enc 4 2, 3573787221))) by (vm_compute; reflexivity).
  rewrite E in X. apply pair_inv in X as [X X5]. apply pair_inv in X as [X X4]. apply pair_inv in X as [X X3]. apply pair_inv in X as [-> X2].
  apply pages_sane_check in X2. destruct (H eq_refl) as (F & C & _). specialize (C eq_refl).
  apply andb_true_iff in X3 as [X3 X3c]. apply andb_true_iff in X3 as [X3a X3b].
  assert (PL : pages_located cVr s).
  { constructor; [now apply locatedb_ok|now apply locatedb_ok|]. intros n p R. apply locatedb_ok. exact (fileb_ok _ _ X3c n p R). }
  assert (G : forall k, In k [20; 10; 25] -> embedDBGetVar cVr s k <> UB).
  { intros k Hk. apply (C42_getvar_any_contents_partial cVr cVr_workable eq_refl); auto; [apply Z.leb_le; vm_compute; reflexivity|apply (cf_w _ _ C)|].
    unfold lookup_defined. change (useBinary cVr) with false. cbv iota. intros sp Hsp U. rewrite forallb_forall in X4. specialize (X4 k Hk). rewrite Hsp in X4.
    rewrite U in X4. discriminate X4. }
  exists s. split; [exact E|]. do 3 (split; [apply G; cbn; auto|]).
  destruct (embedDBGetVar cVr s 20) as [[[[s2 r2] [d|]] [t|]]| |];
    first [apply pair_inv in X5 as [X5 X6]; apply pair_inv in X5 as [X5 X7]; auto; discriminate|discriminate X5].
Qed.

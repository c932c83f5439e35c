(** Whole scans on damaged storage (property C42). *)
From Verif Require Import Base Config Spline Storage DB VarData Recovery Util Spec SpecPage Run SpecIter SpecFlash SpecAny AnyFacts ExFacts Props_Any AnyScanFacts.
Open Scope Z_scope.

(** C42: starting an iterator and calling embedDBNext to the end (or [n] times) is defined,
    whichever reads fail, if every stored page claims between one record and as many as fit and
    the index finds a place for the lower bound.  (Refuted_Any.v: otherwise it is not.) *)
Theorem C42_scan_any_contents_partial : forall c, workable c -> forall s q n,
  useBinary c = false -> (uses_bitmap c q = true -> useIndex c = true) ->
  buffers_fit c s -> pages_sane c s -> 0 <= claims (wbuf (sd s)) <= maxRec c ->
  (forall k, qMinK q = Some k -> lookup_defined c s k) ->
  scan c s q n <> UB.
Proof. exact scan_any. Qed.
Print Assumptions C42_scan_any_contents_partial.

(** Accidental bytes: a scan with a bitmap and with bounds returns some of them. *)
Definition qS : query := mkQ (Some 5) None (Some (le_enc 4 1)) None.
Example C42_scan_example : exists s, embedDBInit cN kN2 [] = Ok (s, 0) /\
  scan cN s qS 100 <> UB /\ uses_bitmap cN qS = true /\
  match scan cN s qS 100 with Ok (_, xs) => length xs = 9%nat | _ => False end.
Proof.
  assert (K : disk_sized cN kN2).
  { intros f [E|[E|E]]; injection E as <-; apply file_sized_check; vm_compute; reflexivity. }
  destruct (C42_opening_any_contents cN kN2 [] cN_workable K) as (s & r & E & _ & H).
  assert (X : ('(s, r) <- embedDBInit cN kN2 [] ;; Ok (r, pages_saneb cN s,
      match spl (sd s) with Some sp => match spl_find (cmpK cN) sp 5 with UB => false | _ => true end | None => true end,
      match scan cN s qS 100 with Ok (_, xs) => length xs | _ => 0%nat end))
    = Ok (0, true, true, 9%nat)) by (vm_compute; reflexivity).
  rewrite E in X. cbn [bind] in X. injection X as -> X1 X2 X3. destruct (H eq_refl) as (F & C & _).
  specialize (C eq_refl). apply pages_sane_check in X1.
  exists s. split; [exact E|]. split; [|split; [reflexivity|]].
  - apply (C42_scan_any_contents_partial cN cN_workable s qS 100 eq_refl); auto; [apply (cf_w _ _ C)|].
    intros k Ek. injection Ek as <-. unfold lookup_defined. change (useBinary cN) with false. cbv iota. intros sp SP U. 
    assert (Y : match spl_find (cmpK cN) sp 5 with UB => false | _ => true end = true) by (rewrite SP in X2; exact X2).
    rewrite U in Y. discriminate Y.
  - destruct (scan cN s qS 100) as [[s2 xs]| |]; [exact X3|discriminate X3|discriminate X3].
Qed.

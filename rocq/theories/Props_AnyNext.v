(** Iterating over records with variable data on damaged storage (property C42).

    [pages_sane c s] (SpecAny.v): every data page claims between one record and as many as fit.
    [all_located c s] (SpecAnyNext.v): in every record slot, the location of variable data leaves
    room for the length inside a page.  Unused slots matter because embedDBNextVar looks into the
    read buffer for records that are still in the write buffer. *)
From Verif Require Import Base Config Spline Storage DB VarData Recovery Util Spec SpecPage Run SpecFlash SpecAny AnyFacts ExFacts Props_Any Refuted_Any SpecAnyVar Props_AnyVar SpecAnyNext AnyNextFacts.
Open Scope Z_scope.

(** C42: any number of calls of embedDBNextVar, from any position of an iterator, whatever keys,
    lengths, page numbers and payload bytes the files hold and whichever storage calls fail. *)
Theorem C42_nextvar_any_contents_partial : forall c, workable c -> useVar c = true -> maxRec c < 65536 ->
  forall s it n, buffers_fit c s -> pages_sane c s -> all_located c s ->
  0 <= claims (wbuf (sd s)) <= maxRec c -> 0 <= itRec it -> (itBM it <> None -> useIndex c = true) ->
  walk_var c s it n <> UB.
Proof. exact walk_thm. Qed.
Print Assumptions C42_nextvar_any_contents_partial.

(** [kX] (Props_AnyVar.v) with its location far outside the area: all three records are returned. *)
Definition slotsb (c : cfg) (p : page) : bool :=
  forallb (fun i => (location c p (Z.of_nat i) =? NOVAR) || (location c p (Z.of_nat i) mod pageSize c + 4 <=? pageSize c))
          (seq 0 (Z.to_nat (maxRec c))).
Lemma slotsb_ok c p : slotsb c p = true -> slots_located c p.
Proof.
  unfold slotsb. intros H i Hi. rewrite forallb_forall in H. specialize (H (Z.to_nat i)). cbv beta in H. rewrite Z2Nat.id in H by lia.
  assert (X : In (Z.to_nat i) (seq 0 (Z.to_nat (maxRec c)))) by (apply in_seq; lia). specialize (H X).
  apply orb_true_iff in H as [H|H]; [left; now apply Z.eqb_eq|right; now apply Z.leb_le].
Qed.
Definition itAll : iter := mkIt 0 0 None None None None None.
Definition brief (x : option (Z * list Z) * option stream) := (option_map fst (fst x), option_map totalBytes (snd x)).
Example C42_nextvar_example : exists s, embedDBInit cVr kX [] = Ok (s, 0) /\
  walk_var cVr s itAll 10 <> UB /\
  match walk_var cVr s itAll 10 with Ok (_, l) => map brief l = [(Some 10, Some 327680); (Some 20, Some 3573787221); (Some 30, None)] | _ => False end.
Proof.
  assert (K : disk_sized cVr kX).
  { intros f [E|[E|E]]; cbn in E; try discriminate; injection E as <-; apply file_sized_check; vm_compute; reflexivity. }
  destruct (C42_opening_any_contents cVr kX [] cVr_workable K) as (s & r & E & _ & H).
  assert (X : match embedDBInit cVr kX [] with
    | Ok (s, r) => (r, pages_saneb cVr s, slotsb cVr (wbuf (sd s)) && slotsb cVr (rbuf (sd s)) && fileb (fD (sio s)) (slotsb cVr),
        match walk_var cVr s itAll 10 with Ok (_, l) => map brief l | _ => [] end)
    | _ => (1, false, false, []) end = (0, true, true, [(Some 10, Some 327680); (Some 20, Some 3573787221); (Some 30, None)])) by (vm_compute; reflexivity).
  rewrite E in X. apply pair_inv in X as [X X4]. apply pair_inv in X as [X X3]. apply pair_inv in X as [-> X2].
  apply pages_sane_check in X2. destruct (H eq_refl) as (F & C & _). specialize (C eq_refl).
  apply andb_true_iff in X3 as [X3 X3c]. apply andb_true_iff in X3 as [X3a X3b].
  exists s. split; [exact E|]. split.
  - apply (C42_nextvar_any_contents_partial cVr cVr_workable eq_refl); [vm_compute; reflexivity|exact F|exact X2| |apply (cf_w _ _ C)|cbn; lia|cbn; congruence].
    constructor; [now apply slotsb_ok|now apply slotsb_ok|]. intros n p R. apply slotsb_ok. exact (fileb_ok _ _ X3c n p R).
  - destruct (walk_var cVr s itAll 10) as [[s2 l]| |]; [exact X4|discriminate X4|discriminate X4].
Qed.

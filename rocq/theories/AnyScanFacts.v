(** Whole scans on storage with any contents: proofs. *)
From Verif Require Import Base BaseFacts Config Spline Storage DB VarData Recovery Spec SpecPage PageFacts Run SpecIter SpecFlash SpecTerm TermFacts SpecAny AnyFacts AnyRlcFacts AnyVarFacts.
Ltac Zify.zify_post_hook ::= ZifyBool.elim_bool_cstr.
Ltac Zify.zify_convert_to_euclidean_division_equations_flag ::= constr:(false).
Open Scope Z_scope.

Lemma recs_post c p n fuel : forall it out, 0 <= itRec it ->
  post (fun '(it', _, _) => 0 <= itRec it' /\ itBM it' = itBM it) (next_recs c p n fuel it out).
Proof.
  induction fuel as [|f IH]; intros it out H; cbn [next_recs]; [exact I|].
  destruct (_ <? n); [|cbn; auto].
  eapply post_bind; [apply post_eq|]. intros k _. eapply post_bind; [apply post_eq|]. intros dt _. cbv zeta.
  assert (U : 0 <= u16 (itRec it + 1)) by (unfold u16; apply Z.mod_pos_bound; lia).
  destruct (it_check c it k dt); [cbn; auto| |cbn; auto].
  eapply post_imp; [apply IH; exact U|]. intros [[a b] d] [A B]. split; auto.
Qed.
Lemma loop_post c fuel : forall s sw it out, 0 <= itRec it ->
  post (fun '(_, it', _, _) => 0 <= itRec it' /\ itBM it' = itBM it) (next_loop c s fuel sw it out).
Proof.
  induction fuel as [|f IH]; intros s sw it out Hr; cbn [next_loop]; [exact I|].
  destruct (_ >? _); [cbn; auto|]. cbv zeta. set (sw1 := if _ =? nextD _ then true else sw). clearbody sw1.
  eapply post_bind; [apply post_eq|]. intros [s1 sk] _. destruct sk as [[]|]; [apply (IH s1 sw1 (it_page it _ _)); exact Hr| |cbn; auto].
  destruct (if sw1 then (s1, 0) else readPage s1 (itPage it mod numData c)) as [s2 r]. destruct (negb _); [cbn; auto|].
  eapply post_bind; [apply post_eq|]. intros n _. eapply post_bind; [apply recs_post; exact Hr|]. intros [[it2 r2] out2] [H2 B2].
  destruct r2; [cbn; auto|]. eapply post_imp; [apply (IH s2 sw1 (it_page it2 _ 0)); cbn; lia|].
  intros [[[a b] d] e] [A B]. split; [exact A|]. rewrite B. exact B2.
Qed.

Section Scan.
Variable c : cfg.
Hypothesis W : workable c.
Lemma drain_nub n : forall s it, rsafe c s -> 0 <= claims (wbuf (sd s)) <= maxRec c -> 0 <= itRec it ->
  (itBM it <> None -> useIndex c = true) -> nub (fun x => rstep c s (fst (fst x))) (drain c s it n).
Proof.
  induction n as [|n IH]; intros s it F Cw Hr Hb; cbn [drain]; [exact I|].
  eapply nub_bind; [apply nub_post; [apply (next_nub c W s it F Cw Hr Hb)|apply loop_post; exact Hr]|].
  intros [[[s1 it1] r] out] [R1 [H1 B1]]. cbn [fst] in R1. destruct (r =? 0); [exact R1|].
  pose proof R1 as [F1 [E1 E2]]. eapply nub_bind; [apply (IH s1 it1); [exact F1|rewrite E1; exact Cw|exact H1|rewrite B1; exact Hb]|].
  intros [[s2 it2] xs] (F2 & E3 & E4). cbn [fst] in F2, E3, E4. cbn [nub fst]. split; [exact F2|]. rewrite E3, E4, E1, E2. auto.
Qed.
Lemma scan_any s q n : useBinary c = false -> (uses_bitmap c q = true -> useIndex c = true) ->
  buffers_fit c s -> pages_sane c s -> 0 <= claims (wbuf (sd s)) <= maxRec c ->
  (forall k, qMinK q = Some k -> lookup_defined c s k) -> scan c s q n <> UB.
Proof.
  intros NB UB F PS Cw LD. enough (X : nub (fun _ => True) (scan c s q n)) by (intros E; rewrite E in X; exact X).
  unfold scan. apply (nub_bind (fun it => 0 <= itRec it /\ (itBM it <> None -> useIndex c = true))).
  - unfold embedDBInitIterator. cbv zeta. destruct (spl (sd s)) as [sp|] eqn:SP; [|exact (bf_spl _ _ F NB SP)].
    apply (nub_bind (fun _ => True)).
    + destruct (qMinK q) as [k|] eqn:Q; [|exact I]. destruct (_ && _); [|exact I].
      specialize (LD k eq_refl). unfold lookup_defined in LD. rewrite NB in LD. specialize (LD sp SP).
      eapply nub_bind; [apply nub_not; exact LD|]. intros [[a b] d] _. exact I.
    + intros pg _. cbn [nub itRec]. split; [lia|]. intros H. cbn [itBM] in H. apply UB. revert H. unfold uses_bitmap.
      destruct (useBmap c), (qMinD q), (qMaxD q); cbn; intros H; congruence.
  - intros it [H1 H2]. eapply nub_bind; [apply (drain_nub n s it (conj F PS) Cw H1 H2)|]. intros [[a b] d] _. exact I.
Qed.
End Scan.

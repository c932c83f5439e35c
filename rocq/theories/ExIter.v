(** Deciding [mix_ok] and [mcalm] on concrete executions. *)
From Verif Require Import Base BaseFacts Config Spline Storage DB Recovery Spec SpecPage SpecStore SpecIter Run SpecRun
  ReachFacts ExFacts.
Open Scope Z_scope.

Definition boundb (KB : Z) (k : option Z) : bool := match k with Some k => (0 <=? k) && (k <? KB) | None => true end.
Definition query_okb (KB : Z) (q : query) : bool := boundb KB (qMinK q) && boundb KB (qMaxK q).
Lemma query_okb_ok KB q : query_okb KB q = true -> query_ok KB q.
Proof.
  unfold query_okb. intros H. apply andb_prop in H as [H1 H2].
  split; intros k E; rewrite E in *; cbn [boundb] in *; lia.
Qed.

Fixpoint mix_okb (c : cfg) (KB : Z) (L : log) (cs : list cursor) (h : list mop) : bool :=
  match h with
  | [] => true
  | o :: h' =>
      match o with
      | MOp o => op_okb c KB L o
      | MOpen q => query_okb KB q && negb (uses_bitmap c q)
      | MNext i => match nth i cs None with None => false | Some _ => true end
      end &&
      let '(L', cs', _) := mspec_step c L cs o in mix_okb c KB L' cs' h'
  end.
Lemma op_okb_ok c KB L o : op_okb c KB L o = true -> op_ok c KB L o.
Proof.
  intros H. assert (X : hist_okb c KB L [o] = true) by (cbn [hist_okb]; rewrite H; reflexivity).
  apply hist_okb_ok in X. apply X.
Qed.
Lemma mix_okb_ok c KB h : forall L cs, mix_okb c KB L cs h = true -> mix_ok c KB L cs h.
Proof.
  induction h as [|o h IH]; intros L cs H; [exact I|]. cbn [mix_okb] in H. apply andb_prop in H as [H1 H2].
  cbn [mix_ok]. split.
  - destruct o as [o|q|i].
    + apply op_okb_ok; auto.
    + apply andb_prop in H1 as [H1 H3]. split; [apply query_okb_ok; auto|]. destruct (uses_bitmap c q); auto; discriminate.
    + destruct (nth i cs None); congruence.
  - destruct (mspec_step c L cs o) as [[L' cs'] x]. auto.
Qed.

Fixpoint mcalmb (c : cfg) (s : state) (its : list iter) (h : list mop) : bool :=
  match h with
  | [] => true
  | o :: h' =>
      match o with
      | MOp o => if is_flush o && useIndex c
          then match get_count (iwbuf (si s)) with Ok n => n <? maxIdx c | _ => false end else true
      | MOpen _ => true
      | MNext i => match nth_error its i with Some it => minD (sd s) <=? itPage it | None => true end
      end &&
      match mstep c s its o with
      | Ok (s', its', _) =>
          ((nextD (sd s') =? nextD (sd s)) || negb (nextD (sd s) mod numData c =? bufD (sd s))) && mcalmb c s' its' h'
      | _ => true
      end
  end.
Lemma mcalmb_ok c h : forall s its, mcalmb c s its h = true -> mcalm c s its h.
Proof.
  induction h as [|o h IH]; intros s its H; [exact I|]. cbn [mcalmb] in H. apply andb_prop in H as [H1 H2].
  cbn [mcalm]. split.
  - destruct o as [o|q|i]; auto.
    + intros -> U. rewrite U in H1. cbn [is_flush andb] in H1. destruct (get_count (iwbuf (si s))) as [n| |]; try discriminate.
      exists n. split; [auto|lia].
    + intros it E. rewrite E in H1. lia.
  - intros s' its' x E. rewrite E in H2. apply andb_prop in H2 as [H2 H3]. split; [|auto]. intros Ne.
    destruct (Z.eqb_spec (nextD (sd s')) (nextD (sd s))); [congruence|]. cbn [orb] in H2.
    destruct (Z.eqb_spec (nextD (sd s) mod numData c) (bufD (sd s))); [discriminate|auto].
Qed.
Definition mixed_run (c : cfg) (h : list mop) : bool :=
  match embedDBInit c noDisk [] with Ok (s, r) => (r =? 0) && mcalmb c s [] h | _ => false end.
Lemma mixed_run_ok c h : mixed_run c h = true ->
  exists s0, embedDBInit c noDisk [] = Ok (s0, 0) /\ mcalm c s0 [] h.
Proof.
  unfold mixed_run. destruct (embedDBInit c noDisk []) as [[s r]| |]; try discriminate. intros H.
  apply andb_prop in H as [H1 H2]. exists s. assert (r = 0) as -> by lia. split; [auto|]. apply mcalmb_ok; auto.
Qed.

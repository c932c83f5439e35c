(** Bitmap scans in reopened databases. *)
From Verif Require Import Base BaseFacts Config Spline Storage DB Recovery Spec SpecSpline SplineFacts
  SpecPage SpecStore SpecIter SpecIndex Run SpecRun SpecReopen SpecReopenIdx SpecReopenBm LogFacts PageFacts SearchFacts StoreFacts PutFacts
  GetFacts BinFacts RunFacts ReachFacts StoreThms IterFacts IterThms IdxRecFacts RecoverFacts ReopenThms ReopenIdxThms IndexFacts IdxBmFacts.
Open Scope Z_scope.
Ltac Zify.zify_post_hook ::= ZifyBool.elim_bool_cstr.
Ltac Zify.zify_convert_to_euclidean_division_equations_flag ::= constr:(false).

Lemma same_maxIdx c c' : same_store c c' -> maxIdx c' = maxIdx c.
Proof. intros S. unfold maxIdx. now rewrite (ss_ps _ _ S), (ss_bs _ _ S). Qed.
Lemma same_IQ c c' P id p : same_store c c' -> IQ c P id p -> IQ c' P id p.
Proof.
  intros S [[H1 H2] H3]. split; [|auto]. split; [rewrite (ss_ps _ _ S); auto|]. intros j Hj Hz.
  rewrite (same_maxIdx c c' S) in *. unfold bitmap_of, bsz. rewrite (ss_bs _ _ S), (ss_upd _ _ S). apply H2; auto.
Qed.
Lemma same_RG c c' P F l n : same_store c c' -> numIndex c' = numIndex c ->
  RG c (numIndex c) (IQ c P) F l n -> RG c' (numIndex c') (IQ c' P) F l n.
Proof.
  intros S En (H1 & H2 & H3 & H4 & x & Hx & Hlap & R & Er). rewrite En.
  split; [auto|]. split; [auto|]. split; [rewrite (ss_trunc _ _ S); auto|]. split; [auto|]. exists x. do 2 (split; [auto|]). split.
  - intros id Hid. destruct (R id Hid). split; [auto|]. apply (same_IQ c); auto.
  - intros id Hid. destruct (Er id Hid) as (b & Eb & Ep). exists b. rewrite (ss_fill _ _ S). unfold psz. rewrite (ss_ps _ _ S). auto.
Qed.

Section Life.
  Variables (KB PB : Z).

  Definition iidx (c : cfg) (s : state) (L : log) (al : bool) : Prop :=
    RG c (numIndex c) (IQ c (pages L)) (fI (sio s)) (minI (si s)) (nextI (si s)) /\
    nextI (si s) <= zlen (pages L) /\
    (al = true -> XI c (si s) (fI (sio s)) (pages L)).
  Lemma XI_next c i F P : setting c KB PB -> useIndex c = true -> XI c i F P -> nextI i <= zlen P.
  Proof.
    intros G U X. pose proof (x_rng _ _ _ _ X). pose proof (x_file _ _ _ _ X) as (R & _). destruct (maxIdx_spec c KB PB G U) as [M1 _]. nia.
  Qed.

  Lemma log_put_ne c L k d : log_step (maxRec c) (numData c) (eraseSize c) L (HPut k d) <> L.
  Proof.
    intros E. pose proof (log_step_accepted c L (HPut k d)) as A. rewrite E in A.
    apply (f_equal (@length _)) in A. rewrite app_length in A. cbn [length] in A. lia.
  Qed.

  Lemma iidx_step c s L ic al e : ialive KB PB c s L ic -> useIndex c = true -> useBmap c = true -> iidx c s L al ->
    iev_ok c KB PB L ic e ->
    match e with
    | EvOp o => al = true \/ log_step (maxRec c) (numData c) (eraseSize c) L o = L
    | EvReopen c' => numIndex c' = numIndex c
    | EvCrash _ _ _ => False
    end ->
    let '(c1, L1, ic1) := iev_spec c L ic e in
    forall s1 x, iev_step c s e = Ok (c1, s1, x) ->
      useIndex c1 = true /\ useBmap c1 = true /\ iidx c1 s1 L1 (aligned_next c L ic al e) /\
      (~ is_op e -> icoh c1 (si s1) (pages L1)).
  Proof.
    intros Al U UM Ix He Ha. pose proof Al as (Db & (f & I) & Hlo & Hc). pose proof (xd_set _ _ _ Db) as G. pose proof (xd_modes _ _ _ Db) as MD.
    destruct (xd_idx _ _ _ Db U) as (Bl & _ & _ & _ & N2).
    destruct e as [o|c'|o i c']; cbn [iev_spec iev_step iev_ok is_op aligned_next] in *; [| |tauto].
    - intros s1 x E. do 2 (split; [auto|]). split; [|tauto].
      destruct (istep_points KB PB c f s L ic o Db I Hc He) as (s1' & x' & new & E' & I' & So & _).
      rewrite E' in E. cbn [bind] in E. apply ok_eq in E. injection E as <- <-.
      destruct He as ((Ho & Hnew & Hp) & Hroom). destruct o as [k d| |k]; cbn [log_step op_plain] in *.
      + destruct Ha as [->|Ha]; [|destruct (log_put_ne c L k d Ha)]. destruct Ix as (_ & _ & X). specialize (X eq_refl).
        cbn [step] in E'. apply bind_inv in E' as ([s2 r] & E' & Er). apply ok_eq in Er. injection Er as <- <-.
        destruct (put_XI c KB PB f G U UM (m_rlc _ MD) N2 s L k d s2 r I (m_rlc _ MD) Hp X E') as (_ & _ & [(-> & _)|(_ & X1)]); [discriminate|].
        pose proof (XI_next c _ _ _ G U X1) as Nx.
        unfold log_put. split; [|split; [|intros _]]; destruct (zlen (cur L) >=? maxRec c); cbn [pages]; try exact X1; try exact (x_file _ _ _ _ X1); exact Nx.
      + unfold log_flush in *. destruct (cur L) as [|r0 l0] eqn:Ec.
        { cbn [step] in E'. rewrite (flush_empty c KB PB f G s L I Ec) in E'. cbn [bind] in E'. apply ok_eq in E'. injection E' as <- <-. exact Ix. }
        destruct Ha as [->|Ha]; [|pose proof (zlen_seal c L) as Z; rewrite Ha in Z; lia].
        destruct Ix as (_ & _ & X). specialize (X eq_refl). assert (Ne : cur L <> []) by congruence.
        cbn [step] in E'. apply bind_inv in E' as ([s2 r] & E' & Er). apply ok_eq in Er. injection Er as <- <-.
        destruct (flush_XI c KB PB f G U UM (m_rlc _ MD) N2 s L s2 r I (m_var _ MD) Ne Hp X) as (X1 & _ & X2 & X3); auto.
        { intros _. exists ic. split; [auto|]. apply Hroom; auto. congruence. }
        split; [exact X1|]. split; [rewrite X2, (zlen_seal c); pose proof (XI_next c _ _ _ G U X); lia|]. intros Hal. cbn [andb] in Hal. apply X3. lia.
      + destruct (get_any c KB PB f G MD s L k I Ho) as (s9 & r & dt & E & (S1 & S2 & _) & _).
        cbn [step] in E'. rewrite E in E'. cbn [bind] in E'. apply ok_eq in E'. injection E' as <- _. unfold iidx. rewrite S1, S2. exact Ix.
    - intros s1 x E. pose proof (xr_same _ _ _ _ _ He) as S. pose proof (i_wf _ _ _ _ _ _ _ _ I) as W.
      destruct (wf_parts KB c L W) as (A1 & A2 & A3).
      destruct (ireopened KB PB c c' (fD (sio s)) (pages L) (lo L) (disk_of s) He (plain_disk _ _ _ _ _ _ _ _ (m_rlc _ MD) I)
                  A1 A2 A3) as (s' & E' & Al' & Co & _ & _ & Fr); [auto|reflexivity| |].
      { intros _ X EX. injection EX as <-. destruct (i_idx _ _ _ _ _ _ _ _ I U) as (_ & _ & _ & Ip).
        rewrite (i_nextD _ _ _ _ _ _ _ _ I) in Ip. exact Ip. }
      rewrite E' in E. cbn [bind] in E. change (0 =? 0) with true in E. cbv iota in E. apply ok_eq in E. injection E as <- <-.
      specialize (Fr U (fI (sio s)) eq_refl).
      assert (U' : useIndex c' = true) by (rewrite (ss_idx _ _ S); auto).
      assert (UM' : useBmap c' = true) by (rewrite (ss_bm _ _ S); auto).
      pose proof (xr_db _ _ _ _ _ He) as Db'. pose proof (xd_set _ _ _ Db') as G'. destruct (xd_idx _ _ _ Db' U') as (Bl' & _ & _ & _ & N2').
      destruct (g_idx _ _ _ G' U') as (_ & _ & NI'). pose proof (g_B _ _ _ G') as GB'.
      assert (Nx : nextI (si s) < 2 ^ 31).
      { destruct Ix as (_ & Nx & _). pose proof (g_PB _ _ _ G'). pose proof (xr_len _ _ _ _ _ He). pose proof (g_err _ _ _ G'). lia. }
      destruct Ix as (Rg & Nxt & X).
      destruct (from_rg c' KB PB (IQ c' (pages L)) (fI (sio s)) (minI (si s)) (nextI (si s)) s' G' Bl' ltac:(lia)) as (e1 & e2 & e3 & e4 & e5); auto.
      { intros id p [[Z _] Hi]. auto. }
      { apply (same_RG c); auto. }
      do 2 (split; [auto|]). cbn [recovered pages]. split.
      2:{ intros _ id Hid Ei. rewrite e2 in Hid. apply e5; auto. }
      unfold iidx. cbn [recovered pages]. rewrite e1, e2. split; [exact e3|]. split; [exact Nxt|]. intros Hal. apply andb_true_iff in Hal as [-> Hic].
      specialize (X eq_refl). apply Z.eqb_eq in Hic. subst ic.
      assert (Zp : zlen (pages L) = nextI (si s) * maxIdx c').
      { pose proof (x_cnt _ _ _ _ X) as Xc. rewrite (Hc U) in Xc. apply ok_eq in Xc. rewrite (same_maxIdx c c' S). lia. }
      destruct Al' as (_ & (f' & I') & _ & Hc'). destruct (maxIdx_spec c' KB PB G' U') as [M1 _].
      constructor; rewrite ?e2; auto; try lia.
      + apply (i_idx _ _ _ _ _ _ _ _ I' U').
      + rewrite (Hc' U'). f_equal. lia.
      + split; [apply (i_idx _ _ _ _ _ _ _ _ I' U')|]. intros j Hj Hz. lia.
  Qed.

  Lemma iidx_life es : forall c s L ic al c1 s1 xs, ialive KB PB c s L ic -> useIndex c = true -> useBmap c = true -> iidx c s L al ->
    ilife_ok c KB PB L ic es -> aligned_life c L ic al es -> ilife c s es = Ok (c1, s1, xs) ->
    useIndex c1 = true /\ useBmap c1 = true /\ iidx c1 s1 (snd (fst (ilife_spec c L ic es))) (aligned_end c L ic al es).
  Proof.
    induction es as [|e es IH]; intros c s L ic al c1 s1 xs Al U UM Ix Ho Ha E.
    { cbn [ilife] in E. apply ok_eq in E. injection E as <- <- _. auto. }
    cbn [ilife_ok aligned_life ilife ilife_spec aligned_end] in *. destruct Ho as [He Ho]. destruct Ha as [Ha1 Ha].
    destruct (iev_ok_step KB PB c s L ic e Al He) as (s2 & x & St). pose proof (iidx_step c s L ic al e Al U UM Ix He Ha1) as Sx.
    destruct (iev_spec c L ic e) as [[c2 L2] ic2]. destruct St as (E2 & Al2 & _). rewrite E2 in E. cbn [bind] in E.
    destruct (Sx s2 x E2) as (U2 & UM2 & Ix2 & _). apply bind_inv in E as ([[c3 s3] ys] & E3 & E). apply ok_eq in E. injection E as <- <- _.
    apply (IH c2 s2 L2 ic2 _ c3 s3 ys); auto.
  Qed.

  Lemma bm_serves c s L ic al : ialive KB PB c s L ic -> coh c s L -> useIndex c = true -> useBmap c = true ->
    iidx c s L al -> cur L = [] -> icoh c (si s) (pages L) -> serves_bitmaps c KB PB s L al.
  Proof.
    intros (Db & (f & I) & _) Co U UM (Rg & _ & X) Hcu Ic h Hh Hc Hic Hp Hal Hst. pose proof (xd_set _ _ _ Db) as G. pose proof (xd_modes _ _ _ Db) as MD.
    destruct (xd_idx _ _ _ Db U) as (_ & _ & _ & _ & N2).
    destruct (run_calm c KB PB f G MD h s L I Co Hh Hc Hp) as (s1 & R & I1 & Co1).
    assert (HJ : J c s1 (fst (spec_run (maxRec c) (numData c) (eraseSize c) L h))).
    { destruct Hst as [->|Hst].
      - apply (idx_run c KB PB f G U UM (m_rlc _ MD) N2 MD h s s1 L _ I Co Hh Hc Hp Hal (X eq_refl) Ic (or_intror Hic) R).
      - assert (J0 : J c s L) by (unfold J; rewrite Hcu; apply RG_XJ; auto; apply (m_rlc _ MD)).
        destruct (still_run c KB PB f G U UM (m_rlc _ MD) MD h s s1 L _ I Co Hh Hc Hp Hst J0 R) as [J1 J2]. rewrite J2. exact J1. }
    destruct (spec_run (maxRec c) (numData c) (eraseSize c) L h) as [L1 xs]. cbn [fst snd] in *.
    exists s1. split; [exact R|]. intros V q n Ub Hs HV Hq Hn. destruct (uses_bitmap c q) eqn:Hu.
    - destruct (scan_bitmap c KB PB f G U UM (m_rlc _ MD) V s1 _ q n Ub Hs HV Hu I1 Co1 HJ Hq Hn) as (s' & E & S & _). eauto.
    - destruct (scan_plain c KB PB f G s1 L1 q n Ub (bm_none c q Hu) I1 Co1 Hq Hn) as (it & s2 & it' & E1 & E2 & Rest).
      exists s2. unfold scan. rewrite E1. cbn [bind]. rewrite E2. reflexivity.
  Qed.

  Lemma aligned_app es1 : forall c L ic al es2, aligned_life c L ic al (es1 ++ es2) <->
    aligned_life c L ic al es1 /\
    let '(c1, L1, ic1) := ilife_spec c L ic es1 in aligned_life c1 L1 ic1 (aligned_end c L ic al es1) es2.
  Proof.
    induction es1 as [|e es1 IH]; intros c L ic al es2; cbn [app aligned_life ilife_spec aligned_end]; [tauto|].
    destruct (iev_spec c L ic e) as [[c1 L1] ic1]. rewrite IH. tauto.
  Qed.
  Lemma aligned_end_app es1 : forall c L ic al es2, aligned_end c L ic al (es1 ++ es2) =
    let '(c1, L1, ic1) := ilife_spec c L ic es1 in aligned_end c1 L1 ic1 (aligned_end c L ic al es1) es2.
  Proof.
    induction es1 as [|e es1 IH]; intros c L ic al es2; cbn [app ilife_spec aligned_end]; [reflexivity|].
    destruct (iev_spec c L ic e) as [[c1 L1] ic1]. apply IH.
  Qed.

  Lemma c05_reopen c k s es c' : idx_created c KB PB k s -> useIndex c = true -> useBmap c = true ->
    ilife_ok c KB PB emptyLog 0 (es ++ [EvReopen c']) -> aligned_life c emptyLog 0 true (es ++ [EvReopen c']) ->
    exists s1 xs, ilife c s (es ++ [EvReopen c']) = Ok (c', s1, xs) /\
      serves_bitmaps c' KB PB s1 (recovered c' (pages (snd (fst (ilife_spec c emptyLog 0 es)))))
        (aligned_end c emptyLog 0 true (es ++ [EvReopen c'])).
  Proof.
    intros C U UM Ho Ha. pose proof (ilife_last KB PB c k s es _ C Ho) as R.
    assert (X0 : iidx c s emptyLog true).
    { destruct C as (Db & Hr & He & E). destruct (fresh_XI c KB PB k s (xd_set _ _ _ Db) U Hr (m_rlc _ (xd_modes _ _ _ Db)) E) as (_ & _ & X & _).
      split; [exact (x_file _ _ _ _ X)|]. split; [|auto]. apply (XI_next c _ _ _ (xd_set _ _ _ Db) U X). }
    pose proof (icreated_alive KB PB c k s C) as Al0. pose proof Ho as Ho'. apply (ilife_ok_app KB PB) in Ho' as [Ho1 _].
    rewrite aligned_end_app. apply aligned_app in Ha as [Ha1 Ha2].
    pose proof (iidx_life es c s emptyLog 0 true) as Lf.
    destruct (ilife_spec c emptyLog 0 es) as [[c0 L] ic]. cbn [iev_spec iev_ok is_op fst snd aligned_life aligned_end] in *.
    destruct R as (s0 & s1 & xs & y & E0 & Al & He & E & Al1 & Co). destruct (Lf c0 s0 xs Al0 U UM X0 Ho1 Ha1 E0) as (U0 & UM0 & Ix0).
    destruct Ha2 as [Ha2 _].
    pose proof (iidx_step c0 s0 L ic _ (EvReopen c') Al U0 UM0 Ix0 He Ha2) as Sx. cbn [iev_spec] in Sx.
    rewrite ilife_app, E0 in E. cbn [bind ilife] in E. apply bind_inv in E as ([[c2 s2] zs] & E1 & E).
    apply bind_inv in E1 as ([[c3 s3] z] & E1 & E2). apply ok_eq in E2. injection E2 as <- <- <-. apply ok_eq in E. injection E as -> -> Ez.
    destruct (Sx s1 z E1) as (U1 & UM1 & Ix1 & Ic1).
    rewrite (same_recovered _ _ (xr_same _ _ _ _ _ He)). exists s1, (xs ++ [y]). split.
    - rewrite ilife_app, E0. cbn [bind ilife]. rewrite E1. cbn [bind]. now rewrite Ez.
    - apply (bm_serves c' s1 _ 0); auto.
  Qed.
End Life.

(** Lifetimes of databases that may keep a bitmap index. *)
From Verif Require Import Base BaseFacts Config Spline Storage DB Recovery Spec SpecSpline SplineFacts
  SpecPage SpecStore SpecIter Run SpecRun SpecReopen SpecReopenIdx LogFacts PageFacts SearchFacts StoreFacts PutFacts
  GetFacts BinFacts RunFacts ReachFacts StoreThms IterFacts IterThms IdxRecFacts RecoverFacts ReopenThms.
Open Scope Z_scope.
Ltac Zify.zify_post_hook ::= ZifyBool.elim_bool_cstr.
Ltac Zify.zify_convert_to_euclidean_division_equations_flag ::= constr:(false).

Lemma Forall2_rev_nth {A B} (R : A -> B -> Prop) l1 l2 i d1 d2 : Forall2 R l1 l2 -> (i < length l2)%nat ->
  R (nth i (rev l1) d1) (nth i (rev l2) d2).
Proof.
  intros H Hi. assert (H' : Forall2 R (rev l1) (rev l2)).
  { clear Hi. induction H as [|a b l1 l2 H1 H2 IH]; [constructor|]. cbn [rev]. apply Forall2_app; auto. }
  rewrite <- rev_length in Hi. revert i Hi. generalize dependent (rev l2). generalize (rev l1). clear.
  intros l1 l2 H. induction H as [|a b l1 l2 H1 H2 IH]; intros i Hi; cbn in *; [lia|]. destruct i; auto. apply IH. lia.
Qed.
Lemma Forall_nth_in {A} (P : A -> Prop) l i d : Forall P l -> (i < length l)%nat -> P (nth i l d).
Proof. intros H Hi. rewrite Forall_forall in H. apply H. now apply nth_In. Qed.

Section Life.
  Variables (KB PB : Z).

  Definition ialive (c : cfg) (s : state) (L : log) (ic : Z) : Prop :=
    idx_db c KB PB /\ (exists f, Inv c KB PB f s L) /\
    lo L <= rec_lo (numData c) (eraseSize c) (zlen (pages L)) /\
    (useIndex c = true -> get_count (iwbuf (si s)) = Ok ic).

  (** The newest of the points is the state after the operation. *)
  Lemma points_head c L o p tl : op_points c L o = p :: tl ->
    p = (let L1 := log_step (maxRec c) (numData c) (eraseSize c) L o in (pages L1, lo L1)).
  Proof.
    destruct o as [k d| |k]; cbn [op_points log_step]; unfold put_points, flush_points, log_put, log_flush.
    - destruct (zlen (cur L) >=? maxRec c); [|discriminate]. unfold seal_points. intros E. injection E as <- _. reflexivity.
    - destruct (cur L); [discriminate|]. unfold seal_points. intros E. injection E as <- _. reflexivity.
    - discriminate.
  Qed.

  Lemma istep_points c f s L ic o : idx_db c KB PB -> Inv c KB PB f s L -> (useIndex c = true -> get_count (iwbuf (si s)) = Ok ic) ->
    iop_ok c KB PB L ic o ->
    exists s' x new, step c s o = Ok (s', x) /\
      Inv c KB PB f s' (log_step (maxRec c) (numData c) (eraseSize c) L o) /\ sound_out L o x /\
      (useIndex c = true -> get_count (iwbuf (si s')) = Ok (idx_count c L ic o)) /\
      trace (sio s') = new ++ trace (sio s) /\ crash_ok c new (op_points c L o).
  Proof.
    intros [G M N127 Bl Ix] I Hc ((Ho & Ha & Hp) & Hroom). pose proof (m_var _ M) as NV.
    assert (Nil : crash_ok c [] []) by (apply crash_intro; constructor).
    destruct o as [k d| |k]; cbn [op_plain log_step op_points idx_count] in *.
    - destruct Ho as [Hk Hd]. pose proof (put_ok c KB PB f G s L k d I (m_rlc _ M) Hk Hd (Ha k d eq_refl) Hp) as Pu.
      destruct Pu as (s' & new & E & I' & e1 & e2 & e3 & e4 & e5 & e6 & e7 & e8 & e9).
      { congruence. }
      unfold vloc in *. rewrite NV in *. exists s', (OPut 0), new. cbn [step]. rewrite E.
      split; [reflexivity|]. split; [auto|]. split; [reflexivity|]. split; [|auto].
      intros U. destruct (Z.geb_spec (zlen (cur L)) (maxRec c)) as [Ge|Lt]; [apply e9; auto; lia|].
      destruct (e6 Lt) as [_ ->]. auto.
    - unfold log_flush, flush_points. destruct (cur L) as [|r0 l0] eqn:Ec.
      + pose proof (flush_empty c KB PB f G s L I Ec) as E. exists s, (OFlush 0), []. cbn [step]. rewrite E.
        split; [reflexivity|]. split; [auto|]. split; [reflexivity|]. split; [auto|]. split; [reflexivity|auto].
      + assert (Ne : cur L <> []) by congruence.
        destruct (flush_data_ok c KB PB f G s L (m_rlc _ M) I Ne Hp) as (s' & new & E & Sd & C0).
        { intros U. exists ic. split; [auto|]. apply Hroom; auto. congruence. }
        rewrite NV in E. exists s', (OFlush 0), new. cbn [step]. rewrite E.
        destruct Sd as (I' & _ & _ & _ & e3 & e4 & _).
        split; [reflexivity|]. split; [auto|]. split; [reflexivity|]. auto.
    - destruct (get_any c KB PB f G M s L k I Ho) as (s' & r & dt & E & Sb & I' & o & Er & Ed & So & Cm).
      exists s', (OGet r dt), []. cbn [step]. rewrite E. split; [reflexivity|]. split; [auto|]. split; [|split].
      + cbn [sound_out]. destruct o as [x|]; [|left; auto]. right. split; [auto|]. destruct (So x eq_refl).
        exists x. auto.
      + destruct Sb as (_ & -> & _). auto.
      + destruct Sb as (-> & _). split; [reflexivity|auto].
  Qed.

  (** Storage when the power fails. *)
  Lemma crash_im c f s L ic o i s1 x : idx_db c KB PB -> Inv c KB PB f s L -> (useIndex c = true -> get_count (iwbuf (si s)) = Ok ic) ->
    iop_ok c KB PB L ic o -> step c s o = Ok (s1, x) -> at_point c (crash_image s s1 i) (crash_point c L o i).
  Proof.
    intros Db I Hc Ho E. destruct (istep_points c f s L ic o Db I Hc Ho) as (s1' & x' & new & E' & I1 & _ & _ & Et & (_ & _ & n2 & n1 & -> & F1 & F2)).
    rewrite E in E'. injection E' as <- <-. set (L1 := log_step (maxRec c) (numData c) (eraseSize c) L o) in *.
    assert (Last : at_point c (fD (sio s1), fI (sio s1), fV (sio s1)) (pages L1, lo L1)).
    { split; cbn [fst snd].
      - apply (plain_disk _ _ _ _ _ _ _ _ (m_rlc _ (xd_modes _ _ _ Db)) I1).
      - intros U. destruct (i_idx _ _ _ _ _ _ _ _ I1 U) as (_ & _ & _ & Ip). rewrite (i_nextD _ _ _ _ _ _ _ _ I1) in Ip. exact Ip. }
    unfold crash_image, crash_point. rewrite Et, app_length, Nat.add_sub, firstn_app, firstn_all, Nat.sub_diag. cbn [firstn].
    rewrite app_nil_r, rev_app_distr. fold L1.
    assert (Ln : length n1 = length (op_points c L o)) by (clear - F1; induction F1; cbn; auto).
    destruct (Nat.lt_ge_cases i (length n1)) as [Lt|Ge].
    - rewrite app_nth1 by (rewrite rev_length; auto). apply Forall2_rev_nth; [auto|lia].
    - rewrite app_nth2 by (rewrite rev_length; auto). rewrite (nth_overflow (rev (op_points c L o))) by (rewrite rev_length; lia).
      rewrite rev_length. destruct (Nat.lt_ge_cases (i - length n1) (length (rev n2))) as [Lt2|Ge2].
      + destruct (op_points c L o) as [|p tl] eqn:Ep.
        { destruct n2 as [|y n2]; [cbn in Lt2; lia|]. destruct (Forall_inv F2). }
        apply points_head in Ep. fold L1 in Ep. cbn zeta in Ep. rewrite <- Ep.
        apply (Forall_nth_in (fun im => at_point c im p)); auto. apply Forall_rev. exact F2.
      + rewrite (nth_overflow (rev n2)) by auto. exact Last.
  Qed.

  Lemma ireopened c c' F P l k : idx_reopen_ok c c' KB PB (zlen P) -> disk_ok c F P l ->
    Forall (fun p => p <> [] /\ zlen p <= maxRec c) P -> ascending (concat P) -> Forall (rec_ok c KB) (concat P) ->
    (eraseFill c = None \/ l <= rec_lo (numData c) (eraseSize c) (zlen P)) -> kD k = Some F ->
    (useIndex c = true -> forall X, kI k = Some X -> idx_pages c X (zlen P + 1)) ->
    exists s', embedDBInit c' k [] = Ok (s', 0) /\ ialive c' s' (recovered c P) 0 /\ coh c' s' (recovered c P) /\
      fD (sio s') = F /\ trace (sio s') = [] /\ (useIndex c = true -> forall X, kI k = Some X -> from_index c' X s').
  Proof.
    intros [S Db' Hr He Hl] Dk A1 A2 A3 A4 HF HI. pose proof (xd_set _ _ _ Db') as G'. pose proof (xd_modes _ _ _ Db') as M'.
    pose proof (g_B _ _ _ G'). pose proof (g_D _ _ _ G').
    destruct (reopen_data c' KB PB F P l k G' (m_rlc _ M')) as (s' & E & I & Co & E1 & E2 & E3 & E4); auto.
    - intros U. destruct (xd_idx _ _ _ Db' U) as (B1 & B2 & B3 & B4 & B5). do 5 (split; [assumption|]).
      intros X HX. rewrite (ss_idx _ _ S) in U. specialize (HI U X HX). clear - S HI. intros (T1 & T2 & T3) i Hi.
      rewrite (ss_ps _ _ S). apply HI; auto. unfold idx_blank. rewrite <- (ss_trunc _ _ S), <- (ss_fill _ _ S), <- (ss_hole _ _ S). auto.
    - apply (xd_rec _ _ _ Db').
    - apply (xd_blank _ _ _ Db').
    - rewrite (m_var _ M'). discriminate.
    - apply (same_disk c c' S F P l Dk).
    - apply (recovered_wf c' KB PB G'); auto.
      + rewrite (same_mr c c' S). auto.
      + eapply Forall_impl; [|exact A3]. intros r. apply (same_rec c c' S).
    - rewrite (ss_fill _ _ S), (ss_D _ _ S), (ss_B _ _ S). auto.
    - destruct He as [He|He]; [auto|right]. unfold rec_lo. destruct (Z.leb_spec (zlen P) (numData c')); [auto|lia].
    - rewrite (m_var _ M') in E. rewrite (same_recovered c c' S P) in *. exists s'. split; [auto|]. split.
      2:{ do 3 (split; [auto|]). intros U. rewrite <- (ss_idx _ _ S) in U. apply E4. auto. }
      split; [auto|]. split; [eauto|]. split; [|intros U; apply E4; auto]. unfold recovered. cbn [lo pages]. rewrite (ss_D _ _ S), (ss_B _ _ S). lia.
  Qed.

  Lemma wf_parts c L : wf_log c KB L ->
    Forall (fun p => p <> [] /\ zlen p <= maxRec c) (pages L) /\ ascending (concat (pages L)) /\ Forall (rec_ok c KB) (concat (pages L)).
  Proof.
    intros W. pose proof (w_asc _ _ _ W) as A2. pose proof (w_recs _ _ _ W) as A3. unfold accepted in A2, A3.
    rewrite asc_app in A2. rewrite Forall_app in A3. split; [apply (w_pages _ _ _ W)|tauto].
  Qed.

  Lemma iev_ok_step c s L ic e : ialive c s L ic -> iev_ok c KB PB L ic e ->
    exists s1 x, let '(c1, L1, ic1) := iev_spec c L ic e in
      iev_step c s e = Ok (c1, s1, x) /\ ialive c1 s1 L1 ic1 /\
      match e, x with EvOp o, Some y => sound_out L o y | EvOp _, None => False | _, y => y = None end /\
      (~ is_op e -> coh c1 s1 L1).
  Proof.
    intros (Db & (f & I) & Hlo & Hc) He. pose proof (xd_set _ _ _ Db) as G. pose proof (i_wf _ _ _ _ _ _ _ _ I) as W.
    destruct e as [o|c'|o i c']; cbn [iev_ok iev_spec iev_step is_op] in *.
    - destruct (istep_points c f s L ic o Db I Hc He) as (s' & x & new & E & I' & So & Hc' & _).
      rewrite E. cbn [bind]. exists s', (Some x). split; [reflexivity|]. split; [|split; [auto|tauto]].
      split; [auto|]. split; [eauto|]. split; [apply (alive_step KB PB); auto|auto].
    - destruct (wf_parts c L W) as (A1 & A2 & A3).
      destruct (ireopened c c' (fD (sio s)) (pages L) (lo L) (disk_of s) He (plain_disk _ _ _ _ _ _ _ _ (m_rlc _ (xd_modes _ _ _ Db)) I)
                  A1 A2 A3) as (s' & E & Al & Co & _); [auto|reflexivity| |].
      { intros U X EX. injection EX as <-. destruct (i_idx _ _ _ _ _ _ _ _ I U) as (_ & _ & _ & Ip).
        rewrite (i_nextD _ _ _ _ _ _ _ _ I) in Ip. exact Ip. }
      rewrite E. cbn [bind]. change (0 =? 0) with true. cbv iota. exists s', None. auto.
    - destruct He as (Ho & He). destruct (istep_points c f s L ic o Db I Hc Ho) as (s1 & x & new & E & I1 & So & Hc' & _).
      rewrite E. cbn [bind]. pose proof (crash_im c f s L ic o i s1 x Db I Hc Ho E) as [Dk Ip].
      destruct (crash_point c L o i) as [P l] eqn:Ep. cbn [fst snd] in *. destruct He as [Hb Hr].
      set (im := crash_image s s1 i) in *. destruct im as [[FD FI] FV]. cbn [fst snd] in Dk, Ip.
      assert (A : Forall (fun p => p <> [] /\ zlen p <= maxRec c) P /\ ascending (concat P) /\ Forall (rec_ok c KB) (concat P) /\
                  (eraseFill c = None \/ l <= rec_lo (numData c) (eraseSize c) (zlen P))).
      { unfold crash_point in Ep. cbn zeta in Ep.
        destruct (Nat.lt_ge_cases i (length (rev (op_points c L o)))) as [Lt|Ge].
        - apply (points_ok KB PB c L o P l G W Hlo); auto. apply in_rev. rewrite <- Ep. now apply nth_In.
        - rewrite nth_overflow in Ep by auto. injection Ep as <- <-.
          destruct (wf_parts c _ (i_wf _ _ _ _ _ _ _ _ I1)) as (A1 & A2 & A3). do 3 (split; [auto|]). right. apply (alive_step KB PB); auto. }
      destruct A as (A1 & A2 & A3 & A4).
      destruct (ireopened c c' FD P l (disk_of_image (FD, FI, FV)) Hr Dk A1 A2 A3 A4 eq_refl) as (s' & E' & Al & Co & _).
      { intros U X EX. injection EX as <-. auto. }
      rewrite E'. cbn [bind]. change (0 =? 0) with true. cbv iota. exists s', None. auto.
  Qed.

  Theorem ilife_runs es : forall c s L ic, ialive c s L ic -> ilife_ok c KB PB L ic es ->
    let '(c1, L1, ic1) := ilife_spec c L ic es in
    exists s1 xs, ilife c s es = Ok (c1, s1, xs) /\ ialive c1 s1 L1 ic1 /\ ilife_sound c L ic es xs.
  Proof.
    induction es as [|e es IH]; intros c s L ic Al H.
    { exists s, []. cbn. auto. }
    cbn [ilife ilife_ok ilife_spec ilife_sound] in *. destruct H as [He H].
    destruct (iev_ok_step c s L ic e Al He) as (s1 & x & Q).
    destruct (iev_spec c L ic e) as [[c1 L1] ic1]. destruct Q as (E & Al1 & So & _). rewrite E. cbn [bind].
    specialize (IH c1 s1 L1 ic1 Al1 H). destruct (ilife_spec c1 L1 ic1 es) as [[c2 L2] ic2].
    destruct IH as (s2 & xs & E2 & Al2 & Ss). rewrite E2. cbn [bind]. exists s2, (x :: xs). auto.
  Qed.

  Lemma ilife_spec_app es1 : forall c L ic es2, ilife_spec c L ic (es1 ++ es2) =
    let '(c1, L1, ic1) := ilife_spec c L ic es1 in ilife_spec c1 L1 ic1 es2.
  Proof.
    induction es1 as [|e es1 IH]; intros c L ic es2; [reflexivity|]. cbn [app ilife_spec].
    destruct (iev_spec c L ic e) as [[c1 L1] ic1]. apply IH.
  Qed.
  Lemma ilife_ok_app es1 : forall c L ic es2, ilife_ok c KB PB L ic (es1 ++ es2) <->
    ilife_ok c KB PB L ic es1 /\ let '(c1, L1, ic1) := ilife_spec c L ic es1 in ilife_ok c1 KB PB L1 ic1 es2.
  Proof.
    induction es1 as [|e es1 IH]; intros c L ic es2; cbn [app ilife_ok ilife_spec]; [tauto|].
    destruct (iev_spec c L ic e) as [[c1 L1] ic1]. rewrite IH. tauto.
  Qed.
  Lemma ilife_app es1 : forall c s es2, ilife c s (es1 ++ es2) =
    ('(c1, s1, xs) <- ilife c s es1 ;; '(c2, s2, ys) <- ilife c1 s1 es2 ;; Ok (c2, s2, xs ++ ys)).
  Proof.
    induction es1 as [|e es1 IH]; intros c s es2; cbn [app ilife bind].
    { destruct (ilife c s es2) as [[[? ?] ?]| |]; reflexivity. }
    destruct (iev_step c s e) as [[[c1 s1] x]| |]; cbn [bind]; auto. rewrite IH.
    destruct (ilife c1 s1 es1) as [[[c2 s2] xs]| |]; cbn [bind]; auto.
    destruct (ilife c2 s2 es2) as [[[c3 s3] ys]| |]; cbn [bind]; auto.
  Qed.

  Lemma icreated_alive c k s : idx_created c KB PB k s -> ialive c s emptyLog 0.
  Proof.
    intros (Db & Hr & He & E). destruct (fresh_ok c KB PB k s (xd_set _ _ _ Db) Hr (m_rlc _ (xd_modes _ _ _ Db)) He E) as (I & _ & _ & C0).
    split; [auto|]. split; [eauto|]. split; [|auto].
    cbn [emptyLog lo pages]. pose proof (g_D _ _ _ (xd_set _ _ _ Db)). pose proof (g_B _ _ _ (xd_set _ _ _ Db)).
    change (zlen (@nil (list rcd))) with 0. unfold rec_lo. destruct (Z.leb_spec 0 (numData c)); lia.
  Qed.

  Lemma ialive_serves c s L ic : ialive c s L ic -> coh c s L -> serves c KB PB s L.
  Proof.
    intros (Db & (f & I) & Hlo & _) Co. pose proof (xd_set _ _ _ Db) as G. pose proof (xd_modes _ _ _ Db) as M. split.
    { intros ks Hk. destruct (gets_ok c KB PB f G M ks s L I Co Hk) as (s1 & E & _). eauto. }
    intros h Hh Hc Hl L1 xs Es.
    destruct (run_calm c KB PB f G M h s L I Co Hh Hc Hl) as (s1 & E & I1 & Co1).
    rewrite Es in *. cbn [fst snd] in *.
    exists s1. split; [auto|]. intros q n U Ub Hq Hn.
    destruct (scan_plain c KB PB f G s1 L1 q n U (bm_none c q Ub) I1 Co1 Hq Hn) as (it & s2 & it' & E1 & E2 & _).
    exists s2. unfold scan. rewrite E1. cbn [bind]. rewrite E2. reflexivity.
  Qed.
End Life.

(** ** The property theorems *)
Section Thms.
  Variables (KB PB : Z).

  Lemma c31_ilife c k s es : idx_created c KB PB k s -> ilife_ok c KB PB emptyLog 0 es ->
    exists c1 s1 xs, ilife c s es = Ok (c1, s1, xs) /\ ilife_sound c emptyLog 0 es xs.
  Proof.
    intros C H. pose proof (ilife_runs KB PB es c s emptyLog 0 (icreated_alive KB PB c k s C) H) as R.
    destruct (ilife_spec c emptyLog 0 es) as [[c1 L1] ic1]. destruct R as (s1 & xs & E & _ & So). eauto.
  Qed.

  Lemma ilife_last c k s es e : idx_created c KB PB k s -> ilife_ok c KB PB emptyLog 0 (es ++ [e]) ->
    let '(c0, L, ic) := ilife_spec c emptyLog 0 es in let '(c1, L1, ic1) := iev_spec c0 L ic e in
    exists s0 s1 xs y,
      ilife c s es = Ok (c0, s0, xs) /\ ialive KB PB c0 s0 L ic /\ iev_ok c0 KB PB L ic e /\
      ilife c s (es ++ [e]) = Ok (c1, s1, xs ++ [y]) /\ ialive KB PB c1 s1 L1 ic1 /\ (~ is_op e -> coh c1 s1 L1).
  Proof.
    intros C H. apply (ilife_ok_app KB PB) in H as [H1 H2].
    pose proof (ilife_runs KB PB es c s emptyLog 0 (icreated_alive KB PB c k s C) H1) as R.
    destruct (ilife_spec c emptyLog 0 es) as [[c0 L] ic]. destruct R as (s0 & xs & E & Al & _). cbn [ilife_ok] in H2. destruct H2 as [He _].
    destruct (iev_ok_step KB PB c0 s0 L ic e Al He) as (s1 & x & Q).
    destruct (iev_spec c0 L ic e) as [[c1 L1] ic1]. destruct Q as (E1 & Al1 & _ & Co).
    exists s0, s1, xs, x. split; [auto|]. split; [auto|]. split; [auto|]. rewrite ilife_app, E. cbn [bind ilife].
    rewrite E1. cbn [bind]. auto.
  Qed.

  Lemma c06_ireopen c k s es c' : idx_created c KB PB k s -> ilife_ok c KB PB emptyLog 0 (es ++ [EvReopen c']) ->
    exists s1 xs, ilife c s (es ++ [EvReopen c']) = Ok (c', s1, xs) /\
      serves c' KB PB s1 (recovered c' (pages (snd (fst (ilife_spec c emptyLog 0 es))))).
  Proof.
    intros C H. pose proof (ilife_last c k s es _ C H) as R.
    destruct (ilife_spec c emptyLog 0 es) as [[c0 L] ic]. cbn [iev_spec iev_ok is_op fst snd] in *.
    destruct R as (s0 & s1 & xs & y & _ & _ & He & E & Al & Co). rewrite (same_recovered _ _ (xr_same _ _ _ _ _ He)).
    exists s1, (xs ++ [y]). split; [auto|]. eapply ialive_serves; eauto.
  Qed.

  Lemma c07_icrash c k s es o i c' : idx_created c KB PB k s -> ilife_ok c KB PB emptyLog 0 (es ++ [EvCrash o i c']) ->
    let c0 := fst (fst (ilife_spec c emptyLog 0 es)) in let L := snd (fst (ilife_spec c emptyLog 0 es)) in
    exists P s1 xs, fst (crash_point c0 L o i) = P /\ (P = pages L \/ cur L <> [] /\ P = pages L ++ [cur L]) /\
      ilife c s (es ++ [EvCrash o i c']) = Ok (c', s1, xs) /\ serves c' KB PB s1 (recovered c' P).
  Proof.
    intros C H c0' L'. pose proof (ilife_last c k s es _ C H) as R. unfold c0', L'. clear c0' L'.
    destruct (ilife_spec c emptyLog 0 es) as [[c0 L] ic]. cbn [iev_spec iev_ok is_op fst snd] in *.
    destruct R as (s0 & s1 & xs & y & _ & Al0 & He & E & Al & Co). destruct He as (Ho & He).
    destruct (crash_point c0 L o i) as [P l] eqn:Ep. cbn [fst] in *. destruct He as [Hb Hr].
    exists P, s1, (xs ++ [y]). split; [auto|]. split; [|split; [auto|]].
    - destruct Al0 as (Db & _). pose proof (xd_set _ _ _ Db) as G. unfold crash_point in Ep. cbn zeta in Ep.
      destruct (Nat.lt_ge_cases i (length (rev (op_points c0 L o)))) as [Lt|Ge].
      + apply (points_pages KB PB c0 L o P l G). apply in_rev. rewrite <- Ep. now apply nth_In.
      + rewrite nth_overflow in Ep by auto. injection Ep as <- _. pose proof (l_fit _ (g_lay _ _ _ G)) as Fit.
        destruct o as [kk d| |kk]; cbn [log_step]; auto; unfold log_put, log_flush.
        * destruct (Z.geb_spec (zlen (cur L)) (maxRec c0)) as [Gm|]; [|auto]. cbn [pages]. right. split; [|reflexivity].
          intros Z. rewrite Z in Gm. change (zlen (@nil rcd)) with 0 in Gm. lia.
        * destruct (cur L) eqn:Ec; [auto|right]. split; [congruence|]. unfold seal. cbn [pages]. now rewrite Ec.
    - rewrite (same_recovered _ _ (xr_same _ _ _ _ _ Hr)). eapply ialive_serves; eauto.
  Qed.

  Lemma c06_iflush c k s es c' : let es1 := es ++ [EvOp HFlush] in let L := snd (fst (ilife_spec c emptyLog 0 es1)) in
    idx_created c KB PB k s -> ilife_ok c KB PB emptyLog 0 (es1 ++ [EvReopen c']) ->
    zlen (pages L) <= numData c' \/ zlen (pages L) mod eraseSize c' <> 0 \/ zlen (pages L) mod numData c' = 0 ->
    exists s1 xs, ilife c s (es1 ++ [EvReopen c']) = Ok (c', s1, xs) /\ serves c' KB PB s1 L.
  Proof.
    intros es1 L C H Hn. destruct (c06_ireopen c k s es1 c' C H) as (s1 & xs & E & Sv). exists s1, xs. split; [auto|].
    fold L in Sv. enough (recovered c' (pages L) = L) as <- by exact Sv.
    assert (Cu : cur L = []).
    { unfold L, es1. rewrite ilife_spec_app. destruct (ilife_spec c emptyLog 0 es) as [[c0 L0] ic0].
      cbn [ilife_spec iev_spec snd fst log_step]. unfold log_flush. destruct (cur L0) eqn:Ec; [auto|reflexivity]. }
    pose proof (ilife_last c k s es1 _ C H) as R. unfold L in *. clear L.
    destruct (ilife_spec c emptyLog 0 es1) as [[c0 L] ic]. cbn [fst snd iev_spec iev_ok] in *.
    destruct R as (s0 & s2 & ys & y & _ & Al & He & _).
    pose proof (xr_same _ _ _ _ _ He) as S. destruct Al as (Db & (f & I) & Hlo & _).
    destruct (alive_recovered KB PB _ _ (xd_set _ _ _ Db) (i_wf _ _ _ _ _ _ _ _ I) Hlo) as (_ & R & _).
    specialize (R ltac:(rewrite <- (ss_D _ _ S), <- (ss_B _ _ S); exact Hn)).
    rewrite <- (ss_D _ _ S), <- (ss_B _ _ S) in R. unfold recovered. rewrite R. destruct L; cbn in *; congruence.
  Qed.

  (** Storage states inside an operation: those of the data file, each once and in
      order, and after the last any number that differ in the index file only. *)
  Lemma c07_ipoints c k s es o : idx_created c KB PB k s -> ilife_ok c KB PB emptyLog 0 (es ++ [EvOp o]) ->
    let c0 := fst (fst (ilife_spec c emptyLog 0 es)) in let L := snd (fst (ilife_spec c emptyLog 0 es)) in
    exists s0 xs s1 x, ilife c s es = Ok (c0, s0, xs) /\ step c0 s0 o = Ok (s1, x) /\
      forall i, let p := crash_point c0 L o i in disk_ok c0 (fst (fst (crash_image s0 s1 i))) (fst p) (snd p).
  Proof.
    intros C H c0' L'. pose proof (ilife_last c k s es _ C H) as R. unfold c0', L'. clear c0' L'.
    destruct (ilife_spec c emptyLog 0 es) as [[c0 L] ic]. cbn [iev_spec iev_ok fst snd] in *. destruct R as (s0 & s1 & xs & y & E & (Db & (f & I) & _ & Hc) & He & _).
    destruct (istep_points KB PB c0 f s0 L ic o Db I Hc He) as (s2 & x & new & E2 & _).
    exists s0, xs, s2, x. split; [auto|]. split; [auto|]. intros i.
    apply (crash_im KB PB c0 f s0 L ic o i s2 x Db I Hc He E2).
  Qed.

  Lemma c08_irecovery c k s es c' : idx_created c KB PB k s -> ilife_ok c KB PB emptyLog 0 (es ++ [EvReopen c']) ->
    let L := snd (fst (ilife_spec c emptyLog 0 es)) in let L1 := recovered c' (pages L) in
    (lo L1 = lo L \/ lo L1 = lo L + eraseSize c') /\
    Z.min (zlen (pages L)) (numData c' - eraseSize c') <= zlen (pages L) - lo L1.
  Proof.
    intros C H L L1. pose proof (ilife_last c k s es _ C H) as R. unfold L1, L. clear L1 L.
    destruct (ilife_spec c emptyLog 0 es) as [[c0 L] ic]. cbn [fst snd iev_spec iev_ok] in *.
    destruct R as (s0 & s2 & ys & y & _ & Al & He & _). pose proof (xr_same _ _ _ _ _ He) as S.
    destruct Al as (Db & (f & I) & Hlo & _).
    destruct (alive_recovered KB PB _ _ (xd_set _ _ _ Db) (i_wf _ _ _ _ _ _ _ _ I) Hlo) as (R1 & _ & R2).
    unfold recovered. cbn [lo pages]. rewrite (ss_D _ _ S), (ss_B _ _ S). auto.
  Qed.

  Lemma c09_ilife c k s es o c0 s0 xs s1 x : idx_created c KB PB k s -> ilife_ok c KB PB emptyLog 0 (es ++ [EvOp o]) ->
    ilife c s es = Ok (c0, s0, xs) -> step c0 s0 o = Ok (s1, x) ->
    (fD (sio s1) = fD (sio s0) /\ nextD (sd s1) = nextD (sd s0) /\ minD (sd s1) = minD (sd s0)) \/
    (seals_page c0 (fD (sio s0)) (fD (sio s1)) (minD (sd s0)) (nextD (sd s0)) /\
     nextD (sd s1) = nextD (sd s0) + 1 /\
     minD (sd s1) = (if nextD (sd s0) - minD (sd s0) =? numData c0 then minD (sd s0) + eraseSize c0 else minD (sd s0))).
  Proof.
    intros C H El Es. pose proof (ilife_last c k s es _ C H) as R. destruct (ilife_spec c emptyLog 0 es) as [[c1 L] ic].
    cbn [iev_spec iev_ok] in R. destruct R as (s0' & s2 & ys & y & E & Al & He & _).
    rewrite El in E. injection E as <- <- <-. destruct He as ((Ho & Ha & Hl) & Hroom). destruct Al as (Db & (f & I) & _ & Hc).
    apply (step_storage_inv c0 KB PB f s0 _ o s1 x (xd_set _ _ _ Db) (xd_modes _ _ _ Db) I Ho Ha Hl); [|exact Es].
    intros U Eo Ne. exists ic. auto.
  Qed.
End Thms.

(** Lifetimes of several sessions: closing, crashing and reopening. *)
From Verif Require Import Base BaseFacts Config Spline Storage DB Recovery Spec SpecSpline SplineFacts
  SpecPage SpecStore SpecIter Run SpecRun SpecReopen LogFacts PageFacts SearchFacts StoreFacts PutFacts
  GetFacts BinFacts RunFacts ReachFacts StoreThms IterFacts IterThms RecoverFacts.
Open Scope Z_scope.
Ltac Zify.zify_post_hook ::= ZifyBool.elim_bool_cstr.
Ltac Zify.zify_convert_to_euclidean_division_equations_flag ::= constr:(false).

(** ** Pages do not depend on the session *)
Section Same.
  Variables c c' : cfg.
  Hypothesis S : same_store c c'.
  Lemma same_ksz : ksz c' = ksz c. Proof. unfold ksz. now rewrite (ss_ks _ _ S). Qed.
  Lemma same_dsz : dsz c' = dsz c. Proof. unfold dsz. now rewrite (ss_ds _ _ S). Qed.
  Lemma same_psz : psz c' = psz c. Proof. unfold psz. now rewrite (ss_ps _ _ S). Qed.
  Lemma same_bsz : bsz c' = bsz c. Proof. unfold bsz. now rewrite (ss_bs _ _ S). Qed.
  Lemma same_rs : recordSize c' = recordSize c.
  Proof. unfold recordSize. now rewrite (ss_ks _ _ S), (ss_ds _ _ S), (ss_var _ _ S). Qed.
  Lemma same_hs : headerSize c' = headerSize c.
  Proof. unfold headerSize. now rewrite (ss_ks _ _ S), (ss_ds _ _ S), (ss_bs _ _ S), (ss_idx _ _ S), (ss_mm _ _ S). Qed.
  Lemma same_mr : maxRec c' = maxRec c.
  Proof. unfold maxRec. now rewrite (ss_ps _ _ S), same_hs, same_rs. Qed.
  Lemma same_off i : rec_off c' i = rec_off c i.
  Proof. unfold rec_off. now rewrite same_hs, same_rs. Qed.

  Lemma same_holds p rs : holds c p rs -> holds c' p rs.
  Proof.
    intros [H1 H2 H3 H4 H5 H6 H7].
    constructor; rewrite ?same_mr, ?same_off, ?same_rs, ?same_ksz, ?same_dsz, ?same_bsz, ?(ss_ps _ _ S); auto.
    - intros i r Hr. rewrite same_off. rewrite (H4 i r Hr). unfold enc_rec. now rewrite same_ksz, (ss_var _ _ S).
    - rewrite (ss_mm _ _ S). intros U r0 rest E. destruct (H6 U r0 rest E) as (A1 & A2 & A3 & A4).
      unfold off_maxkey, off_mindata, off_maxdata, min_data, max_data in *.
      rewrite (ss_ks _ _ S), (ss_ds _ _ S), (ss_cmpD _ _ S). auto.
    - rewrite (ss_bm _ _ S). intros U. rewrite (H7 U). unfold bitmap_of. now rewrite same_bsz, (ss_upd _ _ S).
  Qed.
  Lemma same_disk F P l : disk_ok c F P l -> disk_ok c' F P l.
  Proof.
    intros [H1 H0 H2]. constructor; rewrite ?(ss_D _ _ S), ?(ss_trunc _ _ S); auto. intros id A1 A2.
    destruct (H2 id A1 A2) as [[X Y]|(X & b & Y & Z)].
    - left. split; auto. apply same_holds. auto.
    - right. split; auto. exists b. rewrite (ss_fill _ _ S), same_psz. auto.
  Qed.
  Lemma same_rec KB r : rec_ok c KB r -> rec_ok c' KB r.
  Proof. unfold rec_ok. now rewrite same_dsz, (ss_var _ _ S). Qed.
  Lemma same_recovered P : recovered c' P = recovered c P.
  Proof. unfold recovered. now rewrite (ss_D _ _ S), (ss_B _ _ S). Qed.
End Same.

(** ** Where recovery starts *)
Lemma mult_le a b B : 0 < B -> a mod B = 0 -> b mod B = 0 -> a - B < b -> a <= b.
Proof.
  intros HB Ha Hb H. apply Z.mod_divide in Ha as [x Hx]; [|lia]. apply Z.mod_divide in Hb as [y Hy]; [|lia]. subst.
  assert (x <= y); [|apply Z.mul_le_mono_nonneg_r; lia].
  destruct (Z.le_gt_cases x y); auto. exfalso.
  assert ((y + 1) * B <= x * B) by (apply Z.mul_le_mono_nonneg_r; lia). lia.
Qed.
Lemma rec_lo_up D B n : 0 < B -> 2 * B <= D -> D mod B = 0 -> 0 <= n -> rec_lo D B n <= Z.max 0 (n - D + B).
Proof.
  intros HB HD HDB Hn. unfold rec_lo. destruct (Z.leb_spec n D); [lia|]. destruct (n mod D =? 0); [lia|].
  pose proof (Z.mod_pos_bound n B HB). lia.
Qed.
Lemma rec_lo_seal D B n l : 0 < B -> 2 * B <= D -> D mod B = 0 -> 0 <= n -> l mod B = 0 -> l <= rec_lo D B n ->
  (if n - l >=? D then l + B else l) <= rec_lo D B (n + 1).
Proof.
  intros HB HD HDB Hn Hl H.
  destruct (rec_lo_bounds D B (n + 1) HB HD HDB ltac:(lia)) as (R1 & R2 & R3 & R4).
  destruct (rec_lo_bounds D B n HB HD HDB Hn) as (Q1 & Q2 & Q3 & Q4).
  pose proof (rec_lo_up D B n HB HD HDB Hn) as Up.
  destruct (Z.geb_spec (n - l) D).
  - apply (mult_le _ _ B); auto; [|lia]. rewrite Z.add_mod, Hl, Z.mod_same by lia. apply Z.mod_0_l. lia.
  - destruct (Z.le_gt_cases (n - D + B) 0); [lia|]. apply (mult_le _ _ B); auto. lia.
Qed.
Lemma rec_lo_erased D B n l : 0 < B -> 2 * B <= D -> D mod B = 0 -> l mod B = 0 -> 0 <= l -> n - l = D ->
  n mod D <> 0 -> l + B <= rec_lo D B n.
Proof.
  intros HB HD HDB Hl Hl0 E Hm. unfold rec_lo.
  assert (n <> D) by (intros ->; rewrite Z.mod_same in Hm by lia; lia).
  destruct (Z.leb_spec n D); [lia|]. destruct (Z.eqb_spec (n mod D) 0); [lia|].
  replace n with (l + D) by lia. rewrite (Z.add_mod l D B), Hl, HDB by lia. rewrite Z.mod_0_l by lia. lia.
Qed.

(** ** One event *)
Section Life.
  Variables (KB PB : Z).

  (** The states of a lifetime. *)
  Definition alive (c : cfg) (s : state) (L : log) : Prop :=
    plain_db c KB PB /\ (exists f, Inv c KB PB f s L) /\
    lo L <= rec_lo (numData c) (eraseSize c) (zlen (pages L)).

  Lemma step_points c f s L o : plain_db c KB PB -> Inv c KB PB f s L -> new_op c KB PB L o ->
    exists s' x new, step c s o = Ok (s', x) /\
      Inv c KB PB f s' (log_step (maxRec c) (numData c) (eraseSize c) L o) /\ sound_out L o x /\
      trace (sio s') = new ++ trace (sio s) /\
      Forall2 (fun im p => disk_ok c (fst (fst im)) (fst p) (snd p)) new (op_points c L o).
  Proof.
    intros [G M U N127 Bl] I (Ho & Ha & Hp). pose proof (m_var _ M) as NV.
    destruct o as [k d| |k]; cbn [op_plain log_step op_points] in *.
    - destruct Ho as [Hk Hd].
      destruct (put_ok c KB PB f G s L k d I (m_rlc _ M) Hk Hd (Ha k d eq_refl) Hp) as
          (s' & new & E & I' & e1 & e2 & e3 & (e4 & e4' & _) & e5).
      { congruence. }
      unfold vloc in *. rewrite NV in *. exists s', (OPut 0), new. cbn [step]. rewrite E.
      split; [reflexivity|]. split; [auto|]. split; [reflexivity|]. auto.
    - unfold log_flush, flush_points. destruct (cur L) as [|r0 l0] eqn:Ec.
      + pose proof (flush_empty c KB PB f G s L I Ec) as E. exists s, (OFlush 0), []. cbn [step]. rewrite E.
        split; [reflexivity|]. split; [auto|]. split; [reflexivity|]. split; [reflexivity|constructor].
      + assert (Ne : cur L <> []) by congruence.
        destruct (flush_data_ok c KB PB f G s L (m_rlc _ M) I Ne Hp) as (s' & new & E & Sd & _).
        { intros U'. congruence. }
        rewrite NV in E. exists s', (OFlush 0), new. cbn [step]. rewrite E.
        destruct Sd as (I' & _ & _ & _ & e3 & (e4 & e4' & _) & _).
        split; [reflexivity|]. split; [auto|]. split; [reflexivity|]. auto.
    - destruct (get_any c KB PB f G M s L k I Ho) as (s' & r & dt & E & Sb & I' & o & Er & Ed & So & Cm).
      exists s', (OGet r dt), []. cbn [step]. rewrite E. split; [reflexivity|]. split; [auto|]. split.
      + cbn [sound_out]. destruct o as [x|]; [|left; auto]. right. split; [auto|]. destruct (So x eq_refl).
        exists x. auto.
      + destruct Sb as (-> & _). split; [reflexivity|constructor].
  Qed.

  Lemma alive_seal c L : setting c KB PB -> wf_log c KB L ->
    lo L <= rec_lo (numData c) (eraseSize c) (zlen (pages L)) ->
    let L' := seal (numData c) (eraseSize c) L in
    lo L' <= rec_lo (numData c) (eraseSize c) (zlen (pages L')).
  Proof.
    intros G W H L'. pose proof (g_B _ _ _ G). pose proof (g_D _ _ _ G). unfold L'. rewrite zlen_seal, seal_lo.
    apply rec_lo_seal; try lia; [apply (g_DB _ _ _ G)|apply zlen_nonneg|apply (w_mod _ _ _ W)].
  Qed.
  Lemma alive_step c L o : setting c KB PB -> wf_log c KB L ->
    lo L <= rec_lo (numData c) (eraseSize c) (zlen (pages L)) ->
    let L' := log_step (maxRec c) (numData c) (eraseSize c) L o in
    lo L' <= rec_lo (numData c) (eraseSize c) (zlen (pages L')).
  Proof.
    intros G W H. destruct o as [k d| |k]; cbn [log_step]; auto.
    - unfold log_put. destruct (zlen (cur L) >=? maxRec c); cbn [lo pages]; auto. apply alive_seal; auto.
    - unfold log_flush. destruct (cur L); auto. apply alive_seal; auto.
  Qed.

  (** Points inside an operation: a prefix of the pages, erased at most up to the
      page where recovery starts. *)
  Lemma points_ok c L o P l : setting c KB PB -> wf_log c KB L ->
    lo L <= rec_lo (numData c) (eraseSize c) (zlen (pages L)) ->
    In (P, l) (op_points c L o) -> ~ block0_erased c P l ->
    Forall (fun p => p <> [] /\ zlen p <= maxRec c) P /\ ascending (concat P) /\
    Forall (rec_ok c KB) (concat P) /\
    (eraseFill c = None \/ l <= rec_lo (numData c) (eraseSize c) (zlen P)).
  Proof.
    intros G W H Hin Hb. pose proof (g_B _ _ _ G) as GB. pose proof (g_D _ _ _ G) as GD.
    assert (Seal : cur L <> [] -> In (P, l) (seal_points (numData c) (eraseSize c) L) ->
      Forall (fun p => p <> [] /\ zlen p <= maxRec c) P /\ ascending (concat P) /\
      Forall (rec_ok c KB) (concat P) /\
      (eraseFill c = None \/ l <= rec_lo (numData c) (eraseSize c) (zlen P))).
    { intros Hc. unfold seal_points. intros [E|E].
      - pose proof (wf_seal c KB PB G L W Hc) as W'. pose proof (alive_seal c L G W H) as H'.
        set (L' := seal (numData c) (eraseSize c) L) in *.
        injection E as <- <-. destruct W' as [_ _ _ _ A1 _ A2 A3].
        unfold accepted in A2, A3. change (cur L') with (@nil rcd) in *. rewrite app_nil_r in *. auto.
      - destruct (Z.geb_spec (zlen (pages L) - lo L) (numData c)) as [Ge|]; [|destruct E].
        destruct E as [E|[]]. injection E as <- <-.
        split; [apply (w_pages _ _ _ W)|]. pose proof (w_asc _ _ _ W) as A2. pose proof (w_recs _ _ _ W) as A3.
        unfold accepted in *. rewrite asc_app in A2. rewrite Forall_app in A3. split; [tauto|]. split; [tauto|].
        pose proof (w_live _ _ _ W). pose proof (w_lo _ _ _ W).
        destruct (eraseFill c) eqn:Ef; [right|auto].
        apply rec_lo_erased; try lia; [apply (g_DB _ _ _ G)|apply (w_mod _ _ _ W)|].
        intros Z. apply Hb. unfold block0_erased. split; [congruence|]. split; [lia|]. split; [auto|lia]. }
    destruct o as [k d| |k]; cbn [op_points] in Hin.
    - unfold put_points in Hin. destruct (Z.geb_spec (zlen (cur L)) (maxRec c)) as [Ge|]; [|destruct Hin].
      apply Seal; auto. intros Z. rewrite Z in Ge. change (zlen (@nil rcd)) with 0 in Ge.
      pose proof (l_fit _ (g_lay _ _ _ G)). lia.
    - unfold flush_points in Hin. destruct (cur L) eqn:E; [destruct Hin|]. apply Seal; auto. congruence.
    - destruct Hin.
  Qed.

  Lemma points_pages c L o P l : setting c KB PB -> In (P, l) (op_points c L o) ->
    P = pages L \/ (cur L <> [] /\ P = pages L ++ [cur L]).
  Proof.
    intros G. pose proof (l_fit _ (g_lay _ _ _ G)) as Fit.
    assert (A : cur L <> [] -> In (P, l) (seal_points (numData c) (eraseSize c) L) ->
      P = pages L \/ (cur L <> [] /\ P = pages L ++ [cur L])).
    { intros Hc [E|E]; [injection E; auto|]. destruct (_ >=? _); [|destruct E]. destruct E as [E|[]]. injection E; auto. }
    destruct o; cbn [op_points]; unfold put_points, flush_points.
    - destruct (Z.geb_spec (zlen (cur L)) (maxRec c)) as [Ge|]; [|intros []]. apply A. intros Z. rewrite Z in Ge.
      change (zlen (@nil rcd)) with 0 in Ge. lia.
    - destruct (cur L) eqn:E; [intros []|]. apply A. congruence.
    - intros [].
  Qed.

  Lemma reopened c c' F P l k : same_store c c' -> plain_db c KB PB -> reopen_ok c c' KB PB (zlen P) ->
    disk_ok c F P l ->
    Forall (fun p => p <> [] /\ zlen p <= maxRec c) P -> ascending (concat P) -> Forall (rec_ok c KB) (concat P) ->
    (eraseFill c = None \/ l <= rec_lo (numData c) (eraseSize c) (zlen P)) -> kD k = Some F ->
    exists s', embedDBInit c' k [] = Ok (s', 0) /\ alive c' s' (recovered c P) /\ coh c' s' (recovered c P) /\
      fD (sio s') = F /\ trace (sio s') = [].
  Proof.
    intros S Db [_ Db' Hr He Hl] Dk A1 A2 A3 A4 HF. pose proof (pd_set _ _ _ Db') as G'.
    pose proof (g_B _ _ _ G'). pose proof (g_D _ _ _ G').
    destruct (reopen_init c' KB PB F P l k Db' Hr HF (same_disk c c' S F P l Dk)) as (s' & E & I & Co & E1 & E2); auto.
    - apply (recovered_wf c' KB PB G'); auto.
      + rewrite (same_mr c c' S). auto.
      + eapply Forall_impl; [|exact A3]. intros r. apply (same_rec c c' S).
    - rewrite (ss_fill _ _ S), (ss_D _ _ S), (ss_B _ _ S). auto.
    - destruct He as [He|He]; [auto|right]. unfold rec_lo. destruct (Z.leb_spec (zlen P) (numData c')); [auto|lia].
    - rewrite (same_recovered c c' S P) in *. exists s'. split; [auto|]. split; [|auto].
      split; [auto|]. split; [eauto|]. unfold recovered. cbn [lo pages]. rewrite (ss_D _ _ S), (ss_B _ _ S). lia.
  Qed.

  Lemma Forall2_nth {A B} (R : A -> B -> Prop) l1 l2 i y : Forall2 R l1 l2 -> nth_error l2 i = Some y ->
    exists x, nth_error l1 i = Some x /\ R x y.
  Proof.
    intros H. revert i. induction H as [|a b l1 l2 H1 H2 IH]; intros i Hi; [destruct i; discriminate|].
    destruct i; cbn in *; [injection Hi as <-; eauto|auto].
  Qed.

  Definition is_op (e : event) : Prop := match e with EvOp _ => True | _ => False end.

  Lemma event_ok_step c s L e : alive c s L -> event_ok c KB PB L e ->
    exists s1 x, event_step c s e = Ok (fst (event_spec c L e), s1, x) /\
      alive (fst (event_spec c L e)) s1 (snd (event_spec c L e)) /\
      match e, x with EvOp o, Some y => sound_out L o y | EvOp _, None => False | _, y => y = None end /\
      (~ is_op e -> coh (fst (event_spec c L e)) s1 (snd (event_spec c L e))).
  Proof.
    intros (Db & (f & I) & Hlo) He. pose proof (pd_set _ _ _ Db) as G. pose proof (i_wf _ _ _ _ _ _ _ _ I) as W.
    destruct e as [o|c'|o i c']; cbn [event_ok event_spec event_step fst snd is_op] in *.
    - destruct (step_points c f s L o Db I He) as (s' & x & new & E & I' & So & _).
      rewrite E. cbn [bind]. exists s', (Some x). split; [reflexivity|]. split; [|split; [auto|tauto]].
      split; [auto|]. split; [eauto|]. apply alive_step; auto.
    - pose proof (ro_same _ _ _ _ _ He) as S. pose proof (w_asc _ _ _ W) as A2. pose proof (w_recs _ _ _ W) as A3.
      unfold accepted in A2, A3. rewrite asc_app in A2. rewrite Forall_app in A3.
      destruct (reopened c c' (fD (sio s)) (pages L) (lo L) (disk_of s) S Db He (plain_disk _ _ _ _ _ _ _ _ (m_rlc _ (pd_modes _ _ _ Db)) I)
                  (w_pages _ _ _ W)) as (s' & E & Al & Co & _); [tauto|tauto|auto|reflexivity|].
      rewrite E. cbn [bind]. change (0 =? 0) with true. cbv iota. exists s', None. auto.
    - destruct He as (Ho & P & l & Hn & Hb & Hr). pose proof (ro_same _ _ _ _ _ Hr) as S.
      destruct (step_points c f s L o Db I Ho) as (s1 & x & new & E & I' & So & Et & F2).
      rewrite E. cbn [bind].
      destruct (points_ok c L o P l G W Hlo (nth_error_In _ _ Hn) Hb) as (A1 & A2 & A3 & A4).
      destruct (Forall2_nth _ _ _ i (P, l) F2 Hn) as (im & Him & Dk). cbn [fst snd] in Dk.
      rewrite Et, nth_error_app1 by (apply nth_error_Some; congruence). rewrite Him.
      destruct im as [[FD FI] FV]. cbn [fst snd] in Dk.
      destruct (reopened c c' FD P l (disk_of_image (FD, FI, FV)) S Db Hr Dk A1 A2 A3 A4 eq_refl) as (s' & E' & Al & Co & _).
      rewrite E'. cbn [bind]. change (0 =? 0) with true. cbv iota.
      rewrite (nth_error_nth _ _ ([], 0) Hn). cbn [fst]. exists s', None. auto.
  Qed.

  Theorem lifetime_runs es : forall c s L, alive c s L -> lifetime_ok c KB PB L es ->
    exists s1 xs, lifetime c s es = Ok (fst (lifetime_spec c L es), s1, xs) /\
      alive (fst (lifetime_spec c L es)) s1 (snd (lifetime_spec c L es)) /\ lifetime_sound c L es xs.
  Proof.
    induction es as [|e es IH]; intros c s L Al H.
    { exists s, []. cbn. auto. }
    cbn [lifetime lifetime_ok lifetime_spec lifetime_sound] in *. destruct H as [He H].
    destruct (event_ok_step c s L e Al He) as (s1 & x & E & Al1 & So & _). rewrite E. cbn [bind].
    destruct (event_spec c L e) as [c1 L1]. cbn [fst snd] in *.
    destruct (IH c1 s1 L1 Al1 H) as (s2 & xs & E2 & Al2 & Ss). rewrite E2. cbn [bind].
    exists s2, (x :: xs). auto.
  Qed.

  Lemma lifetime_spec_app es1 : forall c L es2, lifetime_spec c L (es1 ++ es2) =
    let '(c1, L1) := lifetime_spec c L es1 in lifetime_spec c1 L1 es2.
  Proof.
    induction es1 as [|e es1 IH]; intros c L es2; [reflexivity|]. cbn [app lifetime_spec].
    destruct (event_spec c L e) as [c1 L1]. apply IH.
  Qed.
  Lemma lifetime_ok_app es1 : forall c L es2, lifetime_ok c KB PB L (es1 ++ es2) <->
    lifetime_ok c KB PB L es1 /\ let '(c1, L1) := lifetime_spec c L es1 in lifetime_ok c1 KB PB L1 es2.
  Proof.
    induction es1 as [|e es1 IH]; intros c L es2; cbn [app lifetime_ok lifetime_spec]; [tauto|].
    destruct (event_spec c L e) as [c1 L1]. rewrite IH. tauto.
  Qed.
  Lemma lifetime_app es1 : forall c s es2, lifetime c s (es1 ++ es2) =
    ('(c1, s1, xs) <- lifetime c s es1 ;; '(c2, s2, ys) <- lifetime c1 s1 es2 ;; Ok (c2, s2, xs ++ ys)).
  Proof.
    induction es1 as [|e es1 IH]; intros c s es2; cbn [app lifetime bind].
    { destruct (lifetime c s es2) as [[[? ?] ?]| |]; reflexivity. }
    destruct (event_step c s e) as [[[c1 s1] x]| |]; cbn [bind]; auto. rewrite IH.
    destruct (lifetime c1 s1 es1) as [[[c2 s2] xs]| |]; cbn [bind]; auto.
    destruct (lifetime c2 s2 es2) as [[[c3 s3] ys]| |]; cbn [bind]; auto.
  Qed.

  Lemma created_alive c k s : created c KB PB k s -> alive c s emptyLog.
  Proof.
    intros (Db & Hr & He & E). split; [auto|]. split.
    - exists 0. apply (fresh_ok c KB PB k s (pd_set _ _ _ Db) Hr (m_rlc _ (pd_modes _ _ _ Db)) He E).
    - cbn [emptyLog lo pages]. pose proof (g_D _ _ _ (pd_set _ _ _ Db)). pose proof (g_B _ _ _ (pd_set _ _ _ Db)).
      change (zlen (@nil (list rcd))) with 0. unfold rec_lo. destruct (Z.leb_spec 0 (numData c)); lia.
  Qed.

  Lemma alive_serves c s L : alive c s L -> coh c s L -> serves c KB PB s L.
  Proof.
    intros (Db & (f & I) & Hlo) Co. pose proof (pd_set _ _ _ Db) as G. pose proof (pd_modes _ _ _ Db) as M. split.
    { intros ks Hk. destruct (gets_ok c KB PB f G M ks s L I Co Hk) as (s1 & E & _). eauto. }
    intros h Hh Hc Hl L1 xs Es.
    destruct (run_calm c KB PB f G M h s L I Co Hh Hc Hl) as (s1 & E & I1 & Co1).
    rewrite Es in *. cbn [fst snd] in *.
    exists s1. split; [auto|]. intros q n U Ub Hq Hn.
    destruct (scan_plain c KB PB f G s1 L1 q n U (bm_none c q Ub) I1 Co1 Hq Hn) as (it & s2 & it' & E1 & E2 & _).
    exists s2. unfold scan. rewrite E1. cbn [bind]. rewrite E2. reflexivity.
  Qed.
End Life.

(** ** The property theorems *)
Section Thms.
  Variables (KB PB : Z).

  Lemma c31_lifetime c k s es : created c KB PB k s -> lifetime_ok c KB PB emptyLog es ->
    exists c1 s1 xs, lifetime c s es = Ok (c1, s1, xs) /\ lifetime_sound c emptyLog es xs.
  Proof.
    intros C H. destruct (lifetime_runs KB PB es c s emptyLog (created_alive KB PB c k s C) H) as (s1 & xs & E & _ & So). eauto.
  Qed.

  (** The last event of a lifetime. *)
  Lemma life_last c k s es e : created c KB PB k s -> lifetime_ok c KB PB emptyLog (es ++ [e]) ->
    exists s0 s1 xs y, let c0 := fst (lifetime_spec c emptyLog es) in let L := snd (lifetime_spec c emptyLog es) in
      lifetime c s es = Ok (c0, s0, xs) /\ alive KB PB c0 s0 L /\ event_ok c0 KB PB L e /\
      lifetime c s (es ++ [e]) = Ok (fst (event_spec c0 L e), s1, xs ++ [y]) /\
      alive KB PB (fst (event_spec c0 L e)) s1 (snd (event_spec c0 L e)) /\
      (~ is_op e -> coh (fst (event_spec c0 L e)) s1 (snd (event_spec c0 L e))).
  Proof.
    intros C H. apply (lifetime_ok_app KB PB) in H as [H1 H2].
    destruct (lifetime_runs KB PB es c s emptyLog (created_alive KB PB c k s C) H1) as (s0 & xs & E & Al & _).
    destruct (lifetime_spec c emptyLog es) as [c0 L]. cbn [fst snd lifetime_ok] in *. destruct H2 as [He _].
    destruct (event_ok_step KB PB c0 s0 L e Al He) as (s1 & x & E1 & Al1 & _ & Co).
    exists s0, s1, xs, x. split; [auto|]. split; [auto|]. split; [auto|]. rewrite lifetime_app, E. cbn [bind lifetime].
    rewrite E1. cbn [bind]. auto.
  Qed.

  Lemma c06_reopen c k s es c' : created c KB PB k s -> lifetime_ok c KB PB emptyLog (es ++ [EvReopen c']) ->
    exists s1 xs, lifetime c s (es ++ [EvReopen c']) = Ok (c', s1, xs) /\
      serves c' KB PB s1 (recovered c' (pages (snd (lifetime_spec c emptyLog es)))).
  Proof.
    intros C H. destruct (life_last c k s es _ C H) as (s0 & s1 & xs & y & _ & _ & He & E & Al & Co).
    cbn [event_spec event_ok fst snd is_op] in *. rewrite (same_recovered _ _ (ro_same _ _ _ _ _ He)).
    exists s1, (xs ++ [y]). split; [auto|]. apply alive_serves; auto.
  Qed.

  Lemma alive_recovered c L : setting c KB PB -> wf_log c KB L -> lo L <= rec_lo (numData c) (eraseSize c) (zlen (pages L)) ->
    let r := rec_lo (numData c) (eraseSize c) (zlen (pages L)) in
    (r = lo L \/ r = lo L + eraseSize c) /\
    (zlen (pages L) <= numData c \/ zlen (pages L) mod eraseSize c <> 0 \/ zlen (pages L) mod numData c = 0 -> r = lo L) /\
    Z.min (zlen (pages L)) (numData c - eraseSize c) <= zlen (pages L) - r.
  Proof.
    intros G W Hlo r. pose proof (g_B _ _ _ G) as GB. pose proof (g_D _ _ _ G) as GD. pose proof (g_DB _ _ _ G) as GDB.
    pose proof (w_lo _ _ _ W). pose proof (w_mod _ _ _ W) as Wm. pose proof (w_live _ _ _ W) as Wv.
    pose proof (zlen_nonneg (pages L)) as Hn. set (n := zlen (pages L)) in *.
    destruct (rec_lo_bounds (numData c) (eraseSize c) n ltac:(lia) ltac:(lia) GDB Hn) as (R1 & R2 & R3 & R4). fold r in R1, R2, R3, R4, Hlo.
    pose proof (rec_lo_up (numData c) (eraseSize c) n ltac:(lia) ltac:(lia) GDB Hn) as Up. fold r in Up.
    assert (Hi : r <= lo L + eraseSize c) by lia.
    assert (Mb : (lo L + eraseSize c) mod eraseSize c = 0).
    { rewrite Z.add_mod, Wm, Z.mod_same by lia. apply Z.mod_0_l. lia. }
    split; [|split].
    - destruct (Z.eq_dec r (lo L)); [auto|right].
      enough (lo L + eraseSize c <= r) by lia. apply (mult_le _ _ (eraseSize c)); auto; lia.
    - intros Hc. enough (r <= lo L) by lia. unfold r, rec_lo in *. destruct (Z.leb_spec n (numData c)); [lia|].
      destruct (Z.eqb_spec (n mod numData c) 0); [lia|].
      apply (mult_le _ _ (eraseSize c)); auto; [lia|]. destruct Hc as [Hc|[Hc|Hc]]; try lia.
    - lia.
  Qed.

  Lemma c06_flush c k s es c' : let es1 := es ++ [EvOp HFlush] in let L := snd (lifetime_spec c emptyLog es1) in
    created c KB PB k s -> lifetime_ok c KB PB emptyLog (es1 ++ [EvReopen c']) ->
    zlen (pages L) <= numData c' \/ zlen (pages L) mod eraseSize c' <> 0 \/ zlen (pages L) mod numData c' = 0 ->
    exists s1 xs, lifetime c s (es1 ++ [EvReopen c']) = Ok (c', s1, xs) /\ serves c' KB PB s1 L.
  Proof.
    intros es1 L C H Hn. destruct (c06_reopen c k s es1 c' C H) as (s1 & xs & E & Sv). exists s1, xs. split; [auto|].
    fold L in Sv. enough (recovered c' (pages L) = L) as <- by exact Sv.
    destruct (life_last c k s es1 _ C H) as (s0 & s2 & ys & y & _ & Al & He & _).
    cbn [event_ok] in He. pose proof (ro_same _ _ _ _ _ He) as S.
    destruct Al as (Db & (f & I) & Hlo); destruct (alive_recovered _ _ (pd_set _ _ _ Db) (i_wf _ _ _ _ _ _ _ _ I) Hlo) as (_ & R & _). fold L in R. specialize (R ltac:(rewrite <- (ss_D _ _ S), <- (ss_B _ _ S); exact Hn)).
    rewrite <- (ss_D _ _ S), <- (ss_B _ _ S) in R. unfold recovered. rewrite R.
    enough (cur L = []) by (destruct L; cbn in *; congruence).
    unfold L, es1. rewrite lifetime_spec_app. destruct (lifetime_spec c emptyLog es) as [c0 L0].
    cbn [lifetime_spec event_spec snd log_step]. unfold log_flush. destruct (cur L0) eqn:Ec; [auto|reflexivity].
  Qed.

  Lemma c07_crash c k s es o i c' : created c KB PB k s -> lifetime_ok c KB PB emptyLog (es ++ [EvCrash o i c']) ->
    let c0 := fst (lifetime_spec c emptyLog es) in let L := snd (lifetime_spec c emptyLog es) in
    exists P l s1 xs, nth_error (op_points c0 L o) i = Some (P, l) /\
      (P = pages L \/ cur L <> [] /\ P = pages L ++ [cur L]) /\
      lifetime c s (es ++ [EvCrash o i c']) = Ok (c', s1, xs) /\ serves c' KB PB s1 (recovered c' P).
  Proof.
    intros C H c0 L. destruct (life_last c k s es _ C H) as (s0 & s1 & xs & y & _ & Al0 & He & E & Al & Co).
    fold c0 L in Al0, He, E, Al, Co. cbn [event_spec event_ok fst snd is_op] in *.
    destruct He as (Ho & P & l & Hn & Hb & Hr). rewrite (nth_error_nth _ _ ([], 0) Hn) in *. cbn [fst] in *.
    exists P, l, s1, (xs ++ [y]). split; [auto|]. split; [|split; [auto|]].
    - destruct Al0 as (Db & _). apply (points_pages KB PB c0 L o P l (pd_set _ _ _ Db) (nth_error_In _ _ Hn)).
    - rewrite (same_recovered _ _ (ro_same _ _ _ _ _ Hr)). apply alive_serves; auto.
  Qed.

  (** The storage states listed by [op_points] are all there are. *)
  Lemma c07_points c k s es o : created c KB PB k s -> lifetime_ok c KB PB emptyLog (es ++ [EvOp o]) ->
    let c0 := fst (lifetime_spec c emptyLog es) in let L := snd (lifetime_spec c emptyLog es) in
    exists s0 xs s1 x new, lifetime c s es = Ok (c0, s0, xs) /\ step c0 s0 o = Ok (s1, x) /\
      trace (sio s1) = new ++ trace (sio s0) /\
      Forall2 (fun im p => disk_ok c0 (fst (fst im)) (fst p) (snd p)) new (op_points c0 L o).
  Proof.
    intros C H c0 L. destruct (life_last c k s es _ C H) as (s0 & s1 & xs & y & E & Al0 & He & _).
    fold c0 L in Al0, He, E. cbn [event_ok] in He. destruct Al0 as (Db & (f & I) & _).
    destruct (step_points KB PB c0 f s0 L o Db I He) as (s2 & x & new & E2 & _ & _ & Et & F2).
    exists s0, xs, s2, x, new. auto.
  Qed.

  Lemma c08_recovery c k s es c' : created c KB PB k s -> lifetime_ok c KB PB emptyLog (es ++ [EvReopen c']) ->
    let L := snd (lifetime_spec c emptyLog es) in let L1 := recovered c' (pages L) in
    (lo L1 = lo L \/ lo L1 = lo L + eraseSize c') /\
    Z.min (zlen (pages L)) (numData c' - eraseSize c') <= zlen (pages L) - lo L1.
  Proof.
    intros C H L L1. destruct (life_last c k s es _ C H) as (s0 & s2 & ys & y & _ & Al & He & _).
    cbn [event_ok] in He. pose proof (ro_same _ _ _ _ _ He) as S. fold L in Al.
    destruct Al as (Db & (f & I) & Hlo); destruct (alive_recovered _ _ (pd_set _ _ _ Db) (i_wf _ _ _ _ _ _ _ _ I) Hlo) as (R1 & _ & R2). unfold L1, recovered. cbn [lo].
    rewrite (ss_D _ _ S), (ss_B _ _ S). auto.
  Qed.

  Lemma c09_lifetime c k s es o c0 s0 xs s1 x : created c KB PB k s -> lifetime_ok c KB PB emptyLog (es ++ [EvOp o]) ->
    lifetime c s es = Ok (c0, s0, xs) -> step c0 s0 o = Ok (s1, x) ->
    (fD (sio s1) = fD (sio s0) /\ nextD (sd s1) = nextD (sd s0) /\ minD (sd s1) = minD (sd s0)) \/
    (seals_page c0 (fD (sio s0)) (fD (sio s1)) (minD (sd s0)) (nextD (sd s0)) /\
     nextD (sd s1) = nextD (sd s0) + 1 /\
     minD (sd s1) = (if nextD (sd s0) - minD (sd s0) =? numData c0 then minD (sd s0) + eraseSize c0 else minD (sd s0))).
  Proof.
    intros C H El Es. destruct (life_last c k s es _ C H) as (s0' & s2 & ys & y & E & Al & He & _).
    rewrite El in E. injection E as E1 <- <-. rewrite <- E1 in *. cbn [event_ok] in He.
    destruct He as (Ho & Ha & Hl). destruct Al as (Db & (f & I) & _).
    apply (step_storage_inv c0 KB PB f s0 _ o s1 x (pd_set _ _ _ Db) (pd_modes _ _ _ Db) I Ho Ha Hl); [|exact Es].
    rewrite (pd_idx _ _ _ Db). discriminate.
  Qed.
End Thms.

(** Scans and interleaved iterators over whole executions. *)
From Verif Require Import Base BaseFacts Config Spline Storage DB Recovery Spec SpecSpline SplineFacts
  SpecPage SpecStore SpecIter Run SpecRun LogFacts PageFacts SearchFacts StoreFacts PutFacts GetFacts BinFacts
  RunFacts ReachFacts StoreThms IterFacts.
Open Scope Z_scope.
Ltac Zify.zify_post_hook ::= ZifyBool.elim_bool_cstr.
Ltac Zify.zify_convert_to_euclidean_division_equations_flag ::= constr:(false).

Lemma bm_none c q : uses_bitmap c q = false -> bm_of c q = None.
Proof. unfold uses_bitmap, bm_of. destruct (useBmap c), (qMinD q), (qMaxD q); cbn; congruence. Qed.

Section Thms.
  Variables (c : cfg) (KB PB : Z).

  Lemma scan_ready s L q n : setting c KB PB -> useBinary c = false -> uses_bitmap c q = false ->
    Inv c KB PB 0 s L -> coh c s L -> query_ok KB q -> (length (retained L) < n)%nat ->
    exists s', scan c s q n = Ok (s', answer c L q) /\ same_but_bufs s s' /\ Inv c KB PB 0 s' L /\ coh c s' L.
  Proof.
    intros G U Ub I Co Hq Hn.
    destruct (scan_plain c KB PB 0 G s L q n U (bm_none c q Ub) I Co Hq Hn) as (it & s' & it' & E1 & E2 & E3).
    exists s'. split; [|exact E3]. unfold scan. rewrite E1. cbn [bind]. rewrite E2. reflexivity.
  Qed.

  Lemma c04_calm h k s xs q n : quiet c KB PB h -> calmly c k h s xs -> useBinary c = false ->
    uses_bitmap c q = false -> query_ok KB q -> (length (retained (spec_log c h)) < n)%nat ->
    exists s', scan c s q n = Ok (s', answer c (spec_log c h) q).
  Proof.
    intros Q R U Ub Hq Hn. pose proof (q_set _ _ _ _ Q) as G. pose proof (q_modes _ _ _ _ Q) as M.
    destruct (calm_reach c KB PB G M h k s xs Q R) as (_ & I & Co).
    destruct (scan_ready s _ q n G U Ub I Co Hq Hn) as (s' & E & _). eauto.
  Qed.
  Lemma c04_nowrap h k s xs q n : scenario c KB PB h -> reached c k h s xs -> useBinary c = false ->
    zlen (pages (log_of c h)) <= numData c ->
    uses_bitmap c q = false -> query_ok KB q -> (length (retained (log_of c h)) < n)%nat ->
    exists s', scan c s q n = Ok (s', answer c (log_of c h) q).
  Proof.
    intros S R U Hw Ub Hq Hn. pose proof (sc_set _ _ _ _ S) as G.
    destruct (reach_inv c KB PB h S k s xs R) as [I _].
    destruct (scan_ready s _ q n G U Ub I (nowrap_coh c KB PB 0 G (sc_modes _ _ _ _ S) s _ I Hw) Hq Hn) as (s' & E & _). eauto.
  Qed.
  Lemma c04_puts ps fl k s xs q n : let h := ps ++ fl in
    scenario c KB PB h -> Forall is_put ps -> fl = [] \/ fl = [HFlush] -> useBinary c = false ->
    reached c k h s xs -> uses_bitmap c q = false -> query_ok KB q -> (length (retained (log_of c h)) < n)%nat ->
    exists s', scan c s q n = Ok (s', answer c (log_of c h) q).
  Proof.
    intros h S Fp Hf U (s0 & H & R) Ub Hq Hn.
    assert (Eh : h = ps ++ fl ++ map HGet []) by (cbn [map]; now rewrite app_nil_r). rewrite Eh in S.
    destruct (puts_are_calm c KB PB ps fl [] k s0 S Fp Hf U H) as (Q & El & C). rewrite <- Eh in *.
    rewrite <- El in *. apply (c04_calm h k s xs q n); auto. exists s0. auto.
  Qed.

  (** Without assumptions on the read buffer. *)
  Lemma scan_total h k s xs q n : scenario c KB PB h -> reached c k h s xs -> useBinary c = false ->
    uses_bitmap c q = false -> query_ok KB q ->
    (zlen (pages (log_of c h)) + 1) * (maxRec c + 1) + maxRec c < Z.of_nat n ->
    exists s' ys, scan c s q n = Ok (s', ys) /\ same_but_bufs s s'.
  Proof.
    intros S R U Ub Hq Hn. pose proof (sc_set _ _ _ _ S) as G.
    destruct (reach_inv c KB PB h S k s xs R) as [I _].
    destruct (scan_ends c KB PB 0 G s _ q n U (bm_none c q Ub) I Hq Hn) as (it & s' & it' & ys & E1 & E2 & E3 & _).
    exists s', ys. split; [|exact E3]. unfold scan. rewrite E1. cbn [bind]. rewrite E2. reflexivity.
  Qed.

  Lemma c05_plain h k s xs q n : quiet c KB PB h -> calmly c k h s xs -> useBinary c = false ->
    useBmap c = false -> query_ok KB q -> (length (retained (spec_log c h)) < n)%nat ->
    exists s', scan c s q n = Ok (s', answer c (spec_log c h) q).
  Proof. intros Q R U Ub. apply (c04_calm h k s xs q n Q R U). unfold uses_bitmap. now rewrite Ub. Qed.

  Lemma c34_scan h k s xs q n : scenario c KB PB h -> reached c k h s xs -> useBinary c = false ->
    uses_bitmap c q = false -> query_ok KB q ->
    (zlen (pages (log_of c h)) + 1) * (maxRec c + 1) + maxRec c < Z.of_nat n -> scan c s q n <> Fuel.
  Proof. intros S R U Ub Hq Hn. destruct (scan_total h k s xs q n S R U Ub Hq Hn) as (s' & ys & -> & _). discriminate. Qed.

  (** A shorter scan returns the same or runs out of calls. *)
  Lemma drain_mono n : forall m s it r, (n <= m)%nat -> drain c s it n = Ok r -> drain c s it m = Ok r.
  Proof.
    induction n as [|n IH]; intros m s it r Hm; [discriminate|]. destruct m as [|m]; [lia|]. cbn [drain].
    destruct (embedDBNext c s it) as [[[[s1 it1] z] out]| |]; cbn [bind]; [|discriminate|discriminate].
    destruct (z =? 0); [auto|]. destruct (drain c s1 it1 n) as [[[s2 it2] xs]| |] eqn:E; cbn [bind]; try discriminate.
    rewrite (IH m s1 it1 (s2, it2, xs)) by (auto; lia). auto.
  Qed.
  Lemma drain_ub n : forall m s it, (n <= m)%nat -> drain c s it n = UB -> drain c s it m = UB.
  Proof.
    induction n as [|n IH]; intros m s it Hm; [discriminate|]. destruct m as [|m]; [lia|]. cbn [drain].
    destruct (embedDBNext c s it) as [[[[s1 it1] z] out]| |]; cbn [bind]; [|auto|discriminate].
    destruct (z =? 0); [auto|]. destruct (drain c s1 it1 n) as [[[s2 it2] xs]| |] eqn:E; cbn [bind]; try discriminate.
    rewrite (IH m s1 it1) by (auto; lia). auto.
  Qed.
  Lemma c31_scan h k s xs q n : scenario c KB PB h -> reached c k h s xs -> useBinary c = false ->
    uses_bitmap c q = false -> query_ok KB q -> scan c s q n <> UB.
  Proof.
    intros S R U Ub Hq. set (m := (n + Z.to_nat ((zlen (pages (log_of c h)) + 1) * (maxRec c + 1) + maxRec c + 1))%nat).
    destruct (scan_total h k s xs q m S R U Ub Hq) as (s' & ys & E & _); [unfold m; lia|].
    unfold scan in *. destruct (embedDBInitIterator c s (qMinK q) (qMaxK q) (qMinD q) (qMaxD q)) as [it| |]; try discriminate.
    cbn [bind] in *. destruct (drain c s it n) as [[[s1 it1] zs]| |] eqn:Ed; cbn [bind]; try discriminate.
    intros _. rewrite (drain_ub n m s it ltac:(unfold m; lia) Ed) in E. discriminate.
  Qed.
  Lemma c32_scan h k s xs q n s' ys : scenario c KB PB h -> reached c k h s xs -> useBinary c = false ->
    uses_bitmap c q = false -> query_ok KB q -> scan c s q n = Ok (s', ys) ->
    sio s' = sio s /\ sv s' = sv s /\
    (exists p q, sd s' = d_rbuf (sd s) p q) /\ (exists p q, si s' = i_rbuf (si s) p q).
  Proof.
    intros S R U Ub Hq Hs. set (m := (n + Z.to_nat ((zlen (pages (log_of c h)) + 1) * (maxRec c + 1) + maxRec c + 1))%nat).
    destruct (scan_total h k s xs q m S R U Ub Hq) as (s2 & zs & E & Sm); [unfold m; lia|].
    unfold scan in *. destruct (embedDBInitIterator c s (qMinK q) (qMaxK q) (qMinD q) (qMaxD q)) as [it| |]; try discriminate.
    cbn [bind] in *. destruct (drain c s it n) as [[[s1 it1] ws]| |] eqn:Ed; cbn [bind] in Hs; try discriminate.
    rewrite (drain_mono n m s it _ ltac:(unfold m; lia) Ed) in E. cbn [bind] in E. injection E as -> _. injection Hs as <- _. exact Sm.
  Qed.

  Lemma c37_scan h k s xs s' ys q n : quiet c KB PB (h ++ [HFlush]) -> quiet c KB PB h ->
    calmly c k h s xs -> calmly c k (h ++ [HFlush]) s' ys -> useBinary c = false ->
    let L := spec_log c h in
    cur L = [] \/ zlen (pages L) - lo L < numData c ->
    uses_bitmap c q = false -> query_ok KB q -> (length (retained L) < n)%nat ->
    exists t t' zs, scan c s q n = Ok (t, zs) /\ scan c s' q n = Ok (t', zs).
  Proof.
    intros Q1 Q0 R0 R1 U L Hc Ub Hq Hn. pose proof (q_set _ _ _ _ Q0) as G. pose proof (q_modes _ _ _ _ Q0) as M.
    destruct (calm_reach c KB PB G M h k s xs Q0 R0) as (_ & I0 & Co0).
    destruct (calm_reach c KB PB G M _ k s' ys Q1 R1) as (_ & I1 & Co1).
    assert (EL : spec_log c (h ++ [HFlush]) = log_flush (numData c) (eraseSize c) L).
    { unfold L, spec_log. rewrite spec_run_app. destruct (spec_run _ _ _ emptyLog h) as [L1 x1]. reflexivity. }
    rewrite EL in *. fold L in I0, Co0.
    pose proof (flush_retained (numData c) (eraseSize c) L Hc (w_lo _ _ _ (i_wf _ _ _ _ _ _ _ _ I0))) as Er.
    destruct (scan_ready s L q n G U Ub I0 Co0 Hq Hn) as (t & E0 & _).
    destruct (scan_ready s' _ q n G U Ub I1 Co1 Hq) as (t' & E1 & _); [now rewrite Er|].
    exists t, t', (answer c L q). split; [exact E0|]. rewrite E1. unfold answer. now rewrite Er.
  Qed.

  (** ** Interleaving *)
  Section Mix.
    Hypothesis G : setting c KB PB.
    Hypothesis M : modes c.
    Hypothesis U : useBinary c = false.
    Notation N := (maxRec c).
    Notation D := (numData c).
    Notation B := (eraseSize c).
    Notation Inv := (Inv c KB PB 0).

    (** The iterator stands where the cursor says. *)
    Definition stands (L : log) (it : iter) (cu : cursor) : Prop :=
      match cu with
      | None => True
      | Some (q, a) =>
          it_query it = q /\ itBM it = None /\ query_ok KB q /\
          0 <= itPage it <= zlen (pages L) /\ 0 <= itRec it <= zlen (pgn L (itPage it)) /\
          (a <= length (accepted L))%nat /\
          exists pre, skipn a (accepted L) = pre ++ after L (itPage it) (itRec it) /\ dead c q pre
      end.

    Lemma after_seal L p r : 0 <= p <= zlen (pages L) -> 0 <= r <= zlen (pgn L p) ->
      forall x l, let L' := mkLog (pages L ++ [cur L]) l x in
      after L' p r = after L p r ++ x /\ r <= zlen (pgn L' p).
    Proof.
      intros Hp Hr x l L'. unfold after, pgn, L'. cbn [pages cur].
      assert (E : skipn (Z.to_nat p) ((pages L ++ [cur L]) ++ [x]) = skipn (Z.to_nat p) (pages L ++ [cur L]) ++ [x]).
      { rewrite skipn_app. replace (Z.to_nat p - length (pages L ++ [cur L]))%nat with 0%nat; [reflexivity|].
        rewrite app_length. cbn [length]. unfold zlen in *. lia. }
      split.
      - rewrite E, concat_app. cbn [concat]. rewrite app_nil_r, skipn_app.
        replace (Z.to_nat r - length (concat (skipn (Z.to_nat p) (pages L ++ [cur L]))))%nat with 0%nat; [reflexivity|].
        assert (Hn : nth_error (pages L ++ [cur L]) (Z.to_nat p) = Some (pgn L p)).
        { apply nth_error_nth'. rewrite app_length. cbn [length]. unfold zlen in *. lia. }
        rewrite (skipn_at _ _ _ Hn). cbn [concat]. rewrite app_length. unfold zlen in *. lia.
      - rewrite app_nth1 by (rewrite app_length; cbn [length]; unfold zlen in *; lia). apply Hr.
    Qed.
    Lemma after_app L p r x : 0 <= p <= zlen (pages L) -> 0 <= r <= zlen (pgn L p) ->
      let L' := mkLog (pages L) (lo L) (cur L ++ [x]) in
      after L' p r = after L p r ++ [x] /\ r <= zlen (pgn L' p).
    Proof.
      intros Hp Hr L'. unfold after, pgn, L'. cbn [pages cur].
      assert (E : concat (skipn (Z.to_nat p) (pages L ++ [cur L ++ [x]])) = concat (skipn (Z.to_nat p) (pages L ++ [cur L])) ++ [x]).
      { rewrite !skipn_app. replace (Z.to_nat p - length (pages L))%nat with 0%nat by (unfold zlen in *; lia).
        rewrite !skipn_O, !concat_app. cbn [concat]. now rewrite !app_nil_r, app_assoc. }
      split.
      - rewrite E, skipn_app.
        replace (Z.to_nat r - length (concat (skipn (Z.to_nat p) (pages L ++ [cur L]))))%nat with 0%nat; [reflexivity|].
        assert (Hn : nth_error (pages L ++ [cur L]) (Z.to_nat p) = Some (pgn L p)).
        { apply nth_error_nth'. rewrite app_length. cbn [length]. unfold zlen in *. lia. }
        rewrite (skipn_at _ _ _ Hn). cbn [concat]. rewrite app_length. unfold zlen in *. lia.
      - destruct (Z.eq_dec p (zlen (pages L))) as [->|Np].
        + rewrite pgn_cur in Hr. replace (Z.to_nat (zlen (pages L))) with (length (pages L)) by (unfold zlen; lia).
          rewrite app_nth2, Nat.sub_diag by lia. cbn [nth]. rewrite zlen_app. change (zlen [x]) with 1. lia.
        + rewrite app_nth1 by (unfold zlen in *; lia). rewrite pgn_page in Hr by lia. lia.
    Qed.

    Lemma accepted_seal L l x : accepted (mkLog (pages L ++ [cur L]) l x) = accepted L ++ x.
    Proof. unfold accepted. cbn [pages cur]. rewrite concat_app. cbn [concat]. now rewrite app_nil_r. Qed.

    Lemma stands_log L L' it cu x : stands L it cu -> zlen (pages L) <= zlen (pages L') ->
      accepted L' = accepted L ++ x ->
      (forall p r, 0 <= p <= zlen (pages L) -> 0 <= r <= zlen (pgn L p) ->
         after L' p r = after L p r ++ x /\ r <= zlen (pgn L' p)) ->
      stands L' it cu.
    Proof.
      intros S Hn Ha Hf. destruct cu as [[q a]|]; [|exact S]. destruct S as (S1 & S2 & S3 & S4 & S5 & S6 & pre & S7 & S8).
      destruct (Hf _ _ S4 S5) as [F1 F2]. do 3 (split; [auto|]). split; [lia|]. split; [lia|].
      rewrite Ha, app_length. split; [lia|]. exists pre. split; [|auto]. rewrite F1, skipn_app, S7, <- app_assoc.
      replace (a - length (accepted L))%nat with 0%nat by lia. reflexivity.
    Qed.

    Lemma stands_step L it cu o : stands L it cu -> stands (fst (spec_step N D B L o)) it cu.
    Proof.
      intros S. destruct o as [k d| |k]; cbn [spec_step].
      - destruct (refused L k); cbn [fst]; [auto|]. unfold log_put. destruct (zlen (cur L) >=? N).
        + cbn zeta. apply (stands_log L _ it cu [mkR k d 0] S).
          * cbn [pages seal]. rewrite zlen_app. pose proof (zlen_nonneg [cur L]). lia.
          * unfold seal. cbn [pages cur lo]. apply accepted_seal.
          * intros p r Hp Hr. unfold seal. cbn [pages lo]. apply after_seal; auto.
        + apply (stands_log L _ it cu [mkR k d 0] S).
          * cbn [pages]. lia.
          * unfold accepted. cbn [pages cur]. now rewrite app_assoc.
          * intros p r Hp Hr. apply after_app; auto.
      - unfold log_flush. destruct (cur L) eqn:E; cbn [fst]; [auto|]. unfold seal.
        apply (stands_log L _ it cu [] S).
        + cbn [pages]. rewrite zlen_app. pose proof (zlen_nonneg [cur L]). lia.
        + apply accepted_seal.
        + intros p1 r1 Hp Hr. apply after_seal; auto.
      - exact S.
    Qed.

    Lemma first_from_split {A} (g : A -> bool) pre x post : Forall (fun r => g r = false) pre -> g x = true ->
      first_from g (pre ++ x :: post) = Some (x, S (length pre)).
    Proof.
      intros F Hx. induction F as [|y l Hy _ IH]; cbn [app first_from length]; [now rewrite Hx|]. now rewrite Hy, IH.
    Qed.
    Lemma first_from_none {A} (g : A -> bool) l : Forall (fun r => g r = false) l -> first_from g l = None.
    Proof. induction 1 as [|y l Hy _ IH]; cbn; [auto|]. now rewrite Hy, IH. Qed.

    Lemma upd_len {A} (l : list A) i x : (i < length l)%nat -> length (upd l i x) = length l.
    Proof. intros H. unfold upd. rewrite app_length, firstn_length. cbn [length]. rewrite skipn_length. lia. Qed.
    Lemma Forall2_upd {A C} (R : A -> C -> Prop) l m i x y : Forall2 R l m -> (i < length l)%nat -> R x y ->
      Forall2 R (upd l i x) (upd m i y).
    Proof.
      intros F Hi Hr. unfold upd. revert i Hi. induction F as [|a b l m Hab F IH]; intros i Hi; [cbn in Hi; lia|].
      destruct i as [|i]; cbn [firstn skipn app]; [constructor; auto|]. constructor; [auto|].
      apply IH. cbn in Hi. lia.
    Qed.
    Lemma Forall2_nth {A C} (R : A -> C -> Prop) l m i y : Forall2 R l m -> nth_error m i = Some y ->
      exists x, nth_error l i = Some x /\ R x y.
    Proof.
      intros F. revert i. induction F as [|a b l m Hab F IH]; intros [|i] E; try discriminate.
      - injection E as <-. exists a. auto.
      - apply IH. exact E.
    Qed.

    Lemma mix_run h : forall s its L cs, Inv s L -> coh c s L -> Forall2 (stands L) its cs ->
      mix_ok c KB L cs h -> mcalm c s its h -> zlen (pages L) + zlen h + maxErr c < PB ->
      exists s' its', mrun c s its h = Ok (s', its', mspec c L cs h).
    Proof.
      induction h as [|o h IH]; intros s its L cs I Co F Hk Hc Hp; [eexists _, _; reflexivity|].
      rewrite zlen_cons in Hp. pose proof (zlen_nonneg h) as Zh.
      cbn [mix_ok] in Hk. destruct Hk as [Ho Hk]. cbn [mcalm] in Hc. destruct Hc as [Hr Hc].
      cbn [mrun mspec].
      assert (Step : let '(L', cs', x) := mspec_step c L cs o in
        exists s' its', mstep c s its o = Ok (s', its', x) /\ Inv s' L' /\ coh c s' L' /\ Forall2 (stands L') its' cs' /\
          zlen (pages L') <= zlen (pages L) + 1).
      { destruct o as [o|q|i]; cbn [mspec_step].
        - assert (C1 : calm c s [o]).
          { split; [exact Hr|]. intros s' x St. split; [|exact Logic.I]. apply (Hc s' its (ROp x)).
            cbn [mstep]. rewrite St. reflexivity. }
          pose proof (step_calm c KB PB 0 G M s L o [] I Co Ho C1 ltac:(lia)) as Sc.
          pose proof (fun it cu => stands_step L it cu o) as St.
          destruct (spec_step N D B L o) as [L' x]. cbn [fst] in St. destruct Sc as (s' & E & I' & Co' & _ & Hl).
          exists s', its. split; [cbn [mstep]; rewrite E; reflexivity|]. do 2 (split; [auto|]). split; [|exact Hl].
          clear - F St. induction F; constructor; auto.
        - destruct Ho as [Hq Ub].
          destruct (init_ok c KB PB 0 G s L q U I Hq) as (it & E & E1 & E2 & E3 & E4 & pre & E5 & E6).
          exists s, (its ++ [it]). split; [cbn [mstep]; rewrite E; reflexivity|]. do 2 (split; [auto|]). split; [|lia].
          apply Forall2_app; [exact F|]. constructor; [|constructor]. pose proof (i_wf _ _ _ _ _ _ _ _ I) as W.
          cbn [stands]. split; [auto|]. split; [rewrite E2; apply bm_none; auto|]. split; [auto|].
          split; [pose proof (w_lo _ _ _ W); lia|]. split; [rewrite E4; pose proof (zlen_nonneg (pgn L (itPage it))); lia|].
          split; [lia|]. exists pre. split; [|auto]. rewrite E4, <- E5.
          rewrite (retained_suffix L), app_length, Nat.add_sub, skipn_app, skipn_all, Nat.sub_diag. reflexivity.
        - destruct (nth_error cs i) as [cu|] eqn:En.
          2:{ exfalso. apply Ho. apply nth_overflow. now apply nth_error_None. }
          rewrite (nth_error_nth _ _ _ En) in Ho |- *. destruct cu as [[q a]|]; [|congruence].
          destruct (Forall2_nth _ _ _ _ _ F En) as (it & Ei & S1 & S2 & S3 & S4 & S5 & S6 & pre & S7 & S8).
          specialize (Hr it Ei). rewrite (i_minD _ _ _ _ _ _ _ _ I) in Hr.
          assert (Li : (i < length its)%nat) by (apply nth_error_Some; congruence).
          assert (NS : forall s L it, Inv s L -> True -> itBM it = None -> it_query it = q ->
             lo L <= itPage it <= zlen (pages L) -> 0 <= itRec it ->
             exists s' b, next_skip c s it = Ok (s', Some b) /\ same_but_bufs s s' /\ sd s' = sd s /\ True /\
             (b = true -> itRec it = 0 /\ dead c (it_query it) (pgn L (itPage it)))).
          { intros s1 L1 it1 _ _ B1 _ _ _. exists s1, false. unfold next_skip. rewrite B1.
            split; [reflexivity|]. split; [apply bufs_refl|]. split; [auto|]. split; [auto|]. discriminate. }
          destruct (next_ok c KB PB 0 G (fun _ _ => True) None q (fun _ _ _ _ H => H) NS S3 s L it I Logic.I S2 S1
            ltac:(lia) ltac:(lia)) as (s' & it' & r & out' & E & A1 & A2 & _ & A4 & A5 & A6 & A7 & A8 & Pg & A9).
          destruct (A9 Co ltac:(lia)) as (C' & N0 & N1 & _ & _). clear A9.
          destruct A8 as [-> | ->].
          + rewrite S7, first_from_none by (apply Forall_app; split; [exact S8|exact (N0 eq_refl)]).
            exists s', (upd its i it'). split; [cbn [mstep]; rewrite Ei, E; reflexivity|].
            do 2 (split; [auto|]). split; [|lia]. apply Forall2_upd; auto. exact Logic.I.
          + destruct (N1 eq_refl) as (pre2 & x & F1 & F2 & F3 & -> & P1 & P2).
            assert (Sk : skipn a (accepted L) = (pre ++ pre2) ++ x :: after L (itPage it') (itRec it'))
              by (rewrite S7, F1, app_assoc; reflexivity).
            rewrite Sk, first_from_split by (auto; apply Forall_app; auto).
            exists s', (upd its i it'). split; [cbn [mstep]; rewrite Ei, E; reflexivity|].
            do 2 (split; [auto|]). split; [|lia]. apply Forall2_upd; auto. cbn [stands].
            pose proof (w_lo _ _ _ (i_wf _ _ _ _ _ _ _ _ I)).
            do 3 (split; [auto|]). split; [lia|]. split; [lia|].
            assert (Ln : (a + S (length (pre ++ pre2)) <= length (accepted L))%nat).
            { pose proof (f_equal (@length _) Sk) as X. rewrite skipn_length, app_length in X. cbn [length] in X. lia. }
            split; [exact Ln|]. exists []. split; [|constructor]. cbn [app].
            rewrite Nat.add_comm, skipn_plus, Sk, skipn_app, skipn_all2 by lia.
            replace (S (length (pre ++ pre2)) - length (pre ++ pre2))%nat with 1%nat by lia. reflexivity. }
      destruct (mspec_step c L cs o) as [[L' cs'] x]. destruct Step as (s' & its' & E & I' & Co' & F' & Hl).
      rewrite E. cbn [bind]. destruct (Hc _ _ _ E) as [_ Hc'].
      destruct (IH s' its' L' cs' I' Co' F' Hk Hc' ltac:(lia)) as (s2 & its2 & E2). rewrite E2. cbn [bind].
      eexists _, _. reflexivity.
    Qed.
  End Mix.

  Lemma c33_mixed h k s0 : setting c KB PB -> modes c -> useReset c = true -> useBinary c = false ->
    zlen h + maxErr c < PB -> embedDBInit c k [] = Ok (s0, 0) ->
    mix_ok c KB emptyLog [] h -> mcalm c s0 [] h ->
    exists s its, mrun c s0 [] h = Ok (s, its, mspec c emptyLog [] h).
  Proof.
    intros G M Hr U Ln H Hk Hc. pose proof (zlen_nonneg h).
    destruct (fresh_ok c KB PB k s0 G Hr (m_rlc _ M) ltac:(lia) H) as (I & _).
    assert (Co : coh c s0 emptyLog) by (intros id H1; cbn in H1; change (zlen (@nil (list rcd))) with 0 in H1; lia).
    apply (mix_run G M U h s0 [] emptyLog [] I Co); auto.
  Qed.
End Thms.

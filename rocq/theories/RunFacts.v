(** Whole executions refine the abstract log. *)
From Verif Require Import Base BaseFacts Config Spline Storage DB Recovery Spec SpecSpline SplineFacts
  SpecPage SpecStore Run SpecRun LogFacts PageFacts SearchFacts StoreFacts PutFacts GetFacts BinFacts.
Open Scope Z_scope.
Ltac Zify.zify_post_hook ::= ZifyBool.elim_bool_cstr.
Ltac Zify.zify_convert_to_euclidean_division_equations_flag ::= constr:(false).

Section Exec.
  Variables (c : cfg) (KB PB f : Z).
  Hypothesis G : setting c KB PB.
  Hypothesis M : modes c.
  Notation Inv := (Inv c KB PB f).
  Notation N := (maxRec c).
  Notation D := (numData c).
  Notation B := (eraseSize c).
  Let L0 := L0 c KB PB G.

  Lemma get_any s L key : Inv s L -> 0 <= key < KB ->
    exists s' r dt, embedDBGet c s key = Ok (s', r, dt) /\ got c KB PB f s L key s' r dt.
  Proof.
    intros I Hk. destruct (useBinary c) eqn:U.
    - apply get_binary; auto; [apply (m_fill _ M U)|apply (m_rlc _ M)|apply (m_ft _ M U)|apply (m_rec _ M)].
    - apply (get_spline c KB PB f G); auto. apply (m_rec _ M).
  Qed.

  Lemma wfI s L : Inv s L -> wf_log c KB L.
  Proof. intros I. exact (i_wf _ _ _ _ _ _ _ _ I). Qed.

  Lemma refused_spec s L k : Inv s L -> refused L k = false -> forall x, In x (accepted L) -> rkey x < k.
  Proof.
    intros I H x Hx. unfold refused in H. pose proof (w_asc _ _ _ (wfI s L I)) as A.
    destruct (last_key (accepted L)) as [k0|] eqn:E.
    - pose proof (last_key_max _ _ _ A E Hx). lia.
    - unfold last_key in E. destruct (rev (accepted L)) eqn:R; [|discriminate].
      apply in_rev in Hx. rewrite R in Hx. destruct Hx.
  Qed.

  Lemma log_put_pages L r : zlen (pages (log_put N D B L r)) = zlen (pages L) + (if zlen (cur L) >=? N then 1 else 0).
  Proof. unfold log_put. destruct (zlen (cur L) >=? N); cbn [pages]; [apply zlen_seal with (c := c)|lia]. Qed.

  (** One step. *)
  Lemma step_calm s L o h : Inv s L -> coh c s L -> op_ok c KB L o -> calm c s (o :: h) ->
    zlen (pages L) + 1 + maxErr c < PB ->
    let '(L', x) := spec_step N D B L o in
    exists s', step c s o = Ok (s', x) /\ Inv s' L' /\ coh c s' L' /\ calm c s' h /\
      zlen (pages L') <= zlen (pages L) + 1.
  Proof.
    intros I Co Ho [Hroom Hcalm] Hp. pose proof (m_var _ M) as NV. unfold spec_step. destruct o as [k d| |k]; cbn [op_ok] in Ho.
    - destruct Ho as (Hk & Hd & Hf). destruct (refused L k) eqn:R.
      + assert (exists k0, last_key (accepted L) = Some k0 /\ k <= k0) as (k0 & E0 & E1).
        { unfold refused in R. destruct (last_key (accepted L)) as [k0|]; [|discriminate]. exists k0. split; [auto|lia]. }
        destruct (put_reject c KB PB f G s L k d k0 I Hk E0 E1) as (s' & E & I' & S & Co' & _).
        { intros C. split; auto. }
        assert (St : step c s (HPut k d) = Ok (s', OPut 1)) by (cbn [step]; rewrite E; reflexivity).
        exists s'. split; [exact St|]. split; [auto|]. split; [auto|]. split; [apply (proj2 (Hcalm _ _ St))|lia].
      + destruct (put_ok c KB PB f G s L k d I (m_rlc _ M) Hk Hd (refused_spec s L k I R) Hp) as
          (s' & new & E & I' & e1 & e2 & e3 & e4 & e5 & e6 & e7 & e8).
        { congruence. }
        unfold vloc in *. rewrite NV in *.
        assert (St : step c s (HPut k d) = Ok (s', OPut 0)) by (cbn [step]; rewrite E; reflexivity).
        exists s'. split; [exact St|]. split; [auto|]. destruct (Hcalm _ _ St) as [Hz Hc].
        split; [|split; [auto|]].
        * apply e7; auto. intros Ge. rewrite <- (i_nextD _ _ _ _ _ _ _ _ I). apply Hz.
          rewrite (i_nextD _ _ _ _ _ _ _ _ I), (i_nextD _ _ _ _ _ _ _ _ I'), log_put_pages.
          destruct (Z.geb_spec (zlen (cur L)) N); lia.
        * rewrite log_put_pages. destruct (zlen (cur L) >=? N); lia.
    - destruct (cur L) as [|r0 l0] eqn:Ec.
      + pose proof (flush_empty c KB PB f G s L I Ec) as E.
        assert (St : step c s HFlush = Ok (s, OFlush 0)) by (cbn [step]; rewrite E; reflexivity).
        assert (EL : log_flush D B L = L) by (unfold log_flush; now rewrite Ec). rewrite EL.
        exists s. split; [exact St|]. split; [auto|]. split; [auto|]. split; [apply (proj2 (Hcalm _ _ St))|lia].
      + assert (Ne : cur L <> []) by congruence.
        destruct (flush_data_ok c KB PB f G s L (m_rlc _ M) I Ne Hp) as (s' & new & E & Sd & _).
        { exact (Hroom eq_refl). }
        rewrite NV in E.
        assert (St : step c s HFlush = Ok (s', OFlush 0)) by (cbn [step]; rewrite E; reflexivity).
        assert (EL : log_flush D B L = seal D B L) by (unfold log_flush; now rewrite Ec). rewrite EL.
        destruct Sd as (I' & _ & _ & _ & _ & _ & _ & _ & Co'). destruct (Hcalm _ _ St) as [Hz Hc].
        pose proof (zlen_seal c L) as Zs.
        exists s'. split; [exact St|]. split; [auto|]. split; [|split; [auto|lia]].
        apply Co'; auto. rewrite <- (i_nextD _ _ _ _ _ _ _ _ I). apply Hz.
        rewrite (i_nextD _ _ _ _ _ _ _ _ I), (i_nextD _ _ _ _ _ _ _ _ I'). lia.
    - destruct Ho as [Hk Hev]. destruct (get_any s L k I Hk) as (s' & r & dt & E & S & I' & o & Er & Ed & So & Cm).
      destruct (Cm Co) as (Co' & Rt & Sp).
      assert (Eo : o = find_key k (retained L)).
      { destruct (useBinary c) eqn:U; [|auto]. pose proof (retained_asc c KB L (wfI s L I)) as A.
        destruct (find_key k (retained L)) as [x|] eqn:F.
        - apply find_key_some in F as [F1 F2]; auto.
        - destruct o as [x|]; [|auto]. destruct (So x eq_refl) as [H1 H2].
          rewrite find_key_none in F. exfalso. eapply F; eauto. }
      assert (St : step c s (HGet k) = Ok (s', match find_key k (retained L) with
               | Some r => OGet 0 (Some (rdata r)) | None => OGet (-1) None end)).
      { cbn [step]. rewrite E. cbn [bind]. rewrite Er, Ed, Eo. destruct (find_key k (retained L)); reflexivity. }
      exists s'. split; [exact St|]. split; [auto|]. split; [auto|]. split; [apply (proj2 (Hcalm _ _ St))|lia].
  Qed.

  Theorem run_calm h : forall s L, Inv s L -> coh c s L -> hist_ok c KB L h -> calm c s h ->
    zlen (pages L) + zlen h + maxErr c < PB ->
    exists s', run c s h = Ok (s', snd (spec_run N D B L h)) /\
      Inv s' (fst (spec_run N D B L h)) /\ coh c s' (fst (spec_run N D B L h)).
  Proof.
    induction h as [|o h IH]; intros s L I Co Hh Hc Hp.
    { exists s. cbn. auto. }
    destruct Hh as [Ho Hh]. rewrite zlen_cons in Hp. pose proof (zlen_nonneg h) as Zh.
    pose proof (step_calm s L o h I Co Ho Hc ltac:(lia)) as St.
    cbn [spec_run run]. destruct (spec_step N D B L o) as [L1 x]. cbn [fst] in Hh.
    destruct St as (s1 & -> & I1 & Co1 & Hc1 & Hl). cbn [bind].
    destruct (IH s1 L1 I1 Co1 Hh Hc1 ltac:(lia)) as (s2 & E & I2 & Co2).
    destruct (spec_run N D B L1 h) as [L2 xs]. cbn [fst snd] in *. rewrite E. cbn [bind]. eauto.
  Qed.

  (** Without any assumption on the read buffer. *)
  Lemma step_any s L o : Inv s L -> op_plain c KB o -> (useIndex c = true -> o <> HFlush) ->
    (forall k d, o = HPut k d -> forall x, In x (accepted L) -> rkey x < k) ->
    zlen (pages L) + 1 + maxErr c < PB ->
    exists s' x, step c s o = Ok (s', x) /\ Inv s' (log_step N D B L o) /\ sound_out L o x /\
      zlen (pages (log_step N D B L o)) <= zlen (pages L) + 1.
  Proof.
    intros I Ho Hi Ha Hp. pose proof (m_var _ M) as NV. destruct o as [k d| |k]; cbn [op_plain log_step] in *.
    - destruct Ho as [Hk Hd].
      destruct (put_ok c KB PB f G s L k d I (m_rlc _ M) Hk Hd (Ha k d eq_refl) Hp) as
          (s' & new & E & I' & e1 & e2 & e3 & e4 & e5 & e6 & e7 & e8).
      { congruence. }
      unfold vloc in *. rewrite NV in *. exists s', (OPut 0). cbn [step]. rewrite E. split; [reflexivity|].
      split; [auto|]. split; [reflexivity|]. rewrite log_put_pages. destruct (zlen (cur L) >=? N); lia.
    - unfold log_flush. destruct (cur L) as [|r0 l0] eqn:Ec.
      + pose proof (flush_empty c KB PB f G s L I Ec) as E. exists s, (OFlush 0). cbn [step]. rewrite E.
        split; [reflexivity|]. split; [auto|]. split; [reflexivity|lia].
      + assert (Ne : cur L <> []) by congruence.
        destruct (flush_data_ok c KB PB f G s L (m_rlc _ M) I Ne Hp) as (s' & new & E & Sd & _).
        { intros U. exfalso. now apply (Hi U). }
        rewrite NV in E. exists s', (OFlush 0). cbn [step]. rewrite E.
        split; [reflexivity|]. split; [apply Sd|]. split; [reflexivity|]. pose proof (zlen_seal c L). lia.
    - destruct (get_any s L k I Ho) as (s' & r & dt & E & S & I' & o & Er & Ed & So & Cm).
      exists s', (OGet r dt). cbn [step]. rewrite E. split; [reflexivity|]. split; [auto|]. split; [|lia].
      cbn [sound_out]. destruct o as [x|]; [|left; auto]. right. split; [auto|]. destruct (So x eq_refl).
      exists x. auto.
  Qed.

  Lemma log_step_accepted L o : accepted (log_step N D B L o) =
    accepted L ++ match o with HPut k d => [mkR k d 0] | _ => [] end.
  Proof.
    destruct o as [k d| |k]; cbn [log_step].
    - unfold log_put. destruct (zlen (cur L) >=? N); unfold accepted; cbn [pages cur].
      + unfold seal. cbn [pages]. rewrite concat_app. cbn [concat]. now rewrite app_nil_r.
      + now rewrite app_assoc.
    - unfold log_flush, accepted. destruct (cur L) eqn:E; [rewrite E; now rewrite !app_nil_r|].
      unfold seal. cbn [pages cur]. rewrite concat_app, E. cbn [concat]. now rewrite !app_nil_r.
    - now rewrite app_nil_r.
  Qed.

  Theorem run_any h : forall s L, Inv s L -> Forall (op_plain c KB) h ->
    (useIndex c = true -> ~ In HFlush h) ->
    zascending (put_keys h) -> (forall x k, In x (accepted L) -> In k (put_keys h) -> rkey x < k) ->
    zlen (pages L) + zlen h + maxErr c < PB ->
    exists s' xs, run c s h = Ok (s', xs) /\ Inv s' (fold_left (log_step N D B) h L) /\
      sound_outs N D B L h xs.
  Proof.
    induction h as [|o h IH]; intros s L I Hh Hi Hz Ha Hp.
    { exists s, []. cbn. auto. }
    pose proof (Forall_inv Hh) as Ho. pose proof (Forall_inv_tail Hh) as Hh'.
    rewrite zlen_cons in Hp. pose proof (zlen_nonneg h) as Zh.
    destruct (step_any s L o I Ho) as (s1 & x & E & I1 & Sx & Hl); try lia.
    { intros U ->. apply (Hi U). now left. }
    { intros k d -> y Hy. apply Ha; auto. cbn. now left. }
    destruct (IH s1 (log_step N D B L o) I1 Hh') as (s2 & xs & E2 & I2 & Sxs); auto; try lia.
    { intros U H. apply (Hi U). now right. }
    { unfold put_keys in Hz |- *. cbn [flat_map] in Hz. destruct o; cbn in Hz; auto. apply Hz. }
    { intros y k Hy Hk. rewrite log_step_accepted in Hy. apply in_app_or in Hy as [Hy|Hy].
      - apply Ha; auto. unfold put_keys in *. cbn [flat_map]. apply in_or_app. now right.
      - destruct o as [k0 d0| |]; [|destruct Hy|destruct Hy]. destruct Hy as [<-|[]]. cbn [rkey].
        unfold put_keys in Hz, Hk. cbn [flat_map app] in Hz.
        clear -Hz Hk. revert k0 Hz. fold (put_keys h) in *. induction (put_keys h) as [|a l IHl]; [destruct Hk|].
        intros k0 [H1 H2]. destruct Hk as [->|Hk]; [auto|]. specialize (IHl Hk a H2). lia. }
    exists s2, (x :: xs). cbn [run fold_left sound_outs]. rewrite E. cbn [bind]. rewrite E2. cbn [bind]. auto.
  Qed.

  (** Before the area has wrapped no page is overwritten. *)
  Lemma nowrap_coh s L : Inv s L -> zlen (pages L) <= D -> coh c s L.
  Proof.
    intros I Hn id Hid E. destruct (i_rb _ _ _ _ _ _ _ _ I) as [Rb|[(id' & A & B' & C)|[Rb _]]]; [| |rewrite (m_rlc _ M) in Rb; discriminate].
    - exfalso. apply (NOPAGE_not c KB PB G id). congruence.
    - pose proof (w_lo _ _ _ (wfI s L I)). rewrite B' in E.
      rewrite !Z.mod_small in E by lia. now subst.
  Qed.
  Lemma nowrap_hazard s L : Inv s L -> zlen (pages L) < D -> zlen (pages L) mod D <> bufD (sd s).
  Proof.
    intros I Hn E. pose proof (zlen_nonneg (pages L)). destruct (i_rb _ _ _ _ _ _ _ _ I) as [Rb|[(id' & A & B' & C)|[Rb _]]]; [| |rewrite (m_rlc _ M) in Rb; discriminate].
    - apply (NOPAGE_not c KB PB G (zlen (pages L))). congruence.
    - rewrite B', !Z.mod_small in E by lia. lia.
  Qed.

  Lemma spec_step_mono L o : zlen (pages L) <= zlen (pages (fst (spec_step N D B L o))) <= zlen (pages L) + 1.
  Proof.
    destruct o as [k d| |k]; cbn [spec_step fst].
    - destruct (refused L k); cbn [fst]; [lia|]. rewrite log_put_pages. destruct (zlen (cur L) >=? N); lia.
    - unfold log_flush. destruct (cur L); [lia|]. pose proof (zlen_seal c L). lia.
    - lia.
  Qed.
  Lemma spec_run_mono h : forall L, zlen (pages L) <= zlen (pages (fst (spec_run N D B L h))).
  Proof.
    induction h as [|o h IH]; intros L; cbn [spec_run]; [cbn; lia|].
    pose proof (spec_step_mono L o) as S. destruct (spec_step N D B L o) as [L1 x]. specialize (IH L1).
    destruct (spec_run N D B L1 h). cbn [fst] in *. lia.
  Qed.

  Lemma calm_nowrap h : forall s L, Inv s L -> hist_ok c KB L h ->
    (useIndex c = true -> ~ In HFlush h) -> zlen (pages L) + zlen h + maxErr c < PB ->
    zlen (pages (fst (spec_run N D B L h))) <= D -> calm c s h.
  Proof.
    induction h as [|o h IH]; intros s L I Hh Hi Hp Hw; [exact Logic.I|].
    destruct Hh as [Ho Hh]. rewrite zlen_cons in Hp. pose proof (zlen_nonneg h) as Zh.
    pose proof (spec_step_mono L o) as Sm. cbn [spec_run] in Hw.
    assert (Wn : zlen (pages (fst (spec_step N D B L o))) <= D).
    { destruct (spec_step N D B L o) as [L1 x]. pose proof (spec_run_mono h L1).
      destruct (spec_run N D B L1 h). cbn [fst] in *. lia. }
    assert (Rm : o = HFlush -> useIndex c = true -> exists n, get_count (iwbuf (si s)) = Ok n /\ n < maxIdx c).
    { intros -> U. exfalso. apply (Hi U). now left. }
    assert (Hz : forall s' L', Inv s' L' -> zlen (pages L') <= D -> zlen (pages L) <= zlen (pages L') ->
               nextD (sd s') <> nextD (sd s) -> nextD (sd s) mod D <> bufD (sd s)).
    { intros s' L' I' H1 H2 Hne. rewrite (i_nextD _ _ _ _ _ _ _ _ I), (i_nextD _ _ _ _ _ _ _ _ I') in *.
      apply (nowrap_hazard s L I). lia. }
    (* one step, with the hazard excluded by counting *)
    assert (C1 : calm c s [o]).
    { split; [exact Rm|]. intros s' x St. split; [|exact Logic.I]. intros Hne.
      destruct (Z.lt_ge_cases (zlen (pages L)) D) as [Hl|Hl].
      - rewrite (i_nextD _ _ _ _ _ _ _ _ I). apply (nowrap_hazard s L I). lia.
      - exfalso. apply Hne.
        (* the log cannot grow, so neither can the number of pages *)
        assert (Eq : zlen (pages (fst (spec_step N D B L o))) = zlen (pages L)) by lia.
        destruct o as [k d| |k]; cbn [spec_step] in Eq; cbn [op_ok] in Ho.
        + destruct Ho as (Hk & Hd & Hf). destruct (refused L k) eqn:R; cbn [fst] in Eq.
          * assert (exists k0, last_key (accepted L) = Some k0 /\ k <= k0) as (k0 & E0 & E1).
            { unfold refused in R. destruct (last_key (accepted L)) as [k0|]; [|discriminate]. exists k0. split; [auto|lia]. }
            destruct (put_reject c KB PB f G s L k d k0 I Hk E0 E1) as (s2 & E & I' & S & _).
            { intros C. split; auto. apply nowrap_coh; auto. lia. }
            cbn [step] in St. rewrite E in St. cbn [bind] in St. injection St as <- <-.
            rewrite (i_nextD _ _ _ _ _ _ _ _ I), (i_nextD _ _ _ _ _ _ _ _ I'). auto.
          * destruct (put_ok c KB PB f G s L k d I (m_rlc _ M) Hk Hd (refused_spec s L k I R) ltac:(lia)) as
              (s2 & new & E & I' & _).
            { rewrite (m_var _ M). congruence. }
            cbn [step] in St. rewrite E in St. cbn [bind] in St. injection St as <- <-.
            unfold vloc in I'. rewrite (m_var _ M) in I'.
            rewrite (i_nextD _ _ _ _ _ _ _ _ I), (i_nextD _ _ _ _ _ _ _ _ I'). exact Eq.
        + unfold log_flush in Eq. destruct (cur L) eqn:Ec.
          * pose proof (flush_empty c KB PB f G s L I Ec) as E. cbn [step] in St. rewrite E in St. cbn [bind] in St.
            injection St as <- <-. auto.
          * cbn [fst] in Eq. pose proof (zlen_seal c L). lia.
        + destruct Ho as [Hk _]. destruct (get_any s L k I Hk) as (s2 & r & dt & E & S & I' & _).
          cbn [step] in St. rewrite E in St. cbn [bind] in St. injection St as <- <-.
          rewrite (i_nextD _ _ _ _ _ _ _ _ I), (i_nextD _ _ _ _ _ _ _ _ I'). auto. }
    pose proof (step_calm s L o [] I (nowrap_coh s L I ltac:(lia)) Ho C1 ltac:(lia)) as Sc.
    destruct C1 as [_ C1]. split; [exact Rm|]. intros s' x St. split; [apply (C1 _ _ St)|].
    destruct (spec_step N D B L o) as [L1 y] eqn:ES. cbn [fst] in *.
    destruct Sc as (s1 & E1 & I1 & Co1 & _ & Hl). rewrite E1 in St. injection St as <- <-.
    apply (IH s1 L1 I1 Hh); [|lia|].
    - intros U H. apply (Hi U). now right.
    - destruct (spec_run N D B L1 h). cbn [fst] in *. auto.
  Qed.
End Exec.

(** ** Opening with the reset flag, over any previous contents *)
Lemma open_w_len c f : 0 <= flen (open_w c f).
Proof. unfold open_w. destruct (truncates c), f as [f|]; cbn; try lia. destruct (Z.leb_spec 0 (flen f)); [auto|cbn; lia]. Qed.
Lemma fresh_ok c KB PB k s : setting c KB PB -> useReset c = true -> useRLC c = false -> maxErr c < PB ->
  embedDBInit c k [] = Ok (s, 0) ->
  Inv c KB PB 0 s emptyLog /\ bufD (sd s) = NOPAGE /\ trace (sio s) = [] /\
  (useIndex c = true -> get_count (iwbuf (si s)) = Ok 0).
Proof.
  intros G HR HC HP H. pose proof (L0 c KB PB G) as L0.
  pose proof (g_B _ _ _ G) as GB. pose proof (g_D _ _ _ G) as GD. pose proof (g_DB _ _ _ G) as GDB.
  unfold embedDBInit in H.
  destruct (keySize c >? 8); [discriminate|]. destruct (eraseSize c =? 0); [discriminate|].
  destruct (negb (numData c mod eraseSize c =? 0)); [discriminate|].
  destruct (numData c <? _); [discriminate|].
  destruct (useVar c && _); [discriminate|]. destruct (useIndex c && _) eqn:Ui; [discriminate|].
  destruct (recordSize c =? 0); [discriminate|].
  destruct (init_page_ok c L0) as (w & Ew & Hw). rewrite Ew in H. cbn [bind] in H.
  destruct (numData c <? _); [discriminate|].
  destruct (negb (useBinary c) && _) eqn:Us; [discriminate|].
  set (s0 := if useBinary c then _ else _) in H.
  unfold initData in H. rewrite HR, HC in H.
  set (s1 := set_io _ _) in H. cbn [bind] in H. change (negb (0 =? 0)) with false in H. cbv iota in H.
  assert (Ix : exists s2, (if useIndex c
         then if bufBlocks c <? 4 then Ok (s1, -1) else initIndex c s1 (kI k)
         else Ok (s1, 0)) = Ok (s2, 0) /\ sd s2 = sd s1 /\ faults (sio s2) = [] /\ fD (sio s2) = open_w c (kD k) /\
         trace (sio s2) = [] /\ (idx_safe c s2 /\ (useIndex c = true -> get_count (iwbuf (si s2)) = Ok 0)) /\
         (if useVar c then if bufBlocks c <? 4 + (if useIndex c then 2 else 0) then Ok (s2, -1)
            else initVarData c s2 (kV k) else Ok (s2, 0)) = Ok (s, 0)).
  { destruct (useIndex c) eqn:U.
    - destruct (bufBlocks c <? 4); [discriminate|].
      unfold initIndex in *. destruct (bitmapSize c =? 0); [discriminate|]. rewrite Ew in *. cbn [bind] in *.
      pose proof (h_len _ _ _ Hw) as Lw. pose proof (l_init c L0). pose proof (l_ks c L0). pose proof (l_ds c L0).
      destruct (g_idx _ _ _ G U) as (A & B1 & C).
      rewrite st_ok in * by (rewrite ?le_enc_zlen; lia). cbn [bind] in *.
      destruct (numIndex c <? _); [discriminate|]. destruct (negb (numIndex c mod _ =? 0)); [discriminate|].
      rewrite HR in *. cbn [bind] in *. change (negb (0 =? 0)) with false in H. cbv iota in H.
      eexists. split; [reflexivity|]. cbn [set_io set_i sd sio faults fD trace]. split; [reflexivity|].
      split; [unfold s1; destruct (useBinary c); reflexivity|]. split; [unfold s1; destruct (useBinary c); reflexivity|].
      split; [unfold s1, s0; destruct (useBinary c); reflexivity|]. split; [|exact H].
      cbn [set_io set_i si sd sio fI iwbuf nextI].
      assert (Lz : zlen (zwr w 8 (le_enc 4 (nextD (sd s1)))) = pageSize c) by (rewrite zwr_length; rewrite ?le_enc_zlen; lia).
      assert (C0 : get_count (zwr w 8 (le_enc 4 (nextD (sd s1)))) = Ok 0).
      { rewrite (count_other c) by (rewrite ?le_enc_zlen; lia). rewrite (get_count_ok c L0 _ _ Hw). reflexivity. }
      split; [|intros _; exact C0]. intros _. cbn [set_io set_i si sd sio fI iwbuf nextI].
      split; [exact Lz|]. split; [unfold s1, s0; destruct (useBinary c); cbn; lia|].
      split; [exists 0; split; [exact C0|]; destruct (maxIdx_spec c KB PB G U); lia|].
      intros (Tr & _) i Hi. exfalso. unfold open_w in Hi. rewrite Tr in Hi. cbn in Hi. lia.
    - cbn [bind] in H. change (negb (0 =? 0)) with false in H. cbv iota in H.
      exists s1. split; [reflexivity|]. split; [reflexivity|].
      split; [unfold s1; destruct (useBinary c); reflexivity|]. split; [unfold s1; destruct (useBinary c); reflexivity|].
      split; [unfold s1, s0; destruct (useBinary c); reflexivity|]. split; [split; intros X; congruence|]. exact H. }
  clear H. destruct Ix as (s2 & _ & d2 & f2 & g2 & t2 & (x2 & c2) & H).
  assert (Fin : sd s = sd s1 /\ faults (sio s) = [] /\ fD (sio s) = open_w c (kD k) /\ trace (sio s) = [] /\ si s = si s2 /\ fI (sio s) = fI (sio s2)).
  { destruct (useVar c).
    - destruct (bufBlocks c <? _); [discriminate|]. unfold initVarData in H. rewrite HR in H.
      cbn [negb andb] in H. injection H as <-. cbn [set_io set_v sd sio faults fD fI trace si]. rewrite d2, f2, g2, t2. repeat split.
    - injection H as <-. rewrite d2, f2, g2, t2. repeat split. }
  clear H. destruct Fin as (d3 & f3 & g3 & t3 & i3 & j3).
  assert (Ed : sd s = mkD w (gpage c) (numData c) 0 0 NOPAGE 0 0
            (if useBinary c then None else Some (spl_init (numSplinePts c) (maxErr c) (gpoint c)))).
  { rewrite d3. unfold s1, s0. destruct (useBinary c); reflexivity. }
  split; [|split; [rewrite Ed; reflexivity|split; [auto|now rewrite i3]]].
  pose proof (g_err _ _ _ G) as GE.
  constructor; rewrite ?Ed, ?g3; cbn [emptyLog pages lo cur nextD minD availD wbuf rbuf bufD spl]; unfold store_ok, reserve; rewrite ?HC; auto; try (change (zlen (@nil (list rcd))) with 0; lia).
  - constructor.
    + change (zlen (@nil (list rcd))) with 0. pose proof (open_w_len c (kD k)). lia.
    + intros T. unfold open_w. rewrite T. change (zlen (@nil (list rcd))) with 0. cbn. lia.
    + intros id H1 H2. change (zlen (@nil (list rcd))) with 0 in H2. lia.
  - constructor.
    + cbn. lia.
    + cbn. lia.
    + apply Z.mod_0_l. lia.
    + cbn. lia.
    + constructor.
    + pose proof (l_fit c L0). cbn. lia.
    + exact Logic.I.
    + constructor.
  - left. reflexivity.
  - destruct (useBinary c) eqn:U; [reflexivity|]. eexists. split; [reflexivity|].
    destruct (g_spl _ _ _ G U) as [S1 S2]. split; [|cbn [spl_init s_maxErr]; apply u32_id; lia].
    change (zlen (@nil (list rcd))) with 0. apply init_SI; try lia; try (apply (g_KB _ _ _ G)); try (apply (g_PB _ _ _ G)); try apply (g_prod _ _ _ G).
  - intros U. specialize (x2 U). rewrite i3, j3. rewrite Ed. rewrite d2, <- d3, Ed in x2. exact x2.
Qed.

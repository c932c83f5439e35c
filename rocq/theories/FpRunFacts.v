(** Histories with floating-point arithmetic behave as with exact arithmetic. *)
From Verif Require Import Base BaseFacts Config Spline Storage DB Recovery Spec SpecSpline SplineFacts
  SpecPage SpecStore Run SpecRun LogFacts PageFacts SearchFacts StoreFacts PutFacts GetFacts BinFacts RunFacts
  ReachFacts StoreThms Fp SpecFp FpFacts.
From Coq Require Import QArith.
Open Scope Z_scope.
Ltac Zify.zify_post_hook ::= ZifyBool.elim_bool_cstr.
Ltac Zify.zify_convert_to_euclidean_division_equations_flag ::= constr:(false).

Lemma search_loop_est c e p key : forall fuel a b m,
  search_loop (with_est c e) p key fuel a b m = search_loop c p key fuel a b m.
Proof.
  induction fuel as [|fuel IH]; intros; [reflexivity|]. cbn [search_loop].
  change (rec_key (with_est c e) p m) with (rec_key c p m). change (cmpK (with_est c e)) with (cmpK c).
  destruct (rec_key c p m); cbn [bind]; [|reflexivity|reflexivity].
  now rewrite !IH.
Qed.

Section Run.
  Variables (c : cfg) (KB PB f : Z) (pf pd : Z) (fl fd : Q -> Q).
  Hypothesis G : setting c KB PB.
  Hypothesis M : modes c.
  Hypothesis NB : useBinary c = false.
  Hypothesis Rf : rounds pf fl.
  Hypothesis Pf : 16 <= pf.
  Hypothesis Rd : rounds pd fd.
  Hypothesis Pd : 16 <= pd <= 100.
  Hypothesis Prod : KB * PB <= 2 ^ pd.
  Notation Inv := (Inv c KB PB f).
  Notation N := (maxRec c).
  Notation D := (numData c).
  Notation B := (eraseSize c).
  Notation pg L id := (nth (Z.to_nat id) (pages L) []).
  Let L0 := L0 c KB PB G.

  (** ** The search inside a page *)
  Lemma searchNode_e e p rs k : holds c p rs -> ascending rs -> Forall (rec_ok c KB) rs -> 0 <= k < KB ->
    embedDBSearchNode (with_est c e) p k = embedDBSearchNode c p k.
  Proof.
    intros H Ha Hr Hk. pose proof (g_KB _ _ _ G) as GK.
    pose proof (searchNode_ok c KB L0 (proj2 GK) (g_cmp _ _ _ G) p rs k H Ha Hr Hk) as S1.
    assert (S2 : embedDBSearchNode (with_est c e) p k = Ok None /\ (forall r, In r rs -> rkey r <> k) \/
      exists i r, embedDBSearchNode (with_est c e) p k = Ok (Some (Z.of_nat i)) /\ nth_error rs i = Some r /\ rkey r = k).
    { unfold embedDBSearchNode. rewrite (get_count_ok c L0 p rs H). cbn [bind est with_est].
      pose proof (h_max _ _ _ H) as Hm. destruct (l_fit c L0) as [_ F]. pose proof (zlen_nonneg rs) as Nn.
      rewrite search_loop_est. rewrite i16_id by lia.
      apply (search_loop_ok c KB L0 (proj2 GK) (g_cmp _ _ _ G)) with (rs := rs); auto; try lia.
      - intros Hl. rewrite Z.add_0_l.
        destruct ((i16 e >=? zlen rs) || (i16 e <=? 0)) eqn:E.
        + rewrite Z.quot_div_nonneg by lia. destruct (_ >? _) eqn:Gt; lia.
        + destruct (_ >? _) eqn:Gt; lia.
      - intros i r Hi _. assert (i < length rs)%nat by (apply nth_error_Some; congruence). unfold zlen. lia. }
    destruct S1 as [[-> N1]|(i & r & -> & Hi & Ei)], S2 as [[-> N2]|(j & q & -> & Hj & Ej)]; auto.
    - exfalso. eapply N1; [eapply nth_error_In; eauto|auto].
    - exfalso. eapply N2; [eapply nth_error_In; eauto|auto].
    - do 3 f_equal. destruct (Nat.lt_trichotomy i j) as [X|[X|X]]; [|auto|].
      + pose proof (asc_nth _ _ _ _ _ Ha Hi Hj X). lia.
      + pose proof (asc_nth _ _ _ _ _ Ha Hj Hi X). lia.
  Qed.

  Lemma page_ends p rs a b : maxRec c <= 255 -> holds c p rs -> ascending rs -> Forall (rec_ok c KB) rs ->
    In a rs -> In b rs -> (forall r, In r rs -> rkey a <= rkey r <= rkey b) -> ends c p (zlen rs) (rkey a) (rkey b).
  Proof using G.
    clear - G L0. intros M1 H Ha Hr Ia Ib Bd. pose proof (g_KB _ _ _ G) as GK.
    pose proof (h_max _ _ _ H) as Hm. rewrite Forall_forall in Hr.
    assert (Z1 : 1 <= zlen rs) by (destruct rs; [destruct Ia|rewrite zlen_cons; pose proof (zlen_nonneg rs); lia]).
    apply In_nth_error in Ia as [i Hi]. apply In_nth_error in Ib as [j Hj].
    assert (Li : (i < length rs)%nat) by (apply nth_error_Some; congruence).
    assert (Lj : (j < length rs)%nat) by (apply nth_error_Some; congruence).
    assert (i = 0%nat) as ->.
    { destruct i; [auto|]. destruct (nth_error rs 0) as [x|] eqn:E; [|apply nth_error_None in E; lia].
      pose proof (asc_nth _ _ _ _ _ Ha E Hi ltac:(lia)). pose proof (Bd x (nth_error_In _ _ E)). lia. }
    assert (j = (length rs - 1)%nat).
    { destruct (Nat.eq_dec j (length rs - 1)); [auto|].
      destruct (nth_error rs (length rs - 1)) as [x|] eqn:E; [|apply nth_error_None in E; lia].
      pose proof (asc_nth _ _ _ _ _ Ha Hj E ltac:(lia)). pose proof (Bd x (nth_error_In _ _ E)). lia. }
    pose proof (Hr a (nth_error_In _ _ Hi)) as Ra. pose proof (Hr b (nth_error_In _ _ Hj)) as Rb.
    split; [apply (get_count_ok c L0 p rs H)|]. split; [lia|].
    split; [exact (rec_key_ok c L0 p rs 0 a KB (proj2 GK) H Hi Ra)|].
    split.
    { replace (zlen rs - 1) with (Z.of_nat j) by (unfold zlen; lia). exact (rec_key_ok c L0 p rs j b KB (proj2 GK) H Hj Rb). }
    destruct Ra as (Ra & _), Rb as (Rb & _). split; [lia|]. split; [lia|].
    destruct (Z.eq_dec (zlen rs) 1); [auto|]. right. unfold zlen in *.
    exact (asc_nth _ _ _ _ _ Ha Hi Hj ltac:(lia)).
  Qed.

  Lemma node_eq p rs a b k : holds c p rs -> ascending rs -> Forall (rec_ok c KB) rs ->
    In a rs -> In b rs -> (forall r, In r rs -> rkey a <= rkey r <= rkey b) -> rkey a <= k <= rkey b ->
    searchNode_fp fl c p k = embedDBSearchNode c p k.
  Proof.
    intros H Ha Hr Ia Ib Bd K. pose proof (page_ends p rs a b (m_rec _ M) H Ha Hr Ia Ib Bd) as E.
    destruct (estimate_ok pf fl c Rf Pf (l_ks _ L0) p _ _ _ k E K) as (e & Ee & _).
    unfold searchNode_fp. rewrite Ee. cbn [bind]. rewrite Forall_forall in Hr.
    destruct (Hr a Ia) as (Ra & _). destruct (Hr b Ib) as (Rb & _).
    apply (searchNode_e e p rs); auto; [rewrite Forall_forall; auto|lia].
  Qed.

  Lemma buffer_eq p rs k : holds c p rs -> ascending rs -> Forall (rec_ok c KB) rs -> within rs k ->
    searchBuffer_fp fl c p k = searchBuffer c p k.
  Proof.
    intros H Ha Hr Bt. unfold searchBuffer_fp, searchBuffer. rewrite (get_count_ok c L0 p rs H). cbn [bind].
    destruct (Z.eqb_spec (zlen rs) 0) as [Z0|Z1]; [reflexivity|].
    destruct Bt as [->|(x & y & Ix & Iy & K)]; [cbn in Z1; lia|].
    destruct rs as [|a l]; [destruct Ix|].
    destruct (exists_last (l := a :: l)) as (l' & b & El'); [discriminate|].
    assert (Ib : In b (a :: l)) by (rewrite El'; apply in_or_app; right; now left).
    assert (Bd : forall r, In r (a :: l) -> rkey a <= rkey r <= rkey b).
    { intros r Ir. split.
      - rewrite asc_cons in Ha. destruct Ha as [Ca _]. destruct Ir as [<-|Ir]; [lia|]. specialize (Ca _ Ir). lia.
      - eapply last_key_max; eauto. rewrite El'. apply last_key_app. }
    rewrite (node_eq p (a :: l) a b k); auto; [now left|]. pose proof (Bd x Ix). pose proof (Bd y Iy). lia.
  Qed.

  (** ** The search for the page *)
  Definition inside (p : page) (k : Z) : Prop :=
    exists mk xk, min_key c p = Ok mk /\ max_key c p = Ok xk /\
      (cmpK c k mk >= 0 /\ cmpK c k xk <= 0 \/ cmpK c mk k <= 0 /\ cmpK c xk k >= 0).
  Lemma linear_inside key : forall fuel s pid low high s' r,
    linearSearch c s key fuel pid low high = Ok (s', r) -> r = -1 \/ r = 0 /\ inside (rbuf (sd s')) key.
  Proof.
    induction fuel as [|fuel IH]; intros s pid low high s' r; cbn [linearSearch]; [discriminate|].
    destruct (_ || _); [intros [= <- <-]; auto|].
    destruct (readPage s (pid mod D)) as [s1 r1]. destruct (negb (r1 =? 0)); [intros [= <- <-]; auto|].
    destruct (min_key c (rbuf (sd s1))) as [mk| |] eqn:Em; cbn [bind]; try discriminate.
    destruct (Z.ltb_spec (cmpK c key mk) 0); [apply IH|].
    destruct (max_key c (rbuf (sd s1))) as [xk| |] eqn:Ex; cbn [bind]; try discriminate.
    destruct (Z.gtb_spec (cmpK c key xk) 0); [apply IH|]. intros [= <- <-]. right. split; [auto|].
    exists mk, xk. do 2 (split; [auto|]). left. lia.
  Qed.
  Lemma spline_inside s key s' r : splineSearch c s key = Ok (s', r) -> r = -1 \/ r = 0 /\ inside (rbuf (sd s')) key.
  Proof.
    unfold splineSearch. destruct (spl (sd s)) as [sp|]; [|discriminate].
    destruct (spl_find (cmpK c) sp key) as [[[loc low] high]| |]; cbn [bind]; try discriminate.
    destruct (high <? minD (sd s)); [intros [= <- <-]; auto|].
    destruct (if low <? minD (sd s) then _ else _) as [loc' low'].
    assert (Lin : ('(s0, r0) <- linearSearch c s key (Z.to_nat (Z.max (high - low') 0 + 3)) loc' low' high;;
                   (if r0 =? -1 then Ok (s0, -1) else Ok (s0, 0))) = Ok (s', r) -> r = -1 \/ r = 0 /\ inside (rbuf (sd s')) key).
    { destruct (linearSearch _ _ _ _ _ _ _) as [[s1 r1]| |] eqn:E; cbn [bind]; try discriminate.
      apply linear_inside in E as [->|[-> E]]; cbn; intros [= <- <-]; auto. }
    destruct (_ && _); cbn [bind]; [|exact Lin].
    destruct (min_key c (rbuf (sd s))) as [mk| |] eqn:Em; cbn [bind]; try discriminate.
    destruct (Z.leb_spec (cmpK c mk key) 0); cbn [bind]; [|exact Lin].
    destruct (max_key c (rbuf (sd s))) as [xk| |] eqn:Ex; cbn [bind]; try discriminate.
    destruct (Z.geb_spec (cmpK c xk key) 0); cbn [bind]; [|exact Lin].
    intros [= <- <-]. right. split; [auto|]. exists mk, xk. do 2 (split; [auto|]). right. lia.
  Qed.
  Lemma spline_eq s L key : Inv s L -> 0 < zlen (pages L) -> 0 <= key < KB ->
    splineSearch_fp fd c s key = splineSearch c s key.
  Proof.
    intros I NP Hk. pose proof (i_spl _ _ _ _ _ _ _ _ I) as Is. rewrite NB in Is. destruct Is as (sp & E1 & E2 & E3).
    assert (CM : cmp_ok (cmpK c) KB).
    { intros x y Hx Hy. rewrite (g_cmp _ _ _ G) by auto. destruct (Z.ltb_spec x y), (Z.eqb_spec x y); lia. }
    pose proof (i_wf _ _ _ _ _ _ _ _ I) as W. pose proof (w_ne _ _ _ W NP) as Wn. pose proof (i_f _ _ _ _ _ _ _ _ I) as If.
    unfold splineSearch_fp, splineSearch. rewrite E1.
    rewrite (find_fp_exact _ _ _ _ _ CM sp _ key pd fd E2 ltac:(lia) Hk Rd Pd Prod). reflexivity.
  Qed.

  (** ** Operations *)
  Lemma get_eq s L key : Inv s L -> 0 <= key < KB -> pages L <> [] \/ within (cur L) key ->
    embedDBGet_fp fl fd c s key = embedDBGet c s key.
  Proof.
    intros I Hk Hg. pose proof (i_wf _ _ _ _ _ _ _ _ I) as W. pose proof (i_w _ _ _ _ _ _ _ _ I) as Iw.
    pose proof (cur_asc c KB L W) as Ca. pose proof (cur_recs c KB L W) as Cr. pose proof (g_KB _ _ _ G) as GK.
    unfold embedDBGet_fp, embedDBGet. rewrite (i_nextD _ _ _ _ _ _ _ _ I).
    destruct (Z.eqb_spec (zlen (pages L)) 0) as [P0|P1].
    { rewrite (buffer_eq _ (cur L)); auto. destruct Hg as [Hg|Hg]; auto. destruct (pages L) as [|p0 ps]; [now contradiction Hg|].
      rewrite zlen_cons in P0. pose proof (zlen_nonneg ps). lia. }
    pose proof (zlen_nonneg (pages L)) as Zp.
    rewrite (get_count_ok c L0 _ _ Iw). cbn [bind].
    assert (Tail : ('(s, r) <- (if useBinary c then binarySearch c s key else splineSearch_fp fd c s key) ;;
        if negb (r =? 0) then Ok (s, -1, None)
        else
          i <- searchNode_fp fl c (rbuf (sd s)) key ;;
          match i with
          | Some i => dt <- rec_data c (rbuf (sd s)) i ;; Ok (s, 0, Some dt)
          | None => Ok (s, -1, None)
          end) =
        ('(s, r) <- (if useBinary c then binarySearch c s key else splineSearch c s key) ;;
        if negb (r =? 0) then Ok (s, -1, None)
        else
          i <- embedDBSearchNode c (rbuf (sd s)) key ;;
          match i with
          | Some i => dt <- rec_data c (rbuf (sd s)) i ;; Ok (s, 0, Some dt)
          | None => Ok (s, -1, None)
          end)).
    { rewrite NB. rewrite (spline_eq s L key I ltac:(lia) Hk).
      destruct (spline_ok c KB PB f G s L key NB I ltac:(lia) Hk) as (s' & r & E & S1 & I' & Hr & R0 & _).
      rewrite E. cbn [bind]. destruct (spline_inside _ _ _ _ E) as [->|[-> (mk & xk & Em & Ex & K)]]; [reflexivity|].
      change (negb (0 =? 0)) with false. cbv iota.
      destruct (R0 eq_refl) as (id & Hid & Im).
      destruct (page_bounds c KB PB G L id _ W Hid Im) as (a & b & Ea & Eb & Ia & Ib & Ka & Ra & Rb & Bd).
      assert (mk = rkey a) as -> by congruence. assert (xk = rkey b) as -> by congruence.
      rewrite (node_eq _ (pg L id) a b key); auto; [apply Im|apply asc_page, (pages_asc c KB L W)|apply (page_recs c KB L id W)|].
      rewrite !(g_cmp _ _ _ G) in K by auto.
      destruct (Z.ltb_spec key (rkey a)), (Z.ltb_spec key (rkey b)), (Z.eqb_spec key (rkey a)), (Z.eqb_spec key (rkey b)),
        (Z.ltb_spec (rkey a) key), (Z.ltb_spec (rkey b) key), (Z.eqb_spec (rkey a) key), (Z.eqb_spec (rkey b) key); lia. }
    destruct (Z.eqb_spec (zlen (cur L)) 0) as [C0|C1]; cbn [negb bind]; [exact Tail|].
    destruct (cur L) as [|a l] eqn:Ecur; [now cbn in C1|].
    destruct (exists_last (l := a :: l)) as (l' & b & El'); [discriminate|].
    pose proof Cr as Cr'. rewrite Forall_forall in Cr'.
    assert (Ib : In b (a :: l)) by (rewrite El'; apply in_or_app; right; now left).
    assert (Mx : max_key c (wbuf (sd s)) = Ok (rkey b)).
    { rewrite El' in Iw. eapply (max_key_ok c L0); eauto. apply GK. }
    rewrite Mx. cbn [bind].
    rewrite (min_key_ok c L0 _ a l KB (proj2 GK) Iw) by (apply Cr'; now left). cbn [bind].
    destruct (Z.gtb_spec key (rkey b)); [reflexivity|].
    destruct (Z.geb_spec key (rkey a)); [|exact Tail].
    rewrite (buffer_eq _ (a :: l)); auto.
    { destruct (searchBuffer c (wbuf (sd s)) key) as [[r dt]| |]; reflexivity. }
    right. exists a, b. split; [now left|]. split; [auto|lia].
  Qed.

  Lemma put_eq s L key data : Inv s L -> embedDBPut_fp fl c s key data = embedDBPut c s key data.
  Proof.
    intros I. pose proof (i_wf _ _ _ _ _ _ _ _ I) as W. pose proof (i_w _ _ _ _ _ _ _ _ I) as Iw.
    unfold embedDBPut_fp. rewrite (get_count_ok c L0 _ _ Iw). cbn [bind].
    destruct (embedDBPut c s key data) as [[s' r]| |]; cbn [bind]; [|reflexivity|reflexivity].
    destruct (Z.geb_spec (zlen (cur L)) N) as [Full|]; cbn [andb]; [|reflexivity].
    destruct (negb (r =? 1)); [|reflexivity].
    pose proof (cur_asc c KB L W) as Ca. pose proof (cur_recs c KB L W) as Cr. pose proof (w_cur _ _ _ W) as Wc.
    pose proof (l_fit _ L0) as [F1 _]. pose proof (g_KB _ _ _ G) as GK.
    destruct (cur L) as [|a l] eqn:Ecur; [cbn in Full; lia|].
    destruct (exists_last (l := a :: l)) as (l' & b & El'); [discriminate|].
    assert (Ib : In b (a :: l)) by (rewrite El'; apply in_or_app; right; now left).
    assert (Bd : forall r, In r (a :: l) -> rkey a <= rkey r <= rkey b).
    { intros x Ix. split.
      - pose proof Ca as Ca'. rewrite asc_cons in Ca'. destruct Ca' as [Ca' _]. destruct Ix as [<-|Ix]; [lia|]. specialize (Ca' _ Ix). lia.
      - eapply last_key_max; eauto. rewrite El'. apply last_key_app. }
    pose proof (page_ends _ _ a b (m_rec _ M) Iw Ca Cr (or_introl eq_refl) Ib Bd) as En.
    destruct (maxerr_ok pf fl c Rf Pf (l_ks _ L0) (wbuf (sd s)) _ _ _ En) as (e & E & _); [lia| |rewrite E; reflexivity].
    intros i Hi. destruct (nth_error (a :: l) (Z.to_nat i)) as [x|] eqn:Ex.
    2:{ apply nth_error_None in Ex. unfold zlen in Hi. lia. }
    exists (rkey x). split; [|apply Bd; eapply nth_error_In; eauto].
    replace i with (Z.of_nat (Z.to_nat i)) by lia. apply (rec_key_ok c L0 _ (a :: l) _ _ KB (proj2 GK) Iw Ex).
    rewrite Forall_forall in Cr. apply Cr. eapply nth_error_In; eauto.
  Qed.

  Theorem run_eq h : forall s L, Inv s L -> Forall (op_plain c KB) h ->
    (useIndex c = true -> ~ In HFlush h) ->
    zascending (put_keys h) -> (forall x k, In x (accepted L) -> In k (put_keys h) -> rkey x < k) ->
    zlen (pages L) + zlen h + maxErr c < PB -> lookups_fit c L h ->
    run_fp fl fd c s h = run c s h.
  Proof.
    induction h as [|o h IH]; intros s L I Hh Hi Hz Ha Hp Hg; [reflexivity|].
    pose proof (Forall_inv Hh) as Ho. pose proof (Forall_inv_tail Hh) as Hh'.
    rewrite zlen_cons in Hp. pose proof (zlen_nonneg h) as Zh. destruct Hg as [Hg1 Hg2].
    destruct (step_any c KB PB f G M s L o I Ho) as (s1 & x & E & I1 & Sx & Hl); try lia.
    { intros U ->. apply (Hi U). now left. }
    { intros k d -> y Hy. apply Ha; auto. cbn. now left. }
    assert (Es : step_fp fl fd c s o = step c s o).
    { destruct o as [k d| |k]; cbn [step_fp step].
      - rewrite (put_eq s L k d I). reflexivity.
      - reflexivity.
      - rewrite (get_eq s L k I Ho Hg1). reflexivity. }
    cbn [run_fp run]. rewrite Es, E. cbn [bind].
    rewrite (IH s1 (log_step N D B L o) I1 Hh'); auto; try lia.
    { intros U H. apply (Hi U). now right. }
    { unfold put_keys in Hz |- *. cbn [flat_map] in Hz. destruct o; cbn in Hz; auto. apply Hz. }
    { intros y k Hy Hk. rewrite log_step_accepted in Hy. apply in_app_or in Hy as [Hy|Hy].
      - apply Ha; auto. unfold put_keys in *. cbn [flat_map]. apply in_or_app. now right.
      - destruct o as [k0 d0| |]; [|destruct Hy|destruct Hy]. destruct Hy as [<-|[]]. cbn [rkey].
        unfold put_keys in Hz, Hk. cbn [flat_map app] in Hz.
        clear -Hz Hk. revert k0 Hz. fold (put_keys h) in *. induction (put_keys h) as [|a l IHl]; [destruct Hk|].
        intros k0 [H1 H2]. destruct Hk as [->|Hk]; [auto|]. specialize (IHl Hk a H2). lia. }
  Qed.
End Run.

(** * Histories from an empty database *)
Lemma fp_histories c KB PB h k s0 pf pd fl fd :
  scenario c KB PB h -> useBinary c = false -> embedDBInit c k [] = Ok (s0, 0) -> lookups_fit c emptyLog h ->
  rounds pf fl -> 16 <= pf -> rounds pd fd -> 16 <= pd -> KB * PB <= 2 ^ pd ->
  run_fp fl fd c s0 h = run c s0 h /\
  exists s xs, run_fp fl fd c s0 h = Ok (s, xs) /\
    sound_outs (maxRec c) (numData c) (eraseSize c) emptyLog h xs.
Proof.
  intros S U H Lf R1 P1 R2 P2 B.
  assert (E : run_fp fl fd c s0 h = run c s0 h).
  { pose proof (open_inv c KB PB h S k s0 H) as (I & _). pose proof S as S'. destruct S'.
    assert (B' : KB * PB <= 2 ^ Z.min pd 100).
    { destruct (Z.min_spec pd 100) as [[_ ->]|[_ ->]]; [auto|].
      eapply Z.le_trans; [exact (g_prod _ _ _ sc_set)|]. apply Z.pow_le_mono_r; lia. }
    eapply (run_eq c KB PB 0 pf (Z.min pd 100) fl fd); eauto; [apply (rounds_less pd); [lia|auto]|lia|].
    intros x y X. destruct X. }
  split; [exact E|]. rewrite E. eapply c01_sound; eauto.
Qed.

(** * Pages *)
Lemma fp_estimate c KB PB pf fl pg rs k :
  setting c KB PB -> maxRec c <= 255 -> rounds pf fl -> 16 <= pf ->
  holds c pg rs -> ascending rs -> Forall (rec_ok c KB) rs ->
  (exists a b, In a rs /\ In b rs /\ rkey a <= k <= rkey b) ->
  exists e, estimate fl c pg k = Ok e /\ 0 <= e < zlen rs.
Proof.
  intros G M R P H Ha Hr (x & y & Ix & Iy & K).
  destruct rs as [|a l]; [destruct Ix|].
  destruct (exists_last (l := a :: l)) as (l' & b & El'); [discriminate|].
  assert (Ib : In b (a :: l)) by (rewrite El', in_app_iff; right; now left).
  assert (Bd : forall r, In r (a :: l) -> rkey a <= rkey r <= rkey b).
  { intros r Ir. split.
    - destruct Ir as [<-|Ir]; [lia|]. destruct (In_nth_error _ _ Ir) as [i Hi].
      pose proof (asc_nth _ 0%nat (S i) a r Ha eq_refl Hi ltac:(lia)). lia.
    - eapply last_key_max; eauto. rewrite El'. apply last_key_app. }
  pose proof (page_ends c KB PB G pg _ a b M H Ha Hr (or_introl eq_refl) Ib Bd) as En.
  eapply (estimate_ok pf fl c R P (l_ks _ (L0 c KB PB G))); eauto.
  pose proof (Bd x Ix). pose proof (Bd y Iy). lia.
Qed.
Lemma fp_below c KB PB pf fl pg rs k :
  setting c KB PB -> maxRec c <= 255 -> rounds pf fl -> 16 <= pf -> keySize c <= 4 ->
  holds c pg rs -> ascending rs -> Forall (rec_ok c KB) rs -> rs <> [] ->
  0 <= k -> (forall a, In a rs -> k < rkey a) -> estimate fl c pg k = UB.
Proof.
  intros G M R P K4 H Ha Hr Ne K0 K.
  destruct rs as [|a l]; [congruence|].
  destruct (exists_last (l := a :: l)) as (l' & b & El'); [discriminate|].
  assert (Ib : In b (a :: l)) by (rewrite El', in_app_iff; right; now left).
  assert (Bd : forall r, In r (a :: l) -> rkey a <= rkey r <= rkey b).
  { intros r Ir. split.
    - destruct Ir as [<-|Ir]; [lia|]. destruct (In_nth_error _ _ Ir) as [i Hi].
      pose proof (asc_nth _ 0%nat (S i) a r Ha eq_refl Hi ltac:(lia)). lia.
    - eapply last_key_max; eauto. rewrite El'. apply last_key_app. }
  pose proof (page_ends c KB PB G pg _ a b M H Ha Hr (or_introl eq_refl) Ib Bd) as En.
  eapply (estimate_below pf fl c R P (l_ks _ (L0 c KB PB G))); eauto.
  split; [auto|]. apply K. now left.
Qed.
Lemma fp_maxerr c KB PB pf fl pg rs :
  setting c KB PB -> maxRec c <= 255 -> rounds pf fl -> 16 <= pf ->
  holds c pg rs -> ascending rs -> Forall (rec_ok c KB) rs -> zlen rs = maxRec c ->
  (exists e, getMaxError fl c pg pg = Ok e /\ 0 <= e <= maxRec c) /\
  updateMaxiumError fl c pg pg (maxRec c) = Ok (maxRec c).
Proof.
  intros G M R P H Ha Hr Hn. pose proof (g_KB _ _ _ G) as GK.
  assert (X : exists e, getMaxError fl c pg pg = Ok e /\ 0 <= e <= maxRec c).
  { destruct rs as [|a l]; [destruct (l_fit c (L0 c KB PB G)); cbn in Hn; lia|].
    destruct (exists_last (l := a :: l)) as (l' & b & El'); [discriminate|].
    assert (Ib : In b (a :: l)) by (rewrite El', in_app_iff; right; now left).
    assert (Bd : forall r, In r (a :: l) -> rkey a <= rkey r <= rkey b).
    { intros r Ir. split.
      - destruct Ir as [<-|Ir]; [lia|]. destruct (In_nth_error _ _ Ir) as [i Hi].
        pose proof (asc_nth _ 0%nat (S i) a r Ha eq_refl Hi ltac:(lia)). lia.
      - eapply last_key_max; eauto. rewrite El'. apply last_key_app. }
    pose proof (page_ends c KB PB G pg _ a b M H Ha Hr (or_introl eq_refl) Ib Bd) as En.
    eapply (maxerr_ok pf fl c R P (l_ks _ (L0 c KB PB G))); eauto.
    intros i Hi. destruct (nth_error (a :: l) (Z.to_nat i)) as [x|] eqn:Ex.
    2:{ apply nth_error_None in Ex. unfold zlen in Hi. lia. }
    exists (rkey x). split; [|apply Bd; eapply nth_error_In; eauto].
    replace i with (Z.of_nat (Z.to_nat i)) by lia. apply (rec_key_ok c (L0 c KB PB G) _ (a :: l) _ _ KB (proj2 GK) H Ex).
    rewrite Forall_forall in Hr. apply Hr. eapply nth_error_In; eauto. }
  split; [exact X|]. destruct X as (e & E & B). unfold updateMaxiumError. rewrite E. cbn [bind].
  destruct (Z.ltb_spec (maxRec c) e); [lia|reflexivity].
Qed.

Lemma fp_getvar c KB PB pf fl fd s rs k :
  setting c KB PB -> maxRec c <= 255 -> useVar c = true -> rounds pf fl -> 16 <= pf -> keySize c <= 4 ->
  holds c (wbuf (sd s)) rs -> ascending rs -> Forall (rec_ok c KB) rs -> rs <> [] ->
  0 <= k -> (forall a, In a rs -> k < rkey a) -> embedDBGetVar_fp fl fd c s k = UB.
Proof.
  intros G M V R P K4 H Ha Hr Ne K0 K. unfold embedDBGetVar_fp, searchBuffer_fp, searchNode_fp. rewrite V. cbn [negb].
  rewrite (get_count_ok c (L0 c KB PB G) _ rs H). cbn [bind].
  destruct (Z.eqb_spec (zlen rs) 0) as [Z0|Z1]; [destruct rs; [congruence|rewrite zlen_cons in Z0; pose proof (zlen_nonneg rs); lia]|].
  now rewrite (fp_below c KB PB pf fl _ rs k G M R P K4 H Ha Hr Ne K0 K).
Qed.

(** Facts about reachable states. *)
From Verif Require Import Base BaseFacts Config Spline Storage DB Recovery Spec SpecSpline SplineFacts
  SpecPage SpecStore Run SpecRun LogFacts PageFacts SearchFacts StoreFacts PutFacts GetFacts BinFacts RunFacts.
Open Scope Z_scope.
Ltac Zify.zify_post_hook ::= ZifyBool.elim_bool_cstr.
Ltac Zify.zify_convert_to_euclidean_division_equations_flag ::= constr:(false).

(** Opening with reset succeeds. *)
Lemma fresh_exists c KB PB k : setting c KB PB -> useReset c = true -> useRLC c = false -> useVar c = false ->
  (useIndex c = true -> 4 <= bufBlocks c /\ 2 * eraseSize c <= numIndex c /\
     numIndex c mod eraseSize c = 0 /\ 4 * eraseSize c <= numData c) ->
  exists s, embedDBInit c k [] = Ok (s, 0).
Proof.
  intros G HR HC HV HI. pose proof (L0 c KB PB G) as L0.
  pose proof (g_B _ _ _ G) as GB. pose proof (g_D _ _ _ G) as GD. pose proof (g_DB _ _ _ G) as GDB.
  pose proof (l_ks _ L0) as Lk. pose proof (l_ds _ L0) as Ld. pose proof (l_rec _ L0) as Lr. rewrite HV in Lr.
  unfold embedDBInit. rewrite HV, HC. cbn [andb].
  destruct (Z.gtb_spec (keySize c) 8); [lia|]. destruct (Z.eqb_spec (eraseSize c) 0); [lia|].
  rewrite GDB. cbn [Z.eqb negb]. destruct (Z.ltb_spec (numData c) (2 * eraseSize c)); [lia|].
  assert (useIndex c && negb (numIndex c mod eraseSize c =? 0) = false) as ->.
  { destruct (useIndex c); [|auto]. destruct (HI eq_refl) as (_ & _ & -> & _). auto. }
  destruct (Z.eqb_spec (recordSize c) 0); [lia|].
  destruct (init_page_ok c L0) as (w & -> & Hw). cbn [bind].
  destruct (Z.ltb_spec (numData c) (((if useIndex c then 1 else 0) * 2 + 2) * eraseSize c)) as [X|X].
  { exfalso. destruct (useIndex c); [destruct (HI eq_refl) as (_ & _ & _ & Y)|]; lia. }
  assert (negb (useBinary c) && (numSplinePts c <? 4) = false) as ->.
  { destruct (useBinary c) eqn:U; [auto|]. destruct (g_spl _ _ _ G U). cbn [negb andb]. lia. }
  set (s0 := if useBinary c then _ else _). unfold initData. rewrite HR, HC.
  set (s1 := set_io _ _). cbn [bind]. change (negb (0 =? 0)) with false. cbv iota.
  destruct (useIndex c) eqn:U.
  - destruct (HI eq_refl) as (I1 & I2 & I3 & I4). destruct (g_idx _ _ _ G U) as (A & B1 & C).
    destruct (Z.ltb_spec (bufBlocks c) 4); [lia|]. unfold initIndex.
    destruct (Z.eqb_spec (bitmapSize c) 0); [lia|].
    destruct (init_page_ok c L0) as (b & -> & Hb). cbn [bind]. pose proof (h_len _ _ _ Hb) as Lb.
    pose proof (l_init c L0).
    rewrite st_ok by (rewrite ?le_enc_zlen; lia). cbn [bind].
    destruct (Z.ltb_spec (numIndex c) (eraseSize c * 2)); [lia|]. rewrite I3. cbn [negb Z.eqb]. rewrite HR.
    cbn [bind]. change (negb (0 =? 0)) with false. cbv iota. eauto.
  - cbn [bind]. change (negb (0 =? 0)) with false. cbv iota. eauto.
Qed.

(** ** The ring of retained pages *)
Definition ring (D B : Z) (L : log) : Prop :=
  0 <= lo L <= zlen (pages L) /\ lo L mod B = 0 /\ zlen (pages L) - lo L <= D /\
  (lo L = 0 \/ D - B < zlen (pages L) - lo L).

Lemma ring_seal D B L : 1 <= B -> 2 * B <= D -> ring D B L -> ring D B (seal D B L).
Proof.
  intros HB HD (R1 & R2 & R3 & R4). unfold ring, seal. cbn [pages lo]. rewrite zlen_app. change (zlen [cur L]) with 1.
  destruct (Z.geb_spec (zlen (pages L) - lo L) D).
  - split; [lia|]. split; [|split; [lia|right; lia]].
    rewrite <- (Z.mul_1_l B) at 1. rewrite Z_mod_plus_full. auto.
  - split; [lia|]. split; [auto|]. split; [lia|]. lia.
Qed.
Lemma ring_step N D B L o : 1 <= B -> 2 * B <= D -> ring D B L -> ring D B (log_step N D B L o).
Proof.
  intros HB HD R. destruct o as [k d| |k]; cbn [log_step]; auto.
  - unfold log_put. destruct (zlen (cur L) >=? N); [exact (ring_seal D B L HB HD R)|exact R].
  - unfold log_flush. destruct (cur L); auto. apply ring_seal; auto.
Qed.
Lemma ring_run N D B h : 1 <= B -> 2 * B <= D -> forall L, ring D B L -> ring D B (fold_left (log_step N D B) h L).
Proof. intros HB HD. induction h as [|o h IH]; intros L R; [auto|]. apply IH, ring_step; auto. Qed.
Lemma ring_empty D B : 1 <= B -> 2 * B <= D -> ring D B emptyLog.
Proof. intros. unfold ring, emptyLog. cbn [lo pages]. change (zlen (@nil (list rcd))) with 0. rewrite Z.mod_0_l by lia. lia. Qed.

Lemma retained_suffix L : accepted L = concat (firstn (Z.to_nat (lo L)) (pages L)) ++ retained L.
Proof.
  unfold accepted, retained, livePages. rewrite app_assoc. f_equal.
  now rewrite <- concat_app, firstn_skipn.
Qed.

(** ** Reached states *)
Section Reach.
  Variables (c : cfg) (KB PB : Z) (h : list hop).
  Hypothesis S : scenario c KB PB h.
  Notation Inv := (Inv c KB PB 0).
  Notation N := (maxRec c).
  Notation D := (numData c).
  Notation B := (eraseSize c).
  Let G := sc_set _ _ _ _ S.
  Let M := sc_modes _ _ _ _ S.

  Lemma open_inv k s0 : embedDBInit c k [] = Ok (s0, 0) ->
    Inv s0 emptyLog /\ bufD (sd s0) = NOPAGE /\ trace (sio s0) = [].
  Proof.
    intros H. destruct (fresh_ok c KB PB k s0 G (sc_reset _ _ _ _ S) (m_rlc _ M)) as (I & Bu & Tr & _); auto.
    pose proof (sc_len _ _ _ _ S). pose proof (zlen_nonneg h). lia.
  Qed.
  Lemma open_coh k s0 : embedDBInit c k [] = Ok (s0, 0) -> coh c s0 emptyLog.
  Proof. intros H id H1. cbn in H1. change (zlen (@nil (list rcd))) with 0 in H1. lia. Qed.

  (** Every operation of the history returns (no undefined behaviour, no endless
      loop), with a sound result. *)
  Lemma runs k s0 : embedDBInit c k [] = Ok (s0, 0) ->
    exists s xs, run c s0 h = Ok (s, xs) /\ Inv s (log_of c h) /\ sound_outs N D B emptyLog h xs.
  Proof.
    intros H. destruct (open_inv k s0 H) as (I & _). destruct S.
    destruct (run_any c KB PB 0 G M h s0 emptyLog I) as (s & xs & E & I' & So); auto.
    - intros x k0 H1. destruct H1.
    - exists s, xs. auto.
  Qed.
  Lemma reach_inv k s xs : reached c k h s xs -> Inv s (log_of c h) /\ sound_outs N D B emptyLog h xs.
  Proof.
    intros (s0 & H & R). destruct (runs k s0 H) as (s' & xs' & E & I & So). rewrite R in E. injection E as <- <-. auto.
  Qed.
  Lemma reach_ring : ring D B (log_of c h).
  Proof. apply ring_run; [apply (g_B _ _ _ G)|apply (g_D _ _ _ G)|apply ring_empty; [apply (g_B _ _ _ G)|apply (g_D _ _ _ G)]]. Qed.
End Reach.

Lemma scenario_app c KB PB h o : scenario c KB PB (h ++ [o]) -> scenario c KB PB h.
Proof.
  intros []. constructor; auto.
  - apply Forall_app in sc_ops. tauto.
  - unfold put_keys in *. rewrite flat_map_app in sc_asc. revert sc_asc.
    generalize (flat_map (fun o0 : hop => match o0 with HPut k _ => [k] | _ => [] end) [o]).
    induction (flat_map _ h) as [|a l IH]; intros t; [constructor|].
    intros [H1 H2]. split; [|eapply IH; exact H2]. destruct l; [exact I|exact H1].
  - intros U H. apply (sc_idx U). apply in_or_app. auto.
  - rewrite zlen_app in sc_len. pose proof (zlen_nonneg [o]). lia.
Qed.

Lemma scenario_snoc_key c KB PB h k d : scenario c KB PB (h ++ [HPut k d]) ->
  forall x, In x (accepted (log_of c h)) -> rkey x < k.
Proof.
  intros S. destruct S as [_ _ _ _ A _ _]. unfold put_keys in A. rewrite flat_map_app in A. cbn [flat_map app] in A.
  assert (K : forall x, In x (accepted (log_of c h)) -> In (rkey x) (put_keys h)).
  { unfold log_of. assert (Q : forall h L x, In x (accepted (fold_left (log_step (maxRec c) (numData c) (eraseSize c)) h L)) ->
      In x (accepted L) \/ In (rkey x) (put_keys h)).
    { clear. induction h as [|o h IH]; intros L x H; [auto|]. cbn [fold_left] in H. apply IH in H as [H|H].
      - rewrite log_step_accepted in H. apply in_app_or in H as [H|H]; [auto|]. right. unfold put_keys. cbn [flat_map].
        apply in_or_app. left. destruct o; cbn in H |- *; try contradiction. destruct H as [<-|[]]. cbn. auto.
      - right. unfold put_keys in *. cbn [flat_map]. apply in_or_app. now right. }
    intros x H. destruct (Q h emptyLog x H) as [[]|]; auto. }
  intros x Hx. apply K in Hx. fold (put_keys h) in A. revert A Hx. clear. generalize (rkey x). intros k0.
  induction (put_keys h) as [|a l IH]; [intros _ []|]. cbn [app]. intros [H1 H2] [->|Hx].
  - clear IH. revert k0 H1 H2. induction l as [|b l IH]; intros k0 H1 H2; cbn [app] in *; [lia|].
    destruct H2 as [H2 H3]. specialize (IH b H2 H3). lia.
  - auto.
Qed.

Lemma log_of_snoc c h o : log_of c (h ++ [o]) = log_step (maxRec c) (numData c) (eraseSize c) (log_of c h) o.
Proof. unfold log_of. now rewrite fold_left_app. Qed.

(** ** What one more operation does to storage *)
Lemma seals_of c KB PB L F p : setting c KB PB -> wf_log c KB L ->
  img c (pages (seal (numData c) (eraseSize c) L)) (zlen (pages L)) p ->
  seals_page c F (sealed_file c F L p) (lo L) (zlen (pages L)).
Proof.
  intros G W [Hh Hi]. pose proof (g_B _ _ _ G) as GB. pose proof (g_D _ _ _ G) as GD. pose proof (g_DB _ _ _ G) as GDB.
  pose proof (w_live _ _ _ W) as Wv. pose proof (w_lo _ _ _ W) as Wl. pose proof (w_mod _ _ _ W) as Wm.
  unfold seals_page. split.
  { exists p. split; [auto|]. split; [apply (h_len _ _ _ Hh)|]. unfold sealed_file.
    destruct (Z.eqb_spec (zlen (pages L) - lo L) (numData c)), (Z.geb_spec (zlen (pages L) - lo L) (numData c)); try lia; auto. }
  pose proof (Z.mod_pos_bound (zlen (pages L)) (numData c) ltac:(lia)) as Mb. split; [exact Mb|].
  destruct (Z.eqb_spec (zlen (pages L) - lo L) (numData c)) as [Fl|Nf].
  - assert (Hm : zlen (pages L) mod numData c = lo L mod numData c).
    { replace (zlen (pages L)) with (lo L + 1 * numData c) by lia. apply Z_mod_plus_full. }
    split.
    + intros _. rewrite Hm. split; [|split].
      * pose proof GDB as GDB'. apply Z.mod_divide in GDB' as [t Ht]; [|lia]. rewrite Ht.
        assert (0 < t) by nia. apply Z.mod_divide in Wm as [u Hu]; [|lia]. rewrite Hu.
        rewrite Z.mul_mod_distr_r by nia. apply Z_mod_mult.
      * apply (aligned_block (lo L) (numData c) (eraseSize c)); auto; lia.
      * intros id Hid [R1 R2]. split; [lia|]. apply (mod_window id (lo L) (numData c)); auto; lia.
    + intros id Hid E. assert (id = zlen (pages L)); [|lia]. apply (mod_inj c KB PB G); auto. lia.
  - split; [discriminate|]. intros id Hid E. assert (id = zlen (pages L)); [|lia]. apply (mod_inj c KB PB G); auto. lia.
Qed.

Lemma step_storage_inv c KB PB f s L o s' x : setting c KB PB -> modes c -> Inv c KB PB f s L ->
  op_plain c KB o -> (forall k d, o = HPut k d -> forall r, In r (accepted L) -> rkey r < k) ->
  zlen (pages L) + 1 + maxErr c < PB ->
  (useIndex c = true -> o = HFlush -> cur L <> [] -> exists n, get_count (iwbuf (si s)) = Ok n /\ n < maxIdx c) ->
  step c s o = Ok (s', x) ->
  nextD (sd s) = zlen (pages L) /\ minD (sd s) = lo L /\
  ((fD (sio s') = fD (sio s) /\ nextD (sd s') = nextD (sd s) /\ minD (sd s') = minD (sd s)) \/
   (seals_page c (fD (sio s)) (fD (sio s')) (minD (sd s)) (nextD (sd s)) /\
    nextD (sd s') = nextD (sd s) + 1 /\
    minD (sd s') = (if nextD (sd s) - minD (sd s) =? numData c then minD (sd s) + eraseSize c else minD (sd s)))).
Proof.
  intros G M I Ho Ha Len Hx St. pose proof (m_var _ M) as NV.
  pose proof (i_wf _ _ _ _ _ _ _ _ I) as W. pose proof (w_live _ _ _ W) as Wv.
  assert (NM : nextD (sd s) = zlen (pages L) /\ minD (sd s) = lo L) by (split; [apply (i_nextD _ _ _ _ _ _ _ _ I)|apply (i_minD _ _ _ _ _ _ _ _ I)]).
  split; [tauto|]. split; [tauto|].
  assert (Same : forall s2, Inv c KB PB f s2 L -> nextD (sd s2) = nextD (sd s) /\ minD (sd s2) = minD (sd s)).
  { intros s2 I2. rewrite (i_nextD _ _ _ _ _ _ _ _ I2), (i_minD _ _ _ _ _ _ _ _ I2). split; symmetry; tauto. }
  assert (Seal : forall s2 L2, Inv c KB PB f s2 L2 -> pages L2 = pages (seal (numData c) (eraseSize c) L) ->
      lo L2 = lo (seal (numData c) (eraseSize c) L) -> nextD (sd s2) = nextD (sd s) + 1 /\
      minD (sd s2) = (if nextD (sd s) - minD (sd s) =? numData c then minD (sd s) + eraseSize c else minD (sd s))).
  { intros s2 L2 I2 E1 E2. rewrite (i_nextD _ _ _ _ _ _ _ _ I2), (i_minD _ _ _ _ _ _ _ _ I2), E1, E2.
    destruct NM as [-> ->]. rewrite (zlen_seal c L). split; [auto|]. unfold seal; cbn [lo].
    destruct (Z.geb_spec (zlen (pages L) - lo L) (numData c)), (Z.eqb_spec (zlen (pages L) - lo L) (numData c)); auto; lia. }
  destruct o as [ky d| |ky]; cbn [op_plain] in Ho.
  - destruct Ho as [Hk Hd].
    destruct (put_ok c KB PB f G s L ky d I (m_rlc _ M) Hk Hd (Ha ky d eq_refl) Len) as
          (s2 & new & E & I' & e1 & e2 & e3 & e4 & e5 & e6 & e7 & e8); [congruence|].
    cbn [step] in St. rewrite E in St. cbn [bind] in St. injection St as <- <-.
    unfold log_put in *. destruct (Z.geb_spec (zlen (cur L)) (maxRec c)) as [Ge|Lt].
    + right. destruct (e5 ltac:(lia)) as (p & Im & Ef). split.
      * destruct NM as [-> ->]. rewrite Ef. apply seals_of with (KB := KB) (PB := PB); auto.
      * eapply Seal; [exact I'|reflexivity|reflexivity].
    + left. destruct (e6 ltac:(lia)) as [-> _]. split; [auto|]. 
      rewrite (i_nextD _ _ _ _ _ _ _ _ I'), (i_minD _ _ _ _ _ _ _ _ I'). cbn [pages lo]. split; symmetry; tauto.
  - destruct (cur L) as [|r0 l0] eqn:Ec.
    + pose proof (flush_empty c KB PB f G s L I Ec) as E. cbn [step] in St. rewrite E in St. cbn [bind] in St.
      injection St as <- <-. left. auto.
    + assert (Ne : cur L <> []) by congruence.
      destruct (flush_data_ok c KB PB f G s L (m_rlc _ M) I Ne Len) as (s2 & new & E & Sd & _).
      { intros U. apply (Hx U); auto. congruence. }
      rewrite NV in E. cbn [step] in St. rewrite E in St. cbn [bind] in St. injection St as <- <-.
      destruct Sd as (I' & _ & _ & (p & Im & Ef) & _). right. split.
      * destruct NM as [-> ->]. rewrite Ef. apply seals_of with (KB := KB) (PB := PB); auto.
      * eapply Seal; [exact I'|reflexivity|reflexivity].
  - destruct (get_any c KB PB f G M s L ky I Ho) as (s2 & r & dt & E & (S2 & _) & I' & _).
    cbn [step] in St. rewrite E in St. cbn [bind] in St. injection St as <- <-. left. rewrite S2. split; [auto|]. apply Same; auto.
Qed.

Lemma step_storage c KB PB h o k s xs s' x : scenario c KB PB (h ++ [o]) -> reached c k h s xs ->
  step c s o = Ok (s', x) ->
  nextD (sd s) = zlen (pages (log_of c h)) /\ minD (sd s) = lo (log_of c h) /\
  ((fD (sio s') = fD (sio s) /\ nextD (sd s') = nextD (sd s) /\ minD (sd s') = minD (sd s)) \/
   (seals_page c (fD (sio s)) (fD (sio s')) (minD (sd s)) (nextD (sd s)) /\
    nextD (sd s') = nextD (sd s) + 1 /\
    minD (sd s') = (if nextD (sd s) - minD (sd s) =? numData c then minD (sd s) + eraseSize c else minD (sd s)))).
Proof.
  intros S R St. pose proof (scenario_app _ _ _ _ _ S) as S1. destruct (reach_inv c KB PB h S1 k s xs R) as [I _].
  pose proof (sc_set _ _ _ _ S1) as G. pose proof (sc_modes _ _ _ _ S1) as M. pose proof (m_var _ M) as NV.
  pose proof (i_wf _ _ _ _ _ _ _ _ I) as W. pose proof (w_live _ _ _ W) as Wv.
  set (L := log_of c h) in *.
  assert (Len : zlen (pages L) + 1 + maxErr c < PB).
  { pose proof (sc_len _ _ _ _ S) as Ln. rewrite zlen_app in Ln. change (zlen [o]) with 1 in Ln.
    assert (zlen (pages L) <= zlen h); [|lia]. unfold L, log_of.
    assert (Q : forall h L, zlen (pages (fold_left (log_step (maxRec c) (numData c) (eraseSize c)) h L)) <= zlen (pages L) + zlen h).
    { clear. induction h as [|o h IH]; intros L; cbn [fold_left]; [unfold zlen; cbn; lia|]. rewrite zlen_cons.
      specialize (IH (log_step (maxRec c) (numData c) (eraseSize c) L o)).
      assert (zlen (pages (log_step (maxRec c) (numData c) (eraseSize c) L o)) <= zlen (pages L) + 1); [|lia].
      destruct o; cbn [log_step]; [rewrite log_put_pages; destruct (zlen (cur L) >=? maxRec c); lia| |lia].
      unfold log_flush. destruct (cur L); [lia|]. pose proof (zlen_seal c L). lia. }
    specialize (Q h emptyLog). cbn in Q. lia. }
  apply (step_storage_inv c KB PB 0 s L o s' x G M I); auto.
  - exact (Forall_inv (proj2 (proj1 (Forall_app _ _ _) (sc_ops _ _ _ _ S)))).
  - intros ky d ->. exact (scenario_snoc_key c KB PB h ky d S).
  - intros U -> _. exfalso. apply (sc_idx _ _ _ _ S U). apply in_or_app. right. now left.
Qed.

(** ** Gets *)
Section Gets.
  Variables (c : cfg) (KB PB f : Z).
  Hypothesis G : setting c KB PB.
  Hypothesis M : modes c.
  Notation Inv := (Inv c KB PB f).

  Definition key_ok (L : log) (k : Z) : Prop := op_ok c KB L (HGet k).

  Lemma get_ok s L k : Inv s L -> coh c s L -> key_ok L k ->
    exists s', step c s (HGet k) = Ok (s', lookup L k) /\ same_but_rbuf s s' /\ Inv s' L /\ coh c s' L.
  Proof.
    intros I Co [Hk Hev]. destruct (get_any c KB PB f G M s L k I Hk) as (s' & r & dt & E & S & I' & o & Er & Ed & So & Cm).
    destruct (Cm Co) as (Co' & Rt & Sp).
    assert (Eo : o = find_key k (retained L)).
    { destruct (useBinary c) eqn:U; [|auto]. pose proof (retained_asc c KB L (wfI c KB PB f s L I)) as A.
      destruct (find_key k (retained L)) as [x|] eqn:F.
      - apply find_key_some in F as [F1 F2]; auto.
      - destruct o as [x|]; [|auto]. destruct (So x eq_refl) as [H1 H2].
        rewrite find_key_none in F. exfalso. eapply F; eauto. }
    exists s'. split; [|auto]. cbn [step]. rewrite E. cbn [bind]. unfold lookup. rewrite Er, Ed, Eo.
    destruct (find_key k (retained L)); reflexivity.
  Qed.

  Lemma gets_ok ks : forall s L, Inv s L -> coh c s L -> Forall (key_ok L) ks ->
    exists s', run c s (map HGet ks) = Ok (s', map (lookup L) ks) /\ same_but_rbuf s s' /\ Inv s' L /\ coh c s' L.
  Proof.
    induction ks as [|k ks IH]; intros s L I Co F.
    { exists s. cbn. split; [auto|]. split; [apply same_rbuf_refl|auto]. }
    destruct (get_ok s L k I Co (Forall_inv F)) as (s1 & E1 & S1 & I1 & Co1).
    destruct (IH s1 L I1 Co1 (Forall_inv_tail F)) as (s2 & E2 & S2 & I2 & Co2).
    exists s2. cbn [map run]. rewrite E1. cbn [bind]. rewrite E2. cbn [bind]. split; [auto|].
    split; [exact (same_rbuf_trans _ _ _ S1 S2)|auto].
  Qed.

  Lemma calm_gets ks : forall s L, Inv s L -> Forall (fun k => 0 <= k < KB) ks -> calm c s (map HGet ks).
  Proof.
    induction ks as [|k ks IH]; intros s L I F; [exact Logic.I|]. cbn [map calm]. split; [discriminate|].
    intros s' x St. destruct (get_any c KB PB f G M s L k I (Forall_inv F)) as (s2 & r & dt & E & S & I' & _).
    cbn [step] in St. rewrite E in St. cbn [bind] in St. injection St as <- <-. split.
    - rewrite (i_nextD _ _ _ _ _ _ _ _ I), (i_nextD _ _ _ _ _ _ _ _ I'). congruence.
    - apply (IH s2 L I' (Forall_inv_tail F)).
  Qed.
End Gets.

(** ** Histories without a stale read buffer *)
Section Calm.
  Variables (c : cfg) (KB PB : Z).
  Hypothesis G : setting c KB PB.
  Hypothesis M : modes c.
  Notation Inv := (Inv c KB PB 0).
  Notation N := (maxRec c).
  Notation D := (numData c).
  Notation B := (eraseSize c).

  Lemma calm_reach h k s xs : quiet c KB PB h -> calmly c k h s xs ->
    xs = spec_outs c h /\ Inv s (spec_log c h) /\ coh c s (spec_log c h).
  Proof.
    intros Q (s0 & H & Hc & R). pose proof (q_len _ _ _ _ Q) as Ln. pose proof (zlen_nonneg h).
    destruct (fresh_ok c KB PB k s0 G (q_reset _ _ _ _ Q) (m_rlc _ M) ltac:(lia) H) as (I & _).
    assert (Co : coh c s0 emptyLog).
    { intros id H1. cbn in H1. change (zlen (@nil (list rcd))) with 0 in H1. lia. }
    destruct (run_calm c KB PB 0 G M h s0 emptyLog I Co (q_ops _ _ _ _ Q) Hc) as (s' & E & I' & Co').
    { cbn [pages emptyLog]. change (zlen (@nil (list rcd))) with 0. lia. }
    rewrite E in R. injection R as <- <-. auto.
  Qed.
  Lemma calm_runs h k s0 : quiet c KB PB h -> embedDBInit c k [] = Ok (s0, 0) -> calm c s0 h ->
    exists s, run c s0 h = Ok (s, spec_outs c h).
  Proof.
    intros Q H Hc. pose proof (q_len _ _ _ _ Q) as Ln. pose proof (zlen_nonneg h).
    destruct (fresh_ok c KB PB k s0 G (q_reset _ _ _ _ Q) (m_rlc _ M) ltac:(lia) H) as (I & _).
    assert (Co : coh c s0 emptyLog).
    { intros id H1. cbn in H1. change (zlen (@nil (list rcd))) with 0 in H1. lia. }
    destruct (run_calm c KB PB 0 G M h s0 emptyLog I Co (q_ops _ _ _ _ Q) Hc) as (s' & E & I' & Co').
    { cbn [pages emptyLog]. change (zlen (@nil (list rcd))) with 0. lia. }
    eauto.
  Qed.


  (** Only puts: no page is ever read, so the read buffer stays empty. *)
  Definition is_put (o : hop) : Prop := match o with HPut _ _ => True | _ => False end.

  Lemma zasc_tail k l : zascending (k :: l) -> zascending l.
  Proof. intros [_ H]. exact H. Qed.
  Lemma zasc_all k l : zascending (k :: l) -> forall x, In x l -> k < x.
  Proof.
    revert k. induction l as [|a l IH]; intros k [H1 H2] x Hx; [destruct Hx|]. destruct Hx as [->|Hx]; [auto|].
    specialize (IH a H2 x Hx). lia.
  Qed.

  Lemma puts_calm t h : forall s L, Inv s L -> bufD (sd s) = NOPAGE -> zlen (cur L) > 0 \/ zlen (pages L) = 0 ->
    Forall (op_plain c KB) h -> Forall is_put h -> zascending (put_keys h) ->
    (forall x k, In x (accepted L) -> In k (put_keys h) -> rkey x < k) ->
    zlen (pages L) + zlen h + maxErr c < PB ->
    (forall s', Inv s' (fold_left (log_step N D B) h L) -> bufD (sd s') = NOPAGE -> calm c s' t) ->
    calm c s (h ++ t).
  Proof.
    induction h as [|o h IH]; intros s L I Hb Hn Fo Fp As Ab Ln Ht.
    { apply Ht; auto. }
    destruct o as [k d| |k]; try (pose proof (Forall_inv Fp); contradiction).
    destruct (Forall_inv Fo) as [Hk Hd]. rewrite zlen_cons in Ln. pose proof (zlen_nonneg h).
    assert (Lt : forall x, In x (accepted L) -> rkey x < k) by (intros x Hx; apply Ab; [auto|now left]).
    destruct (put_ok c KB PB 0 G s L k d I (m_rlc _ M) Hk Hd Lt ltac:(lia)) as
          (s2 & new & E & I' & e1 & e2 & e3 & e4 & e5 & e6 & e7 & e8 & _).
    { rewrite (m_var _ M). congruence. }
    unfold vloc in I'. rewrite (m_var _ M) in I'.
    cbn [app calm]. split; [discriminate|]. intros s' x St. cbn [step] in St. rewrite E in St. cbn [bind] in St.
    injection St as <- <-. split.
    { intros _. rewrite Hb, (i_nextD _ _ _ _ _ _ _ _ I). apply (NOPAGE_not c KB PB G). }
    pose proof (log_put_pages c L (mkR k d 0)) as Lp.
    apply (IH s2 (log_put N D B L (mkR k d 0)) I').
    - rewrite (e8 Hn). auto.
    - left. unfold log_put. destruct (zlen (cur L) >=? N); cbn [cur]; [unfold zlen; cbn; lia|].
      rewrite zlen_app. pose proof (zlen_nonneg (cur L)). change (zlen [mkR k d 0]) with 1. lia.
    - apply (Forall_inv_tail Fo).
    - apply (Forall_inv_tail Fp).
    - eapply zasc_tail. exact As.
    - intros y k1 Hy Hk1. change (log_put N D B L (mkR k d 0)) with (log_step N D B L (HPut k d)) in Hy.
      rewrite log_step_accepted in Hy. apply in_app_or in Hy as [Hy|[<-|[]]].
      + apply Ab; [auto|]. now right.
      + cbn [rkey]. apply (zasc_all k (put_keys h)); auto.
    - rewrite Lp. destruct (zlen (cur L) >=? N); lia.
    - exact Ht.
  Qed.

  (** Ascending puts meet [op_ok] and are never refused. *)
  Lemma hist_asc h : forall L, wf_log c KB L -> Forall (op_plain c KB) h -> zascending (put_keys h) ->
    (forall x k, In x (accepted L) -> In k (put_keys h) -> rkey x < k) ->
    useBinary c = false \/ zlen (pages (fold_left (log_step N D B) h L)) <= D /\ lo L = 0 ->
    hist_ok c KB L h /\ fst (spec_run N D B L h) = fold_left (log_step N D B) h L.
  Proof.
    induction h as [|o h IH]; intros L W Fo As Ab Bm; [cbn; auto|].
    assert (Mono : forall h L, zlen (pages L) <= zlen (pages (fold_left (log_step N D B) h L))).
    { clear. induction h as [|o h IH]; intros L; cbn [fold_left]; [lia|]. specialize (IH (log_step N D B L o)).
      assert (zlen (pages L) <= zlen (pages (log_step N D B L o))); [|lia].
      destruct o; cbn [log_step]; [rewrite log_put_pages; destruct (zlen (cur L) >=? N); lia| |lia].
      unfold log_flush. destruct (cur L); [lia|]. pose proof (zlen_seal c L). lia. }
    assert (Nr : forall k d, o = HPut k d -> refused L k = false).
    { intros k d ->. unfold refused, last_key. destruct (rev (accepted L)) as [|r l] eqn:E; [auto|].
      assert (In r (accepted L)) by (rewrite in_rev, E; now left). specialize (Ab r k H ltac:(now left)). lia. }
    assert (ES : fst (spec_step N D B L o) = log_step N D B L o).
    { destruct o as [k d| |k]; cbn [spec_step log_step]; auto. now rewrite (Nr k d eq_refl). }
    assert (Lo : lo L = 0 -> zlen (pages (log_step N D B L o)) <= D -> lo (log_step N D B L o) = 0).
    { intros L1 L2. destruct o as [k d| |k]; cbn [log_step] in *; auto.
      - rewrite log_put_pages in L2. unfold log_put. destruct (zlen (cur L) >=? N); [|auto]. cbn [lo seal].
        destruct (Z.geb_spec (zlen (pages L) - lo L) D); lia.
      - unfold log_flush in *. destruct (cur L); [auto|]. pose proof (zlen_seal c L). cbn [lo seal].
        destruct (Z.geb_spec (zlen (pages L) - lo L) D); lia. }
    assert (Bm1 : useBinary c = false \/ zlen (pages (fold_left (log_step N D B) h (log_step N D B L o))) <= D /\ lo (log_step N D B L o) = 0).
    { destruct Bm as [?|[B1 B2]]; [auto|]. right. split; [exact B1|]. apply Lo; auto.
      cbn [fold_left] in B1. specialize (Mono h (log_step N D B L o)). lia. }
    assert (W1 : wf_log c KB (log_step N D B L o)).
    { destruct o as [k d| |k]; cbn [log_step]; auto.
      - destruct (Forall_inv Fo) as [Hk Hd].
        assert (Rr : rec_ok c KB (mkR k d 0)) by (split; [auto|split; [auto|rewrite (m_var _ M); congruence]]).
        assert (Lt : forall x, In x (accepted L) -> rkey x < k) by (intros x Hx; apply Ab; [auto|now left]).
        unfold log_put. destruct (Z.geb_spec (zlen (cur L)) N) as [Ge|Lt0].
        + pose proof (l_fit c (g_lay _ _ _ G)) as Fit.
          assert (Ne : cur L <> []) by (intros E; rewrite E in Ge; cbn in Ge; lia).
          apply (wf_append c KB (seal D B L) (mkR k d 0)); auto.
          * apply (wf_seal c KB PB G); auto.
          * cbn. lia.
          * intros x Hx. apply Lt. unfold accepted, seal in Hx. cbn [pages cur] in Hx.
            rewrite concat_app in Hx. cbn [concat] in Hx. rewrite !app_nil_r in Hx. exact Hx.
        + apply (wf_append c KB); auto.
      - unfold log_flush. destruct (cur L) eqn:E; [auto|]. apply (wf_seal c KB PB G); auto. congruence. }
    destruct (IH (log_step N D B L o) W1 (Forall_inv_tail Fo)) as [H1 H2]; auto.
    { destruct o; auto. apply zasc_tail in As. exact As. }
    { intros x k Hx Hk. rewrite log_step_accepted in Hx. apply in_app_or in Hx as [Hx|Hx].
      - apply Ab; auto. unfold put_keys. cbn [flat_map]. apply in_or_app. now right.
      - destruct o as [k0 d| |k0]; try contradiction. destruct Hx as [<-|[]]. cbn [rkey].
        apply (zasc_all k0 (put_keys h)); auto. }
    split.
    - split; [|now rewrite ES]. destruct o as [k d| |k]; cbn [op_ok]; auto.
      + destruct (Forall_inv Fo) as [Hk Hd]. split; [auto|]. split; [auto|]. rewrite (Nr k d eq_refl). discriminate.
      + split; [apply (Forall_inv Fo)|]. intros U. destruct Bm as [?|[B1 B2]]; [congruence|].
        intros r Hr _. unfold retained, livePages. rewrite B2. exact Hr.
    - cbn [spec_run fold_left]. destruct (spec_step N D B L o) as [L1 x]. cbn [fst] in ES. subst L1.
      destruct (spec_run N D B (log_step N D B L o) h) as [L2 xs]. exact H2.
  Qed.
End Calm.

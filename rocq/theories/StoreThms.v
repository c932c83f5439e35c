(** The facts behind the property theorems about storage, and the example
    configurations used to show that their hypotheses can be met. *)
From Verif Require Import Base BaseFacts Config Spline Storage DB Recovery Spec SpecSpline SplineFacts Util UtilFacts
  SpecPage SpecStore Run SpecRun LogFacts PageFacts SearchFacts StoreFacts PutFacts GetFacts BinFacts RunFacts ReachFacts.
Open Scope Z_scope.
Ltac Zify.zify_post_hook ::= ZifyBool.elim_bool_cstr.
Ltac Zify.zify_convert_to_euclidean_division_equations_flag ::= constr:(false).

Lemma zlen_nil {A} : zlen (@nil A) = 0.
Proof. reflexivity. Qed.

Lemma empty_wf c KB PB : setting c KB PB -> wf_log c KB emptyLog.
Proof.
  intros G. pose proof (g_B _ _ _ G). pose proof (g_D _ _ _ G). pose proof (l_fit _ (g_lay _ _ _ G)).
  constructor; try exact I; try (cbn; lia); try constructor.
Qed.

Section Thms.
  Variables (c : cfg) (KB PB : Z).

  Lemma scenario_hist h : scenario c KB PB h ->
    useBinary c = false \/ zlen (pages (log_of c h)) <= numData c ->
    quiet c KB PB h /\ spec_log c h = log_of c h.
  Proof.
    intros S Bm. pose proof (sc_set _ _ _ _ S) as G. pose proof (sc_modes _ _ _ _ S) as M.
    destruct (hist_asc c KB PB G M h emptyLog) as [H1 H2].
    - apply (empty_wf c KB PB G).
    - apply (sc_ops _ _ _ _ S).
    - apply (sc_asc _ _ _ _ S).
    - intros x k [].
    - destruct Bm as [?|H]; [auto|right; split; [exact H|reflexivity]].
    - split; [|exact H2]. destruct S. constructor; auto.
  Qed.

  Lemma c01_calm h k s0 : quiet c KB PB h -> embedDBInit c k [] = Ok (s0, 0) -> calm c s0 h ->
    exists s, run c s0 h = Ok (s, spec_outs c h).
  Proof. intros Q. apply (calm_runs c KB PB (q_set _ _ _ _ Q) (q_modes _ _ _ _ Q)); auto. Qed.

  Lemma c01_nowrap h k s0 : scenario c KB PB h -> embedDBInit c k [] = Ok (s0, 0) ->
    zlen (pages (log_of c h)) <= numData c ->
    exists s, run c s0 h = Ok (s, spec_outs c h).
  Proof.
    intros S H Hn. destruct (scenario_hist h S (or_intror Hn)) as [Q E]. apply (c01_calm h k s0 Q H).
    apply (calm_nowrap c KB PB 0 (sc_set _ _ _ _ S) (sc_modes _ _ _ _ S) h s0 emptyLog).
    - apply (open_inv c KB PB h S k s0 H).
    - apply (q_ops _ _ _ _ Q).
    - apply (sc_idx _ _ _ _ S).
    - cbn [pages emptyLog]. rewrite zlen_nil. pose proof (sc_len _ _ _ _ S). lia.
    - fold (spec_log c h). rewrite E. auto.
  Qed.

  Lemma puts_are_calm ps fl ks k s0 : let h := ps ++ fl ++ map HGet ks in
    scenario c KB PB h -> Forall is_put ps -> fl = [] \/ fl = [HFlush] -> useBinary c = false ->
    embedDBInit c k [] = Ok (s0, 0) ->
    quiet c KB PB h /\ spec_log c h = log_of c h /\ calm c s0 h.
  Proof.
    intros h S Fp Hf U H. destruct (scenario_hist h S (or_introl U)) as [Q E]. split; [exact Q|]. split; [exact E|].
    pose proof (sc_set _ _ _ _ S) as G. pose proof (sc_modes _ _ _ _ S) as M.
    destruct (open_inv c KB PB h S k s0 H) as (I & Hb & _).
    pose proof (sc_ops _ _ _ _ S) as Fo. unfold h in Fo. rewrite !Forall_app in Fo. destruct Fo as (F1 & F2 & F3).
    assert (Fk : Forall (fun k => 0 <= k < KB) ks).
    { apply Forall_forall. intros x Hx. rewrite Forall_forall in F3. apply (F3 (HGet x)). now apply in_map. }
    pose proof (sc_len _ _ _ _ S) as Ln. unfold h in Ln. rewrite !zlen_app in Ln.
    pose proof (zlen_nonneg ps). pose proof (zlen_nonneg fl). pose proof (zlen_nonneg (map HGet ks)).
    apply (puts_calm c KB PB G M (fl ++ map HGet ks) ps s0 emptyLog); auto.
    - pose proof (sc_asc _ _ _ _ S) as A. unfold h, put_keys in A. rewrite flat_map_app in A. revert A.
      fold (put_keys ps). generalize (flat_map (fun o : hop => match o with HPut k0 _ => [k0] | _ => [] end) (fl ++ map HGet ks)).
      induction (put_keys ps) as [|a l IH]; intros t; [constructor|]. intros [A1 A2]. split; [|eapply IH; exact A2].
      destruct l; [exact Logic.I|exact A1].
    - intros x k0 [].
    - cbn [pages emptyLog]. rewrite zlen_nil. lia.
    - intros s' I' Hb'. destruct Hf as [->| ->].
      + apply (calm_gets c KB PB 0 G M ks s' _ I' Fk).
      + cbn [app calm]. split.
        { intros _ Ui. exfalso. apply (sc_idx _ _ _ _ S Ui). unfold h. apply in_or_app. right. now left. }
        intros s2 x St. split.
        { intros _. rewrite Hb', (i_nextD _ _ _ _ _ _ _ _ I'). apply (NOPAGE_not c KB PB G). }
        set (L := fold_left _ ps emptyLog) in *.
        destruct (step_any c KB PB 0 G M s' L HFlush I') as (s3 & y & E3 & I3 & _).
        * exact Logic.I.
        * intros Ui. exfalso. apply (sc_idx _ _ _ _ S Ui). unfold h. apply in_or_app. right. now left.
        * discriminate.
        * assert (Ql : forall h L, zlen (pages (fold_left (log_step (maxRec c) (numData c) (eraseSize c)) h L)) <= zlen (pages L) + zlen h).
          { clear. induction h as [|o h IH]; intros L; cbn [fold_left]; [rewrite zlen_nil; lia|]. rewrite zlen_cons.
            specialize (IH (log_step (maxRec c) (numData c) (eraseSize c) L o)).
            assert (zlen (pages (log_step (maxRec c) (numData c) (eraseSize c) L o)) <= zlen (pages L) + 1); [|lia].
            destruct o; cbn [log_step]; [rewrite log_put_pages; destruct (zlen (cur L) >=? maxRec c); lia| |lia].
            unfold log_flush. destruct (cur L); [lia|]. pose proof (zlen_seal c L). lia. }
          specialize (Ql ps emptyLog). fold L in Ql. cbn [pages emptyLog] in Ql. rewrite zlen_nil in Ql.
          rewrite zlen_cons, zlen_nil in Ln. lia.
        * rewrite E3 in St. injection St as <- <-. apply (calm_gets c KB PB 0 G M ks s3 _ I3 Fk).
  Qed.

  Lemma c01_puts ps fl ks k s0 : let h := ps ++ fl ++ map HGet ks in
    scenario c KB PB h -> Forall is_put ps -> fl = [] \/ fl = [HFlush] -> useBinary c = false ->
    embedDBInit c k [] = Ok (s0, 0) ->
    exists s, run c s0 h = Ok (s, spec_outs c h).
  Proof.
    intros h S Fp Hf U H. destruct (puts_are_calm ps fl ks k s0 S Fp Hf U H) as (Q & _ & C). exact (c01_calm h k s0 Q H C).
  Qed.

  Lemma c01_sound h k s0 : scenario c KB PB h -> embedDBInit c k [] = Ok (s0, 0) ->
    exists s xs, run c s0 h = Ok (s, xs) /\ sound_outs (maxRec c) (numData c) (eraseSize c) emptyLog h xs.
  Proof. intros S H. destruct (runs c KB PB h S k s0 H) as (s & xs & E & _ & So). eauto. Qed.

  Lemma c31_no_ub h k s0 : scenario c KB PB h -> embedDBInit c k [] = Ok (s0, 0) -> run c s0 h <> UB.
  Proof. intros S H. destruct (runs c KB PB h S k s0 H) as (s & xs & -> & _). discriminate. Qed.
  Lemma c34_no_fuel h k s0 : scenario c KB PB h -> embedDBInit c k [] = Ok (s0, 0) -> run c s0 h <> Fuel.
  Proof. intros S H. destruct (runs c KB PB h S k s0 H) as (s & xs & -> & _). discriminate. Qed.

  Lemma accepted_log h : accepted (log_of c h) = records_of h.
  Proof.
    unfold log_of. assert (Q : forall h L, accepted (fold_left (log_step (maxRec c) (numData c) (eraseSize c)) h L) = accepted L ++ records_of h).
    { clear. induction h as [|o h IH]; intros L; cbn [fold_left]; [cbn; now rewrite app_nil_r|].
      rewrite IH, log_step_accepted, <- app_assoc. f_equal. }
    rewrite Q. reflexivity.
  Qed.

  Lemma disk_pages s L id : Inv c KB PB 0 s L -> lo L <= id < zlen (pages L) ->
    img c (pages L) id (fpg (fD (sio s)) (id mod numData c)).
  Proof.
    intros I H. pose proof (i_wf _ _ _ _ _ _ _ _ I) as W. pose proof (w_live _ _ _ W). pose proof (w_lo _ _ _ W).
    pose proof (i_disk _ _ _ _ _ _ _ _ I) as Dk. unfold store_ok in Dk. destruct (useRLC c); [apply Dk; lia|].
    destruct (dk_pg _ _ _ _ Dk id ltac:(lia) ltac:(lia)) as [?|[? _]]; [auto|lia].
  Qed.

  Lemma c02_state h k s xs : scenario c KB PB h -> reached c k h s xs ->
    let L := log_of c h in let n := zlen (pages L) in
    accepted L = records_of h /\
    accepted L = concat (firstn (Z.to_nat (lo L)) (pages L)) ++ retained L /\
    0 <= lo L /\ lo L mod eraseSize c = 0 /\ n - lo L <= numData c /\
    (lo L = 0 \/ numData c - eraseSize c < n - lo L) /\
    minD (sd s) = lo L /\ nextD (sd s) = n /\
    (forall id, lo L <= id < n -> holds c (fpg (fD (sio s)) (id mod numData c)) (nth (Z.to_nat id) (pages L) [])) /\
    holds c (wbuf (sd s)) (cur L).
  Proof.
    intros S R L n. destruct (reach_inv c KB PB h S k s xs R) as [I _]. destruct (reach_ring c KB PB h S) as (R1 & R2 & R3 & R4).
    split; [apply accepted_log|]. split; [apply retained_suffix|]. split; [apply R1|]. split; [apply R2|].
    split; [apply R3|]. split; [apply R4|]. split; [apply (i_minD _ _ _ _ _ _ _ _ I)|].
    split; [apply (i_nextD _ _ _ _ _ _ _ _ I)|]. split; [|apply (i_w _ _ _ _ _ _ _ _ I)].
    intros id H. apply (disk_pages s L id I H).
  Qed.

  Lemma c02_step h o : let L := log_of c h in let L' := log_of c (h ++ [o]) in
    lo L' = lo L \/ (zlen (pages L) - lo L >= numData c /\ lo L' = lo L + eraseSize c).
  Proof.
    intros L L'. unfold L'. rewrite log_of_snoc. fold L. destruct o; cbn [log_step]; auto.
    - unfold log_put. destruct (_ >=? _); [|auto]. cbn [lo seal]. destruct (Z.geb_spec (zlen (pages L) - lo L) (numData c)); [right|left]; lia.
    - unfold log_flush. destruct (cur L); [auto|]. cbn [lo seal]. destruct (Z.geb_spec (zlen (pages L) - lo L) (numData c)); [right|left]; lia.
  Qed.

  Lemma c03_reject h k s xs key data r : quiet c KB PB h -> calmly c k h s xs ->
    let L := spec_log c h in
    0 <= key < KB -> In r (accepted L) -> key <= rkey r ->
    (cur L = [] -> zlen (nth (Z.to_nat (zlen (pages L) - 1)) (pages L) []) = maxRec c) ->
    exists s', embedDBPut c s key data = Ok (s', 1) /\
      sio s' = sio s /\ si s' = si s /\ sv s' = sv s /\ (exists p q, sd s' = d_rbuf (sd s) p q) /\
      forall ks, Forall (key_ok c KB L) ks ->
        exists t, run c s' (map HGet ks) = Ok (t, map (lookup L) ks).
  Proof.
    intros Q R L Hk Hr Hle Hf. pose proof (q_set _ _ _ _ Q) as G. pose proof (q_modes _ _ _ _ Q) as M.
    destruct (calm_reach c KB PB G M h k s xs Q R) as (_ & I & Co). fold L in I, Co.
    pose proof (w_asc _ _ _ (i_wf _ _ _ _ _ _ _ _ I)) as A.
    destruct (last_key (accepted L)) as [k0|] eqn:E.
    2:{ exfalso. unfold last_key in E. destruct (rev (accepted L)) eqn:Er; [|discriminate].
        apply (in_rev (accepted L) r) in Hr. rewrite Er in Hr. destruct Hr. }
    assert (Hk0 : rkey r <= k0).
    { unfold last_key in E. destruct (rev (accepted L)) as [|x l] eqn:Er; [discriminate|]. injection E as <-.
      assert (El : accepted L = rev l ++ [x]) by (rewrite <- (rev_involutive (accepted L)), Er; reflexivity).
      rewrite El in Hr, A. apply in_app_or in Hr as [Hr|[->|[]]]; [|lia]. rewrite asc_app in A.
      destruct A as (_ & _ & A). specialize (A r x Hr ltac:(now left)). lia. }
    destruct (put_reject c KB PB 0 G s L key data k0 I Hk E ltac:(lia)) as (s' & Ep & I' & (S1 & S2 & S3 & S4) & Co' & _).
    { intros C. split; auto. }
    exists s'. split; [exact Ep|]. do 4 (split; [auto|]). intros ks F.
    destruct (gets_ok c KB PB 0 G M ks s' L I' (Co' Co) F) as (t & Et & _). eauto.
  Qed.

  Lemma c09_step h o k s xs s' x : scenario c KB PB (h ++ [o]) -> reached c k h s xs ->
    step c s o = Ok (s', x) ->
    (fD (sio s') = fD (sio s) /\ nextD (sd s') = nextD (sd s) /\ minD (sd s') = minD (sd s)) \/
    (seals_page c (fD (sio s)) (fD (sio s')) (minD (sd s)) (nextD (sd s)) /\
     nextD (sd s') = nextD (sd s) + 1 /\
     minD (sd s') = (if nextD (sd s) - minD (sd s) =? numData c then minD (sd s) + eraseSize c else minD (sd s))).
  Proof. intros S R St. apply (step_storage c KB PB h o k s xs s' x S R St). Qed.

  Lemma c14_modes c2 h k k2 s1 s2 : scenario c KB PB h -> scenario c2 KB PB h ->
    maxRec c = maxRec c2 -> numData c = numData c2 -> eraseSize c = eraseSize c2 ->
    zlen (pages (log_of c h)) <= numData c ->
    embedDBInit c k [] = Ok (s1, 0) -> embedDBInit c2 k2 [] = Ok (s2, 0) ->
    exists t1 t2 xs, run c s1 h = Ok (t1, xs) /\ run c2 s2 h = Ok (t2, xs).
  Proof.
    intros S1 S2 E1 E2 E3 Hn H1 H2. destruct (c01_nowrap h k s1 S1 H1 Hn) as (t1 & R1).
    assert (El : log_of c2 h = log_of c h) by (unfold log_of; now rewrite E1, E2, E3).
    assert (Q : exists t2, run c2 s2 h = Ok (t2, spec_outs c2 h)).
    { destruct (hist_asc c2 KB PB (sc_set _ _ _ _ S2) (sc_modes _ _ _ _ S2) h emptyLog) as [Q1 Q2];
        [apply (empty_wf c2 KB PB (sc_set _ _ _ _ S2))|apply (sc_ops _ _ _ _ S2)|apply (sc_asc _ _ _ _ S2)
        |intros ? ? []|right; split; [change (zlen (pages (log_of c2 h)) <= numData c2); rewrite El, <- E2; exact Hn|reflexivity]|].
      assert (Q : quiet c2 KB PB h) by (destruct S2; constructor; auto).
      apply (calm_runs c2 KB PB (sc_set _ _ _ _ S2) (sc_modes _ _ _ _ S2) h k2 s2 Q H2).
      apply (calm_nowrap c2 KB PB 0 (sc_set _ _ _ _ S2) (sc_modes _ _ _ _ S2) h s2 emptyLog).
      - apply (open_inv c2 KB PB h S2 k2 s2 H2).
      - exact Q1.
      - apply (sc_idx _ _ _ _ S2).
      - cbn [pages emptyLog]. rewrite zlen_nil. pose proof (sc_len _ _ _ _ S2). lia.
      - rewrite Q2. change (zlen (pages (log_of c2 h)) <= numData c2). rewrite El, <- E2. exact Hn. }
    destruct Q as (t2 & R2). exists t1, t2, (spec_outs c h). split; [exact R1|].
    unfold spec_outs in *. now rewrite E1, E2, E3.
  Qed.

  Lemma c32_reads h k s xs ks : quiet c KB PB h -> calmly c k h s xs ->
    Forall (key_ok c KB (spec_log c h)) ks ->
    exists s', run c s (map HGet ks) = Ok (s', map (lookup (spec_log c h)) ks) /\
      sio s' = sio s /\ si s' = si s /\ sv s' = sv s /\ (exists p q, sd s' = d_rbuf (sd s) p q).
  Proof.
    intros Q R F. pose proof (q_set _ _ _ _ Q) as G. pose proof (q_modes _ _ _ _ Q) as M.
    destruct (calm_reach c KB PB G M h k s xs Q R) as (_ & I & Co).
    destruct (gets_ok c KB PB 0 G M ks s _ I Co F) as (s' & E & S & _). exists s'. split; [exact E|exact S].
  Qed.

  Lemma c32_storage h k s xs key : scenario c KB PB h -> reached c k h s xs -> 0 <= key < KB ->
    exists s' r d, embedDBGet c s key = Ok (s', r, d) /\
      sio s' = sio s /\ si s' = si s /\ sv s' = sv s /\ (exists p q, sd s' = d_rbuf (sd s) p q).
  Proof.
    intros S R Hk. destruct (reach_inv c KB PB h S k s xs R) as [I _].
    destruct (get_any c KB PB 0 (sc_set _ _ _ _ S) (sc_modes _ _ _ _ S) s _ key I Hk) as (s' & r & d & E & Sm & _).
    exists s', r, d. split; [exact E|exact Sm].
  Qed.

  (** Fold of minima and maxima. *)
  Lemma min_data_spec rank d rs : ranks c rank -> length d = dsz c -> Forall (fun r => length (rdata r) = dsz c) rs ->
    (min_data c d rs = d \/ In (min_data c d rs) (map rdata rs)) /\
    rank (min_data c d rs) <= rank d /\ (forall r, In r rs -> rank (min_data c d rs) <= rank (rdata r)).
  Proof.
    intros Hr. unfold min_data. revert d. induction rs as [|r rs IH]; intros d Hd F; cbn [fold_left map].
    { split; [auto|]. split; [lia|]. intros r []. }
    pose proof (Forall_inv F) as Fr. cbv beta in Fr. destruct (Hr (rdata r) d Fr Hd) as [C _].
    destruct (Z.ltb_spec (cmpD c (rdata r) d) 0) as [Lt|Ge].
    - destruct (IH (rdata r) Fr (Forall_inv_tail F)) as (A & B & E). apply C in Lt. split.
      + right. destruct A as [A|A]; [left; auto|right; auto].
      + split; [lia|]. intros y [<-|Hy]; auto.
    - destruct (IH d Hd (Forall_inv_tail F)) as (A & B & E). split.
      + destruct A as [A|A]; [left; auto|right; right; auto].
      + split; [lia|]. intros y [<-|Hy]; auto. lia.
  Qed.
  Lemma max_data_spec rank d rs : ranks c rank -> length d = dsz c -> Forall (fun r => length (rdata r) = dsz c) rs ->
    (max_data c d rs = d \/ In (max_data c d rs) (map rdata rs)) /\
    rank d <= rank (max_data c d rs) /\ (forall r, In r rs -> rank (rdata r) <= rank (max_data c d rs)).
  Proof.
    intros Hr. unfold max_data. revert d. induction rs as [|r rs IH]; intros d Hd F; cbn [fold_left map].
    { split; [auto|]. split; [lia|]. intros r []. }
    pose proof (Forall_inv F) as Fr. cbv beta in Fr. destruct (Hr (rdata r) d Fr Hd) as [_ C].
    destruct (Z.gtb_spec (cmpD c (rdata r) d) 0) as [Lt|Ge].
    - destruct (IH (rdata r) Fr (Forall_inv_tail F)) as (A & B & E). assert (rank (rdata r) > rank d) by (apply C; lia). split.
      + right. destruct A as [A|A]; [left; auto|right; auto].
      + split; [lia|]. intros y [<-|Hy]; auto.
    - destruct (IH d Hd (Forall_inv_tail F)) as (A & B & E). split.
      + destruct A as [A|A]; [left; auto|right; right; auto].
      + split; [lia|]. intros y [<-|Hy]; auto. lia.
  Qed.

  Definition summary_exact (rank : list Z -> Z) (p : page) (rs : list rcd) : Prop :=
    exists kmin kmax dmin dmax,
      bytes_at p off_minkey (ksz c) = le_enc (ksz c) kmin /\
      bytes_at p (off_maxkey c) (ksz c) = le_enc (ksz c) kmax /\
      bytes_at p (off_mindata c) (dsz c) = dmin /\
      bytes_at p (off_maxdata c) (dsz c) = dmax /\
      In kmin (map rkey rs) /\ In kmax (map rkey rs) /\ In dmin (map rdata rs) /\ In dmax (map rdata rs) /\
      forall r, In r rs -> kmin <= rkey r <= kmax /\ rank dmin <= rank (rdata r) <= rank dmax.

  Lemma summary_ok rank p rs : ranks c rank -> useMaxMin c = true -> holds c p rs -> rs <> [] -> ascending rs ->
    Forall (rec_ok c KB) rs -> summary_exact rank p rs.
  Proof.
    intros Hr U H Ne A F. destruct rs as [|r0 rest]; [congruence|].
    destruct (h_mm _ _ _ H U r0 rest eq_refl) as (M1 & M2 & M3 & M4).
    assert (F' : Forall (fun r => length (rdata r) = dsz c) (r0 :: rest)).
    { eapply Forall_impl; [|exact F]. intros r Hr'. apply Hr'. }
    destruct (min_data_spec rank (rdata r0) rest Hr (Forall_inv F') (Forall_inv_tail F')) as (A1 & A2 & A3).
    destruct (max_data_spec rank (rdata r0) rest Hr (Forall_inv F') (Forall_inv_tail F')) as (B1 & B2 & B3).
    exists (rkey r0), (rkey (last (r0 :: rest) r0)), (min_data c (rdata r0) rest), (max_data c (rdata r0) rest).
    do 4 (split; [assumption|]). split; [now left|]. split.
    { apply in_map. clear. generalize r0 at 2. revert r0. induction rest as [|x l IH]; intros r0 d; [now left|].
      right. apply (IH x d). }
    split; [destruct A1 as [->|A1]; [now left|now right]|]. split; [destruct B1 as [->|B1]; [now left|now right]|].
    intros r Hi. split.
    - split.
      + destruct Hi as [<-|Hi]; [lia|]. change (r0 :: rest) with ([r0] ++ rest) in A. rewrite asc_app in A.
        destruct A as (_ & _ & A). specialize (A r0 r ltac:(now left) Hi). lia.
      + clear - A Hi. revert A Hi. generalize (r0 :: rest) as l. intros l.
        destruct l as [|y l'] using rev_ind; [intros _ []|]. intros A Hi. rewrite last_last.
        rewrite asc_app in A. destruct A as (_ & _ & A). apply in_app_or in Hi as [Hi|[->|[]]]; [|lia].
        specialize (A r y Hi ltac:(now left)). lia.
    - destruct Hi as [<-|Hi]; [lia|]. specialize (A3 r Hi). specialize (B3 r Hi). lia.
  Qed.

  Lemma c35_summary h k s xs rank : scenario c KB PB h -> reached c k h s xs -> useMaxMin c = true -> ranks c rank ->
    let L := log_of c h in
    (forall id, lo L <= id < zlen (pages L) ->
       summary_exact rank (fpg (fD (sio s)) (id mod numData c)) (nth (Z.to_nat id) (pages L) [])) /\
    (cur L <> [] -> summary_exact rank (wbuf (sd s)) (cur L)).
  Proof.
    intros S R U Hr L. destruct (reach_inv c KB PB h S k s xs R) as [I _]. fold L in I.
    pose proof (i_wf _ _ _ _ _ _ _ _ I) as W. split.
    - intros id Hid. destruct (disk_pages s L id I Hid) as [Hh _]. pose proof (w_lo _ _ _ W).
      destruct (page_ne c KB L id W ltac:(lia)) as (r & rs & E).
      apply summary_ok; auto; [congruence|apply (page_asc c KB L id W)|apply (page_recs c KB L id W)].
    - intros Ne. apply summary_ok; auto; [apply (i_w _ _ _ _ _ _ _ _ I)|apply (cur_asc c KB L W)|apply (cur_recs c KB L W)].
  Qed.

  Lemma c37_twice h k s xs : scenario c KB PB (h ++ [HFlush]) -> reached c k (h ++ [HFlush]) s xs ->
    embedDBFlush c s = Ok (s, 0).
  Proof.
    intros S R. destruct (reach_inv c KB PB _ S k s xs R) as [I _].
    apply (flush_empty c KB PB 0 (sc_set _ _ _ _ S) s _ I). rewrite log_of_snoc. cbn [log_step]. unfold log_flush.
    destruct (cur (log_of c h)) eqn:E; auto.
  Qed.

  Lemma spec_run_app N D B h1 : forall L h2, spec_run N D B L (h1 ++ h2) =
    let '(L1, x1) := spec_run N D B L h1 in let '(L2, x2) := spec_run N D B L1 h2 in (L2, x1 ++ x2).
  Proof.
    induction h1 as [|o h1 IH]; intros L h2; cbn [app spec_run].
    - destruct (spec_run N D B L h2); reflexivity.
    - destruct (spec_step N D B L o) as [L1 x]. rewrite IH. destruct (spec_run N D B L1 h1) as [L2 x2].
      destruct (spec_run N D B L2 h2); reflexivity.
  Qed.

  Lemma flush_retained D B L : cur L = [] \/ zlen (pages L) - lo L < D -> 0 <= lo L <= zlen (pages L) ->
    retained (log_flush D B L) = retained L.
  Proof.
    intros H H0. unfold log_flush. destruct (cur L) as [|r l] eqn:E; [auto|]. destruct H as [H|H]; [congruence|].
    unfold retained, livePages, seal. cbn [pages lo cur].
    destruct (Z.geb_spec (zlen (pages L) - lo L) D); [lia|]. rewrite skipn_app.
    replace (Z.to_nat (lo L) - length (pages L))%nat with 0%nat by (unfold zlen in *; lia).
    cbn [skipn]. rewrite concat_app. cbn [concat]. now rewrite !app_nil_r.
  Qed.

  Lemma c37_neutral h k s xs s' ys ks : quiet c KB PB (h ++ [HFlush]) -> quiet c KB PB h ->
    calmly c k h s xs -> calmly c k (h ++ [HFlush]) s' ys ->
    let L := spec_log c h in
    cur L = [] \/ zlen (pages L) - lo L < numData c ->
    Forall (key_ok c KB L) ks ->
    exists t t' zs, run c s (map HGet ks) = Ok (t, zs) /\ run c s' (map HGet ks) = Ok (t', zs).
  Proof.
    intros Q1 Q0 R0 R1 L Hc F. pose proof (q_set _ _ _ _ Q0) as G. pose proof (q_modes _ _ _ _ Q0) as M.
    destruct (calm_reach c KB PB G M h k s xs Q0 R0) as (_ & I0 & Co0).
    destruct (calm_reach c KB PB G M _ k s' ys Q1 R1) as (_ & I1 & Co1).
    assert (EL : spec_log c (h ++ [HFlush]) = log_flush (numData c) (eraseSize c) L).
    { unfold L, spec_log. rewrite spec_run_app. destruct (spec_run _ _ _ emptyLog h) as [L1 x1]. reflexivity. }
    rewrite EL in *. fold L in I0, Co0.
    pose proof (flush_retained (numData c) (eraseSize c) L Hc (w_lo _ _ _ (i_wf _ _ _ _ _ _ _ _ I0))) as Er.
    destruct (gets_ok c KB PB 0 G M ks s L I0 Co0 F) as (t & E0 & _).
    destruct (gets_ok c KB PB 0 G M ks s' _ I1 Co1) as (t' & E1 & _).
    { eapply Forall_impl; [|exact F]. intros key [K1 K2]. split; [auto|]. intros U r Hr. rewrite Er. apply K2; auto.
      clear - Hr. unfold log_flush in Hr. destruct (cur L) eqn:E; [auto|]. unfold accepted, seal in *. cbn [pages cur] in Hr.
      rewrite concat_app, app_nil_r in Hr. cbn [concat] in Hr. now rewrite app_nil_r in Hr. }
    exists t, t', (map (lookup L) ks). split; [exact E0|]. rewrite E1. do 2 f_equal.
    apply map_ext. intros key. unfold lookup. now rewrite Er.
  Qed.

  Lemma c38_bytes h o k s xs s' x : scenario c KB PB (h ++ [o]) -> reached c k h s xs ->
    step c s o = Ok (s', x) ->
    forall id, minD (sd s) <= id < nextD (sd s) ->
      page_id (fpg (fD (sio s)) (id mod numData c)) = id /\
      (minD (sd s') <= id -> fpg (fD (sio s')) (id mod numData c) = fpg (fD (sio s)) (id mod numData c)).
  Proof.
    intros S R St id Hid. pose proof (scenario_app _ _ _ _ _ S) as S1. pose proof (sc_set _ _ _ _ S) as G.
    destruct (reach_inv c KB PB h S1 k s xs R) as [I _].
    destruct (step_storage c KB PB h o k s xs s' x S R St) as (N1 & N2 & H).
    split.
    { apply (disk_pages s _ id I). rewrite <- N1, <- N2. auto. }
    intros Hm. destruct H as [(-> & _)|(Sp & M1 & M2)]; [auto|].
    destruct Sp as ((p & P1 & P2 & ->) & Q1 & Q2 & Q3). rewrite M2 in Hm.
    specialize (Q3 id ltac:(destruct (nextD (sd s) - minD (sd s) =? numData c); lia)).
    pose proof (mod_D c KB PB G id) as Md. pose proof (i_wf _ _ _ _ _ _ _ _ I) as W.
    assert (Fl : id mod numData c < flen (fD (sio s))).
    { pose proof (dk_len _ _ _ _ (plain_disk _ _ _ _ _ _ _ _ (m_rlc _ (sc_modes _ _ _ _ S)) I)). rewrite N1 in Hid. pose proof (w_lo _ _ _ W).
      destruct (Z.lt_ge_cases (zlen (pages (log_of c h))) (numData c)); [rewrite Z.mod_small by lia|]; lia. }
    unfold file_write. cbn [fpg flen]. destruct (Z.eqb_spec (id mod numData c) (nextD (sd s) mod numData c)); [contradiction|].
    destruct (Z.eqb_spec (nextD (sd s) - minD (sd s)) (numData c)) as [Ef|Nf].
    - unfold file_erase. destruct (eraseFill c) as [b|]; cbn [flen fpg].
      + destruct (Z.ltb_spec (id mod numData c) (Z.max (flen (fD (sio s))) (nextD (sd s) mod numData c + eraseSize c))); [|lia].
        destruct (Q2 eq_refl) as (A1 & A2 & A3).
        destruct ((nextD (sd s) mod numData c <=? id mod numData c) && (id mod numData c <? nextD (sd s) mod numData c + eraseSize c)) eqn:Eb.
        { apply andb_prop in Eb as [B1 B2]. specialize (A3 id Hid ltac:(lia)). lia. }
        destruct (Z.ltb_spec (id mod numData c) (flen (fD (sio s)))); [auto|lia].
      + destruct (Z.ltb_spec (id mod numData c) (flen (fD (sio s)))); [auto|lia].
    - destruct (Z.ltb_spec (id mod numData c) (flen (fD (sio s)))); [auto|lia].
  Qed.

  Lemma c38_read h k s xs id : quiet c KB PB h -> calmly c k h s xs -> minD (sd s) <= id < nextD (sd s) ->
    exists s', readPage s (id mod numData c) = (s', 0) /\ page_id (rbuf (sd s')) = id /\
      holds c (rbuf (sd s')) (nth (Z.to_nat id) (pages (spec_log c h)) []).
  Proof.
    intros Q R Hid. pose proof (q_set _ _ _ _ Q) as G. pose proof (q_modes _ _ _ _ Q) as M.
    destruct (calm_reach c KB PB G M h k s xs Q R) as (_ & I & Co).
    rewrite (i_minD _ _ _ _ _ _ _ _ I), (i_nextD _ _ _ _ _ _ _ _ I) in Hid.
    destruct (readPage_live c KB PB 0 G s _ _ _ id I Hid) as (p & E & _ & Im). rewrite E.
    eexists. split; [reflexivity|]. cbn [sd d_rbuf rbuf]. destruct (Im Co). auto.
  Qed.
End Thms.

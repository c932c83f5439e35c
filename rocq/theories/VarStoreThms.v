(** What databases with variable data keep in the data area, over lifetimes. *)
From Verif Require Import Base BaseFacts Config Spline Storage DB VarData Recovery Spec SpecSpline SplineFacts
  SpecPage SpecStore Run SpecRun SpecReopen SpecReopenIdx SpecVar SpecVarReopen LogFacts PageFacts SearchFacts StoreFacts PutFacts GetFacts BinFacts RunFacts
  ReachFacts TapeFacts VarFacts VarPutFacts VarReadFacts VarRunFacts VarGetFacts VarThms RecoverFacts ReopenThms VarRecFacts VarReopenThms.
Open Scope Z_scope.

Section Life.
  Variables (KB PB VB : Z).

  Definition store_step (c : cfg) (s s' : state) : Prop :=
    (fD (sio s') = fD (sio s) /\ nextD (sd s') = nextD (sd s) /\ minD (sd s') = minD (sd s)) \/
    (seals_page c (fD (sio s)) (fD (sio s')) (minD (sd s)) (nextD (sd s)) /\
     nextD (sd s') = nextD (sd s) + 1 /\
     minD (sd s') = (if nextD (sd s) - minD (sd s) =? numData c then minD (sd s) + eraseSize c else minD (sd s))).

  Lemma data_store c f s L s' L' : setting c KB PB -> Inv c KB PB f s L -> Inv c KB PB f s' L' ->
    data_step c L L' (fD (sio s)) (fD (sio s')) -> store_step c s s'.
  Proof.
    intros G I I' Ds. pose proof (i_wf _ _ _ _ _ _ _ _ I) as W. pose proof (w_live _ _ _ W) as Wv. unfold store_step.
    rewrite (i_nextD _ _ _ _ _ _ _ _ I), (i_minD _ _ _ _ _ _ _ _ I), (i_nextD _ _ _ _ _ _ _ _ I'), (i_minD _ _ _ _ _ _ _ _ I').
    destruct Ds as [(E1 & E2 & E3)|(p & Im & E1 & E2 & E3)]; [left|right].
    - now rewrite E2, E3.
    - rewrite E1, E2, E3. split; [apply seals_of with (KB := KB) (PB := PB); auto|]. rewrite (zlen_seal c L). split; [auto|].
      unfold seal; cbn [lo].
      destruct (Z.geb_spec (zlen (pages L) - lo L) (numData c)), (Z.eqb_spec (zlen (pages L) - lo L) (numData c)); auto; lia.
  Qed.

  Lemma op_store c s V seen VR VP b full o s' x : live KB PB VB c s V seen VR VP b full -> vevent_ok KB PB VB (c, V, seen) (VEvOp o) ->
    vcalm c s [o] -> b + vcost c o < VB -> vstep c s o = Ok (s', x) -> store_step c s s'.
  Proof.
    intros (G & Vs & f & kl & sl & off & L & lv & o1 & Hsl & Hoff & Y & Co & St & Ab & Kl & Cu & Lo & Up & Fd) (Ho & Hn & Hp) Cm Hb Es.
    assert (El : vlog V = bareL L) by (rewrite <- St; reflexivity).
    assert (Ezp : zlen (pages (vlog V)) = zlen (pages L)) by (rewrite El; unfold bareL; cbn [pages]; apply zlen_map).
    destruct (vstep_calm c KB PB VB G Vs kl sl off Hsl Hoff f s L VR VP lv o1 seen o [] Y Co) as
      (s1 & x1 & L' & X & VP' & lv' & o' & E & Y' & _ & _ & _ & _ & _ & _ & _ & _ & _ & _ & Ds); auto; try lia.
    { intros k d v Eo Rf. apply (Hn k d v Eo). now rewrite El, refused_bare. }
    { now rewrite <- El. }
    rewrite Es in E. injection E as <- <-.
    exact (data_store c f s L s' L' G (y_inv _ _ _ _ _ _ _ _ _ _ _ _ _ _ _ Y) (y_inv _ _ _ _ _ _ _ _ _ _ _ _ _ _ _ Y') Ds).
  Qed.

  Variables (c : cfg) (dk : disk) (s : state).

  Theorem life_storage es o c0 s0 xs s1 x : vlife c KB PB VB dk s (es ++ [VEvOp o]) ->
    vlifetime c s es = Ok (c0, s0, xs) -> vstep c0 s0 o = Ok (s1, x) -> store_step c0 s0 s1.
  Proof.
    intros H E Es. pose proof (new_live KB PB VB c dk s _ H) as Li. destruct H as [G V HR He Ei Ho Cm Hc].
    pose proof (vP c KB PB G) as Pd. apply vlife_ok_app in Ho as [Ho1 Ho2].
    assert (Cm1 : vlife_calm c s es).
    { clear - Cm. revert c s Cm. induction es as [|e es IH]; intros c s Cm; [exact I|]. destruct Cm as [C1 C2]. split; [auto|]. intros. eauto. }
    rewrite vlife_cost_app in Hc. pose proof (life_cost_nonneg KB PB c [VEvOp o] G) as Z1.
    destruct (life_runs KB PB VB es c s emptyVS [] [] [] _ _ Li Ho1 Cm1) as (c1 & V1 & seen & s2 & xs0 & VR & VP & A1 & A2 & A3 & A4 & A5 & _); [lia|].
    rewrite E in A2. injection A2 as <- <- <-.
    rewrite A1 in Ho2. destruct Ho2 as [Hop _]. destruct (vlife_calm_app _ _ _ _ _ _ _ Cm E) as [_ [Cm2 _]].
    eapply op_store; [exact A4|exact Hop|exact Cm2| |exact Es].
    assert (Ec : vcost c0 o = vlife_cost c [VEvOp o]); [|lia].
    rewrite <- (life_cost_same c c0); [cbn [vlife_cost fold_right]; lia|]. apply A5.
  Qed.

  Lemma live_store c1 s1 V seen VR VP b full : live KB PB VB c1 s1 V seen VR VP b full ->
    let L := vlog V in let n := zlen (pages L) in
    0 <= lo L /\ lo L mod eraseSize c1 = 0 /\ n - lo L <= numData c1 /\
    Z.min n (numData c1 - eraseSize c1) <= n - lo L /\
    minD (sd s1) = lo L /\ nextD (sd s1) = n /\
    (forall id, lo L <= id < n -> stores c1 (fpg (fD (sio s1)) (id mod numData c1)) (nth (Z.to_nat id) (pages L) [])) /\
    stores c1 (wbuf (sd s1)) (cur L).
  Proof.
    intros (G & Vs & f & kl & sl & off & L0 & lv & o1 & Hsl & Hoff & Y & Co & St & Ab & Kl & Cu & Lo & Up & Fd) L n.
    assert (El : L = bareL L0) by (unfold L; rewrite <- St; reflexivity).
    assert (Ezp : n = zlen (pages L0)) by (unfold n; rewrite El; unfold bareL; cbn [pages]; apply zlen_map).
    assert (Elo : lo L = lo L0) by (rewrite El; reflexivity).
    pose proof (y_inv _ _ _ _ _ _ _ _ _ _ _ _ _ _ _ Y) as I. pose proof (i_wf _ _ _ _ _ _ _ _ I) as W.
    destruct Lo as (Lo1 & Lo2 & Lo3). fold L in Lo1, Lo2, Lo3. fold n in Lo1, Lo3.
    pose proof (g_B _ _ _ G) as GB. pose proof (g_D _ _ _ G) as GD. pose proof (g_DB _ _ _ G) as GDB.
    destruct (rec_lo_bounds (numData c1) (eraseSize c1) n ltac:(lia) ltac:(lia) GDB ltac:(lia)) as (R1 & R2 & R3 & R4).
    pose proof (rec_lo_up (numData c1) (eraseSize c1) n ltac:(lia) ltac:(lia) GDB ltac:(lia)) as Up2.
    split; [lia|]. split; [auto|]. split; [rewrite Elo, Ezp; apply (w_live _ _ _ W)|]. split; [lia|].
    split; [rewrite Elo; apply (i_minD _ _ _ _ _ _ _ _ I)|]. split; [rewrite Ezp; apply (i_nextD _ _ _ _ _ _ _ _ I)|]. split.
    - intros id Hid. rewrite Elo, Ezp in Hid. exists (nth (Z.to_nat id) (pages L0) []). split.
      + rewrite El. unfold bareL. cbn [pages]. symmetry. exact (map_nth (map bare) (pages L0) [] (Z.to_nat id)).
      + pose proof (plain_disk c1 KB PB f _ _ _ _ (vs_rlc _ _ Vs) I) as Dk.
        pose proof (w_live _ _ _ W). pose proof (w_lo _ _ _ W).
        destruct (dk_pg _ _ _ _ Dk id ltac:(lia) ltac:(lia)) as [[Hh _]|[? _]]; [exact Hh|lia].
    - exists (cur L0). split; [rewrite El; reflexivity|]. apply (i_w _ _ _ _ _ _ _ _ I).
  Qed.

  Theorem life_retained es c1 s1 xs : vlife c KB PB VB dk s es -> vlifetime c s es = Ok (c1, s1, xs) ->
    let L := vlog (snd (fst (vlife_spec c es))) in let n := zlen (pages L) in
    accepted L = concat (firstn (Z.to_nat (lo L)) (pages L)) ++ retained L /\
    0 <= lo L /\ lo L mod eraseSize c1 = 0 /\ n - lo L <= numData c1 /\
    Z.min n (numData c1 - eraseSize c1) <= n - lo L /\
    minD (sd s1) = lo L /\ nextD (sd s1) = n /\
    (forall id, lo L <= id < n -> stores c1 (fpg (fD (sio s1)) (id mod numData c1)) (nth (Z.to_nat id) (pages L) [])) /\
    stores c1 (wbuf (sd s1)) (cur L).
  Proof.
    intros H E L n. split; [apply retained_suffix|].
    destruct (life_end KB PB VB c dk s es H) as (c2 & V1 & seen1 & s2 & xs2 & VR1 & VP1 & A1 & A2 & _ & A4 & _).
    rewrite E in A2. injection A2 as <- <- <-. unfold n, L. rewrite A1. cbn [fst snd]. exact (live_store c1 s1 V1 seen1 VR1 VP1 _ _ A4).
  Qed.

  Theorem life_recovery_loss es c' : vlife c KB PB VB dk s (es ++ [VEvReopen c']) ->
    let L := vlog (snd (fst (vlife_spec c es))) in let L1 := recovered c' (pages L) in
    vlog (snd (fst (vlife_spec c (es ++ [VEvReopen c'])))) = L1 /\
    (lo L1 = lo L \/ lo L1 = lo L + eraseSize c') /\
    Z.min (zlen (pages L)) (numData c' - eraseSize c') <= zlen (pages L) - lo L1.
  Proof.
    intros H L L1. destruct (life_reopened KB PB VB c dk s es c' H) as (c0 & V0 & s0 & s1 & xs0 & xs & seen & VR & VP & A1 & A2 & A3 & A4 & A5 & A6 & A7).
    assert (EL : L = vlog V0) by (unfold L; rewrite A1; reflexivity). pose proof (vr_same _ _ _ _ _ _ A4) as S.
    split. { rewrite A7. cbn [fst snd vlog]. unfold L1. rewrite EL. now rewrite (same_recovered _ _ S). }
    destruct A3 as (G & Vs & f & kl & sl & off & L0 & lv & o1 & Hsl & Hoff & Y & Co & St & Ab & Kl & Cu & (_ & _ & Lo) & Up & Fd).
    assert (El : L = bareL L0) by (rewrite EL, <- St; reflexivity).
    assert (Ezp : zlen (pages L) = zlen (pages L0)) by (rewrite El; unfold bareL; cbn [pages]; apply zlen_map).
    assert (Elo : lo L = lo L0) by (rewrite El; reflexivity). rewrite <- EL, Elo, Ezp in Lo.
    destruct (alive_recovered KB PB c0 L0 G (i_wf _ _ _ _ _ _ _ _ (y_inv _ _ _ _ _ _ _ _ _ _ _ _ _ _ _ Y)) Lo) as (R1 & _ & R2).
    unfold L1, recovered. cbn [lo]. rewrite (ss_D _ _ S), (ss_B _ _ S), Ezp, Elo. auto.
  Qed.
End Life.

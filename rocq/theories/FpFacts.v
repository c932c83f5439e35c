(** Lemmas about the floating-point model. *)
From Verif Require Import Base BaseFacts Config Spline Storage DB Spec SpecSpline SplineFacts Fp SpecFp.
From Coq Require Import QArith Qround Qabs Lqa.
Open Scope Z_scope.

Lemma floor_unique x z : (inject_Z z <= x)%Q -> (x < inject_Z (z + 1))%Q -> Qfloor x = z.
Proof.
  intros A B. pose proof (Qfloor_le x) as C. pose proof (Qlt_floor x) as D.
  assert (inject_Z z < inject_Z (Qfloor x + 1))%Q by (eapply Qle_lt_trans; eauto).
  assert (inject_Z (Qfloor x) < inject_Z (z + 1))%Q by (eapply Qle_lt_trans; eauto).
  rewrite <- Zlt_Qlt in *. lia.
Qed.
Lemma qtrunc_floor x : (0 <= x)%Q -> qtrunc x = Qfloor x.
Proof. intros A. unfold qtrunc. apply Qle_bool_iff in A. now rewrite A. Qed.
Lemma qtrunc_bounds x lo hi : 0 <= lo -> (inject_Z lo <= x)%Q -> (x < inject_Z hi)%Q -> lo <= qtrunc x < hi.
Proof.
  intros L A B. rewrite Zle_Qle in L. rewrite qtrunc_floor by (eapply Qle_trans; eauto).
  pose proof (Qfloor_le x) as C. pose proof (Qlt_floor x) as D. split.
  - assert (inject_Z lo < inject_Z (Qfloor x + 1))%Q by (eapply Qle_lt_trans; eauto). rewrite <- Zlt_Qlt in *. lia.
  - assert (inject_Z (Qfloor x) < inject_Z hi)%Q by (eapply Qle_lt_trans; eauto). rewrite <- Zlt_Qlt in *. lia.
Qed.
Lemma qtrunc_towards x : towards_zero x (qtrunc x).
Proof.
  unfold towards_zero, qtrunc. split; intros H.
  - pose proof H as E. apply Qle_bool_iff in E. rewrite E. split; [apply Qfloor_le|apply Qlt_floor].
  - destruct (Qle_bool 0 x) eqn:E.
    + apply Qle_bool_iff in E. assert (Z0 : (x == 0)%Q) by (apply Qle_antisym; auto).
      assert (F : Qfloor x = 0) by (rewrite (Qfloor_comp _ _ Z0); exact (Qfloor_Z 0)).
      rewrite F. change (inject_Z (0 - 1)) with (-1)%Q. change (inject_Z 0) with 0%Q. split; lra.
    + pose proof (Qfloor_le (- x)) as A. pose proof (Qlt_floor (- x)) as B. rewrite inject_Z_plus in B.
      replace (- Qfloor (- x) - 1) with (- (Qfloor (- x) + 1)) by ring. rewrite !inject_Z_opp, inject_Z_plus. split; lra.
Qed.
Lemma towards_unique x y z : towards_zero x y -> towards_zero x z -> y = z.
Proof.
  intros [A1 A2] [B1 B2].
  assert (Q : forall a b w, (inject_Z a <= w)%Q -> (w < inject_Z (b + 1))%Q -> a <= b).
  { intros a b w H1 H2. assert (H : (inject_Z a < inject_Z (b + 1))%Q) by (eapply Qle_lt_trans; eauto). rewrite <- Zlt_Qlt in H. lia. }
  assert (Q' : forall a b w, (inject_Z (a - 1) < w)%Q -> (w <= inject_Z b)%Q -> a <= b).
  { intros a b w H1 H2. assert (H : (inject_Z (a - 1) < inject_Z b)%Q) by (eapply Qlt_le_trans; eauto). rewrite <- Zlt_Qlt in H. lia. }
  destruct (Qlt_le_dec x 0) as [N|P].
  - apply Qlt_le_weak in N. destruct (A2 N), (B2 N). apply Z.le_antisymm; eapply Q'; eauto.
  - destruct (A1 P), (B1 P). apply Z.le_antisymm; eapply Q; eauto.
Qed.
Lemma to_int_iff lo hi x : (forall z, to_int lo hi x = Ok z <-> lo <= z <= hi /\ towards_zero x z) /\
  ((forall z, towards_zero x z -> z < lo \/ hi < z) -> to_int lo hi x = UB).
Proof.
  pose proof (qtrunc_towards x) as T. unfold to_int. cbv zeta. split.
  - intros z. destruct (Z.leb_spec lo (qtrunc x)), (Z.leb_spec (qtrunc x) hi); cbn [andb]; split; intros H1;
      try discriminate H1; try (destruct H1 as [H1 H2]; pose proof (towards_unique _ _ _ T H2); subst; first [reflexivity|lia]).
    injection H1 as <-. split; [lia|exact T].
  - intros H. specialize (H _ T). destruct (Z.leb_spec lo (qtrunc x)), (Z.leb_spec (qtrunc x) hi); cbn [andb]; auto; lia.
Qed.
Lemma to_int_ok lo hi x : lo <= qtrunc x <= hi -> to_int lo hi x = Ok (qtrunc x).
Proof. intros [A B]. unfold to_int. apply Z.leb_le in A, B. now rewrite A, B. Qed.

Section Round.
  Variables (p : Z) (fl : Q -> Q).
  Hypothesis R : rounds p fl.
  Hypothesis P : 16 <= p.

  Lemma pow_big : 65536 <= 2 ^ p.
  Proof. change 65536 with (2 ^ 16). apply Z.pow_le_mono_r; lia. Qed.

  Lemma fl_int x z : 0 <= z <= 2 ^ p -> (x == inject_Z z)%Q -> (fl x == inject_Z z)%Q.
  Proof. apply R. Qed.
  Lemma fl_err x : (1 # 2 ^ 100 <= x)%Q -> (x <= inject_Z (2 ^ 100))%Q ->
    (x * (1 - / inject_Z (2 ^ p)) <= fl x)%Q /\ (fl x <= x * (1 + / inject_Z (2 ^ p)))%Q.
  Proof.
    intros A B. destruct R as (_ & E & _). specialize (E x (conj A B)). pose proof pow_big as Z0.
    assert (Z1 : (65536 <= inject_Z (2 ^ p))%Q) by (rewrite Zle_Qle in Z0; exact Z0).
    set (m := inject_Z (2 ^ p)) in *. set (i := (/ m)%Q).
    assert (I : (i * m == 1)%Q) by (unfold i; field; lra).
    assert (X0 : (0 < x)%Q) by (eapply Qlt_le_trans; [|exact A]; reflexivity).
    assert (I0 : (0 < i)%Q) by nra.
    assert (E' : (Qabs (fl x - x) <= x * i)%Q).
    { assert (0 <= Qabs (fl x - x))%Q by apply Qabs_nonneg. nra. }
    apply Qabs_Qle_condition in E'. split; nra.
  Qed.
  Lemma fl_rel x : (1 # 2 ^ 100 <= x)%Q -> (x <= inject_Z (2 ^ 100))%Q ->
    (x * (65535 # 65536) <= fl x <= x * (65537 # 65536))%Q.
  Proof.
    intros A B. destruct (fl_err x A B) as [C D]. pose proof pow_big as Z0.
    assert (Z1 : (65536 <= inject_Z (2 ^ p))%Q) by (rewrite Zle_Qle in Z0; exact Z0).
    set (m := inject_Z (2 ^ p)) in *. set (i := (/ m)%Q) in *.
    assert (I : (i * m == 1)%Q) by (unfold i; field; lra).
    assert (X0 : (0 < x)%Q) by (eapply Qlt_le_trans; [|exact A]; reflexivity).
    assert (I0 : (0 < i)%Q) by nra.
    assert (I1 : (i <= 1 # 65536)%Q) by nra. split; nra.
  Qed.

  (** The truncated quotient of exact integers is the integer quotient. *)
  Lemma quot_exact num den : p <= 100 -> 0 <= num < 2 ^ p -> 0 < den <= 2 ^ p ->
    exists x, fdiv fl (fl (inject_Z num)) (fl (inject_Z den)) = Some x /\ (0 <= x)%Q /\ qtrunc x = num / den.
  Proof.
    intros P1 N D. unfold fdiv.
    pose proof (fl_int (inject_Z num) num ltac:(lia) (Qeq_refl _)) as En.
    pose proof (fl_int (inject_Z den) den ltac:(lia) (Qeq_refl _)) as Ed.
    assert (D0 : (0 < inject_Z den)%Q) by (change 0%Q with (inject_Z 0); rewrite <- Zlt_Qlt; lia).
    destruct (Qeq_bool (fl (inject_Z den)) 0) eqn:Eb.
    { apply Qeq_bool_eq in Eb. rewrite Ed in Eb. rewrite Eb in D0. lra. }
    eexists. split; [reflexivity|].
    set (x := (fl (inject_Z num) / fl (inject_Z den))%Q).
    assert (X : (x * inject_Z den == inject_Z num)%Q) by (unfold x; rewrite En, Ed; field; lra).
    clearbody x. clear En Ed Eb. pose proof pow_big as PB.
    assert (N0 : (0 <= inject_Z num)%Q) by (change 0%Q with (inject_Z 0); rewrite <- Zle_Qle; lia).
    pose proof (Z.div_mod num den ltac:(lia)) as DM. pose proof (Z.mod_pos_bound num den ltac:(lia)) as MB.
    set (k := num / den) in *. set (r := num mod den) in *.
    assert (K0 : 0 <= k) by (apply Z.div_pos; lia).
    destruct (Z.eq_dec r 0) as [R0|R0].
    { assert (Xk : (x == inject_Z k)%Q).
      { rewrite R0, Z.add_0_r in DM. rewrite DM, inject_Z_mult in X.
        apply (Qmult_inj_r _ _ (inject_Z den)); [lra|]. rewrite X. ring. }
      assert (k <= 2 ^ p) by (apply Z.lt_le_incl, (Z.le_lt_trans _ num); [|lia]; unfold k; apply Z.div_le_upper_bound; nia).
      pose proof (fl_int x k ltac:(lia) Xk) as F.
      rewrite Zle_Qle in K0. split; [rewrite F; auto|].
      rewrite qtrunc_floor by (rewrite F; auto). rewrite F. apply Qfloor_Z. }
    assert (N1 : 1 <= num) by nia.
    assert (T100 : 2 ^ p <= 2 ^ 100) by (apply Z.pow_le_mono_r; lia).
    assert (N1q : (1 <= inject_Z num)%Q) by (rewrite Zle_Qle in N1; exact N1).
    assert (Dq : (inject_Z den <= inject_Z (2 ^ 100))%Q) by (rewrite <- Zle_Qle; lia).
    assert (D1 : (1 <= inject_Z den)%Q) by (change 1%Q with (inject_Z 1); rewrite <- Zle_Qle; lia).
    assert (Nq : (inject_Z num <= inject_Z (2 ^ 100))%Q) by (rewrite <- Zle_Qle; lia).
    assert (XL : (1 # 2 ^ 100 <= x)%Q).
    { assert ((1 # 2 ^ 100) * inject_Z (2 ^ 100) == 1)%Q by reflexivity.
      set (t := inject_Z (2 ^ 100)) in *. set (u := (1 # 2 ^ 100)%Q) in *.
      assert (0 < u)%Q by reflexivity. clearbody t u. nra. }
    assert (X0 : (0 < x)%Q) by (eapply Qlt_le_trans; [|exact XL]; reflexivity).
    assert (XU : (x <= inject_Z (2 ^ 100))%Q) by (set (t := inject_Z (2 ^ 100)) in *; clearbody t; nra).
    destruct R as (_ & E & _). specialize (E x (conj XL XU)).
    assert (Np : (inject_Z num < inject_Z (2 ^ p))%Q) by (rewrite <- Zlt_Qlt; lia).
    assert (DMq : (inject_Z num == inject_Z den * inject_Z k + inject_Z r)%Q)
      by (rewrite DM at 1; rewrite inject_Z_plus, inject_Z_mult; reflexivity).
    assert (Rq : (1 <= inject_Z r)%Q) by (change 1%Q with (inject_Z 1); rewrite <- Zle_Qle; lia).
    assert (Rd : (inject_Z r + 1 <= inject_Z den)%Q)
      by (change 1%Q with (inject_Z 1); rewrite <- inject_Z_plus, <- Zle_Qle; lia).
    assert (W0 : (0 <= Qabs (fl x - x))%Q) by apply Qabs_nonneg.
    assert (W : (Qabs (fl x - x) * inject_Z den < 1)%Q).
    { set (w := Qabs (fl x - x)) in *. set (m := inject_Z (2 ^ p)) in *. set (d := inject_Z den) in *.
      set (nm := inject_Z num) in *. clearbody w m d nm. clear - E X Np D0 W0 N0.
      assert (w * d * m <= nm)%Q. { rewrite <- X. setoid_replace (w * d * m)%Q with (w * m * d)%Q by ring. nra. }
      nra. }
    assert (V : (- Qabs (fl x - x) <= fl x - x <= Qabs (fl x - x))%Q) by (apply Qabs_Qle_condition, Qle_refl).
    set (w := Qabs (fl x - x)) in *. set (d := inject_Z den) in *.
    assert (K0q : (0 <= inject_Z k)%Q) by (rewrite Zle_Qle in K0; exact K0).
    set (kq := inject_Z k) in *. set (rq := inject_Z r) in *. set (nm := inject_Z num) in *.
    assert (L : (kq <= fl x)%Q) by (clearbody w d kq rq nm; clear - V W X DMq Rq D0; nra).
    assert (U : (fl x < kq + 1)%Q) by (clearbody w d kq rq nm; clear - V W X DMq Rd D0; nra).
    split; [clear - L K0q; lra|].
    rewrite qtrunc_floor by (clear - L K0q; lra). apply floor_unique; [exact L|]. rewrite inject_Z_plus. exact U.
  Qed.

  (** The rounded quotient of any two 64-bit integers, when it is not too large. *)
  Lemma quot_near num den : 0 <= num < 2 ^ 64 -> 0 < den < 2 ^ 64 -> 16 * num <= 2 ^ p * den ->
    exists x, fdiv fl (fl (inject_Z num)) (fl (inject_Z den)) = Some x /\ (0 <= x)%Q /\
      num / den - 1 <= qtrunc x <= num / den + 1.
  Proof.
    intros N D B. unfold fdiv. pose proof pow_big as PB.
    assert (C0 : (1 # 2 ^ 100 < 1)%Q) by reflexivity.
    assert (C1 : (inject_Z (2 ^ 64) < inject_Z (2 ^ 100))%Q) by reflexivity.
    assert (D1 : (1 <= inject_Z den)%Q) by (change 1%Q with (inject_Z 1); rewrite <- Zle_Qle; lia).
    assert (D2 : (inject_Z den <= inject_Z (2 ^ 64))%Q) by (rewrite <- Zle_Qle; lia).
    destruct (fl_err (inject_Z den)) as [Dl Du]; [lra|lra|].
    assert (M1 : (65536 <= inject_Z (2 ^ p))%Q) by (rewrite Zle_Qle in PB; exact PB).
    set (m := inject_Z (2 ^ p)) in *. set (i := (/ m)%Q) in *.
    assert (I : (i * m == 1)%Q) by (unfold i; field; lra).
    assert (I0 : (0 < i)%Q) by nra.
    assert (I1 : (i <= 1 # 65536)%Q) by nra.
    assert (Fd : (0 < fl (inject_Z den))%Q) by nra.
    destruct (Qeq_bool (fl (inject_Z den)) 0) eqn:Eb.
    { apply Qeq_bool_eq in Eb. lra. }
    eexists. split; [reflexivity|].
    set (d := fl (inject_Z den)) in *.
    destruct (Z.eq_dec num 0) as [->|N0].
    { assert (Z0 : (fl (fl (inject_Z 0) / d) == inject_Z 0)%Q).
      { apply fl_int; [lia|]. rewrite (fl_int (inject_Z 0) 0); [|lia|reflexivity]. change (inject_Z 0) with 0%Q. field. lra. }
      rewrite Zdiv_0_l. assert (Q0 : (0 <= fl (fl (inject_Z 0) / d))%Q) by (rewrite Z0; apply Qle_refl).
      split; auto. rewrite qtrunc_floor by auto. rewrite Z0, Qfloor_Z. lia. }
    assert (N1 : (1 <= inject_Z num)%Q) by (change 1%Q with (inject_Z 1); rewrite <- Zle_Qle; lia).
    assert (N2 : (inject_Z num <= inject_Z (2 ^ 64))%Q) by (rewrite <- Zle_Qle; lia).
    destruct (fl_err (inject_Z num)) as [Nl Nu]; [lra|lra|]. fold m i in Nl, Nu.
    assert (Bq : (16 * inject_Z num <= m * inject_Z den)%Q).
    { rewrite Zle_Qle, !inject_Z_mult in B. exact B. }
    set (nf := fl (inject_Z num)) in *. set (y := (nf / d)%Q).
    assert (Y : (y * d == nf)%Q) by (unfold y; field; lra). clearbody y.
    set (nq := inject_Z num) in *. set (dq := inject_Z den) in *.
    assert (Y0 : (0 < y)%Q) by nra.
    assert (YL : (1 # 2 ^ 100 <= y)%Q).
    { assert (T : ((1 # 2 ^ 100) * inject_Z (2 ^ 64) < 1 # 4)%Q) by reflexivity.
      assert (T0 : (0 < 1 # 2 ^ 100)%Q) by reflexivity.
      set (u := (1 # 2 ^ 100)%Q) in *. set (t := inject_Z (2 ^ 64)) in *. clearbody u t.
      assert (d <= 2 * t)%Q by nra. assert (1 # 2 <= nf)%Q by nra. nra. }
    assert (YU : (y <= inject_Z (2 ^ 100))%Q).
    { assert (T : (4 * inject_Z (2 ^ 64) < inject_Z (2 ^ 100))%Q) by reflexivity.
      set (u := inject_Z (2 ^ 100)) in *. set (t := inject_Z (2 ^ 64)) in *. clearbody u t.
      assert (nf <= 2 * t)%Q by nra. assert (1 # 2 <= d)%Q by nra. nra. }
    destruct (fl_err y YL YU) as [Fl Fu]. fold m i in Fl, Fu.
    (* the exact quotient *)
    set (t := (nq / dq)%Q). assert (T : (t * dq == nq)%Q) by (unfold t; field; lra). 
    assert (T0 : (0 < t)%Q) by (clearbody t; nra).
    assert (Tb : (t * i <= 1 # 16)%Q).
    { assert (16 * t <= m)%Q; [|clearbody t; nra].
      apply (Qmult_le_r _ _ dq); [lra|]. rewrite <- Qmult_assoc, T. exact Bq. }
    assert (Y1 : (y * (1 - i) <= t * (1 + i))%Q).
    { apply (Qmult_le_r _ _ dq); [lra|].
      assert (y * (1 - i) * dq <= y * d)%Q by nra.
      assert (t * (1 + i) * dq == nq * (1 + i))%Q by (rewrite <- T; ring). lra. }
    assert (Y2 : (t * (1 - i) <= y * (1 + i))%Q).
    { apply (Qmult_le_r _ _ dq); [lra|].
      assert (y * d <= y * (1 + i) * dq)%Q by nra.
      assert (t * (1 - i) * dq == nq * (1 - i))%Q by (rewrite <- T; ring). lra. }
    assert (Ft : (Qfloor t = num / den)%Z).
    { apply floor_unique.
      - apply (Qmult_le_r _ _ dq); [lra|]. rewrite T. unfold nq, dq. rewrite <- inject_Z_mult, <- Zle_Qle.
        rewrite Z.mul_comm. apply Z.mul_div_le. lia.
      - apply (Qmult_lt_r _ _ dq); [lra|]. rewrite T. unfold nq, dq. rewrite <- inject_Z_mult, <- Zlt_Qlt.
        rewrite Z.mul_comm, Z.add_1_r. apply Z.mul_succ_div_gt. lia. }
    assert (Xp : (0 <= fl y)%Q) by nra. split; auto.
    rewrite qtrunc_floor by auto. rewrite <- Ft. clear Ft.
    assert (U1 : (fl y <= t + (1 # 2))%Q).
    { assert (fl y * (1 - i) <= t * (1 + i) * (1 + i))%Q by nra.
      assert (t * (1 + i) * (1 + i) <= (t + (1 # 2)) * (1 - i))%Q; [|nra].
      assert (t * i * i <= (1#16) * i)%Q by nra. nra. }
    assert (U2 : (t - (1 # 2) <= fl y)%Q).
    { assert (t * (1 - i) * (1 - i) <= fl y * (1 + i))%Q by nra.
      assert ((t - (1 # 2)) * (1 + i) <= t * (1 - i) * (1 - i))%Q; [|nra].
      assert (0 <= t * i * i)%Q by nra. nra. }
    pose proof (Qfloor_le t). pose proof (Qlt_floor t). pose proof (Qfloor_le (fl y)). pose proof (Qlt_floor (fl y)).
    split.
    - assert (A : (inject_Z (Qfloor t - 1) < inject_Z (Qfloor (fl y) + 1))%Q).
      { unfold Z.sub. rewrite inject_Z_plus in H0, H2. rewrite !inject_Z_plus. change (inject_Z (- (1))) with (-1)%Q. change (inject_Z 1) with 1%Q in *. lra. }
      rewrite <- Zlt_Qlt in A. lia.
    - assert (A : (inject_Z (Qfloor (fl y)) < inject_Z (Qfloor t + 2))%Q).
      { rewrite inject_Z_plus in H0, H2. rewrite inject_Z_plus. change (inject_Z 2) with 2%Q. change (inject_Z 1) with 1%Q in *. lra. }
      rewrite <- Zlt_Qlt in A. lia.
  Qed.
End Round.

(** * The learned index *)
Section Find.
  Variables (kf : Z -> Z) (f KB PB : Z) (cmp : Z -> Z -> Z).
  Hypothesis CMP : cmp_ok cmp KB.
  Notation SI := (SI kf f KB PB).

  (** The range around an estimated page. *)
  Definition around (e last loc : Z) : Z * Z * Z :=
    (loc, if e >? loc then 0 else loc - e, if loc + e >? last then last else loc + e).

  Lemma find_cases s n q : SI s n -> f < n -> 0 <= q < KB ->
    (forall fl, spl_find_fp fl cmp s q = spl_find cmp s q) \/
    exists a b, f <= a /\ a < b /\ b < n /\ kf a <= q <= kf b /\ 0 <= kf a /\ kf b < KB /\ kf a < kf b /\
      let num := (q - kf a) * (b - a) in let den := kf b - kf a in
      num < KB * PB /\ num <= (b - a) * den /\
      spl_find cmp s q = Ok (around (s_maxErr s) (n - 1) (num / den + a)) /\
      forall fl, spl_find_fp fl cmp s q =
        match fdiv fl (fl (inject_Z num)) (fl (inject_Z den)) with
        | None => UB
        | Some x =>
            t <- to_int 0 (2 ^ 32 - 1) x ;;
            let loc := u32 (t + a) in
            Ok (loc, if s_maxErr s >? loc then 0 else loc - s_maxErr s,
                if u32 (loc + s_maxErr s) >? n - 1 then n - 1 else u32 (loc + s_maxErr s))
        end.
  Proof.
    intros H Hn Q. destruct (SI_knots kf f KB PB s n H Hn) as (ps & P & Ch & In' & L1 & Cnt & L2 & Last).
    destruct H.
    assert (PT : forall i, 0 <= i < s_count s -> exists p, spl_pt s i = (kf p, p) /\
              nth_error ps (Z.to_nat i) = Some p /\ f <= p < n).
    { intros i Hi. destruct (nth_z ps i) as [p Hp]; [lia|]. exists p. destruct P as [_ P].
      apply P in Hp as E. rewrite Z2Nat.id in E by lia. split; auto. split; auto. apply In'.
      eapply nth_error_In; eauto. }
    destruct (PT 0 ltac:(lia)) as (p0 & E0 & N0 & R0).
    unfold spl_find, spl_find_fp. rewrite E0, Last. cbn [fst snd].
    rewrite (cmp_ltb kf KB cmp CMP) by (auto; apply si_kf; lia).
    destruct (Z.ltb_spec q (kf p0)) as [Hq|Hq]; cbn [orb]; [left; reflexivity|].
    destruct (Z.leb_spec (s_count s) 1) as [Hc|Hc]; [left; reflexivity|].
    rewrite (cmp_gtb kf KB cmp CMP) by (auto; apply si_kf; lia).
    destruct (Z.gtb_spec q (kf (n - 1))) as [Hg|Hg]; [left; reflexivity|].
    destruct (bsearch_spec kf KB cmp CMP s q Q ltac:(lia)) with (fuel := Z.to_nat (s_count s + 2)) (low := 0) (high := s_count s - 1)
      as (idx & Eb & Hi & Hk); try lia.
    { intros i Hi. destruct (PT i Hi) as (p & -> & _ & ?). apply si_kf. lia. }
    { intros i j Hi Hij Hj. destruct (PT i ltac:(lia)) as (p & -> & Np & ?).
      destruct (PT j ltac:(lia)) as (p' & -> & Np' & ?). cbn. apply si_mono; try lia.
      eapply (chain_lt kf _ _ (Z.to_nat i) (Z.to_nat j)); eauto. lia. }
    { rewrite E0; cbn; lia. }
    { rewrite Last; cbn; lia. }
    right. rewrite Eb. cbn [bind].
    destruct (PT (idx - 1) ltac:(lia)) as (a & Ea & Na & Ra).
    destruct (PT idx ltac:(lia)) as (b & Eb' & Nb & Rb).
    rewrite Ea, Eb' in *. cbn [fst snd] in *.
    destruct (chain_nth kf (s_maxErr s) ps (Z.to_nat (idx - 1)) a b Ch) as [Lab Seg]; auto.
    { replace (S (Z.to_nat (idx - 1))) with (Z.to_nat idx) by lia. auto. }
    pose proof (si_kf a ltac:(lia)) as Ka. pose proof (si_kf b ltac:(lia)) as Kb.
    pose proof (si_mono a b ltac:(lia) ltac:(lia) ltac:(lia)) as Kab.
    assert (KB63 : KB <= 2 ^ 63) by (clear - si_prod si_n si_err si_f si_KB; nia).
    assert (NP : (q - kf a) * (b - a) < KB * PB).
    { eapply mul_bound with (A := KB) (B := PB); [..|rewrite Z.mul_comm; apply Z.le_refl]; lia. } 
    exists a, b. do 7 (split; [lia|]). cbv zeta.
    rewrite (u64_id (q - kf a)) by lia. rewrite (u32_id (b - a)) by lia. rewrite (u64_id (kf b - kf a)) by lia.
    assert (Nn : 0 <= (q - kf a) * (b - a)) by (apply Z.mul_nonneg_nonneg; lia).
    rewrite u64_id by lia.
    set (num := (q - kf a) * (b - a)) in *. set (den := kf b - kf a) in *.
    assert (Dp : 0 < den) by (unfold den; lia).
    assert (Nd : num <= (b - a) * den).
    { unfold num. rewrite (Z.mul_comm _ (b - a)). apply Z.mul_le_mono_nonneg_l; unfold den; lia. }
    assert (Qr : 0 <= num / den <= b - a).
    { split; [apply Z.div_pos; lia|]. apply Z.div_le_upper_bound; auto. rewrite (Z.mul_comm den). auto. }
    split; [auto|]. split; [auto|]. split; [|reflexivity].
    destruct (Z.eqb_spec den 0); [lia|].
    destruct (Z.geb_spec (num / den) (2 ^ 32)); [lia|].
    rewrite (u32_id (num / den + a)) by lia. rewrite (u32_id (num / den + a + s_maxErr s)) by lia. reflexivity.
  Qed.

  (** Enough bits for the product: the same answer as with exact arithmetic. *)
  Theorem find_fp_exact s n q p fl : SI s n -> f < n -> 0 <= q < KB ->
    rounds p fl -> 16 <= p <= 100 -> KB * PB <= 2 ^ p -> spl_find_fp fl cmp s q = spl_find cmp s q.
  Proof.
    intros H Hn Q R P B. destruct (find_cases s n q H Hn Q) as [E|(a & b & A1 & A2 & A3 & A4 & A5 & A6 & A7 & N & D & E1 & E2)]; [auto|].
    rewrite E1, E2. destruct H.
    set (num := (q - kf a) * (b - a)) in *. set (den := kf b - kf a) in *.
    assert (0 <= num) by (apply Z.mul_nonneg_nonneg; lia).
    assert (Dn : 0 < den < KB) by (unfold den; lia).
    assert (KB <= 2 ^ p) by (clear - B si_n si_err si_f si_KB; nia).
    destruct (quot_exact p fl R ltac:(lia) num den) as (x & X & X0 & T); try lia.
    rewrite X. assert (Qr : 0 <= num / den <= b - a).
    { split; [apply Z.div_pos; lia|]. apply Z.div_le_upper_bound; [lia|]. rewrite (Z.mul_comm den). auto. }
    rewrite to_int_ok by lia. cbn [bind]. cbv zeta. rewrite T.
    rewrite !u32_id by (rewrite ?u32_id; lia). reflexivity.
  Qed.

  (** Any precision: at most one page off. *)
  Theorem find_fp_near s n q p fl : SI s n -> f < n -> 0 <= q < KB ->
    rounds p fl -> 16 <= p -> 16 * PB <= 2 ^ p ->
    exists loc low high, spl_find_fp fl cmp s q = Ok (loc, low, high) /\
      forall p, f <= p < n -> kf p <= q -> (p < n - 1 -> q < kf (p + 1)) -> low - 1 <= p <= high + 1.
  Proof.
    intros H Hn Q R P B.
    destruct (find_SI kf f KB PB cmp CMP s n q H Hn Q) as (loc & low & high & Ef & B1 & B2 & B3).
    destruct (find_cases s n q H Hn Q) as [E|(a & b & A1 & A2 & A3 & A4 & A5 & A6 & A7 & N & D & E1 & E2)].
    { exists loc, low, high. rewrite E. split; [auto|]. intros pg G1 G2 G3. specialize (B3 pg G1 G2 G3). lia. }
    rewrite E1 in Ef. injection Ef as <- <- <-. rewrite E2. destruct H.
    set (num := (q - kf a) * (b - a)) in *. set (den := kf b - kf a) in *.
    assert (0 <= num) by (apply Z.mul_nonneg_nonneg; lia).
    assert (KB63 : KB <= 2 ^ 63) by (clear - si_prod si_n si_err si_f si_KB; nia).
    assert (Dn : 0 < den < KB) by (unfold den; lia).
    destruct (quot_near p fl R P num den) as (x & X & X0 & T); try lia.
    { clear - D B Dn A1 A2 A3 si_n si_err si_f si_PB. nia. }
    rewrite X. assert (Qr : 0 <= num / den <= b - a).
    { split; [apply Z.div_pos; lia|]. apply Z.div_le_upper_bound; [lia|]. rewrite (Z.mul_comm den). auto. }
    assert (T0 : 0 <= qtrunc x).
    { rewrite qtrunc_floor by auto. change 0 with (Qfloor 0). apply Qfloor_resp_le; auto. }
    rewrite to_int_ok by lia. cbn [bind]. cbv zeta.
    rewrite (u32_id (qtrunc x + a)) by lia. rewrite (u32_id (_ + _ + _)) by lia.
    eexists _, _, _. split; [reflexivity|]. intros pg G1 G2 G3. specialize (B3 pg G1 G2 G3).
    set (e := s_maxErr s) in *. clearbody e. set (k := num / den) in *. clearbody k. clear - B3 T T0 Qr G1 A1 A2 A3 si_err si_f B1 B2.
    destruct (Z.gtb_spec e (k + a)), (Z.gtb_spec (k + a + e) (n - 1)), (Z.gtb_spec e (qtrunc x + a)), (Z.gtb_spec (qtrunc x + a + e) (n - 1)); lia.
  Qed.
End Find.

(** * The estimate within a page *)
Section Page.
  Variables (p : Z) (fl : Q -> Q) (c : cfg).
  Hypothesis R : rounds p fl.
  Hypothesis P : 16 <= p.
  Hypothesis KS : 1 <= keySize c <= 8.

  Lemma diff_id d : 0 <= d < 256 ^ keySize c -> (if keySize c <=? 4 then u32 d else u64 d) = d.
  Proof.
    intros D. destruct (Z.leb_spec (keySize c) 4).
    - apply u32_id. assert (256 ^ keySize c <= 256 ^ 4) by (apply Z.pow_le_mono_r; lia). change (256 ^ 4) with (2 ^ 32) in *. lia.
    - apply u64_id. assert (256 ^ keySize c <= 256 ^ 8) by (apply Z.pow_le_mono_r; lia). change (256 ^ 8) with (2 ^ 64) in *. lia.
  Qed.
  Lemma key64 : 256 ^ keySize c <= 2 ^ 64.
  Proof. change (2 ^ 64) with (256 ^ 8). apply Z.pow_le_mono_r; lia. Qed.

  Definition good_slope (n D : Z) (sl : Q) : Prop :=
    (inject_Z D * (65535 # 65536) * (65535 # 65536) <= sl * inject_Z (n - 1))%Q /\
    (sl <= inject_Z D * 4)%Q /\ (1 # 2 ^ 20 <= sl)%Q.

  Lemma slope_spec n D : 2 <= n <= 16384 -> 1 <= D < 2 ^ 64 ->
    exists sl, fdiv fl (fl (inject_Z D)) (fl (inject_Z (n - 1))) = Some sl /\ good_slope n D sl.
  Proof.
    intros N HD. unfold fdiv. pose proof (pow_big p P) as PB.
    pose proof (fl_int p fl R (inject_Z (n - 1)) (n - 1) ltac:(lia) (Qeq_refl _)) as En.
    assert (N1 : (1 <= inject_Z (n - 1))%Q) by (change 1%Q with (inject_Z 1); rewrite <- Zle_Qle; lia).
    assert (N2 : (inject_Z (n - 1) <= 16384)%Q) by (change 16384%Q with (inject_Z 16384); rewrite <- Zle_Qle; lia).
    assert (D1 : (1 <= inject_Z D)%Q) by (change 1%Q with (inject_Z 1); rewrite <- Zle_Qle; lia).
    assert (D2 : (inject_Z D <= inject_Z (2 ^ 64))%Q) by (rewrite <- Zle_Qle; lia).
    assert (C0 : (1 # 2 ^ 100 < 1 # 2 ^ 16)%Q) by reflexivity.
    assert (C2 : (1 # 2 ^ 16 < 1)%Q) by reflexivity.
    assert (C1 : (4 * inject_Z (2 ^ 64) < inject_Z (2 ^ 100))%Q) by reflexivity.
    destruct (Qeq_bool (fl (inject_Z (n - 1))) 0) eqn:Eb.
    { apply Qeq_bool_eq in Eb. rewrite En in Eb. lra. }
    eexists. split; [reflexivity|].
    destruct (fl_rel p fl R P (inject_Z D)) as [Dl Du]; [lra|lra|].
    set (z := (fl (inject_Z D) / fl (inject_Z (n - 1)))%Q).
    assert (Z1 : (z * inject_Z (n - 1) == fl (inject_Z D))%Q) by (unfold z; rewrite En; field; lra).
    clearbody z. set (d := inject_Z D) in *. set (m := inject_Z (n - 1)) in *. set (fd := fl d) in *.
    assert (Zl : (1 # 2 ^ 16 <= z)%Q).
    { change (1 # 2 ^ 16)%Q with (1 # 65536)%Q. nra. }
    assert (Zu : (z <= 2 * d)%Q) by nra.
    destruct (fl_rel p fl R P z) as [Sl Su]; [lra|lra|].
    unfold good_slope. fold d m. set (s := fl z) in *. clearbody s fd d m. split; [|split].
    - assert (d * (65535 # 65536) * (65535 # 65536) <= z * m * (65535 # 65536))%Q by (rewrite Z1; nra). nra.
    - lra.
    - change (1 # 2 ^ 20)%Q with (1 # 1048576)%Q. change (1 # 2 ^ 16)%Q with (1 # 65536)%Q in *. lra.
  Qed.

  Lemma slot_spec_fp n D sl kd : 2 <= n <= 16384 -> 1 <= D < 2 ^ 64 -> good_slope n D sl -> 0 <= kd <= D ->
    exists x, fdiv fl (fl (inject_Z kd)) sl = Some x /\ (0 <= x)%Q /\ (x < inject_Z n)%Q.
  Proof.
    intros N HD (S1 & S2 & S3) K. unfold fdiv. pose proof (pow_big p P) as PB.
    assert (C3 : (0 < 1 # 2 ^ 20)%Q) by reflexivity.
    destruct (Qeq_bool sl 0) eqn:Eb. { apply Qeq_bool_eq in Eb. lra. }
    eexists. split; [reflexivity|].
    assert (N0 : (2 <= inject_Z n)%Q) by (change 2%Q with (inject_Z 2); rewrite <- Zle_Qle; lia).
    destruct (Z.eq_dec kd 0) as [->|K0].
    { assert (Z0 : (fl (fl (inject_Z 0) / sl) == inject_Z 0)%Q).
      { apply (fl_int p); auto; [lia|]. rewrite (fl_int p fl R (inject_Z 0) 0); [|lia|reflexivity].
        change (inject_Z 0) with 0%Q. field. lra. }
      rewrite Z0. change (inject_Z 0) with 0%Q. split; lra. }
    assert (N1 : (1 <= inject_Z (n - 1))%Q) by (change 1%Q with (inject_Z 1); rewrite <- Zle_Qle; lia).
    assert (N2 : (inject_Z (n - 1) <= 16383)%Q) by (change 16383%Q with (inject_Z 16383); rewrite <- Zle_Qle; lia).
    assert (N3 : (inject_Z n == inject_Z (n - 1) + 1)%Q).
    { replace n with (n - 1 + 1) at 1 by lia. rewrite inject_Z_plus. reflexivity. }
    assert (D2 : (inject_Z D <= inject_Z (2 ^ 64))%Q) by (rewrite <- Zle_Qle; lia).
    assert (K1 : (1 <= inject_Z kd)%Q) by (change 1%Q with (inject_Z 1); rewrite <- Zle_Qle; lia).
    assert (K2 : (inject_Z kd <= inject_Z D)%Q) by (rewrite <- Zle_Qle; lia).
    assert (C0 : (1 # 2 ^ 100 < 1)%Q) by reflexivity.
    assert (C1 : (inject_Z (2 ^ 64) < inject_Z (2 ^ 100))%Q) by reflexivity.
    destruct (fl_rel p fl R P (inject_Z kd)) as [Kl Ku]; [lra|lra|].
    set (y := (fl (inject_Z kd) / sl)%Q).
    assert (Y : (y * sl == fl (inject_Z kd))%Q) by (unfold y; field; lra). clearbody y.
    set (k := inject_Z kd) in *. set (d := inject_Z D) in *. set (m := inject_Z (n - 1)) in *. set (fk := fl k) in *.
    assert (Sp : (0 < sl)%Q) by lra.
    assert (Y0 : (0 < y)%Q) by nra.
    assert (YL : (1 # 2 ^ 100 <= y)%Q).
    { assert (T : ((1 # 2 ^ 100) * (4 * inject_Z (2 ^ 64)) < 1 # 4)%Q) by reflexivity.
      assert (T0 : (0 < 1 # 2 ^ 100)%Q) by reflexivity.
      set (u := (1 # 2 ^ 100)%Q) in *. set (t := inject_Z (2 ^ 64)) in *. clearbody u t.
      clear - T T0 Y S2 D2 Kl K1 Sp Y0.
      assert (sl <= 4 * t)%Q by lra. assert (1 # 2 <= fk)%Q by lra. nra. }
    assert (Yb : (y * (65535 # 65536) * (65535 # 65536) <= m * (65537 # 65536))%Q).
    { apply (Qmult_le_r _ _ d); [lra|].
      assert (y * (d * (65535 # 65536) * (65535 # 65536)) <= y * (sl * m))%Q by (apply Qmult_le_l; auto; lra).
      assert (y * (sl * m) == fk * m)%Q by (rewrite <- Y; ring).
      assert (fk * m <= d * (65537 # 65536) * m)%Q by (apply Qmult_le_compat_r; lra).
      lra. }
    assert (YU : (y <= inject_Z (2 ^ 100))%Q).
    { assert (16385 < inject_Z (2 ^ 100))%Q by reflexivity. lra. }
    destruct (fl_rel p fl R P y) as [Fl Fu]; [auto|auto|].
    split; [lra|]. rewrite N3. lra.
  Qed.

  (** The first and last keys of the page. *)
  Definition ends (pg : page) (n lo hi : Z) : Prop :=
    get_count pg = Ok n /\ 1 <= n <= 16384 /\ rec_key c pg 0 = Ok lo /\ rec_key c pg (n - 1) = Ok hi /\
    0 <= lo /\ hi < 256 ^ keySize c /\ (n = 1 \/ lo < hi).

  Lemma slope_page pg n lo hi : ends pg n lo hi -> 2 <= n ->
    exists sl, calcSlope fl c pg = Ok (Some sl) /\ good_slope n (hi - lo) sl /\ 1 <= hi - lo < 2 ^ 64.
  Proof.
    intros (E1 & E2 & E3 & E4 & E5 & E6 & E7) N. pose proof key64 as K64.
    destruct (slope_spec n (hi - lo)) as (sl & S1 & S2); [lia|lia|].
    exists sl. unfold calcSlope. rewrite E1. cbn [bind].
    destruct (Z.eqb_spec n 0); [lia|]. destruct (Z.eqb_spec (n - 1) 0); [lia|].
    rewrite E3, E4. cbn [bind]. cbv zeta. rewrite diff_id by lia. rewrite S1. split; [auto|]. split; [auto|lia].
  Qed.

  Theorem estimate_ok pg n lo hi key : ends pg n lo hi -> lo <= key <= hi ->
    exists e, estimate fl c pg key = Ok e /\ 0 <= e < n.
  Proof.
    intros E K. pose proof key64 as K64. pose proof E as (E1 & E2 & E3 & E4 & E5 & E6 & E7).
    unfold estimate. destruct (Z.eq_dec n 1) as [->|N1].
    - assert (calcSlope fl c pg = Ok (Some 1%Q)) as -> by (unfold calcSlope; rewrite E1; reflexivity).
      cbn [bind]. unfold min_key. rewrite E3. cbn [bind].
      change (1 - 1) with 0 in E4. assert (lo = hi) by congruence. assert (key = lo) as -> by lia.
      rewrite Z.sub_diag. change (u64 0) with 0. unfold fdiv. change (Qeq_bool 1 0) with false. cbv iota.
      assert (Z0 : (fl (fl (inject_Z 0) / 1) == inject_Z 0)%Q).
      { pose proof (pow_big p P). apply (fl_int p); auto; [lia|].
        rewrite (fl_int p fl R (inject_Z 0) 0); [|lia|reflexivity]. reflexivity. }
      assert (T : qtrunc (fl (fl (inject_Z 0) / 1)) = 0).
      { rewrite qtrunc_floor by (rewrite Z0; apply Qle_refl). rewrite Z0. apply Qfloor_Z. }
      rewrite to_int_ok by lia. rewrite T. exists 0. split; [auto|lia].
    - destruct (slope_page pg n lo hi E) as (sl & S1 & S2 & S3); [lia|]. rewrite S1. cbn [bind].
      unfold min_key. rewrite E3. cbn [bind]. rewrite u64_id by lia.
      destruct (slot_spec_fp n (hi - lo) sl (key - lo)) as (x & X1 & X2 & X3); [lia|lia|auto|lia|].
      rewrite X1. pose proof (qtrunc_bounds x 0 n ltac:(lia) X2 X3). rewrite to_int_ok by lia. eauto.
  Qed.

  (** A key below the first key of the page wraps around. *)
  Theorem estimate_below pg n lo hi key : keySize c <= 4 -> ends pg n lo hi -> 0 <= key < lo ->
    estimate fl c pg key = UB.
  Proof.
    intros K4 E K. pose proof E as (E1 & E2 & E3 & E4 & E5 & E6 & E7).
    assert (K32 : 256 ^ keySize c <= 2 ^ 32) by (change (2 ^ 32) with (256 ^ 4); apply Z.pow_le_mono_r; lia).
    assert (S : exists sl, calcSlope fl c pg = Ok (Some sl) /\ (1 # 2 ^ 20 <= sl)%Q /\ (sl <= inject_Z (2 ^ 34))%Q).
    { destruct (Z.eq_dec n 1) as [->|N1].
      - exists 1%Q. split; [unfold calcSlope; rewrite E1; reflexivity|]. split; discriminate.
      - destruct (slope_page pg n lo hi E ltac:(lia)) as (sl & S1 & (_ & S2 & S3) & S4). exists sl. split; [auto|]. split; [auto|].
        assert (T : (inject_Z (hi - lo) <= inject_Z (2 ^ 32))%Q) by (rewrite <- Zle_Qle; lia).
        setoid_replace (inject_Z (2 ^ 34)) with (inject_Z (2 ^ 32) * 4)%Q by reflexivity. lra. }
    destruct S as (sl & S1 & S2 & S3). unfold estimate. rewrite S1. cbn [bind]. unfold min_key.
    rewrite E3 || idtac.
    assert (L0 : lo < 2 ^ 32).
    { destruct (Z.eq_dec n 1) as [->|]; [change (1 - 1) with 0 in E4; assert (lo = hi) by congruence; lia|lia]. }
    cbn [bind]. 
    assert (D : u64 (key - lo) = 2 ^ 64 + key - lo).
    { unfold u64. replace (key - lo) with (2 ^ 64 + key - lo + (-1) * 2 ^ 64) by lia. rewrite Z.mod_add by lia.
      apply Z.mod_small. lia. }
    rewrite D. set (d := 2 ^ 64 + key - lo) in *.
    assert (D1 : (inject_Z (2 ^ 63) <= inject_Z d)%Q) by (rewrite <- Zle_Qle; unfold d; lia).
    assert (D2 : (inject_Z d <= inject_Z (2 ^ 64))%Q) by (rewrite <- Zle_Qle; unfold d; lia).
    assert (C0 : (1 # 2 ^ 100 < inject_Z (2 ^ 63))%Q) by reflexivity.
    assert (C1 : (inject_Z (2 ^ 64) < inject_Z (2 ^ 100))%Q) by reflexivity.
    destruct (fl_rel p fl R P (inject_Z d)) as [Fl Fu]; [lra|lra|].
    assert (Sp : (0 < sl)%Q) by (eapply Qlt_le_trans; [|exact S2]; reflexivity).
    unfold fdiv. destruct (Qeq_bool sl 0) eqn:Eb. { apply Qeq_bool_eq in Eb. lra. }
    set (y := (fl (inject_Z d) / sl)%Q). assert (Y : (y * sl == fl (inject_Z d))%Q) by (unfold y; field; lra). clearbody y.
    set (q := fl (inject_Z d)) in *. set (dq := inject_Z d) in *. clearbody q dq.
    assert (Y1 : (inject_Z (2 ^ 28) <= y)%Q).
    { assert (T : (inject_Z (2 ^ 28) * inject_Z (2 ^ 34) == (1 # 2) * inject_Z (2 ^ 63))%Q) by reflexivity.
      assert (Tp : (0 < inject_Z (2 ^ 28))%Q) by reflexivity.
      assert (Tq : (0 < inject_Z (2 ^ 63))%Q) by reflexivity.
      set (a := inject_Z (2 ^ 28)) in *. set (b := inject_Z (2 ^ 34)) in *. set (g := inject_Z (2 ^ 63)) in *. clearbody a b g.
      assert ((1 # 2) * g <= q)%Q by lra. clear - Y T Tp Tq H S3 Sp. apply Qnot_lt_le. intros X. nra. }
    assert (Y2 : (y <= inject_Z (2 ^ 100))%Q).
    { assert (T : (2 * inject_Z (2 ^ 64) < (1 # 2 ^ 20) * inject_Z (2 ^ 100))%Q) by reflexivity.
      assert (T4 : (0 < inject_Z (2 ^ 64))%Q) by reflexivity.
      set (a := inject_Z (2 ^ 100)) in *. set (b := inject_Z (2 ^ 64)) in *. set (e := (1 # 2 ^ 20)%Q) in *.
      assert (Te : (0 < e)%Q) by reflexivity. clearbody a b e.
      assert (q <= 2 * b)%Q by lra. assert (0 < a)%Q by lra. clear - Y T Te H H0 S2 Sp T4. apply Qnot_lt_le. intros X.
      assert (a * e <= y * sl)%Q by nra. lra. }
    assert (C2 : (1 # 2 ^ 100 < inject_Z (2 ^ 28))%Q) by reflexivity.
    destruct (fl_rel p fl R P y) as [Xl Xu]; [lra|lra|].
    assert (X : (inject_Z (2 ^ 27) <= fl y)%Q).
    { setoid_replace (inject_Z (2 ^ 28)) with (2 * inject_Z (2 ^ 27))%Q in Y1 by reflexivity.
      assert (0 < inject_Z (2 ^ 27))%Q by reflexivity. lra. }
    assert (T : 2 ^ 27 <= qtrunc (fl y)).
    { rewrite qtrunc_floor by (eapply Qle_trans; [|exact X]; discriminate).
      rewrite <- (Qfloor_Z (2 ^ 27)). apply Qfloor_resp_le. exact X. }
    unfold to_int. cbv zeta. destruct (Z.leb_spec (-32768) (qtrunc (fl y))), (Z.leb_spec (qtrunc (fl y)) 32767); cbn [andb]; lia || auto.
  Qed.

  (** The loop of the statistic on a full page. *)
  Lemma small_diff x i n : 1 <= n <= 16384 -> 0 <= i < n -> (0 <= x)%Q -> (x < inject_Z n)%Q ->
    exists e, (if Qle_bool (inject_Z i) x then to_int (- 2 ^ 31) (2 ^ 31 - 1) (fl (x - inject_Z i)%Q)
               else to_int (- 2 ^ 31) (2 ^ 31 - 1) (fl (inject_Z i - x)%Q)) = Ok e /\ 0 <= e.
  Proof.
    intros N I X0 X1.
    assert (I0 : (0 <= inject_Z i)%Q) by (change 0%Q with (inject_Z 0); rewrite <- Zle_Qle; lia).
    assert (I1 : (inject_Z i <= 16384)%Q) by (change 16384%Q with (inject_Z 16384); rewrite <- Zle_Qle; lia).
    assert (N1 : (inject_Z n <= 16384)%Q) by (change 16384%Q with (inject_Z 16384); rewrite <- Zle_Qle; lia).
    assert (G : forall y, (0 <= y)%Q -> (y <= 16384)%Q -> exists e, to_int (- 2 ^ 31) (2 ^ 31 - 1) (fl y) = Ok e /\ 0 <= e).
    { intros y Y0 Y1. assert (B : (0 <= fl y)%Q /\ (fl y <= 16385)%Q).
      { assert (C1 : (16384 < inject_Z (2 ^ 100))%Q) by reflexivity.
        destruct (Qlt_le_dec y (1 # 2 ^ 100)) as [L|L].
        - destruct R as (_ & _ & T). destruct (T y) as [T1 T2]; [split; [auto|apply Qlt_le_weak; auto]|]. split; lra.
        - destruct (fl_rel p fl R P y L) as [A B]; [lra|]. split; lra. }
      destruct B as [B1 B2]. pose proof (qtrunc_bounds (fl y) 0 16386 ltac:(lia) B1) as T.
      change (inject_Z 16386) with 16386%Q in T. specialize (T ltac:(lra)). rewrite to_int_ok by lia. exists (qtrunc (fl y)). split; [auto|lia]. }
    destruct (Qle_bool (inject_Z i) x) eqn:Eb.
    - apply Qle_bool_iff in Eb. apply G; lra.
    - assert (x < inject_Z i)%Q by (apply Qnot_le_lt; intros L; apply Qle_bool_iff in L; congruence). apply G; lra.
  Qed.

  Lemma maxerr_loop_ok pg n lo hi sl : 2 <= n <= 16384 -> 0 <= lo -> 1 <= hi - lo -> hi < 256 ^ keySize c ->
    good_slope n (hi - lo) sl ->
    (forall i, 0 <= i < n -> exists k, rec_key c pg i = Ok k /\ lo <= k <= hi) ->
    forall m i mx, 0 <= i -> i + Z.of_nat m = n -> 0 <= mx ->
    exists e, maxerr_loop fl c pg sl lo m i mx = Ok e /\ 0 <= e.
  Proof.
    intros N L0 HD HH S1 Kk. pose proof key64 as K64. induction m as [|m IH]; intros i mx I0 In Mx.
    { cbn. eauto. }
    cbn [maxerr_loop]. destruct (Kk i ltac:(lia)) as (k & Ek & Kb). rewrite Ek. cbn [bind]. cbv zeta.
    rewrite diff_id by lia.
    destruct (slot_spec_fp n (hi - lo) sl (k - lo)) as (x & X1 & X2 & X3); [lia|lia|auto|lia|].
    rewrite X1. destruct (small_diff x i n) as (e & E & E0); [lia|lia|auto|auto|].
    rewrite E. cbn [bind]. apply IH; try lia. destruct (Z.gtb_spec e mx); lia.
  Qed.

  Theorem maxerr_ok pg n lo hi : ends pg n lo hi -> n = maxRec c ->
    (forall i, 0 <= i < n -> exists k, rec_key c pg i = Ok k /\ lo <= k <= hi) ->
    exists e, getMaxError fl c pg pg = Ok e /\ 0 <= e <= maxRec c.
  Proof.
    intros E M Kk. pose proof E as (E1 & E2 & E3 & E4 & E5 & E6 & E7).
    unfold getMaxError. unfold min_key. rewrite E3. cbn [bind].
    assert ((if keySize c <=? 4 then pg else pg) = pg) as -> by (destruct (keySize c <=? 4); auto).
    destruct (Z.eq_dec n 1) as [->|N1].
    - assert (calcSlope fl c pg = Ok (Some 1%Q)) as -> by (unfold calcSlope; rewrite E1; reflexivity).
      cbn [bind]. rewrite <- M. change (Z.to_nat 1) with 1%nat. cbn [maxerr_loop]. rewrite E3. cbn [bind]. cbv zeta.
      rewrite Z.sub_diag. rewrite diff_id by (pose proof (Z.pow_pos_nonneg 256 (keySize c)); lia).
      unfold fdiv. change (Qeq_bool 1 0) with false. cbv iota.
      assert (Z0 : (fl (fl (inject_Z 0) / 1) == inject_Z 0)%Q).
      { pose proof (pow_big p P). apply (fl_int p); auto; [lia|].
        rewrite (fl_int p fl R (inject_Z 0) 0); [|lia|reflexivity]. reflexivity. }
      destruct (small_diff (fl (fl (inject_Z 0) / 1)) 0 1) as (e & Ee & E0); [lia|lia|rewrite Z0; discriminate|rewrite Z0; reflexivity|].
      rewrite Ee. cbn [bind]. eexists. split; [reflexivity|].
      destruct (Z.gtb_spec e 0); [destruct (Z.gtb_spec e 1)|destruct (Z.gtb_spec 0 1)]; lia.
    - destruct (slope_page pg n lo hi E ltac:(lia)) as (sl & S1 & S2 & S3).
      rewrite S1. cbn [bind]. rewrite <- M.
      destruct (maxerr_loop_ok pg n lo hi sl) with (m := Z.to_nat n) (i := 0) (mx := 0) as (e & Ee & E0); try lia; auto.
      rewrite Ee. cbn [bind]. eexists. split; [reflexivity|]. destruct (Z.gtb_spec e n); lia.
  Qed.
End Page.

(** The statistic never exceeds its initial value. *)
Lemma maxerr_le fl c w p e : getMaxError fl c w p = Ok e -> e <= maxRec c.
Proof.
  unfold getMaxError. destruct (min_key c p); cbn [bind]; try discriminate.
  destruct (calcSlope _ _ _) as [[sl|]| |]; cbn [bind]; try discriminate.
  destruct (maxerr_loop _ _ _ _ _ _ _ _) as [m| |]; cbn [bind]; try discriminate.
  intros [= <-]. destruct (Z.gtb_spec m (maxRec c)); lia.
Qed.

(** More precision is no worse. *)
Lemma rounds_less p p' fl : 0 <= p' <= p -> rounds p fl -> rounds p' fl.
Proof.
  intros P (R1 & R2 & R3). assert (2 ^ p' <= 2 ^ p) by (apply Z.pow_le_mono_r; lia).
  split; [|split].
  - intros x z Z. apply R1. lia.
  - intros x X. eapply Qle_trans; [|apply R2; exact X].
    rewrite (Qmult_comm _ (inject_Z (2 ^ p'))), (Qmult_comm _ (inject_Z (2 ^ p))).
    apply Qmult_le_compat_r; [rewrite <- Zle_Qle; auto|apply Qabs_nonneg].
  - auto.
Qed.

(** * Histories of the learned index *)
Lemma fp_find_history KB PB f size e g ops cmp q pd fd :
  4 <= size < 2 ^ 32 -> 0 <= e < 2 ^ 32 -> 0 <= f -> e <= 1 \/ f = 0 ->
  PB <= 2 ^ 31 -> 0 < KB -> KB * PB <= 2 ^ 63 -> f + zlen (added ops) + e < PB ->
  Forall (fun k => 0 <= k < KB) (added ops) -> zascending (added ops) -> cleans_ok f ops ->
  cmp_ok cmp KB -> 0 <= q < KB -> added ops <> [] ->
  rounds pd fd -> 16 <= pd -> KB * PB <= 2 ^ pd ->
  spl_find_fp fd cmp (srun (spl_init size e g) f ops) q = spl_find cmp (srun (spl_init size e g) f ops) q.
Proof.
  intros A1 A2 A3 A4 A5 A6 A7 A8 A9 A10 A11 CM Q Ne R P B.
  destruct (srun_SI KB PB f size e g ops) as (I & _); auto.
  assert (B' : KB * PB <= 2 ^ Z.min pd 100).
  { destruct (Z.min_spec pd 100) as [[_ ->]|[_ ->]]; [auto|]. eapply Z.le_trans; [exact A7|]. apply Z.pow_le_mono_r; lia. }
  eapply (find_fp_exact _ _ _ _ _ CM _ _ _ (Z.min pd 100)); eauto; [|apply (rounds_less pd); [lia|auto]|lia]. destruct (added ops) as [|x l]; [congruence|]. rewrite zlen_cons. pose proof (zlen_nonneg l). lia.
Qed.
Lemma fp_near_history KB PB f size e g ops cmp q p pd fd :
  4 <= size < 2 ^ 32 -> 0 <= e < 2 ^ 32 -> 0 <= f -> e <= 1 \/ f = 0 ->
  PB <= 2 ^ 31 -> 0 < KB -> KB * PB <= 2 ^ 63 -> f + zlen (added ops) + e < PB ->
  Forall (fun k => 0 <= k < KB) (added ops) -> zascending (added ops) -> cleans_ok f ops ->
  cmp_ok cmp KB -> 0 <= q < KB -> page_of (added ops) q p ->
  rounds pd fd -> 16 <= pd -> 16 * PB <= 2 ^ pd ->
  exists loc low high, spl_find_fp fd cmp (srun (spl_init size e g) f ops) q = Ok (loc, low, high) /\
    low - 1 <= f + Z.of_nat p <= high + 1.
Proof.
  intros A1 A2 A3 A4 A5 A6 A7 A8 A9 A10 A11 CM Q (k & K1 & K2 & K3) R P B.
  destruct (srun_SI KB PB f size e g ops) as (I & _); auto.
  assert (p < length (added ops))%nat by (apply nth_error_Some; congruence).
  destruct (find_fp_near _ _ _ _ _ CM _ _ q pd fd I) as (loc & low & high & E & H1); auto; [unfold zlen; lia|].
  exists loc, low, high. split; [auto|].
  apply H1; unfold keyfun, zlen; try lia.
  - replace (Z.to_nat (f + Z.of_nat p - f)) with p by lia. erewrite nth_error_nth; eauto.
  - intros L. replace (Z.to_nat (f + Z.of_nat p + 1 - f)) with (S p) by lia.
    apply K3. apply nth_error_nth'. lia.
Qed.

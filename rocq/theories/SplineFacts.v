(** Proofs about the learned index (Spline.v and cleanSpline). *)
From Verif Require Import Base BaseFacts Spline Storage DB Spec SpecSpline.
Open Scope Z_scope.

(** * Point array *)
Definition arr_ok (s : spline) : Prop := 0 <= s_start s < s_size s /\ s_size s < 2 ^ 32.

Lemma slot_spec s i : arr_ok s -> 0 <= i < 2 ^ 32 -> spl_slot s i = (i + s_start s) mod s_size s.
Proof. intros [? ?] ?. unfold spl_slot. rewrite (u64_id i) by lia. rewrite u64_id by lia. auto. Qed.

Lemma slot_inj s i j : arr_ok s -> 0 <= i < s_size s -> 0 <= j < s_size s ->
  spl_slot s i = spl_slot s j -> i = j.
Proof.
  intros H Hi Hj. destruct H as [H1 H2]. rewrite !slot_spec by (unfold arr_ok; lia).
  intros E.
  assert ((i + s_start s) mod s_size s = if i + s_start s <? s_size s then i + s_start s else i + s_start s - s_size s).
  { destruct (Z.ltb_spec (i + s_start s) (s_size s)).
    - apply Z.mod_small; lia.
    - symmetry; apply Z.mod_unique with 1; lia. }
  assert ((j + s_start s) mod s_size s = if j + s_start s <? s_size s then j + s_start s else j + s_start s - s_size s).
  { destruct (Z.ltb_spec (j + s_start s) (s_size s)).
    - apply Z.mod_small; lia.
    - symmetry; apply Z.mod_unique with 1; lia. }
  rewrite H, H0 in E. clear H H0.
  destruct (Z.ltb_spec (i + s_start s) (s_size s)), (Z.ltb_spec (j + s_start s) (s_size s)); lia.
Qed.

Lemma pt_setpt s i p j : arr_ok s -> 0 <= i < s_size s -> 0 <= j < s_size s ->
  spl_pt (spl_setpt s i p) j = if j =? i then p else spl_pt s j.
Proof.
  intros H Hi Hj. unfold spl_pt. change (spl_slot (spl_setpt s i p) j) with (spl_slot s j).
  cbn [s_pts spl_setpt]. destruct (Z.eqb_spec j i).
  - subst. now rewrite Z.eqb_refl.
  - destruct (Z.eqb_spec (spl_slot s j) (spl_slot s i)); auto.
    apply slot_inj in e; auto. lia.
Qed.

Lemma erase_spec s n : arr_ok s -> 0 < n -> s_count s - n >= 2 -> s_count s < 2 ^ 32 ->
  spl_erase s n =
  (mkSpl (s_count s - n) (s_size s) ((s_start s + n) mod s_size s) (s_pts s)
         (s_upper s) (s_lower s) (s_first s) (s_lastLoc s) (s_lastKey s)
         (s_maxErr s) (s_adds s) (s_temp s), 0).
Proof.
  intros [? ?] ? ? ?. unfold spl_erase. rewrite u64_id by lia.
  destruct (Z.gtb_spec n (s_count s)); try lia.
  destruct (Z.eqb_spec (s_count s - n) 1); try lia. cbn [orb].
  destruct (Z.eqb_spec n 0); try lia. rewrite u64_id by lia.
  destruct (Z.eqb_spec (s_count s - n) 0); try lia. reflexivity.
Qed.

Lemma pt_erase s n i : arr_ok s -> 0 < n -> s_count s - n >= 2 -> s_count s < 2 ^ 32 ->
  0 <= i -> i + n < 2 ^ 32 ->
  arr_ok (fst (spl_erase s n)) /\
  spl_pt (fst (spl_erase s n)) i = spl_pt s (i + n).
Proof.
  intros H ? ? ? ? ?. rewrite erase_spec by auto. cbn [fst].
  assert (A : arr_ok (mkSpl (s_count s - n) (s_size s) ((s_start s + n) mod s_size s) (s_pts s)
         (s_upper s) (s_lower s) (s_first s) (s_lastLoc s) (s_lastKey s)
         (s_maxErr s) (s_adds s) (s_temp s))).
  { destruct H. split; cbn; [|lia]. apply Z.mod_pos_bound; lia. }
  split; auto. unfold spl_pt. rewrite !slot_spec by (auto; lia). cbn [s_pts s_start s_size].
  f_equal. destruct H. rewrite Z.add_mod_idemp_r by lia. f_equal. lia.
Qed.

(** * Arithmetic of slopes *)
Lemma slope_trans a b c d e g : 0 < b -> 0 < d -> 0 < g ->
  a * d <= c * b -> c * g <= e * d -> a * g <= e * b.
Proof.
  intros. assert (a * d * g <= c * b * g) by nia. assert (c * g * b <= e * d * b) by nia.
  assert (d * (a * g) <= d * (e * b)) by nia. nia.
Qed.

Lemma mul_bound a b A B M : 0 <= a < A -> 0 <= b < B -> B * A <= M -> a * b < M.
Proof. intros. assert (a * b <= A * b) by nia. assert (A * b < A * B) by nia. lia. Qed.

Lemma mul_le_l a b c : a <= b -> 0 <= c -> a * c <= b * c.
Proof. intros. apply Z.mul_le_mono_nonneg_r; auto. Qed.
Lemma mul_le_tr a b c d : a <= b -> 0 <= c -> b * c <= d -> a * c <= d.
Proof. intros. pose proof (mul_le_l a b c). lia. Qed.
Lemma mul_neg_pos a b c d : a <= 0 -> 0 <= b -> 0 <= c -> 0 <= d -> a * b <= c * d.
Proof. intros. nia. Qed.

Lemma isLeft_spec x1 y1 x2 y2 : 0 <= x1 -> 0 <= x2 -> 0 <= y1 -> 0 <= y2 ->
  y1 < 2 ^ 64 -> y2 < 2 ^ 64 ->
  y1 * x2 < 2 ^ 64 -> y2 * x1 < 2 ^ 64 -> spl_isLeft x1 y1 x2 y2 = (y1 * x2 >? y2 * x1).
Proof. intros. unfold spl_isLeft. rewrite (u64_id y1), (u64_id y2) by lia. rewrite !u64_id by nia. auto. Qed.
Lemma isRight_spec x1 y1 x2 y2 : 0 <= x1 -> 0 <= x2 -> 0 <= y1 -> 0 <= y2 ->
  y1 < 2 ^ 64 -> y2 < 2 ^ 64 ->
  y1 * x2 < 2 ^ 64 -> y2 * x1 < 2 ^ 64 -> spl_isRight x1 y1 x2 y2 = (y1 * x2 <? y2 * x1).
Proof. intros. unfold spl_isRight. rewrite (u64_id y1), (u64_id y2) by lia. rewrite !u64_id by nia. auto. Qed.
(** A negative second operand compares as a huge number. *)
Lemma isRight_neg x1 y1 x2 y2 : 0 < x1 -> 0 <= x2 -> 0 <= y1 -> y2 < 0 -> - 2 ^ 63 <= y2 ->
  y1 < 2 ^ 63 -> y1 * x2 < 2 ^ 63 -> - y2 * x1 < 2 ^ 63 -> spl_isRight x1 y1 x2 y2 = true.
Proof.
  intros. unfold spl_isRight. rewrite (u64_id y1) by lia. rewrite (u64_id (y1 * x2)) by nia.
  assert (E : u64 (u64 y2 * x1) = 2 ^ 64 + y2 * x1).
  { unfold u64. rewrite Z.mul_mod_idemp_l by lia.
    symmetry. apply Z.mod_unique with (-1); [left|]; nia. }
  rewrite E. apply Z.ltb_lt. nia.
Qed.

(** * The invariant *)
Section Inv.
  Variables (kf : Z -> Z) (f KB PB : Z).

  (** Ordered pages [l], interpolated between neighbours with error at most [e]
      at every added page in between. *)
  Definition seg_ok (e a b : Z) : Prop :=
    forall p, a <= p <= b ->
      (kf p - kf a) * (b - a) <= (p + e - a) * (kf b - kf a) /\
      (p - e - a) * (kf b - kf a) <= (kf p - kf a) * (b - a).

  Fixpoint chain (e : Z) (l : list Z) : Prop :=
    match l with
    | [] => True
    | a :: r => match r with [] => True | b :: _ => a < b /\ seg_ok e a b end /\ chain e r
    end.

  Definition points (s : spline) (ps : list Z) : Prop :=
    s_count s = zlen ps /\
    forall i p, nth_error ps i = Some p -> spl_pt s (Z.of_nat i) = (kf p, p).

  Record SI2 (s : spline) (n : Z) (ps0 : list Z) (K : Z) : Prop := {
    si_pts : points s (ps0 ++ [K; n - 1]);
    si_chain : chain (s_maxErr s) (ps0 ++ [K; n - 1]);
    si_ge : Forall (fun p => f <= p) (ps0 ++ [K; n - 1]);
    si_temp : s_temp s = 1;
    si_lastK : s_lastKey s = kf (n - 1);
    si_lastL : s_lastLoc s = n - 1;
    si_ux : kf K < fst (s_upper s) < KB;
    si_uy : K <= snd (s_upper s) < PB;
    si_up : forall p, K < p < n ->
      (snd (s_upper s) - K) * (kf p - kf K) <= (p + s_maxErr s - K) * (fst (s_upper s) - kf K);
    si_lx : kf K < fst (s_lower s) < KB;
    si_ly : 0 <= snd (s_lower s) < PB;
    si_low : K <= snd (s_lower s) -> forall p, K < p < n ->
      (p - s_maxErr s - K) * (fst (s_lower s) - kf K) <= (snd (s_lower s) - K) * (kf p - kf K)
  }.

  (** The spline after adding pages [f .. n-1] with first keys [kf]. *)
  Record SI (s : spline) (n : Z) : Prop := {
    si_arr : arr_ok s;
    si_size : 4 <= s_size s;
    si_f : 0 <= f <= n;
    si_n : n + s_maxErr s < PB;
    si_PB : PB <= 2 ^ 31;
    si_KB : 0 < KB;
    si_prod : KB * PB <= 2 ^ 63;
    si_err : 0 <= s_maxErr s;
    si_adds : s_adds s = n - f;
    si_cnt : s_count s <= s_size s;
    si_mono : forall p q, f <= p -> p < q -> q < n -> kf p < kf q;
    si_kf : forall p, f <= p < n -> 0 <= kf p < KB;
    si_first : f < n -> s_first s = (kf f, f);
    si_case :
      (n = f /\ s_count s = 0 /\ s_temp s = 0) \/
      (n = f + 1 /\ points s [f] /\ s_temp s = 0 /\ s_lastKey s = kf f) \/
      (f + 2 <= n /\ exists ps0 K, SI2 s n ps0 K)
  }.
End Inv.

Lemma chain_cons2 kf e a b l : chain kf e (a :: b :: l) <-> (a < b /\ seg_ok kf e a b) /\ chain kf e (b :: l).
Proof. reflexivity. Qed.
Lemma chain_one kf e a : chain kf e [a].
Proof. cbn; auto. Qed.
#[local] Arguments chain : simpl never.

Lemma chain_app kf e l a b r : chain kf e (l ++ a :: b :: r) <->
  chain kf e (l ++ [a]) /\ (a < b /\ seg_ok kf e a b) /\ chain kf e (b :: r).
Proof.
  induction l as [|x l IH]; cbn [app].
  - rewrite chain_cons2. pose proof (chain_one kf e a). tauto.
  - pose proof (chain_one kf e a). destruct l as [|y l]; cbn [app] in *; rewrite !chain_cons2; tauto.
Qed.

Lemma chain_tl kf e a l : chain kf e (a :: l) -> chain kf e l.
Proof. destruct l; [intros; exact I|]. rewrite chain_cons2; tauto. Qed.

Lemma chain_skipn kf e m l : chain kf e l -> chain kf e (skipn m l).
Proof.
  revert l; induction m; intros l H; auto. destruct l; auto. cbn. apply IHm. now apply chain_tl in H.
Qed.

Lemma nth_error_snoc {A} (l : list A) x i y : nth_error (l ++ [x]) i = Some y ->
  (i < length l)%nat /\ nth_error l i = Some y \/ i = length l /\ x = y.
Proof.
  intros H. destruct (Nat.lt_ge_cases i (length l)).
  - left. rewrite nth_error_app1 in H by auto. auto.
  - right. rewrite nth_error_app2 in H by auto.
    destruct (i - length l)%nat eqn:E; cbn in H.
    + injection H as ->. split; [lia|auto].
    + destruct n; discriminate.
Qed.

Section Add.
  Variables (kf : Z -> Z) (f KB PB : Z).
  Notation SI := (SI kf f KB PB).
  Notation SI2 := (SI2 kf f KB PB).
  Notation points := (points kf).

  (** Set the point after the last one and count it. *)
  Lemma points_push s ps p : arr_ok s -> points s ps -> zlen ps < s_size s ->
    points (spl_set_count (spl_setpt s (s_count s) (kf p, p)) (s_count s + 1)) (ps ++ [p]).
  Proof.
    intros A [C P] L. split.
    - cbn. rewrite zlen_app. unfold zlen in *. cbn. lia.
    - intros i q H. pose proof (zlen_nonneg ps).
      change (spl_pt (spl_set_count (spl_setpt s (s_count s) (kf p, p)) (s_count s + 1)) (Z.of_nat i))
        with (spl_pt (spl_setpt s (s_count s) (kf p, p)) (Z.of_nat i)).
      apply nth_error_snoc in H as [[H1 H2]|[H1 <-]].
      + unfold zlen in *. rewrite pt_setpt by (auto; lia).
        destruct (Z.eqb_spec (Z.of_nat i) (s_count s)); [lia|]. now apply P.
      + unfold zlen in *. rewrite pt_setpt by (auto; lia).
        destruct (Z.eqb_spec (Z.of_nat i) (s_count s)); [auto|lia].
  Qed.

  Lemma points_ext s s' ps : (forall i, spl_pt s' i = spl_pt s i) -> s_count s' = s_count s ->
    points s ps -> points s' ps.
  Proof. intros E C [H1 H2]. split; [lia|]. intros. rewrite E. auto. Qed.

  Lemma points_pop s ps p : points s (ps ++ [p]) -> points (spl_set_count s (s_count s - 1)) ps.
  Proof.
    intros [C P]. split.
    - cbn. rewrite C, zlen_app. unfold zlen. cbn. lia.
    - intros i q H. apply (P i). rewrite nth_error_app1; auto. apply nth_error_Some; congruence.
  Qed.

  Lemma points_erase s ps n : arr_ok s -> s_count s < 2 ^ 32 -> points s ps ->
    0 < n -> s_count s - n >= 2 -> points (fst (spl_erase s n)) (skipn (Z.to_nat n) ps).
  Proof.
    intros A B [C P] Hn Hc. unfold zlen in C. split.
    - rewrite erase_spec by auto. cbn. unfold zlen. rewrite skipn_length. lia.
    - intros i q H.
      assert (L : (i < length (skipn (Z.to_nat n) ps))%nat) by (apply nth_error_Some; congruence).
      rewrite skipn_length in L.
      destruct (pt_erase s n (Z.of_nat i)) as [_ ->]; auto; try lia.
      replace (Z.of_nat i + n) with (Z.of_nat (Z.to_nat n + i)) by lia. apply P.
      rewrite <- H. clear. revert ps. induction (Z.to_nat n); intros ps; auto.
      destruct ps; cbn; auto. destruct i; auto.
  Qed.

  Definition zmono (n : Z) : Prop := forall p q, f <= p -> p < q -> q < n -> kf p < kf q.

  (** The first add. *)
  Lemma add_first s : SI s f -> f + 1 + s_maxErr s < PB -> 0 <= kf f < KB ->
    SI (spl_add s (kf f) f) (f + 1).
  Proof.
    intros H Hn Hk. destruct H. destruct si_case0 as [(_ & C & T)|[(E & _)|(E & _)]]; try lia.
    unfold spl_add. cbv zeta. rewrite si_adds0. cbn [spl_set_adds s_adds].
    rewrite Z.sub_diag. cbn [u32]. change (u32 (0 + 1)) with 1. cbn [Z.eqb Pos.eqb].
    constructor; cbn; auto; try lia.
    - intros p Hp. replace p with f by lia. auto.
    - right. left. repeat split; auto.
      + cbn. lia.
      + intros i p E. destruct i as [|i]; [|destruct i; discriminate]. injection E as <-.
        set (s1 := spl_set_adds s 1).
        change (spl_pt (spl_setpt s1 0 (kf f, f)) 0 = (kf f, f)).
        rewrite pt_setpt; auto; cbn; lia.
  Qed.

  (** State of splineAdd at line 133, before page [n] is added to a chain ending
      in the knot [K]. *)
  Record RI (s : spline) (n : Z) (ps0 : list Z) (K : Z) : Prop := {
    ri_arr : arr_ok s;
    ri_size : 4 <= s_size s;
    ri_cnt : s_count s < s_size s;
    ri_err : 0 <= s_maxErr s;
    ri_PB : PB <= 2 ^ 31;
    ri_prod : KB * PB <= 2 ^ 63;
    ri_n : n + 1 + s_maxErr s < PB;
    ri_K : f <= K < n;
    ri_f : 0 <= f;
    ri_mono : zmono (n + 1);
    ri_kf : forall p, f <= p <= n -> 0 <= kf p < KB;
    ri_pts : points s (ps0 ++ [K]);
    ri_chain : chain kf (s_maxErr s) (ps0 ++ [K]);
    ri_ge : Forall (fun p => f <= p) (ps0 ++ [K]);
    ri_seg : K < n - 1 -> seg_ok kf (s_maxErr s) K (n - 1);
    ri_lastK : K < n - 1 -> s_lastKey s = kf (n - 1);
    ri_lastL : K < n - 1 -> s_lastLoc s = n - 1;
    ri_ux : kf K < fst (s_upper s) < KB;
    ri_uy : K <= snd (s_upper s) < PB;
    ri_up : forall p, K < p < n ->
      (snd (s_upper s) - K) * (kf p - kf K) <= (p + s_maxErr s - K) * (fst (s_upper s) - kf K);
    ri_lx : kf K < fst (s_lower s) < KB;
    ri_ly : 0 <= snd (s_lower s) < PB;
    ri_low : K <= snd (s_lower s) -> forall p, K < p < n ->
      (p - s_maxErr s - K) * (fst (s_lower s) - kf K) <= (snd (s_lower s) - K) * (kf p - kf K)
  }.

  Lemma points_last s ps p : points s (ps ++ [p]) -> spl_pt s (s_count s - 1) = (kf p, p).
  Proof.
    intros [C P]. rewrite C, zlen_app.
    replace (zlen ps + zlen [p] - 1) with (Z.of_nat (length ps)) by (unfold zlen; cbn; lia).
    apply P. rewrite nth_error_app2, Nat.sub_diag; auto.
  Qed.

  Lemma rest_eq s key page : s_count s < s_size s ->
    spl_rest (s_maxErr s) s key page =
    spl_last (if spl_test s key page then spl_knot (s_maxErr s) s key page
              else spl_narrow (s_maxErr s) (fst (spl_pt s (s_count s - 1)))
                     (snd (spl_pt s (s_count s - 1))) s key page) key page.
  Proof.
    intros. unfold spl_rest. destruct (Z.geb_spec (s_count s) (s_size s)); [lia|]. reflexivity.
  Qed.

  Lemma test_eq s n ps0 K : RI s n ps0 K ->
    spl_test s (kf n) n =
    ((n - K) * (fst (s_upper s) - kf K) >? (snd (s_upper s) - K) * (kf n - kf K))
    || (snd (s_lower s) <? K)
    || ((n - K) * (fst (s_lower s) - kf K) <? (snd (s_lower s) - K) * (kf n - kf K)).
  Proof.
    intros H. destruct H. unfold spl_test. rewrite (points_last _ _ _ ri_pts0). cbn [fst snd].
    pose proof (ri_kf0 K ltac:(lia)). pose proof (ri_kf0 n ltac:(lia)).
    pose proof (ri_mono0 K n ltac:(lia) ltac:(lia) ltac:(lia)).
    destruct (s_upper s) as [ux uy], (s_lower s) as [lx ly]; cbn [fst snd] in *.
    assert (0 < PB <= 2 ^ 31) by lia. assert (KB <= 2 ^ 63) by nia.
    rewrite !u64_id by lia. rewrite !u32_id by lia. rewrite i64_id by lia.
    assert (forall a b, 0 <= a < PB -> 0 <= b < KB -> a * b < 2 ^ 63) by (intros a b ? ?; apply (mul_bound a b PB KB); auto; lia).
    rewrite isLeft_spec; try lia; try (apply Z.lt_trans with (2^63); [apply H4; lia|lia]).
    rewrite <- orb_assoc. f_equal.
    destruct (Z.ltb_spec ly K).
    - cbn [orb]. apply isRight_neg; try lia; try (apply H4; lia).
    - cbn [orb]. apply isRight_spec; try lia; try (apply Z.lt_trans with (2^63); [apply H4; lia|lia]).
  Qed.

  Lemma last_points s ps p : arr_ok s -> points s ps -> zlen ps < s_size s ->
    points (spl_last s (kf p) p) (ps ++ [p]).
  Proof.
    intros A P L.
    apply (points_ext (spl_set_count (spl_setpt s (s_count s) (kf p, p)) (s_count s + 1)));
      [reflexivity|reflexivity|].
    apply points_push; auto.
  Qed.

  Lemma SI_of_SI2 s n ps0 K : SI2 s n ps0 K -> arr_ok s -> 4 <= s_size s -> 0 <= f -> f + 2 <= n ->
    n + s_maxErr s < PB -> PB <= 2 ^ 31 -> KB * PB <= 2 ^ 63 -> 0 <= s_maxErr s ->
    s_adds s = n - f -> s_count s <= s_size s -> zmono n ->
    (forall p, f <= p < n -> 0 <= kf p < KB) -> s_first s = (kf f, f) -> SI s n.
  Proof.
    intros. constructor; auto; try lia.
    - pose proof (H11 f ltac:(lia)). lia.
    - right. right. split; [lia|]. eauto.
  Qed.

  Lemma rest_noknot s n ps0 K : RI s n ps0 K -> spl_test s (kf n) n = false ->
    SI2 (spl_last (spl_narrow (s_maxErr s) (kf K) K s (kf n) n) (kf n) n) (n + 1) ps0 K /\
    let s' := spl_last (spl_narrow (s_maxErr s) (kf K) K s (kf n) n) (kf n) n in
    arr_ok s' /\ s_size s' = s_size s /\ s_maxErr s' = s_maxErr s /\ s_adds s' = s_adds s /\
    s_first s' = s_first s /\ s_count s' <= s_size s'.
  Proof.
    intros H T. rewrite (test_eq _ _ _ _ H) in T. destruct H.
    apply orb_false_iff in T as [T T3]. apply orb_false_iff in T as [T1 T2].
    apply Z.gtb_ltb, Z.ltb_ge in T1 || (rewrite Z.gtb_ltb in T1; apply Z.ltb_ge in T1).
    apply Z.ltb_ge in T2, T3.
    pose proof (ri_kf0 K ltac:(lia)) as Kk. pose proof (ri_kf0 n ltac:(lia)) as Kn.
    pose proof (ri_mono0 K n ltac:(lia) ltac:(lia) ltac:(lia)) as KKn.
    assert (Pos : 0 < PB <= 2 ^ 31) by lia. assert (KB63 : KB <= 2 ^ 63) by nia.
    set (e := s_maxErr s) in *.
    assert (Up : spl_upPage e n = n + e) by (unfold spl_upPage; apply u32_id; lia).
    assert (Low : 0 <= spl_lowPage e n <= n /\ n - e <= spl_lowPage e n)
      by (unfold spl_lowPage; destruct (Z.ltb_spec n e); lia).
    assert (mul : forall a b, 0 <= a < PB -> 0 <= b < KB -> a * b < 2 ^ 64)
      by (intros a b ? ?; apply (mul_bound a b PB KB); auto; lia).
    set (s1 := spl_narrow e (kf K) K s (kf n) n).
    assert (N : (forall i, spl_pt s1 i = spl_pt s i) /\ s_count s1 = s_count s /\ arr_ok s1 /\
                s_size s1 = s_size s /\ s_maxErr s1 = e /\ s_adds s1 = s_adds s /\
                s_first s1 = s_first s).
    { unfold s1, spl_narrow. repeat match goal with |- context [if ?b then _ else _] =>
        destruct b end; repeat split; auto; apply ri_arr0. }
    destruct N as (N1 & N2 & N3 & N4 & N5 & N6 & N7).
    assert (P1 : points s1 (ps0 ++ [K])) by (eapply points_ext; eauto).
    assert (CL : zlen (ps0 ++ [K]) < s_size s1) by (destruct ri_pts0 as [C _]; lia).
    (* limits *)
    assert (U : kf K < fst (s_upper s1) < KB /\ K <= snd (s_upper s1) < PB /\
      forall p, K < p < n + 1 ->
      (snd (s_upper s1) - K) * (kf p - kf K) <= (p + e - K) * (fst (s_upper s1) - kf K)).
    { assert (U1 : s_upper s1 = if spl_isLeft (u64 (fst (s_upper s) - kf K)) (u32 (snd (s_upper s) - K))
                            (u64 (kf n - kf K)) (u32 (n + e - K)) then (kf n, n + e) else s_upper s).
      { unfold s1, spl_narrow. rewrite Up.
        repeat match goal with |- context [if ?b then _ else _] => destruct b end; reflexivity. }
      rewrite U1. clear U1.
      destruct (s_upper s) as [ux uy]; cbn [fst snd] in *.
      rewrite !u64_id by lia. rewrite !u32_id by lia.
      rewrite isLeft_spec; try lia; try (apply mul; lia).
      destruct (Z.gtb_spec ((uy - K) * (kf n - kf K)) ((n + e - K) * (ux - kf K))).
      - split; [cbn; lia|]. split; [cbn; lia|]. cbn [fst snd]. intros p Hp.
        destruct (Z.eq_dec p n) as [->|]; [lia|].
        pose proof (ri_mono0 K p ltac:(lia) ltac:(lia) ltac:(lia)).
        apply slope_trans with (c := uy - K) (d := ux - kf K); try lia; apply ri_up0; lia.
      - split; [cbn; lia|]. split; [cbn; lia|]. cbn [fst snd]. intros p Hp.
        destruct (Z.eq_dec p n) as [->|]; [lia|]. apply ri_up0; lia. }
    assert (L : kf K < fst (s_lower s1) < KB /\ 0 <= snd (s_lower s1) < PB /\
      (K <= snd (s_lower s1) -> forall p, K < p < n + 1 ->
      (p - e - K) * (fst (s_lower s1) - kf K) <= (snd (s_lower s1) - K) * (kf p - kf K))).
    { assert (L1 : s_lower s1 = if spl_isRight (u64 (fst (s_lower s) - kf K)) (i64 (snd (s_lower s) - K))
                            (u64 (kf n - kf K)) (u32 (spl_lowPage e n - K))
                            then (kf n, spl_lowPage e n) else s_lower s).
      { unfold s1, spl_narrow.
        repeat match goal with |- context [if ?b then _ else _] => destruct b end; reflexivity. }
      rewrite L1. clear L1.
      destruct (s_lower s) as [lx ly]; cbn [fst snd] in *.
      rewrite !u64_id by lia. rewrite i64_id by lia.
      set (lp := spl_lowPage e n) in *.
      destruct (Z.le_gt_cases K lp) as [Hlp|Hlp].
      - rewrite u32_id by lia. rewrite isRight_spec; try lia; try (apply mul; lia).
        destruct (Z.ltb_spec ((ly - K) * (kf n - kf K)) ((lp - K) * (lx - kf K))).
        + split; [cbn; lia|]. split; [cbn; lia|]. cbn [fst snd]. intros _ p Hp.
          destruct (Z.eq_dec p n) as [->|]; [apply mul_le_l; lia|].
          pose proof (ri_mono0 K p ltac:(lia) ltac:(lia) ltac:(lia)).
          apply slope_trans with (c := ly - K) (d := lx - kf K); try lia; apply ri_low0; lia.
        + split; [cbn; lia|]. split; [cbn; lia|]. cbn [fst snd]. intros _ p Hp.
          destruct (Z.eq_dec p n) as [->|];
            [apply mul_le_tr with (lp - K); lia|]. apply ri_low0; lia.
      - match goal with |- context [if ?b then _ else _] => destruct b end.
        + split; [cbn; lia|]. split; [cbn; lia|]. cbn [fst snd]. intros; lia.
        + split; [cbn; lia|]. split; [cbn; lia|]. cbn [fst snd]. intros _ p Hp.
          destruct (Z.eq_dec p n) as [->|]; [apply mul_neg_pos; lia|]. apply ri_low0; lia. }
    destruct U as (U1 & U2 & U3). destruct L as (L1 & L2 & L3).
    split.
    - constructor; cbn [spl_last spl_set_temp spl_set_count spl_setpt spl_set_last s_maxErr s_temp
        s_lastKey s_lastLoc s_upper s_lower]; rewrite ?N5; replace (n + 1 - 1) with n by lia; auto.
      + replace (ps0 ++ [K; n]) with ((ps0 ++ [K]) ++ [n]) by (rewrite <- app_assoc; auto).
        apply last_points; auto.
      + apply chain_app. split; auto. split; [|apply chain_one]. split; [lia|].
        intros p Hp. destruct (Z.eq_dec p K) as [->|].
        { rewrite !Z.sub_diag, Z.mul_0_l. split; [apply Z.mul_nonneg_nonneg; lia|].
          replace (K - e - K) with (- e) by lia. clear - KKn ri_err0. nia. }
        destruct (Z.eq_dec p n) as [->|].
        { rewrite (Z.mul_comm (kf n - kf K)). split; apply mul_le_l; lia. }
        pose proof (ri_mono0 K p ltac:(lia) ltac:(lia) ltac:(lia)). split.
        * rewrite (Z.mul_comm (kf p - kf K)).
          apply slope_trans with (c := snd (s_upper s) - K) (d := fst (s_upper s) - kf K); try lia; apply ri_up0; lia.
        * rewrite (Z.mul_comm (kf p - kf K)).
          apply slope_trans with (c := snd (s_lower s) - K) (d := fst (s_lower s) - kf K); try lia; apply ri_low0; lia.
      + apply Forall_app in ri_ge0 as [F1 F2]. apply Forall_app. split; auto.
        constructor; [lia|]. constructor; [lia|constructor].
    - cbv zeta. cbn [spl_last spl_set_temp spl_set_count spl_setpt spl_set_last s_maxErr s_size
        s_adds s_first s_count]. repeat split; auto; try lia; try apply N3.
  Qed.

  Lemma rest_knot s n ps0 K : RI s n ps0 K -> K < n - 1 ->
    let s' := spl_last (spl_knot (s_maxErr s) s (kf n) n) (kf n) n in
    (exists ps0', SI2 s' (n + 1) ps0' (n - 1)) /\
    arr_ok s' /\ s_size s' = s_size s /\ s_maxErr s' = s_maxErr s /\ s_adds s' = s_adds s /\
    s_first s' = s_first s /\ s_count s' <= s_size s'.
  Proof.
    intros H HK. destruct H. specialize (ri_seg0 HK). specialize (ri_lastK0 HK). specialize (ri_lastL0 HK).
    pose proof (ri_kf0 (n-1) ltac:(lia)) as Kk. pose proof (ri_kf0 n ltac:(lia)) as Kn.
    pose proof (ri_mono0 (n-1) n ltac:(lia) ltac:(lia) ltac:(lia)) as KKn.
    set (e := s_maxErr s) in *.
    assert (Up : spl_upPage e n = n + e) by (unfold spl_upPage; apply u32_id; lia).
    assert (Low : 0 <= spl_lowPage e n <= n /\ n - e <= spl_lowPage e n)
      by (unfold spl_lowPage; destruct (Z.ltb_spec n e); lia).
    set (s1 := spl_set_limits (spl_set_temp (spl_set_count (spl_setpt s (s_count s) (kf (n-1), n-1))
                 (s_count s + 1)) 0) (kf n, n + e) (kf n, spl_lowPage e n)).
    assert (Sk : spl_knot e s (kf n) n = if s_count s + 1 >=? s_size s then fst (spl_erase s1 1) else s1).
    { unfold spl_knot. rewrite ri_lastK0, ri_lastL0, Up. reflexivity. }
    rewrite Sk.
    assert (P1 : points s1 ((ps0 ++ [K]) ++ [n - 1])).
    { apply (points_ext (spl_set_count (spl_setpt s (s_count s) (kf (n-1), n-1)) (s_count s + 1)));
        [reflexivity|reflexivity|]. apply points_push; auto. destruct ri_pts0; lia. }
    assert (A1 : arr_ok s1) by apply ri_arr0.
    destruct ri_pts0 as [C0 _]. pose proof ri_arr0 as [AA1 AA2].
    assert (Ch : chain kf e ((ps0 ++ [K]) ++ [n - 1])).
    { rewrite <- app_assoc. cbn [app]. apply chain_app. split; auto. split; [|apply chain_one]. split; [lia|auto]. }
    assert (Ge : Forall (fun p => f <= p) ((ps0 ++ [K]) ++ [n - 1])).
    { apply Forall_app; split; auto. constructor; [lia|constructor]. }
    assert (G : forall s2 ps2, points s2 (ps2 ++ [n - 1]) -> arr_ok s2 -> s_size s2 = s_size s ->
       s_maxErr s2 = e -> s_adds s2 = s_adds s -> s_first s2 = s_first s -> s_count s2 < s_size s2 ->
       s_upper s2 = (kf n, n + e) -> s_lower s2 = (kf n, spl_lowPage e n) ->
       chain kf e (ps2 ++ [n - 1]) -> Forall (fun p => f <= p) (ps2 ++ [n - 1]) ->
       let s' := spl_last s2 (kf n) n in
       (exists ps0', SI2 s' (n + 1) ps0' (n - 1)) /\
       arr_ok s' /\ s_size s' = s_size s /\ s_maxErr s' = e /\ s_adds s' = s_adds s /\
       s_first s' = s_first s /\ s_count s' <= s_size s').
    { clear Sk. intros s2 ps2 P2 A2 S2 M2 D2 F2 C2 U2 L2 Ch2 Ge2. cbv zeta. split.
      - exists ps2. constructor; cbn [spl_last spl_set_temp spl_set_count spl_setpt spl_set_last s_maxErr s_temp
        s_lastKey s_lastLoc s_upper s_lower]; rewrite ?M2, ?U2, ?L2; replace (n + 1 - 1) with n by lia;
          cbn [fst snd]; auto; try lia.
        + replace (ps2 ++ [n - 1; n]) with ((ps2 ++ [n - 1]) ++ [n]) by (rewrite <- app_assoc; auto).
          apply last_points; auto. destruct P2; lia.
        + apply chain_app. split; auto. split; [|apply chain_one]. split; [lia|].
          intros p Hp. assert (p = n - 1 \/ p = n) as [-> | ->] by lia.
          * rewrite !Z.sub_diag, Z.mul_0_l. split; [apply Z.mul_nonneg_nonneg; lia|].
            clear - KKn ri_err0. nia.
          * rewrite (Z.mul_comm (kf n - kf (n - 1))). split; apply mul_le_l; lia.
        + apply Forall_app in Ge2 as [F3 F4]. apply Forall_app. split; auto.
          constructor; [lia|]. constructor; [lia|constructor].
        + intros p Hp. replace p with n by lia. lia.
        + intros Q p Hp. replace p with n by lia. apply mul_le_l; lia.
      - cbn [spl_last spl_set_temp spl_set_count spl_setpt spl_set_last s_maxErr s_size
        s_adds s_first s_count]. repeat split; auto; try lia; try apply A2. }
    destruct (Z.geb_spec (s_count s + 1) (s_size s)).
    - assert (Cs1 : s_count s1 = s_count s + 1) by reflexivity.
      assert (Sz1 : s_size s1 = s_size s) by reflexivity.
      assert (PE : points (fst (spl_erase s1 1)) (skipn 1 ((ps0 ++ [K]) ++ [n - 1]))).
      { apply points_erase; auto; lia. }
      assert (AE : arr_ok (fst (spl_erase s1 1))) by (apply (pt_erase s1 1 0); auto; lia).
      assert (Sp : spl_erase s1 1 = (mkSpl (s_count s1 - 1) (s_size s1) ((s_start s1 + 1) mod s_size s1) (s_pts s1)
         (s_upper s1) (s_lower s1) (s_first s1) (s_lastLoc s1) (s_lastKey s1)
         (s_maxErr s1) (s_adds s1) (s_temp s1), 0)) by (apply erase_spec; auto; lia).
      assert (exists x l, ps0 ++ [K] = x :: l) as (x & l & Exl) by (destruct ps0; cbn; eauto).
      rewrite Exl in *. cbn [app skipn] in *.
      apply G with (ps2 := l); auto; try (rewrite Sp; auto; fail).
      + rewrite Sp. cbn [fst s_count s_size]. lia.
      + now apply chain_tl in Ch.
      + now inversion Ge.
    - apply G with (ps2 := ps0 ++ [K]); auto.
  Qed.

  (** splineAdd keeps the invariant. *)
  Theorem add_SI s n : SI s n -> n + 1 + s_maxErr s < PB -> 0 <= kf n < KB ->
    (f < n -> kf (n - 1) < kf n) -> (n = f + 1 -> s_maxErr s <= 1 \/ f = 0) ->
    SI (spl_add s (kf n) n) (n + 1) /\ s_maxErr (spl_add s (kf n) n) = s_maxErr s /\
    s_size (spl_add s (kf n) n) = s_size s.
  Proof.
    intros H Hn Hk Hlt H2. pose proof H as H'. destruct H'.
    assert (Mono : zmono (n + 1)).
    { intros p q ? ? ?. destruct (Z.eq_dec q n) as [->|]; [|apply si_mono0; lia].
      destruct (Z.eq_dec p (n - 1)) as [->|]; [apply Hlt; lia|].
      transitivity (kf (n - 1)); [apply si_mono0; lia|apply Hlt; lia]. }
    assert (Kf : forall p, f <= p <= n -> 0 <= kf p < KB).
    { intros p ?. destruct (Z.eq_dec p n) as [->|]; auto. apply si_kf0; lia. }
    destruct si_case0 as [(E & C & T)|[(E & P & T & L)|(E & ps0 & K & X)]].
    - subst n. split; [now apply add_first|].
      unfold spl_add. cbv zeta. rewrite si_adds0. cbn [spl_set_adds s_adds].
      rewrite Z.sub_diag. change (u32 (0 + 1)) with 1. split; reflexivity.
    - set (s1 := spl_set_last (spl_set_limits (spl_set_adds s 2) (kf n, spl_upPage (s_maxErr s) n)
                       (kf n, spl_lowPage (s_maxErr s) n)) (kf n) n).
      assert (Eq : spl_add s (kf n) n = spl_rest (s_maxErr s1) s1 (kf n) n).
      { unfold spl_add. cbv zeta. replace (s_adds s) with 1 by lia. change (u32 (1 + 1)) with 2.
        change (s_adds (spl_set_adds s 2)) with 2. change (2 =? 1) with false. change (2 =? 2) with true.
        cbv iota. fold s1. change (s_adds s1) with 2. change (2 =? 2) with true.
        rewrite andb_false_r. change (s_temp s1) with (s_temp s). rewrite T. reflexivity. }
      assert (C1 : s_count s = 1) by (destruct P as [P _]; unfold zlen in P; cbn in P; lia).
      assert (Up : spl_upPage (s_maxErr s) n = n + s_maxErr s) by (unfold spl_upPage; apply u32_id; lia).
      assert (Low : 0 <= spl_lowPage (s_maxErr s) n <= n /\ n - s_maxErr s <= spl_lowPage (s_maxErr s) n)
        by (unfold spl_lowPage; destruct (Z.ltb_spec n (s_maxErr s)); lia).
      assert (Low2 : f <= spl_lowPage (s_maxErr s) n)
        by (unfold spl_lowPage; destruct (Z.ltb_spec n (s_maxErr s)); lia).
      assert (Kff : kf f < kf n) by (apply Mono; lia).
      assert (R : RI s1 n [] f).
      { constructor; cbn [s1 spl_set_last spl_set_limits spl_set_adds s_maxErr s_size s_count s_upper s_lower s_lastKey s_lastLoc
          app fst snd]; rewrite ?Up; auto; try lia.
        - apply chain_one.
        - constructor; [lia|constructor]. }
      assert (Tf : spl_test s1 (kf n) n = false).
      { rewrite (test_eq _ _ _ _ R). cbn [s1 spl_set_last spl_set_limits spl_set_adds s_maxErr s_upper s_lower fst snd].
        rewrite Up. apply orb_false_iff; split; [apply orb_false_iff; split|].
        - rewrite Z.gtb_ltb. apply Z.ltb_ge. apply mul_le_l; lia.
        - apply Z.ltb_ge; lia.
        - apply Z.ltb_ge; apply mul_le_l; lia. }
      rewrite Eq, rest_eq, Tf by (apply R).
      rewrite (points_last s1 [] f) by (apply R). cbn [fst snd].
      destruct (rest_noknot _ _ _ _ R Tf) as (X & A & S' & M & D & F & Cc).
      change (s_maxErr s1) with (s_maxErr s) in *. change (s_size s1) with (s_size s) in *.
      change (s_adds s1) with 2 in *. change (s_first s1) with (s_first s) in *.
      split; [|auto]. eapply SI_of_SI2; eauto; try lia; try (rewrite F; apply si_first0; lia);
          intros; apply Kf; lia.
    - destruct X.
      assert (Cnt : s_count s = zlen (ps0 ++ [K; n - 1])) by apply si_pts0.
      set (s1 := spl_set_count (spl_set_adds s (s_adds s + 1)) (s_count s - 1)).
      assert (Eq : spl_add s (kf n) n = spl_rest (s_maxErr s1) s1 (kf n) n).
      { unfold spl_add. cbv zeta. rewrite u32_id by lia.
        change (s_adds (spl_set_adds s (s_adds s + 1))) with (s_adds s + 1).
        destruct (Z.eqb_spec (s_adds s + 1) 1); [lia|].
        destruct (Z.eqb_spec (s_adds s + 1) 2); [lia|].
        change (s_lastKey (spl_set_adds s (s_adds s + 1))) with (s_lastKey s).
        destruct (Z.leb_spec (kf n) (s_lastKey s)); [rewrite si_lastK0 in *; specialize (Hlt ltac:(lia)); lia|].
        cbn [andb]. change (s_temp (spl_set_adds s (s_adds s + 1))) with (s_temp s). rewrite si_temp0. reflexivity. }
      assert (E1 : ps0 ++ [K; n - 1] = (ps0 ++ [K]) ++ [n - 1]) by (rewrite <- app_assoc; auto).
      apply chain_app in si_chain0 as (Ch1 & (Ch2 & Ch3) & _).
      rewrite E1 in *. apply Forall_app in si_ge0 as [G1 G2].
      assert (GK : f <= K) by (apply Forall_app in G1 as [_ G1]; now inversion G1).
      assert (R : RI s1 n ps0 K).
      { constructor; cbn [s1 spl_set_count spl_set_adds s_maxErr s_size s_count s_upper s_lower s_lastKey s_lastLoc
          app fst snd]; auto; try lia.
        unfold s1. apply (points_ext (spl_set_count s (s_count s - 1))); [reflexivity|reflexivity|].
          eapply points_pop; eauto. }
      rewrite Eq, rest_eq by (apply R).
      rewrite (points_last s1 ps0 K) by (apply R). cbn [fst snd].
      destruct (spl_test s1 (kf n) n) eqn:Tf.
      + destruct (rest_knot _ _ _ _ R Ch2) as ((ps0' & X) & A & S' & M & D & F & Cc).
        change (s_maxErr s1) with (s_maxErr s) in *. change (s_size s1) with (s_size s) in *.
        change (s_adds s1) with (s_adds s + 1) in *. change (s_first s1) with (s_first s) in *.
        split; [|auto]. eapply SI_of_SI2; eauto; try lia; try (rewrite F; apply si_first0; lia);
          intros; apply Kf; lia.
      + destruct (rest_noknot _ _ _ _ R Tf) as (X & A & S' & M & D & F & Cc).
        change (s_maxErr s1) with (s_maxErr s) in *. change (s_size s1) with (s_size s) in *.
        change (s_adds s1) with (s_adds s + 1) in *. change (s_first s1) with (s_first s) in *.
        split; [|auto]. eapply SI_of_SI2; eauto; try lia; try (rewrite F; apply si_first0; lia);
          intros; apply Kf; lia.
  Qed.
End Add.

(** * Search *)

Lemma nth_z {A} (l : list A) i : 0 <= i < zlen l -> exists x, nth_error l (Z.to_nat i) = Some x.
Proof.
  intros H. destruct (nth_error l (Z.to_nat i)) eqn:E; eauto. apply nth_error_None in E. unfold zlen in H. lia.
Qed.

Section Find.
  Variables (kf : Z -> Z) (f KB PB : Z) (cmp : Z -> Z -> Z).
  Hypothesis CMP : cmp_ok cmp KB.
  Notation SI := (SI kf f KB PB).
  Notation points := (points kf).

  Lemma cmp_ltb a b : 0 <= a < KB -> 0 <= b < KB -> (cmp a b <? 0) = (a <? b).
  Proof. intros A B. destruct (CMP a b A B). destruct (Z.ltb_spec (cmp a b) 0), (Z.ltb_spec a b); lia. Qed.
  Lemma cmp_gtb a b : 0 <= a < KB -> 0 <= b < KB -> (cmp a b >? 0) = (a >? b).
  Proof. intros A B. destruct (CMP a b A B). destruct (Z.gtb_spec (cmp a b) 0), (Z.gtb_spec a b); lia. Qed.
  Lemma cmp_geb a b : 0 <= a < KB -> 0 <= b < KB -> (cmp a b >=? 0) = (a >=? b).
  Proof. intros A B. destruct (CMP a b A B). destruct (Z.geb_spec (cmp a b) 0), (Z.geb_spec a b); lia. Qed.
  Lemma cmp_leb a b : 0 <= a < KB -> 0 <= b < KB -> (cmp a b <=? 0) = (a <=? b).
  Proof. intros A B. destruct (CMP a b A B). destruct (Z.leb_spec (cmp a b) 0), (Z.leb_spec a b); lia. Qed.

  Lemma bsearch_spec s q : 0 <= q < KB -> 2 <= s_count s ->
    (forall i, 0 <= i < s_count s -> 0 <= fst (spl_pt s i) < KB) ->
    (forall i j, 0 <= i -> i < j -> j < s_count s -> fst (spl_pt s i) < fst (spl_pt s j)) ->
    fst (spl_pt s 0) <= q ->
    forall fuel low high, 0 <= low <= high -> 1 <= high < s_count s ->
      (Z.to_nat (high - low) < fuel)%nat ->
      (low = 0 \/ fst (spl_pt s (low - 1)) < q) -> q <= fst (spl_pt s high) ->
      exists idx, spl_bsearch cmp s fuel low high q = Ok idx /\ 1 <= idx < s_count s /\
        fst (spl_pt s (idx - 1)) <= q <= fst (spl_pt s idx).
  Proof.
    intros Q C R M P0. induction fuel as [|fuel IH]; intros low high HL HH F I1 I2; [lia|].
    cbn [spl_bsearch]. set (mid := low + Z.quot (high - low) 2).
    assert (Hm : low <= mid <= high) by (unfold mid; pose proof (Z.quot_div_nonneg (high - low) 2); lia).
    assert (Hm0 : mid = 0 -> high = 1) by (unfold mid; pose proof (Z.quot_div_nonneg (high - low) 2); lia).
    clearbody mid.
    destruct (Z.geb_spec high low); [|lia].
    destruct (Z.eqb_spec mid 0).
    { specialize (Hm0 e). subst high. exists 1. split; [auto|]. split; [lia|].
      change (1 - 1) with 0. lia. }
    pose proof (R mid ltac:(lia)). pose proof (R (mid - 1) ltac:(lia)).
    pose proof (M (mid - 1) mid ltac:(lia) ltac:(lia) ltac:(lia)).
    cbv zeta. rewrite cmp_geb, cmp_leb, cmp_gtb by auto.
    destruct (Z.geb_spec (fst (spl_pt s mid)) q), (Z.leb_spec (fst (spl_pt s (mid - 1))) q); cbn [andb].
    - exists mid. split; auto. lia.
    - destruct (Z.gtb_spec (fst (spl_pt s mid)) q); [|lia].
      assert (mid - 1 <> 0) by (intros Z; rewrite Z in *; lia).
      assert (low <> mid) by (intros ->; destruct I1; lia).
      apply IH; try lia.
    - destruct (Z.gtb_spec (fst (spl_pt s mid)) q); [lia|].
      assert (mid <> high) by (intros ->; lia).
      apply IH; try lia. right. replace (mid + 1 - 1) with mid by lia. lia.
    - lia.
  Qed.

  (** The knots. *)
  Lemma chain_nth e l i a b : chain kf e l -> nth_error l i = Some a -> nth_error l (S i) = Some b ->
    a < b /\ seg_ok kf e a b.
  Proof.
    revert i; induction l as [|x l IH]; intros i Ch A B; [destruct i; discriminate|].
    destruct i as [|i]; cbn in A, B.
    - injection A as ->. destruct l as [|y l]; [discriminate|]. cbn in B. injection B as ->.
      rewrite chain_cons2 in Ch. tauto.
    - apply chain_tl in Ch. eauto.
  Qed.
  Lemma chain_lt e l i j a b : chain kf e l -> (i < j)%nat ->
    nth_error l i = Some a -> nth_error l j = Some b -> a < b.
  Proof.
    intros Ch. revert b. induction j as [|j IH]; intros b L A B; [lia|].
    destruct (nth_error l j) as [m|] eqn:E.
    - destruct (chain_nth _ _ _ _ _ Ch E B) as [X _].
      destruct (Nat.eq_dec i j); [subst; congruence|]. specialize (IH m ltac:(lia) A eq_refl). lia.
    - apply nth_error_None in E. assert (S j < length l)%nat by (apply nth_error_Some; congruence). lia.
  Qed.

  (** What the search relies on, for any state reached by adds and erases. *)
  Lemma SI_knots s n : SI s n -> f < n ->
    exists ps, points s ps /\ chain kf (s_maxErr s) ps /\ (forall p, In p ps -> f <= p < n) /\
      1 <= zlen ps /\ s_count s = zlen ps /\ (n = f + 1 /\ ps = [f] \/ 2 <= zlen ps) /\
      spl_pt s (s_count s - 1) = (kf (n - 1), n - 1).
  Proof.
    intros H Hn. destruct H. destruct si_case0 as [(E & C & T)|[(E & P & T & L)|(E & ps0 & K & X)]]; [lia| |].
    - exists [f]. split; [auto|]. split; [apply chain_one|].
      split; [intros p [<-|[]]; lia|]. split; [unfold zlen; cbn; lia|].
      split; [apply P|]. split; [auto|].
      rewrite (points_last kf s [] f P). do 2 f_equal; lia.
    - destruct X. exists (ps0 ++ [K; n - 1]).
      assert (Z2 : 2 <= zlen (ps0 ++ [K; n - 1])) by (rewrite zlen_app; pose proof (zlen_nonneg ps0); unfold zlen in *; cbn; lia).
      split; auto. split; auto. split.
      + intros p Hp. split. { rewrite Forall_forall in si_ge0. auto. }
        apply In_nth_error in Hp as [i Hi].
        assert (i < length (ps0 ++ [K; (n - 1)%Z]))%nat by (apply nth_error_Some; congruence).
        rewrite app_length in H; cbn in H.
        destruct (Nat.eq_dec i (length ps0 + 1)).
        * subst i. rewrite nth_error_app2 in Hi by lia. replace (length ps0 + 1 - length ps0)%nat with 1%nat in Hi by lia.
          cbn in Hi. injection Hi as <-. lia.
        * assert (p < n - 1); [|lia]. eapply (chain_lt _ _ i (length ps0 + 1)); eauto; [lia|].
          rewrite nth_error_app2 by lia. replace (length ps0 + 1 - length ps0)%nat with 1%nat by lia. auto.
      + split; [lia|]. split; [apply si_pts0|]. split; [auto|].
        apply (points_last kf s (ps0 ++ [K])). rewrite <- app_assoc. auto.
  Qed.

  (** splineFind: the range returned contains the page of the key. *)
  Theorem find_SI s n q : SI s n -> f < n -> 0 <= q < KB ->
    exists loc low high, spl_find cmp s q = Ok (loc, low, high) /\
      0 <= low <= loc /\ loc <= high <= n - 1 /\
      forall p, f <= p < n -> kf p <= q -> (p < n - 1 -> q < kf (p + 1)) -> low <= p <= high.
  Proof.
    intros H Hn Q. destruct (SI_knots s n H Hn) as (ps & P & Ch & In' & L1 & Cnt & L2 & Last).
    destruct H. set (e := s_maxErr s) in *.
    assert (PT : forall i, 0 <= i < s_count s -> exists p, spl_pt s i = (kf p, p) /\
              nth_error ps (Z.to_nat i) = Some p /\ f <= p < n).
    { intros i Hi. destruct (nth_z ps i) as [p Hp]; [lia|]. exists p. destruct P as [_ P].
      apply P in Hp as E. rewrite Z2Nat.id in E by lia. split; auto. split; auto. apply In'.
      eapply nth_error_In; eauto. }
    destruct (PT 0 ltac:(lia)) as (p0 & E0 & N0 & R0).
    unfold spl_find. rewrite E0, Last. cbn [fst snd].
    rewrite cmp_ltb by (auto; apply si_kf0; lia).
    destruct (Z.ltb_spec q (kf p0)) as [Hq|Hq]; cbn [orb].
    { rewrite si_first0 by lia. cbn [snd]. rewrite u32_id by lia. eexists _, _, _. split; auto.
      split; [lia|]. split; [lia|]. intros p Hp1 Hp2 _. split; [lia|].
      destruct (Z.le_gt_cases p p0); auto. pose proof (si_mono0 p0 p ltac:(lia) ltac:(lia) ltac:(lia)). lia. }
    destruct (Z.leb_spec (s_count s) 1) as [Hc|Hc].
    { destruct L2 as [[E ->]|]; [|lia]. rewrite si_first0 by lia. cbn in N0. injection N0 as <-.
      cbn [snd]. rewrite u32_id by lia. eexists _, _, _. split; auto. split; [lia|]. split; [lia|].
      intros; lia. }
    rewrite cmp_gtb by (auto; apply si_kf0; lia).
    destruct (Z.gtb_spec q (kf (n - 1))) as [Hg|Hg].
    { eexists _, _, _. split; auto. split; [lia|]. split; [lia|]. intros p Hp1 Hp2 Hp3.
      destruct (Z.eq_dec p (n - 1)); [lia|]. exfalso. specialize (Hp3 ltac:(lia)).
      destruct (Z.eq_dec (p + 1) (n - 1)) as [X|X]; [rewrite X in *; lia|].
      pose proof (si_mono0 (p + 1) (n - 1) ltac:(lia) ltac:(lia) ltac:(lia)). lia. }
    destruct (bsearch_spec s q Q ltac:(lia)) with (fuel := Z.to_nat (s_count s + 2)) (low := 0) (high := s_count s - 1)
      as (idx & Eb & Hi & Hk); try lia.
    { intros i Hi. destruct (PT i Hi) as (p & -> & _ & ?). apply si_kf0. lia. }
    { intros i j Hi Hij Hj. destruct (PT i ltac:(lia)) as (p & -> & Np & ?).
      destruct (PT j ltac:(lia)) as (p' & -> & Np' & ?). cbn. apply si_mono0; try lia.
      eapply (chain_lt _ _ (Z.to_nat i) (Z.to_nat j)); eauto. lia. }
    { rewrite E0; cbn; lia. }
    { rewrite Last; cbn; lia. }
    rewrite Eb. cbn [bind].
    destruct (PT (idx - 1) ltac:(lia)) as (a & Ea & Na & Ra).
    destruct (PT idx ltac:(lia)) as (b & Eb' & Nb & Rb).
    rewrite Ea, Eb' in *. cbn [fst snd] in *.
    destruct (chain_nth e ps (Z.to_nat (idx - 1)) a b Ch) as [Lab Seg]; auto.
    { replace (S (Z.to_nat (idx - 1))) with (Z.to_nat idx) by lia. auto. }
    pose proof (si_kf0 a ltac:(lia)) as Ka. pose proof (si_kf0 b ltac:(lia)) as Kb.
    pose proof (si_mono0 a b ltac:(lia) ltac:(lia) ltac:(lia)) as Kab.
    assert (KB63 : KB <= 2 ^ 63) by (clear - si_prod0 si_n0 si_err0 si_f0 si_KB0; nia).
    rewrite (u64_id (q - kf a)) by lia. rewrite (u32_id (b - a)) by lia. rewrite (u64_id (kf b - kf a)) by lia.
    assert (Nn : 0 <= (q - kf a) * (b - a) < 2 ^ 63).
    { split; [apply Z.mul_nonneg_nonneg; lia|]. rewrite Z.mul_comm. eapply mul_bound; eauto; lia. }
    rewrite u64_id by lia.
    set (num := (q - kf a) * (b - a)) in *. set (den := kf b - kf a) in *.
    assert (Dp : 0 < den) by (unfold den; lia).
    assert (Qr : 0 <= num / den <= b - a).
    { split; [apply Z.div_pos; lia|]. apply Z.div_le_upper_bound; auto.
      unfold num. rewrite (Z.mul_comm den). rewrite (Z.mul_comm _ (b - a)).
      apply Z.mul_le_mono_nonneg_l; unfold den; lia. }
    destruct (Z.eqb_spec den 0); [lia|].
    destruct (Z.geb_spec (num / den) (2 ^ 32)); [lia|].
    fold e. rewrite (u32_id (num / den + a)) by lia. rewrite (u32_id (num / den + a + e)) by lia.
    set (qt := num / den) in *.
    eexists _, _, _. split; [reflexivity|].
    split. { destruct (Z.gtb_spec e (qt + a)); lia. }
    split. { destruct (Z.gtb_spec (qt + a + e) (n - 1)); lia. }
    intros p Hp1 Hp2 Hp3.
    assert (a <= p).
    { destruct (Z.le_gt_cases a p); auto. exfalso. specialize (Hp3 ltac:(lia)).
      destruct (Z.eq_dec (p + 1) a) as [X|X]; [rewrite X in *; lia|].
      pose proof (si_mono0 (p + 1) a ltac:(lia) ltac:(lia) ltac:(lia)). lia. }
    assert (p <= b).
    { destruct (Z.le_gt_cases p b); auto. exfalso. pose proof (si_mono0 b p ltac:(lia) ltac:(lia) ltac:(lia)). lia. }
    assert (Hhi : p - e - a <= qt).
    { destruct (Seg p ltac:(lia)) as [_ S2]. apply Z.div_le_lower_bound; auto.
      unfold num, den. etransitivity; [|apply mul_le_l; [|lia]; apply Z.sub_le_mono_r, Hp2]. lia. }
    assert (Hlo : qt <= p + e - a).
    { destruct (Z.eq_dec p b) as [->|]; [lia|].
      destruct (Seg (p + 1) ltac:(lia)) as [S1 _]. fold den in S1.
      assert (q < kf (p + 1)) by (apply Hp3; lia).
      assert (num < (p + 1 + e - a) * den).
      { unfold num. eapply Z.lt_le_trans; [|apply S1]. apply Z.mul_lt_mono_pos_r; lia. }
      assert (qt < p + 1 + e - a); [|lia]. apply Z.div_lt_upper_bound; lia. }
    split.
    - destruct (Z.gtb_spec e (qt + a)); lia.
    - destruct (Z.gtb_spec (qt + a + e) (n - 1)); lia.
  Qed.
End Find.

(** * Cleaning *)
Section Clean.
  Variables (kf : Z -> Z) (f KB PB : Z).
  Notation SI := (SI kf f KB PB).

  Lemma clean_count_spec sp m fuel : forall i,
    0 <= clean_count sp m i fuel <= Z.of_nat fuel /\
    (forall j, i < j <= i + Z.of_nat fuel -> m <= snd (spl_pt sp j) -> i + clean_count sp m i fuel < j).
  Proof.
    induction fuel as [|fuel IH]; intros i; cbn [clean_count].
    - split; [lia|]. intros; lia.
    - destruct (Z.ltb_spec (snd (spl_pt sp (i + 1))) m).
      + destruct (IH (i + 1)) as [A B]. split; [lia|]. intros j Hj Hm.
        destruct (Z.eq_dec j (i + 1)) as [->|]; [lia|]. specialize (B j ltac:(lia) Hm). lia.
      + split; [lia|]. intros; lia.
  Qed.

  Theorem clean_SI s n m : SI s n -> m <= n - 1 \/ n = f ->
    SI (cleanSpline s m) n /\ s_maxErr (cleanSpline s m) = s_maxErr s /\
    s_size (cleanSpline s m) = s_size s.
  Proof.
    intros H Hm. unfold cleanSpline.
    destruct (clean_count_spec s m (Z.to_nat (s_count s)) 0) as [A B].
    set (c := clean_count s m 0 (Z.to_nat (s_count s))) in *.
    pose proof H as H'. destruct H'. destruct si_case0 as [(E & C & T)|[(E & P & T & L)|(E & ps0 & K & X)]].
    - assert (c = 0) as -> by lia. rewrite C. change (u64 (0 - 0)) with 0. cbn [Z.ltb Z.compare].
      change (u32 (0 - (2 - 0))) with (2 ^ 32 - 2). change (2 ^ 32 - 2 <=? 0) with false. cbv iota.
      unfold spl_erase. rewrite C. cbn. auto.
    - assert (C1 : s_count s = 1) by (destruct P as [P _]; unfold zlen in P; cbn in P; lia).
      assert (c = 0 \/ c = 1) as [-> | ->] by lia; rewrite C1.
      + change (u64 (1 - 0)) with 1. change (1 <? 2) with true. cbv iota.
        change (u32 (0 - (2 - 1))) with (2 ^ 32 - 1). change (2 ^ 32 - 1 <=? 0) with false. cbv iota.
        unfold spl_erase. rewrite C1. cbn. auto.
      + change (u64 (1 - 1)) with 0. change (0 <? 2) with true. cbv iota.
        change (u32 (1 - (2 - 0))) with (2 ^ 32 - 1). change (2 ^ 32 - 1 <=? 0) with false. cbv iota.
        unfold spl_erase. rewrite C1. cbn. auto.
    - destruct X. pose proof si_pts0 as [Cnt _].
      assert (Z2 : zlen (ps0 ++ [K; n - 1]) = zlen ps0 + 2) by (rewrite zlen_app; unfold zlen; cbn; lia).
      pose proof (zlen_nonneg ps0).
      assert (Lp : spl_pt s (s_count s - 1) = (kf (n - 1), n - 1)).
      { apply (points_last kf s (ps0 ++ [K])). rewrite <- app_assoc. auto. }
      assert (c <= s_count s - 2).
      { specialize (B (s_count s - 1) ltac:(lia)). rewrite Lp in B. cbn in B. specialize (B ltac:(lia)). lia. }
      destruct si_arr0 as [A1 A2]. rewrite u64_id by lia.
      destruct (Z.ltb_spec (s_count s - c) 2); [lia|].
      destruct (Z.leb_spec c 0); [auto|].
      pose proof (erase_spec s c (conj A1 A2) ltac:(lia) ltac:(lia) ltac:(lia)) as Er.
      pose proof (points_erase kf s _ c (conj A1 A2) ltac:(lia) si_pts0 ltac:(lia) ltac:(lia)) as Pe.
      destruct (pt_erase s c 0 (conj A1 A2)) as [Ae _]; try lia.
      rewrite Er in *. cbn [fst] in *. split; [|split; reflexivity].
      assert (Sk : skipn (Z.to_nat c) (ps0 ++ [K; n - 1]) = skipn (Z.to_nat c) ps0 ++ [K; n - 1]).
      { rewrite skipn_app. f_equal. unfold zlen in *. replace (Z.to_nat c - length ps0)%nat with 0%nat by lia. auto. }
      constructor; cbn [s_maxErr s_size s_adds s_count s_first]; auto; try lia.
      right. right. split; [lia|]. exists (skipn (Z.to_nat c) ps0), K.
      constructor; cbn [s_maxErr s_size s_adds s_count s_first s_temp s_lastKey s_lastLoc s_upper s_lower]; auto.
      + rewrite <- Sk. auto.
      + rewrite <- Sk. apply chain_skipn. auto.
      + rewrite <- Sk. rewrite Forall_forall in *. intros x Hx. apply si_ge0.
        rewrite <- (firstn_skipn (Z.to_nat c)). apply in_or_app. auto.
  Qed.

  Lemma init_SI size e g : 4 <= size < 2 ^ 32 -> 0 <= e < 2 ^ 32 -> 0 <= f -> f + e < PB -> PB <= 2 ^ 31 ->
    0 < KB -> KB * PB <= 2 ^ 63 -> SI (spl_init size e g) f.
  Proof.
    intros. constructor; cbn [spl_init s_maxErr s_size s_adds s_count s_start]; rewrite ?u32_id by lia; try lia.
    - unfold arr_ok; cbn. lia.
    - left. auto.
  Qed.
End Clean.

(** * Whole histories *)

Lemma SI_ext kf kf' f KB PB s n : (forall p, f <= p < n -> kf' p = kf p) ->
  SI kf f KB PB s n -> SI kf' f KB PB s n.
Proof.
  intros E H. destruct H. constructor; auto.
  - intros p q ? ? ?. rewrite !E by lia. auto.
  - intros p ?. rewrite E by lia. auto.
  - intros. rewrite E by lia. auto.
  - destruct si_case0 as [X|[(X1 & X2 & X3 & X4)|(X & ps0 & K & Y)]].
    + left; auto.
    + right; left. split; auto. split; [|split; auto; rewrite E by lia; auto].
      destruct X2 as [A B]. split; auto. intros [|i] p Hp; [|destruct i; discriminate].
      injection Hp as <-. rewrite (B O f eq_refl), E by lia. auto.
    + right; right. split; auto. exists ps0, K.
      pose proof (SI_knots kf f KB PB s n) as KN.
      assert (IN : forall p, In p (ps0 ++ [K; n - 1]) -> f <= p < n).
      { destruct Y. intros p Hp. split; [rewrite Forall_forall in si_ge0; auto|].
        apply In_nth_error in Hp as [i Hi].
        assert (i < length (ps0 ++ [K; (n - 1)%Z]))%nat by (apply nth_error_Some; congruence).
        rewrite app_length in H; cbn in H.
        destruct (Nat.eq_dec i (length ps0 + 1)).
        - subst i. rewrite nth_error_app2 in Hi by lia. replace (length ps0 + 1 - length ps0)%nat with 1%nat in Hi by lia.
          cbn in Hi. injection Hi as <-. lia.
        - assert (p < n - 1); [|lia]. eapply (chain_lt _ _ _ i (length ps0 + 1)); eauto; [lia|].
          rewrite nth_error_app2 by lia. replace (length ps0 + 1 - length ps0)%nat with 1%nat by lia. auto. }
      destruct Y.
      assert (IK : f <= K < n) by (apply IN, in_or_app; right; left; auto).
      constructor; rewrite ?E by lia; auto.
      * destruct si_pts0 as [A B]. split; auto. intros i p Hp. rewrite (B i p Hp), E; auto.
        apply IN. eapply nth_error_In; eauto.
      * clear - si_chain0 IN E. induction (ps0 ++ [K; n - 1]) as [|a l IH]; [exact I|].
        destruct l as [|b l]; [apply chain_one|]. rewrite chain_cons2 in *.
        destruct si_chain0 as [[L S] C]. split; [|apply IH; auto; intros; apply IN; right; auto].
        split; auto. pose proof (IN a ltac:(left; auto)). pose proof (IN b ltac:(right; left; auto)).
        intros p Hp. rewrite !E by lia. apply S. auto.
      * intros p Hp. rewrite !E by lia. auto.
      * intros Q p Hp. rewrite !E by lia. auto.
Qed.

(** Page [p]'s first key in a history starting at page [f]. *)
Definition keyfun (f : Z) (ks : list Z) (p : Z) : Z := nth (Z.to_nat (p - f)) ks 0.

Lemma zascending_app l k : zascending (l ++ [k]) ->
  zascending l /\ forall x, nth_error l (length l - 1) = Some x -> x < k.
Proof.
  induction l as [|a l IH]; intros H.
  - split; [exact I|]. intros x Hx. destruct (0 - 0)%nat; discriminate.
  - destruct l as [|b l].
    + cbn in *. split; [auto|]. intros x [= <-]. tauto.
    + cbn [app] in *. change (a < b /\ zascending (b :: l ++ [k])) in H. destruct H as [H1 H2].
      destruct (IH H2) as [I1 I2]. split; [split; auto|].
      intros x Hx. apply I2. replace (length (a :: b :: l) - 1)%nat with (S (length (b :: l) - 1)) in Hx by (cbn; lia).
      auto.
Qed.

Lemma srun_snoc s n ops o : srun s n (ops ++ [o]) =
  match o with
  | SAdd k => spl_add (srun s n ops) k (n + zlen (added ops))
  | SClean m => cleanSpline (srun s n ops) m
  end.
Proof.
  revert s n; induction ops as [|x ops IH]; intros s n; cbn [srun app].
  - destruct o; auto. change (zlen (added [])) with 0. now rewrite Z.add_0_r.
  - destruct x; rewrite IH; auto. destruct o; auto.
    change (added (SAdd k :: ops)) with (k :: added ops). rewrite zlen_cons. f_equal. lia.
Qed.
Lemma cleans_snoc n ops o : cleans_ok n (ops ++ [o]) <->
  cleans_ok n ops /\ match o with SAdd _ => True | SClean m => m < n + zlen (added ops) end.
Proof.
  revert n; induction ops as [|x ops IH]; intros n; cbn [cleans_ok app].
  - change (zlen (added [])) with 0. rewrite Z.add_0_r. destruct o; cbn; tauto.
  - destruct x; rewrite IH; destruct o;
      try change (added (SAdd k :: ops)) with (k :: added ops); rewrite ?zlen_cons; 
      try change (added (SClean m :: ops)) with (added ops); intuition lia.
Qed.

Theorem srun_SI KB PB f size e g ops :
  4 <= size < 2 ^ 32 -> 0 <= e < 2 ^ 32 -> 0 <= f -> e <= 1 \/ f = 0 ->
  PB <= 2 ^ 31 -> 0 < KB -> KB * PB <= 2 ^ 63 -> f + zlen (added ops) + e < PB ->
  Forall (fun k => 0 <= k < KB) (added ops) -> zascending (added ops) -> cleans_ok f ops ->
  let s := srun (spl_init size e g) f ops in
  SI (keyfun f (added ops)) f KB PB s (f + zlen (added ops)) /\ s_maxErr s = e /\ s_size s = size.
Proof.
  intros Hs He Hf Hfe HP HK HM. induction ops as [|o ops IH] using rev_ind; intros Hn Fk As Cl.
  - cbn. change (zlen (added [])) with 0 in *. rewrite Z.add_0_r in *. rewrite u32_id by lia.
    split; auto. apply init_SI; auto; lia.
  - rewrite srun_snoc. apply cleans_snoc in Cl as [Cl Co].
    assert (Ea : added (ops ++ [o]) = added ops ++ added [o]) by (unfold added; apply flat_map_app).
    rewrite Ea in *. rewrite zlen_app in *.
    destruct o as [k|m]; cbn [added flat_map app] in *.
    + change (zlen [k]) with 1 in *. apply Forall_app in Fk as [F1 F2]. apply zascending_app in As as [A1 A2].
      destruct (IH ltac:(lia) F1 A1 Cl) as (I & E1 & E2). clear IH.
      set (s := srun (spl_init size e g) f ops) in *. set (n := f + zlen (added ops)) in *.
      set (kf := keyfun f (added ops ++ [k])).
      assert (Kn : kf n = k).
      { unfold kf, keyfun, n. rewrite app_nth2; unfold zlen; [|lia].
        replace (Z.to_nat (f + Z.of_nat (length (added ops)) - f) - length (added ops))%nat with 0%nat by lia. auto. }
      assert (Ko : forall p, f <= p < n -> kf p = keyfun f (added ops) p).
      { intros p Hp. unfold kf, keyfun. apply app_nth1. unfold n, zlen in Hp. lia. }
      assert (I' : SI kf f KB PB s n) by (eapply SI_ext; eauto).
      pose proof (Forall_inv F2) as Hk. cbv beta in Hk.
      destruct (add_SI kf f KB PB s n) as (J1 & J2 & J3); auto.
      * lia.
      * now rewrite Kn.
      * intros L. rewrite Kn. apply A2. rewrite Ko by lia. unfold keyfun.
        assert (0 < length (added ops))%nat by (unfold n, zlen in L; lia).
        replace (Z.to_nat (n - 1 - f)) with (length (added ops) - 1)%nat by (unfold n, zlen; lia).
        apply nth_error_nth'. lia.
      * intros ->. destruct Hfe; [left; lia|auto].
      * rewrite Kn in *. rewrite Z.add_assoc. fold n. split; [auto|]. split; congruence.
    + rewrite app_nil_r in *. change (zlen (@nil Z)) with 0 in *. rewrite !Z.add_0_r in *.
      destruct (IH ltac:(lia) Fk As Cl) as (I & E1 & E2).
      destruct (clean_SI _ _ _ _ _ _ m I) as (J1 & J2 & J3); [lia|].
      split; [auto|]. split; congruence.
Qed.

Lemma find_history KB PB f size e g ops cmp q p :
  4 <= size < 2 ^ 32 -> 0 <= e < 2 ^ 32 -> 0 <= f -> e <= 1 \/ f = 0 ->
  PB <= 2 ^ 31 -> 0 < KB -> KB * PB <= 2 ^ 63 -> f + zlen (added ops) + e < PB ->
  Forall (fun k => 0 <= k < KB) (added ops) -> zascending (added ops) -> cleans_ok f ops ->
  cmp_ok cmp KB -> 0 <= q < KB -> page_of (added ops) q p ->
  exists loc low high,
    spl_find cmp (srun (spl_init size e g) f ops) q = Ok (loc, low, high) /\
    0 <= low <= loc /\ loc <= high <= f + zlen (added ops) - 1 /\
    low <= f + Z.of_nat p <= high.
Proof.
  intros. destruct (srun_SI KB PB f size e g ops) as (I & _); auto.
  destruct H12 as (k & K1 & K2 & K3).
  assert (p < length (added ops))%nat by (apply nth_error_Some; congruence).
  destruct (find_SI _ _ _ _ _ H10 _ _ q I) as (loc & low & high & E & B1 & B2 & B3); [unfold zlen; lia|auto|].
  exists loc, low, high. split; [auto|]. split; [auto|]. split; [auto|].
  apply B3; unfold keyfun, zlen; try lia.
  - replace (Z.to_nat (f + Z.of_nat p - f)) with p by lia. erewrite nth_error_nth; eauto.
  - intros L. replace (Z.to_nat (f + Z.of_nat p + 1 - f)) with (S p) by lia.
    apply K3. apply nth_error_nth'. lia.
Qed.

Lemma shape_history KB PB f size e g ops :
  4 <= size < 2 ^ 32 -> 0 <= e < 2 ^ 32 -> 0 <= f -> e <= 1 \/ f = 0 ->
  PB <= 2 ^ 31 -> 0 < KB -> KB * PB <= 2 ^ 63 -> f + zlen (added ops) + e < PB ->
  Forall (fun k => 0 <= k < KB) (added ops) -> zascending (added ops) -> cleans_ok f ops ->
  let s := srun (spl_init size e g) f ops in
  s_count s <= size /\ (2 <= zlen (added ops) -> 2 <= s_count s) /\
  (forall i, 0 <= i < s_count s -> exists p, f <= p < f + zlen (added ops) /\
     spl_pt s i = (keyfun f (added ops) p, p)) /\
  (forall i j, 0 <= i -> i < j -> j < s_count s ->
     fst (spl_pt s i) < fst (spl_pt s j) /\ snd (spl_pt s i) < snd (spl_pt s j)).
Proof.
  intros. destruct (srun_SI KB PB f size e g ops) as (I & M & S); auto.
  fold s in I, M, S. destruct (Z.eq_dec (zlen (added ops)) 0) as [Z0|Z0].
  { destruct I. destruct si_case0 as [(_ & C & _)|[(X & _)|(X & _)]]; try lia.
    rewrite C. repeat split; try lia; intros; lia. }
  pose proof (zlen_nonneg (added ops)).
  destruct (SI_knots _ _ _ _ _ _ I) as (ps & P & Ch & In' & L1 & Cnt & L2 & Last); [lia|].
  assert (PT : forall i, 0 <= i < s_count s -> exists p, spl_pt s i = (keyfun f (added ops) p, p) /\
            nth_error ps (Z.to_nat i) = Some p /\ f <= p < f + zlen (added ops)).
  { intros i Hi. destruct (nth_z ps i) as [p Hp]; [lia|]. exists p. destruct P as [_ P].
    apply P in Hp as E. rewrite Z2Nat.id in E by lia. split; auto. split; auto. apply In'.
    eapply nth_error_In; eauto. }
  split; [destruct I; lia|]. split; [lia|]. split.
  - intros i Hi. destruct (PT i Hi) as (p & ? & ? & ?). eauto.
  - intros i j Hi Hij Hj. destruct (PT i ltac:(lia)) as (p & -> & Np & ?).
    destruct (PT j ltac:(lia)) as (p' & -> & Np' & ?). cbn.
    assert (p < p') by (eapply (chain_lt _ _ _ (Z.to_nat i) (Z.to_nat j)); eauto; lia).
    split; auto. destruct I. apply si_mono0; lia.
Qed.

Lemma clean_history KB PB f size e g ops m cmp q p :
  4 <= size < 2 ^ 32 -> 0 <= e < 2 ^ 32 -> 0 <= f -> e <= 1 \/ f = 0 ->
  PB <= 2 ^ 31 -> 0 < KB -> KB * PB <= 2 ^ 63 ->
  f + zlen (added ops) + e < PB ->
  Forall (fun k => 0 <= k < KB) (added ops) -> zascending (added ops) ->
  cleans_ok f ops -> m < f + zlen (added ops) ->
  cmp_ok cmp KB -> 0 <= q < KB -> page_of (added ops) q p ->
  exists loc low high,
    spl_find cmp (cleanSpline (srun (spl_init size e g) f ops) m) q = Ok (loc, low, high) /\
    low <= f + Z.of_nat p <= high.
Proof.
  intros. assert (Ea : added (ops ++ [SClean m]) = added ops)
    by (unfold added; rewrite flat_map_app; cbn; apply app_nil_r).
  destruct (find_history KB PB f size e g (ops ++ [SClean m]) cmp q p)
    as (loc & low & high & E & _ & _ & B); rewrite ?Ea; auto.
  - apply cleans_snoc. auto.
  - rewrite srun_snoc in E. eauto.
Qed.

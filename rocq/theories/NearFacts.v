(** Rounding to nearest satisfies the assumptions made of rounding. *)
From Verif Require Import Base SpecFp.
From Coq Require Import QArith Qround Qabs Qpower Lqa.
Open Scope Z_scope.

Local Notation pw := (Qpower 2).
Lemma pw_int k : 0 <= k -> (inject_Z (2 ^ k) == pw k)%Q.
Proof. intros. rewrite Zpower_Qpower by auto. reflexivity. Qed.
Lemma pw_add a b : (pw (a + b) == pw a * pw b)%Q.
Proof. apply Qpower_plus. discriminate. Qed.
Lemma pw_pos a : (0 < pw a)%Q.
Proof. apply Qpower_0_lt. reflexivity. Qed.
Lemma pw_inv a : (pw a * pw (- a) == 1)%Q.
Proof. rewrite <- pw_add. rewrite Z.add_opp_diag_r. reflexivity. Qed.

(** The exponent used by [near]. *)
Definition expo (n d : Z) : Z :=
  let e0 := Z.log2 n - Z.log2 d in
  if (if e0 <? 0 then n * 2 ^ (- e0) <? d else n <? d * 2 ^ e0) then e0 - 1 else e0.

Lemma expo_le n d : 0 < n -> (pw (expo n (Zpos d)) <= n # d)%Q.
Proof.
  intros N. assert (X : ((n # d) * inject_Z (Zpos d) == inject_Z n)%Q) by (unfold Qeq, Qmult, inject_Z; cbn; lia).
  set (x := (n # d)%Q) in *. clearbody x.
  assert (Dq : (0 < inject_Z (Zpos d))%Q) by reflexivity.
  pose proof (Z.log2_spec n N) as [L1 _]. pose proof (Z.log2_spec (Zpos d) ltac:(lia)) as [_ L2].
  pose proof (Z.log2_nonneg n) as N1. pose proof (Z.log2_nonneg (Zpos d)) as N2.
  unfold expo. cbv zeta. set (ln := Z.log2 n) in *. set (ld := Z.log2 (Zpos d)) in *.
  apply (Qmult_le_r _ _ (inject_Z (Zpos d))); [auto|]. rewrite X.
  assert (B : (pw (ln - ld - 1) * inject_Z (Zpos d) <= inject_Z n)%Q).
  { assert (T : (inject_Z (Zpos d) <= pw (ld + 1))%Q) by (rewrite <- pw_int by lia; rewrite <- Zle_Qle; unfold Z.succ in L2; lia).
    apply Qle_trans with (pw (ln - ld - 1) * pw (ld + 1))%Q.
    - apply Qmult_le_l; auto. apply pw_pos.
    - rewrite <- pw_add. replace (ln - ld - 1 + (ld + 1)) with ln by lia. rewrite <- pw_int by lia. rewrite <- Zle_Qle. lia. }
  destruct (Z.ltb_spec (ln - ld) 0).
  - destruct (Z.ltb_spec (n * 2 ^ (- (ln - ld))) (Zpos d)); [auto|].
    apply (Qmult_le_l _ _ (pw (- (ln - ld)))); [apply pw_pos|].
    rewrite Qmult_assoc, <- pw_add. replace (- (ln - ld) + (ln - ld)) with 0 by lia.
    rewrite <- (pw_int (- (ln - ld))) by lia. rewrite <- inject_Z_mult.
    setoid_replace (pw 0 * inject_Z (Z.pos d))%Q with (inject_Z (Z.pos d)) by (cbn; ring).
    rewrite <- Zle_Qle. lia.
  - destruct (Z.ltb_spec n (Zpos d * 2 ^ (ln - ld))); [auto|].
    rewrite <- pw_int by lia. rewrite <- inject_Z_mult, <- Zle_Qle. lia.
Qed.

(** Rounding a quotient to an integer. *)
Definition rint (a b : Z) : Z :=
  let m := a / b in let r := a mod b in
  if 2 * r <? b then m else if 2 * r >? b then m + 1 else if Z.even m then m else m + 1.
Lemma rint_err a b : 0 < b -> - b <= 2 * (rint a b * b - a) <= b.
Proof.
  intros B. unfold rint. cbv zeta. pose proof (Z.div_mod a b ltac:(lia)) as D. pose proof (Z.mod_pos_bound a b B) as M.
  set (m := a / b) in *. set (r := a mod b) in *. clearbody m r.
  destruct (Z.ltb_spec (2 * r) b); [nia|]. destruct (Z.gtb_spec (2 * r) b); [nia|].
  destruct (Z.even m); nia.
Qed.
Lemma rint_exact k b : 0 < b -> rint (k * b) b = k.
Proof.
  intros B. unfold rint. cbv zeta. rewrite Z.mod_mul, Z.div_mul by lia. destruct (Z.ltb_spec (2 * 0) b); lia.
Qed.

Section Near.
  Variables (p : Z) (n : Z) (d : positive).
  Hypothesis P : 0 < p.
  Hypothesis N : 0 < n.
  Let e := expo n (Zpos d).
  Let s := p - 1 - e.
  Let a := if s <? 0 then n else n * 2 ^ s.
  Let b := if s <? 0 then Zpos d * 2 ^ (- s) else Zpos d.

  Lemma near_eq : (near p (n # d) == inject_Z (rint a b) * pw (- s))%Q.
  Proof.
    unfold near. destruct (Qle_bool (n # d) 0) eqn:Q.
    { apply Qle_bool_iff in Q. unfold Qle in Q. cbn in Q. lia. }
    cbn [Qnum Qden]. cbv zeta. fold (expo n (Zpos d)). fold e. fold s. fold a. fold b. fold (rint a b).
    destruct (Z.ltb_spec s 0).
    - rewrite inject_Z_mult, pw_int by lia. reflexivity.
    - apply (Qmult_inj_r _ _ (pw s)); [pose proof (pw_pos s); lra|].
      rewrite <- Qmult_assoc, (Qmult_comm (pw (- s))), pw_inv. rewrite <- pw_int by lia.
      assert (0 < 2 ^ s) by (apply Z.pow_pos_nonneg; lia).
      unfold Qeq, Qmult, inject_Z. cbn [Qnum Qden]. rewrite !Pos.mul_1_r, !Z.mul_1_r. rewrite Z2Pos.id by lia. reflexivity.
  Qed.
  Lemma b_pos : 0 < b.
  Proof. unfold b. destruct (Z.ltb_spec s 0); [|lia]. pose proof (Z.pow_pos_nonneg 2 (- s)). lia. Qed.
  Lemma ab_spec : (inject_Z a == (n # d) * pw s * inject_Z b)%Q.
  Proof.
    assert (X : ((n # d) * inject_Z (Zpos d) == inject_Z n)%Q) by (unfold Qeq, Qmult, inject_Z; cbn; lia).
    unfold a, b. destruct (Z.ltb_spec s 0).
    - rewrite inject_Z_mult, pw_int by lia. rewrite <- X. pose proof (pw_inv s) as I.
      setoid_replace ((n # d) * pw s * (inject_Z (Z.pos d) * pw (- s)))%Q
        with ((n # d) * inject_Z (Zpos d) * (pw s * pw (- s)))%Q by ring. rewrite I. ring.
    - rewrite inject_Z_mult, pw_int by lia. rewrite <- X. ring.
  Qed.

  Lemma near_err : (Qabs (near p (n # d) - (n # d)) * inject_Z (2 ^ p) <= n # d)%Q.
  Proof.
    pose proof (expo_le n d N) as L. fold e in L. rewrite near_eq. pose proof ab_spec as A. pose proof (rint_err a b b_pos) as R0.
    pose proof b_pos as B0. set (x := (n # d)%Q) in *. set (m := rint a b) in *.
    assert (Bq : (0 < inject_Z b)%Q) by (change 0%Q with (inject_Z 0); rewrite <- Zlt_Qlt; auto).
    assert (R1 : (- (1 # 2) <= inject_Z m - x * pw s <= 1 # 2)%Q).
    { destruct R0 as [R1 R2]. rewrite Zle_Qle in R1, R2. unfold Z.sub in R1, R2.
      rewrite inject_Z_mult, inject_Z_plus, inject_Z_mult, (inject_Z_opp a) in R1, R2. rewrite (inject_Z_opp b) in R1.
      rewrite A in R1, R2.
      change (inject_Z 2) with 2%Q in *. set (t := (x * pw s)%Q) in *. clearbody t.
      set (bq := inject_Z b) in *. set (mq := inject_Z m) in *. clearbody bq mq.
      split; apply (Qmult_le_r _ _ bq); auto; lra. }
    assert (E1 : (Qabs (inject_Z m * pw (- s) - x) <= (1 # 2) * pw (- s))%Q).
    { apply Qabs_Qle_condition. pose proof (pw_inv s) as I. pose proof (pw_pos (- s)) as Ps.
      assert (T : (x == x * pw s * pw (- s))%Q) by (rewrite <- Qmult_assoc, I; ring).
      set (t := (x * pw s)%Q) in *. set (u := pw (- s)) in *. clearbody t u. set (mq := inject_Z m) in *. clearbody mq.
      split; rewrite T; nra. }
    rewrite pw_int by lia.
    apply Qle_trans with ((1 # 2) * pw (- s) * pw p)%Q; [apply Qmult_le_compat_r; [auto|apply Qlt_le_weak, pw_pos]|].
    rewrite <- Qmult_assoc, <- pw_add. replace (- s + p) with (1 + e) by (unfold s; lia). rewrite pw_add.
    setoid_replace ((1 # 2) * (pw 1 * pw e))%Q with (pw e); [auto|]. change (pw 1) with (2 ^ 1)%Q. setoid_replace (2 ^ 1)%Q with 2%Q by reflexivity. ring.
  Qed.

  Lemma near_int z : 0 <= z <= 2 ^ p -> ((n # d) == inject_Z z)%Q -> (near p (n # d) == inject_Z z)%Q.
  Proof.
    intros Z E. pose proof (expo_le n d N) as L. fold e in L. rewrite near_eq.
    pose proof ab_spec as A. rewrite E in A, L.
    assert (Ez : e <= p).
    { destruct (Z.le_gt_cases e p); auto. exfalso.
      assert (T : (inject_Z (2 ^ e) <= inject_Z z)%Q) by (rewrite pw_int by lia; auto). rewrite <- Zle_Qle in T.
      assert (2 ^ p < 2 ^ e) by (apply Z.pow_lt_mono_r; lia). lia. }
    assert (K : exists k, (inject_Z k == inject_Z z * pw s)%Q).
    { destruct (Z.eq_dec e p) as [Ee|Ne].
      - assert (z = 2 ^ p).
        { rewrite Ee in L. assert (T : (inject_Z (2 ^ p) <= inject_Z z)%Q) by (rewrite pw_int by lia; auto). rewrite <- Zle_Qle in T. lia. }
        exists (2 ^ (p - 1)). rewrite H, !pw_int by lia. rewrite <- pw_add. replace (p + s) with (p - 1); [reflexivity|unfold s; lia].
      - exists (z * 2 ^ s). rewrite inject_Z_mult, pw_int by (unfold s; lia). reflexivity. }
    destruct K as (k & K). rewrite <- K in A. rewrite <- inject_Z_mult in A. rewrite inject_Z_injective in A.
    rewrite A, rint_exact by apply b_pos. rewrite K, <- Qmult_assoc, pw_inv. ring.
  Qed.
End Near.

Theorem near_rounds p : 0 < p -> rounds p (near p).
Proof.
  intros P. assert (E : forall x, (0 < x)%Q -> (Qabs (near p x - x) * inject_Z (2 ^ p) <= x)%Q).
  { intros [n d] X. apply near_err; auto. unfold Qlt in X. cbn in X. lia. }
  assert (Z0 : forall x, (x == 0)%Q -> near p x = 0%Q).
  { intros x X. unfold near. assert (T : Qle_bool x 0 = true) by (apply Qle_bool_iff; rewrite X; apply Qle_refl). now rewrite T. }
  assert (M : (2 <= inject_Z (2 ^ p))%Q).
  { change 2%Q with (inject_Z 2). rewrite <- Zle_Qle. change 2 with (2 ^ 1) at 1. apply Z.pow_le_mono_r; lia. }
  split; [|split].
  - intros x z Hz X. destruct (Z.eq_dec z 0) as [->|Zn].
    + rewrite Z0; auto. reflexivity.
    + destruct x as [n d]. apply near_int; auto. unfold Qeq, inject_Z in X. cbn in X. nia.
  - intros x [A _]. apply E. eapply Qlt_le_trans; [|exact A]. reflexivity.
  - intros x [A B]. assert (B1 : (x <= 1 # 2)%Q) by (eapply Qle_trans; [exact B|discriminate]).
    destruct (Qeq_dec x 0) as [X|X]; [rewrite Z0 by auto; lra|].
    assert (X0 : (0 < x)%Q) by (apply Qnot_le_lt; intros L; apply X; lra).
    specialize (E x X0). assert (0 <= Qabs (near p x - x))%Q by apply Qabs_nonneg.
    assert (T : (Qabs (near p x - x) <= x)%Q) by nra. apply Qabs_Qle_condition in T. lra.
Qed.

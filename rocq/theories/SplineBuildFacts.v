(** splineBuild is a history of adds. *)
From Coq Require Import Lia.
From Verif Require Import Base BaseFacts Spline DB Spec SpecSpline SplineFacts SplineBuild.
Open Scope Z_scope.
Ltac Zify.zify_post_hook ::= ZifyBool.elim_bool_cstr.
Ltac Zify.zify_convert_to_euclidean_division_equations_flag ::= constr:(false).

Lemma added_adds ks : added (map SAdd ks) = ks.
Proof. induction ks as [|k ks IH]; [reflexivity|]. cbn [map added flat_map app]. f_equal. exact IH. Qed.
Lemma cleans_adds ks : forall n, cleans_ok n (map SAdd ks).
Proof. induction ks as [|k ks IH]; intros n; cbn [map cleans_ok]; auto. Qed.
Lemma build_adds ks : forall s n, 0 <= n -> n + zlen ks < 2 ^ 32 -> build_loop s ks n = srun s n (map SAdd ks).
Proof.
  induction ks as [|k ks IH]; intros s n H0 H; cbn [build_loop map srun]; [reflexivity|].
  rewrite zlen_cons in H. pose proof (zlen_nonneg ks). assert (E : u32 (n + 1) = n + 1) by (unfold u32; apply Z.mod_small; lia).
  rewrite E. apply IH; lia.
Qed.
Lemma build_init size e0 e g ks : zlen ks < 2 ^ 32 ->
  splineBuild (spl_init size e0 g) ks e = srun (spl_init size e g) 0 (map SAdd ks).
Proof. intros H. unfold splineBuild. now apply build_adds. Qed.

Lemma build_find KB PB size e0 e g ks cmp q p :
  4 <= size < 2 ^ 32 -> 0 <= e < 2 ^ 32 -> PB <= 2 ^ 31 -> 0 < KB -> KB * PB <= 2 ^ 63 -> zlen ks + e < PB ->
  Forall (fun k => 0 <= k < KB) ks -> zascending ks -> cmp_ok cmp KB -> 0 <= q < KB -> page_of ks q p ->
  exists loc low high, spl_find cmp (splineBuild (spl_init size e0 g) ks e) q = Ok (loc, low, high) /\
    0 <= low <= loc /\ loc <= high <= zlen ks - 1 /\ low <= Z.of_nat p <= high.
Proof.
  intros Hs He HP HK HKP Hl Hr Ha Hc Hq Hp. rewrite build_init by lia.
  pose proof (added_adds ks) as E.
  destruct (find_history KB PB 0 size e g (map SAdd ks) cmp q p) as (loc & low & high & F & A); rewrite ?E; auto; try lia; [apply cleans_adds|].
  rewrite E in A. exists loc, low, high. split; [exact F|]. lia.
Qed.
Lemma build_shape KB PB size e0 e g ks :
  4 <= size < 2 ^ 32 -> 0 <= e < 2 ^ 32 -> PB <= 2 ^ 31 -> 0 < KB -> KB * PB <= 2 ^ 63 -> zlen ks + e < PB ->
  Forall (fun k => 0 <= k < KB) ks -> zascending ks ->
  let s := splineBuild (spl_init size e0 g) ks e in
  s_count s <= size /\ (2 <= zlen ks -> 2 <= s_count s) /\
  forall i, 0 <= i < s_count s -> exists n, 0 <= n < zlen ks /\ spl_pt s i = (nth (Z.to_nat n) ks 0, n).
Proof.
  intros Hs He HP HK HKP Hl Hr Ha s. unfold s. rewrite build_init by lia. pose proof (added_adds ks) as E.
  destruct (shape_history KB PB 0 size e g (map SAdd ks)) as (A1 & A2 & A3 & _); rewrite ?E; auto; try lia; [apply cleans_adds|].
  cbv zeta in *. rewrite E in *. split; [exact A1|]. split; [exact A2|]. intros i Hi. destruct (A3 i Hi) as (n & B1 & B2).
  exists n. split; [lia|]. rewrite B2. unfold keyfun. now rewrite Z.sub_0_r.
Qed.

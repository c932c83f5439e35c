(** Proofs about the aggregate functions and the aggregate operator. *)
From Verif Require Import Base BaseFacts Config Storage DB Schema Query Spec SpecUtil CompareFacts SpecStore SpecIter SpecQuery QueryFacts.
Open Scope Z_scope.
Ltac Zify.zify_post_hook ::= ZifyBool.elim_bool_cstr.
Ltac Zify.zify_convert_to_euclidean_division_equations_flag ::= constr:(false).

(** * Integers in columns *)
Definition topv (sg : bool) (n : Z) : Z := if sg then 128 * 256 ^ (n - 1) - 1 else 256 ^ n - 1.
Definition botv (sg : bool) (n : Z) : Z := if sg then - (128 * 256 ^ (n - 1)) else 0.

Lemma pow_step n : 1 <= n -> 256 ^ n = 256 * 256 ^ (n - 1) /\ 0 < 256 ^ (n - 1).
Proof.
  intros H. split; [|apply Z.pow_pos_nonneg; lia]. rewrite <- Z.pow_succ_r by lia. f_equal. lia.
Qed.
Lemma col_value_range sg bs : bytes bs -> 1 <= zlen bs -> botv sg (zlen bs) <= col_value sg bs <= topv sg (zlen bs).
Proof.
  intros H Hn. pose proof (le_dec_range bs H) as R. destruct (pow_step (zlen bs) Hn) as [P1 P2].
  unfold col_value, botv, topv. destruct sg; cbn [andb]; [|lia].
  destruct (Z.geb_spec (2 * le_dec bs) (256 ^ zlen bs)); lia.
Qed.
Lemma enc_col_value sg bs n : bytes bs -> length bs = n -> le_enc n (col_value sg bs) = bs.
Proof.
  intros H <-. rewrite <- le_enc_mod. unfold col_value. fold (zlen bs).
  pose proof (le_dec_range bs H) as R.
  assert (E : (if sg && (2 * le_dec bs >=? 256 ^ zlen bs) then le_dec bs - 256 ^ zlen bs else le_dec bs) mod 256 ^ zlen bs = le_dec bs).
  { destruct (sg && _); [|apply Z.mod_small; lia].
    replace (le_dec bs - 256 ^ zlen bs) with (le_dec bs + (-1) * 256 ^ zlen bs) by lia.
    rewrite Z_mod_plus_full. apply Z.mod_small; lia. }
  rewrite E. apply le_enc_dec; auto.
Qed.
Lemma col_value_enc sg n v : (1 <= n)%nat -> botv sg (Z.of_nat n) <= v <= topv sg (Z.of_nat n) -> col_value sg (le_enc n v) = v.
Proof.
  intros Hn Hv. unfold col_value. rewrite le_enc_zlen, le_dec_enc_mod.
  destruct (pow_step (Z.of_nat n) ltac:(lia)) as [P1 P2]. unfold botv, topv in Hv.
  destruct sg; cbn [andb].
  - destruct (Z.leb_spec 0 v) as [P|P].
    + rewrite Z.mod_small by lia. destruct (Z.geb_spec (2 * v) (256 ^ Z.of_nat n)); lia.
    + replace v with (v + 256 ^ Z.of_nat n + (-1) * 256 ^ Z.of_nat n) by lia.
      rewrite Z_mod_plus_full, Z.mod_small by lia.
      destruct (Z.geb_spec (2 * (v + 256 ^ Z.of_nat n)) (256 ^ Z.of_nat n)); lia.
  - rewrite Z.mod_small by lia. reflexivity.
Qed.

Lemma le_dec_repeat x n : le_dec (repeat x n) * 255 = x * (256 ^ Z.of_nat n - 1).
Proof.
  induction n as [|n IH]; [change (256 ^ Z.of_nat 0) with 1; change (le_dec (repeat x 0)) with 0; lia|].
  change (le_dec (repeat x (S n))) with (x + 256 * le_dec (repeat x n)). rewrite Nat2Z.inj_succ, Z.pow_succ_r by lia.
  transitivity (255 * x + 256 * (le_dec (repeat x n) * 255)); [ring|]. rewrite IH. ring.
Qed.
(** The values minReset and maxReset store. *)
Lemma set_extreme_ok (mn : bool) cur n sg : zlen cur = n -> 1 <= n ->
  set_extreme cur n (if mn then 255 else 0) (if mn then 127 else 128) sg =
  Ok (le_enc (Z.to_nat n) (if mn then topv sg n else botv sg n)).
Proof.
  intros L Hn. destruct (pow_step n Hn) as [P1 P2]. unfold set_extreme.
  set (x := if mn then 255 else 0). set (y := if mn then 127 else 128).
  assert (Bx : 0 <= x < 256) by (unfold x; destruct mn; lia). assert (By : 0 <= y < 256) by (unfold y; destruct mn; lia).
  rewrite st_all by (rewrite zlen_repeat; lia). cbn [bind].
  assert (Rep : repeat x (Z.to_nat n) = repeat x (Z.to_nat (n - 1)) ++ [x]).
  { replace (Z.to_nat n) with (Z.to_nat (n - 1) + 1)%nat by lia. rewrite repeat_app. reflexivity. }
  pose proof (le_dec_repeat x (Z.to_nat (n - 1))) as R1. rewrite Z2Nat.id in R1 by lia.
  assert (Bt : forall z, 0 <= z < 256 -> bytes (repeat x (Z.to_nat (n - 1)) ++ [z])).
  { intros z Hz. apply Forall_app. split; [|auto]. apply Forall_forall. intros w Hw. apply repeat_spec in Hw. now subst. }
  assert (Lt : forall z, length (repeat x (Z.to_nat (n - 1)) ++ [z]) = Z.to_nat n).
  { intros z. rewrite app_length, repeat_length. cbn [length]. lia. }
  assert (V : forall z, le_dec (repeat x (Z.to_nat (n - 1)) ++ [z]) = le_dec (repeat x (Z.to_nat (n - 1))) + 256 ^ (n - 1) * z).
  { intros z. rewrite le_dec_app, zlen_repeat, Z2Nat.id by lia. change (le_dec [z]) with (z + 256 * 0). lia. }
  assert (K : forall z v, 0 <= z < 256 -> (le_dec (repeat x (Z.to_nat (n - 1)) ++ [z]) - v) mod 256 ^ n = 0 ->
     repeat x (Z.to_nat (n - 1)) ++ [z] = le_enc (Z.to_nat n) v).
  { intros z v Hz Hv. rewrite <- (le_enc_dec _ (Bt z Hz)), Lt. rewrite <- (le_enc_mod _ v), <- le_enc_mod, Z2Nat.id by lia. f_equal.
    set (D := le_dec (repeat x (Z.to_nat (n - 1)) ++ [z])) in *.
    apply Z.mod_divide in Hv; [|lia]. destruct Hv as [q Hq]. replace D with (v + q * 256 ^ n) by lia. apply Z_mod_plus_full. }
  destruct sg.
  - rewrite st_ok.
    2:{ lia. } 2:{ rewrite zlen_repeat. change (zlen [y]) with 1. lia. }
    f_equal. unfold zwr, wr. rewrite Rep, firstn_app, repeat_length, Nat.sub_diag, firstn_all2 by (rewrite repeat_length; lia).
    cbn [firstn length]. rewrite app_nil_r. rewrite skipn_all2 by (rewrite app_length, repeat_length; cbn [length]; lia).
    rewrite app_nil_r. apply K; auto. rewrite V. unfold topv, botv.
    apply Z.mod_divide; [lia|]. unfold x, y in *. destruct mn; [exists 0|exists 1]; lia.
  - f_equal. rewrite Rep. apply K; auto. rewrite V. unfold topv, botv.
    apply Z.mod_divide; [lia|]. unfold x in *. destruct mn; exists 0; lia.
Qed.

(** The sign test of sumAdd and avgAdd. *)
Lemma testbit_top v k : 0 <= k -> 0 <= v < 2 * 2 ^ k -> Z.testbit v k = (2 ^ k <=? v).
Proof.
  intros Hk Hv. rewrite Z.testbit_odd, Z.shiftr_div_pow2 by auto. assert (P : 0 < 2 ^ k) by (apply Z.pow_pos_nonneg; lia).
  destruct (Z.leb_spec (2 ^ k) v).
  - replace (v / 2 ^ k) with 1; [reflexivity|]. apply Z.div_unique with (r := v - 2 ^ k); lia.
  - now rewrite Z.div_small by lia.
Qed.
Lemma land_top v k m : 0 <= k -> 0 <= v < 2 * 2 ^ k -> (m = 2 ^ k \/ m = - 2 ^ k) ->
  (Z.land v m =? 0) = (v <? 2 ^ k).
Proof.
  intros Hk Hv Hm. assert (P : 0 < 2 ^ k) by (apply Z.pow_pos_nonneg; lia).
  assert (E : Z.land v m = Z.land v (2 ^ k)).
  { destruct Hm as [-> | ->]; [auto|]. apply Z.bits_inj'. intros i Hi. rewrite !Z.land_spec.
    destruct (Z.lt_total i k) as [Lt|[->|Gt]].
    - rewrite Z.pow2_bits_false by lia. replace (- 2 ^ k) with (Z.shiftl (-1) k) by (rewrite Z.shiftl_mul_pow2; lia).
      rewrite Z.shiftl_spec_low by lia. reflexivity.
    - rewrite Z.pow2_bits_true by lia. replace (- 2 ^ k) with (Z.shiftl (-1) k) by (rewrite Z.shiftl_mul_pow2; lia).
      rewrite Z.shiftl_spec by lia. rewrite Z.sub_diag. reflexivity.
    - assert (B : Z.testbit v i = false).
      { destruct (Z.eq_dec v 0) as [->|N]; [apply Z.bits_0|]. apply Z.bits_above_log2; [lia|].
        apply Z.log2_lt_pow2; [lia|]. apply Z.lt_le_trans with (2 ^ (k + 1)).
        - rewrite Z.pow_add_r by lia. lia.
        - apply Z.pow_le_mono_r; lia. }
      now rewrite B. }
  rewrite E. clear E Hm. 
  destruct (Z.ltb_spec v (2 ^ k)).
  - apply Z.eqb_eq. apply Z.bits_inj'. intros i Hi. rewrite Z.land_spec, Z.bits_0. rewrite Z.pow2_bits_eqb by lia.
    destruct (Z.eqb_spec k i) as [<-|]; [|apply andb_false_r]. rewrite testbit_top by lia. lia.
  - apply Z.eqb_neq. intros E. assert (X : Z.testbit (Z.land v (2 ^ k)) k = false) by (rewrite E; apply Z.bits_0).
    rewrite Z.land_spec, Z.pow2_bits_true, testbit_top in X by lia. lia.
Qed.
Lemma sign_mask n : 1 <= n <= 4 -> let m := i32 (Z.shiftl 128 ((n - 1) * 8)) in
  m = 2 ^ (8 * n - 1) \/ m = - 2 ^ (8 * n - 1).
Proof.
  intros H. assert (n = 1 \/ n = 2 \/ n = 3 \/ n = 4) as [-> | [-> | [-> | ->]]] by lia; vm_compute; auto.
Qed.

(** * Functions *)
Definition akind (f : aggf) : afun :=
  match f with
  | ACount _ => FCount
  | ASum col _ => FSum col
  | AMin col sz _ => FMin col sz
  | AMax col sz _ => FMax col sz
  | AAvg col sz fl _ _ _ => FAvg col sz fl
  end.
Definition room (f : aggf) : Prop :=
  match f with AMin _ sz cur | AMax _ sz cur => zlen cur = Z.abs sz | AAvg _ sz _ _ _ _ => sz = 4 \/ sz = 8 | _ => True end.

Section Fns.
  Variable s : list Z.
  Hypothesis Hs : schema_ok s.
  Notation sgn col := (col_desc s col <? 0).
  Notation wid col := (Z.abs (col_desc s col)).

  Definition sums (g : list (list Z)) (f : aggf) : Prop :=
    match f with
    | ACount n => n = u32 (zlen g)
    | ASum col acc => acc = u64 (total s col g)
    | AMin col sz cur => cur = le_enc (Z.to_nat (Z.abs sz)) (fold_left (fun a r => Z.min a (field s col r)) g (topv (sgn col) (wid col)))
    | AMax col sz cur => cur = le_enc (Z.to_nat (Z.abs sz)) (fold_left (fun a r => Z.max a (field s col r)) g (botv (sgn col) (wid col)))
    | AAvg col sz fl sum cnt sg => sum = u64 (total s col g) /\ cnt = u32 (zlen g) /\ sg = sgn col
    end.

  Lemma wid_ok col : col_in s col -> 1 <= wid col.
  Proof. intros H. pose proof (desc_ok s col Hs H). lia. Qed.
  Lemma field_range col r : col_in s col -> row_ok s r -> botv (sgn col) (wid col) <= field s col r <= topv (sgn col) (wid col).
  Proof.
    intros Hc Hr. destruct (column_ok s col r Hs Hc Hr) as (_ & L & B). pose proof (wid_ok col Hc).
    unfold field. rewrite <- L. apply col_value_range; auto. lia.
  Qed.
  Lemma min_range col g : col_in s col -> Forall (row_ok s) g -> forall a,
    botv (sgn col) (wid col) <= a <= topv (sgn col) (wid col) ->
    botv (sgn col) (wid col) <= fold_left (fun a r => Z.min a (field s col r)) g a <= topv (sgn col) (wid col).
  Proof.
    intros Hc Hg. induction Hg as [|r g Hr _ IH]; intros a Ha; [auto|]. cbn [fold_left]. apply IH.
    pose proof (field_range col r Hc Hr). lia.
  Qed.
  Lemma max_range col g : col_in s col -> Forall (row_ok s) g -> forall a,
    botv (sgn col) (wid col) <= a <= topv (sgn col) (wid col) ->
    botv (sgn col) (wid col) <= fold_left (fun a r => Z.max a (field s col r)) g a <= topv (sgn col) (wid col).
  Proof.
    intros Hc Hg. induction Hg as [|r g Hr _ IH]; intros a Ha; [auto|]. cbn [fold_left]. apply IH.
    pose proof (field_range col r Hc Hr). lia.
  Qed.
  Lemma bot_top col : col_in s col -> botv (sgn col) (wid col) <= topv (sgn col) (wid col).
  Proof. intros Hc. destruct (pow_step (wid col) (wid_ok col Hc)). unfold botv, topv. destruct (sgn col); lia. Qed.

  Lemma total_snoc col g r : total s col (g ++ [r]) = total s col g + field s col r.
  Proof. induction g as [|x g IH]; cbn [app total fold_right] in *; [lia|]. unfold total in *. rewrite IH. lia. Qed.
  Lemma total_range col g : col_in s col -> Forall (row_ok s) g ->
    zlen g * botv (sgn col) (wid col) <= total s col g <= zlen g * topv (sgn col) (wid col).
  Proof.
    intros Hc. induction 1 as [|r g Hr _ IH]; [cbn; lia|]. pose proof (field_range col r Hc Hr).
    cbn [total fold_right]. fold (total s col g). rewrite zlen_cons. lia.
  Qed.
  Lemma range4 col : col_in s col -> -4 <= col_desc s col <= 4 ->
    - 2 ^ 31 <= botv (sgn col) (wid col) /\ topv (sgn col) (wid col) < 2 ^ 32 /\ (col_desc s col < 0 -> topv (sgn col) (wid col) < 2 ^ 31) /\
    (0 < col_desc s col -> botv (sgn col) (wid col) = 0).
  Proof.
    intros Hc H. pose proof (desc_ok s col Hs Hc) as [D _].
    assert (X : wid col = 1 \/ wid col = 2 \/ wid col = 3 \/ wid col = 4) by lia.
    unfold botv, topv. destruct (Z.ltb_spec (col_desc s col) 0); destruct X as [-> | [-> | [-> | ->]]]; cbn; lia.
  Qed.
  Lemma total_exact col g : col_in s col -> -4 <= col_desc s col <= 4 -> Forall (row_ok s) g -> zlen g <= 2 ^ 31 ->
    - 2 ^ 62 <= total s col g < 2 ^ 63 /\ (col_desc s col < 0 -> total s col g < 2 ^ 62) /\ (0 < col_desc s col -> 0 <= total s col g).
  Proof.
    intros Hc H Hg Hn. pose proof (total_range col g Hc Hg) as T. destruct (range4 col Hc H) as (R1 & R2 & R3 & R4).
    pose proof (zlen_nonneg g). pose proof (desc_ok s col Hs Hc) as [D _].
    assert (- 2 ^ 62 <= total s col g < 2 ^ 63) by nia. split; [auto|]. split; intros Hd.
    - specialize (R3 Hd). nia.
    - specialize (R4 Hd). rewrite R4 in T. lia.
  Qed.

  Lemma i64_u64 x : i64 (u64 x) = i64 x.
  Proof. unfold i64, u64, sgn_of. now rewrite Zmod_mod. Qed.
  Lemma u64_add x y : u64 (u64 x + y) = u64 (x + y).
  Proof. unfold u64. apply Zplus_mod_idemp_l. Qed.
  Lemma u32_add x y : u32 (u32 x + y) = u32 (x + y).
  Proof. unfold u32. apply Zplus_mod_idemp_l. Qed.

  Lemma add_col_ok col g r : col_in s col -> -4 <= col_desc s col <= 8 -> Forall (row_ok s) g -> zlen g < 2 ^ 31 -> row_ok s r ->
    add_col s col r (u64 (total s col g)) = Ok (u64 (total s col (g ++ [r]))).
  Proof.
    intros Hc Hd Hg Hn Hr. pose proof (desc_ok s col Hs Hc) as [D0 _]. unfold add_col.
    rewrite desc_size, off_ok by auto. cbn [bind]. rewrite Z.min_l by lia.
    destruct (column_ok s col r Hs Hc Hr) as (C1 & C2 & C3). unfold ldz. rewrite C1. cbn [bind].
    rewrite total_snoc. unfold is_signed. destruct (Z.ltb_spec (col_desc s col) 0) as [Ng|Ps].
    - destruct (Z.gtb_spec (wid col) 4); [lia|].
      destruct (sign_mask (wid col) ltac:(lia)) as [M|M]; cbv zeta in M.
      all: pose proof (le_dec_range _ C3) as Rg; rewrite C2 in Rg.
      all: assert (E2 : 2 * 2 ^ (8 * wid col - 1) = 256 ^ wid col) by
        (change 256 with (2 ^ 8); rewrite <- Z.pow_mul_r by lia; rewrite <- Z.pow_succ_r by lia; f_equal; lia).
      all: rewrite M, (land_top (le_dec (column s col r)) (8 * wid col - 1)) by (auto; lia).
      all: assert (Ef : (if negb (le_dec (column s col r) <? 2 ^ (8 * wid col - 1)) then le_dec (column s col r) - 256 ^ wid col
                         else le_dec (column s col r)) = field s col r) by
        (unfold field, col_value; rewrite C2; replace (col_desc s col <? 0) with true by lia; cbn [andb];
         replace (2 * le_dec (column s col r) >=? 256 ^ wid col) with (negb (le_dec (column s col r) <? 2 ^ (8 * wid col - 1))) by lia;
         reflexivity).
      all: rewrite Ef, i64_u64.
      all: destruct (total_exact col g Hc ltac:(lia) Hg ltac:(lia)) as (T1 & T2 & _); specialize (T2 Ng).
      all: pose proof (field_range col r Hc Hr) as FR; destruct (range4 col Hc ltac:(lia)) as (R1 & _ & R3 & _); specialize (R3 Ng).
      all: rewrite i64_id by lia.
      all: replace ((total s col g + field s col r <? - 2 ^ 63) || (total s col g + field s col r >=? 2 ^ 63)) with false; [reflexivity|].
      all: symmetry; apply orb_false_intro; [apply Z.ltb_ge; lia|rewrite Z.geb_leb; apply Z.leb_gt; lia].
    - rewrite u64_add. unfold field, col_value. replace (col_desc s col <? 0) with false by lia. reflexivity.
  Qed.

  Lemma add_extreme_ok (mn : bool) col r a : col_in s col -> row_ok s r -> botv (sgn col) (wid col) <= a <= topv (sgn col) (wid col) ->
    add_extreme s col (if mn then 1 else 0) r (le_enc (Z.to_nat (wid col)) a) =
    Ok (le_enc (Z.to_nat (wid col)) (if mn then Z.min a (field s col r) else Z.max a (field s col r))).
  Proof.
    intros Hc Hr Ha. pose proof (wid_ok col Hc) as W. unfold add_extreme. rewrite desc_size, off_ok by auto. cbn [bind].
    destruct (column_ok s col r Hs Hc Hr) as (C1 & C2 & C3). rewrite C1. cbn [bind].
    rewrite ld_all by apply le_enc_zlen. cbn [bind].
    rewrite (op_test_compare s col) by (auto using le_enc_bytes; rewrite le_enc_zlen; lia).
    rewrite col_value_enc by (rewrite ?Z2Nat.id; lia). change (col_value (sgn col) (column s col r)) with (field s col r).
    assert (Ev : le_enc (Z.to_nat (wid col)) (field s col r) = column s col r)
      by (apply enc_col_value; auto; unfold zlen in C2; lia).
    destruct mn; cbn [op_test].
    - destruct (Z.ltb_spec (field s col r) a).
      + rewrite st_all by (rewrite le_enc_zlen; lia). rewrite Z.min_r by lia. now rewrite Ev.
      + now rewrite Z.min_l by lia.
    - destruct (Z.ltb_spec a (field s col r)).
      + rewrite st_all by (rewrite le_enc_zlen; lia). rewrite Z.max_r by lia. now rewrite Ev.
      + now rewrite Z.max_l by lia.
  Qed.

  Lemma reset_ok f : afun_ok s (akind f) -> room f ->
    exists f', agg_reset s f = Ok f' /\ akind f' = akind f /\ room f' /\ sums [] f'.
  Proof.
    intros Ha Hr. destruct f; cbn [agg_reset akind afun_ok room] in *.
    - eexists. split; [reflexivity|]. repeat split.
    - destruct Ha as [Hc Hd]. rewrite desc_size by auto. eexists. split; [reflexivity|]. repeat split.
    - destruct Ha as [Hc ->]. rewrite desc_size by auto. cbn [bind]. pose proof (wid_ok col Hc).
      rewrite (set_extreme_ok true) by auto. cbn [bind]. eexists. split; [reflexivity|].
      split; [reflexivity|]. cbn [room sums fold_left]. rewrite le_enc_zlen. split; [lia|]. reflexivity.
    - destruct Ha as [Hc ->]. rewrite desc_size by auto. cbn [bind]. pose proof (wid_ok col Hc).
      rewrite (set_extreme_ok false) by auto. cbn [bind]. eexists. split; [reflexivity|].
      split; [reflexivity|]. cbn [room sums fold_left]. rewrite le_enc_zlen. split; [lia|]. reflexivity.
    - destruct Ha as (Hc & _). rewrite desc_size by auto. eexists. split; [reflexivity|]. split; [reflexivity|]. split; [exact Hr|]. repeat split.
  Qed.

  Lemma add_ok f g r : afun_ok s (akind f) -> Forall (row_ok s) g -> zlen g < 2 ^ 31 -> row_ok s r -> sums g f -> room f ->
    exists f', agg_add s r f = Ok f' /\ akind f' = akind f /\ room f' /\ sums (g ++ [r]) f'.
  Proof.
    intros Ha Hg Hn Hr Hs' Hm. destruct f; cbn [agg_add akind afun_ok room sums] in *.
    - eexists. split; [reflexivity|]. split; [reflexivity|]. split; [exact I|]. cbn [sums]. subst. rewrite u32_add, zlen_app. reflexivity.
    - destruct Ha as [Hc Hd]. subst acc. rewrite add_col_ok by auto. cbn [bind]. eexists. split; [reflexivity|]. repeat split.
    - destruct Ha as [Hc ->]. pose proof (bot_top col Hc). pose proof (wid_ok col Hc).
      pose proof (min_range col g Hc Hg (topv (sgn col) (wid col)) ltac:(lia)) as R. rewrite Hs'.
      rewrite (add_extreme_ok true) by auto. cbn [bind]. eexists. split; [reflexivity|]. split; [reflexivity|].
      cbn [room sums]. rewrite le_enc_zlen. split; [lia|]. rewrite fold_left_app. reflexivity.
    - destruct Ha as [Hc ->]. pose proof (bot_top col Hc). pose proof (wid_ok col Hc).
      pose proof (max_range col g Hc Hg (botv (sgn col) (wid col)) ltac:(lia)) as R. rewrite Hs'.
      rewrite (add_extreme_ok false) by auto. cbn [bind]. eexists. split; [reflexivity|]. split; [reflexivity|].
      cbn [room sums]. rewrite le_enc_zlen. split; [lia|]. rewrite fold_left_app. reflexivity.
    - destruct Ha as (Hc & Hd & _). destruct Hs' as (-> & -> & ->). rewrite add_col_ok by (auto; lia). cbn [bind].
      eexists. split; [reflexivity|]. split; [reflexivity|]. split; [exact Hm|]. cbn [sums].
      rewrite u32_add, zlen_app. auto.
  Qed.

  Lemma least_top col g : col_in s col -> Forall (row_ok s) g -> g <> [] ->
    fold_left (fun a r => Z.min a (field s col r)) g (topv (sgn col) (wid col)) = least s col g.
  Proof.
    intros Hc Hg Hn. destruct Hg as [|r g Hr Hg]; [congruence|]. cbn [fold_left least]. pose proof (field_range col r Hc Hr).
    now rewrite Z.min_r by lia.
  Qed.
  Lemma greatest_bot col g : col_in s col -> Forall (row_ok s) g -> g <> [] ->
    fold_left (fun a r => Z.max a (field s col r)) g (botv (sgn col) (wid col)) = greatest s col g.
  Proof.
    intros Hc Hg Hn. destruct Hg as [|r g Hr Hg]; [congruence|]. cbn [fold_left greatest]. pose proof (field_range col r Hc Hr).
    now rewrite Z.max_r by lia.
  Qed.

  Lemma afun_col_len f g : afun_ok s f -> zlen (afun_col s f g) = Z.abs (afun_desc f) /\ bytes (afun_col s f g).
  Proof.
    intros H. destruct f; cbn [afun_col afun_desc afun_ok] in *; rewrite ?le_enc_zlen; try (split; [lia|apply le_enc_bytes]).
    destruct H as (_ & _ & Hf). destruct (Hf (sgn col) (total s col g) (zlen g)) as [B1 B2]. split.
    - unfold zlen in *. rewrite firstn_length. unfold float_size in *. destruct (size <=? 4); lia.
    - apply bytes_firstn. exact B1.
  Qed.

  Lemma compute_ok f g outs i d x : afun_ok s (akind f) -> Forall (row_ok s) g -> g <> [] -> zlen g <= 2 ^ 31 -> sums g f -> room f ->
    schema_ok outs -> col_in outs i -> col_desc outs i = afun_desc (akind f) -> coff outs i = zlen x ->
    zlen x + Z.abs (afun_desc (akind f)) <= zlen d ->
    agg_compute outs i (x ++ skipn (length x) d) f =
    Ok ((x ++ afun_col s (akind f) g) ++ skipn (length (x ++ afun_col s (akind f) g)) d).
  Proof.
    intros Ha Hg Hn Hz Hs' Hm Ho Hi Ed Eo Hd. unfold agg_compute. rewrite off_ok by auto. cbn [bind]. rewrite Eo.
    destruct (afun_col_len (akind f) g Ha) as [L1 L2].
    assert (E : afun_col s (akind f) g =
      match f with
      | ACount n => le_enc 4 n
      | ASum _ acc => le_enc 8 acc
      | AMin _ _ cur | AMax _ _ cur => cur
      | AAvg _ sz fl sum cnt sg => firstn (if sz =? 8 then 8 else 4) (fl sg (if sg then i64 sum else sum) cnt)
      end).
    { destruct f; cbn [akind afun_col sums afun_ok] in *.
      - subst. symmetry. apply (le_enc_mod 4).
      - subst. symmetry. apply (le_enc_mod 8).
      - destruct Ha as [Hc ->]. rewrite Hs', least_top by auto. reflexivity.
      - destruct Ha as [Hc ->]. rewrite Hs', greatest_bot by auto. reflexivity.
      - destruct Ha as (Hc & Hcd & Hf). cbn [room] in Hm. destruct Hs' as (-> & -> & ->).
        destruct (total_exact col g Hc Hcd Hg Hz) as (T1 & T2 & T3). pose proof (zlen_nonneg g).
        rewrite (u32_id (zlen g)) by lia. rewrite i64_u64, i64_id by lia.
        replace (if sgn col then total s col g else u64 (total s col g)) with (total s col g).
        + f_equal. destruct Hm as [-> | ->]; reflexivity.
        + destruct (Z.ltb_spec (col_desc s col) 0); [auto|]. pose proof (desc_ok s col Hs Hc). rewrite u64_id; lia. }
    assert (S : st (x ++ skipn (length x) d) (zlen x) (afun_col s (akind f) g) =
       Ok ((x ++ afun_col s (akind f) g) ++ skipn (length (x ++ afun_col s (akind f) g)) d)) by (apply st_next; lia).
    rewrite E in S. destruct f; rewrite E; try exact S.
    - rewrite desc_size by auto. cbn [bind]. rewrite ld_all; [exact S|]. cbn [room akind afun_desc] in *. rewrite Ed. lia.
    - rewrite desc_size by auto. cbn [bind]. rewrite ld_all; [exact S|]. cbn [room akind afun_desc] in *. rewrite Ed. lia.
  Qed.

  (** ** The arrays of functions *)
  Lemma each_reset fns : Forall (afun_ok s) (map akind fns) -> Forall room fns ->
    exists fns', each_fn (agg_reset s) fns = Ok fns' /\ map akind fns' = map akind fns /\ Forall room fns' /\ Forall (sums []) fns'.
  Proof.
    induction fns as [|f fns IH]; intros Hf R.
    - exists []. repeat split; constructor.
    - cbn [map] in Hf. inversion Hf as [|? ? H1 H2]; inversion R as [|? ? R1 R2]; subst.
      destruct (reset_ok f H1 R1) as (f' & E1 & E2 & E3 & E4).
      destruct (IH H2 R2) as (fns' & A1 & A2 & A3 & A4).
      exists (f' :: fns'). cbn [each_fn]. rewrite E1. cbn [bind]. rewrite A1. cbn [bind]. split; [reflexivity|].
      split; [cbn [map]; congruence|]. split; constructor; auto.
  Qed.
  Lemma each_add fns g r : Forall (afun_ok s) (map akind fns) -> Forall room fns -> Forall (sums g) fns ->
    Forall (row_ok s) g -> zlen g < 2 ^ 31 -> row_ok s r ->
    exists fns', each_fn (agg_add s r) fns = Ok fns' /\ map akind fns' = map akind fns /\ Forall room fns' /\ Forall (sums (g ++ [r])) fns'.
  Proof.
    intros Hf R Su Hg Hn Hr. induction fns as [|f fns IH].
    - exists []. repeat split; constructor.
    - cbn [map] in Hf. inversion Hf as [|? ? H1 H2]; inversion R as [|? ? R1 R2]; inversion Su as [|? ? S1 S2]; subst.
      destruct (add_ok f g r H1 Hg Hn Hr S1 R1) as (f' & E1 & E2 & E3 & E4).
      destruct (IH H2 R2 S2) as (fns' & A1 & A2 & A3 & A4).
      exists (f' :: fns'). cbn [each_fn]. rewrite E1. cbn [bind]. rewrite A1. cbn [bind]. split; [reflexivity|].
      split; [cbn [map]; congruence|]. split; constructor; auto.
  Qed.

  Lemma agg_len g l : Forall (afun_ok s) l -> zlen (aggregated s l g) = widths (map afun_desc l) /\ bytes (aggregated s l g).
  Proof.
    unfold aggregated. induction 1 as [|f l H _ [IH1 IH2]]; [split; [reflexivity|apply Forall_nil]|].
    cbn [flat_map map]. destruct (afun_col_len f g H) as [L1 L2].
    rewrite zlen_app, widths_cons. split; [lia|]. apply Forall_app; auto.
  Qed.

  Variable fs : list afun.
  Hypothesis Hf : Forall (afun_ok s) fs.
  Let outs := map afun_desc fs.
  Hypothesis Ho : schema_ok outs.

  Definition fns_ok (fns : list aggf) : Prop := map akind fns = fs /\ Forall room fns.
  Definition fns_sum (g : list (list Z)) (fns : list aggf) : Prop := fns_ok fns /\ Forall (sums g) fns.

  Lemma fns_reset fns : fns_ok fns -> exists fns', each_fn (agg_reset s) fns = Ok fns' /\ fns_sum [] fns'.
  Proof.
    intros [E R]. destruct (each_reset fns) as (fns' & A1 & A2 & A3 & A4); [now rewrite E|auto|].
    exists fns'. split; [auto|]. split; [split; [congruence|auto]|auto].
  Qed.
  Lemma fns_add fns g r : fns_sum g fns -> Forall (row_ok s) g -> zlen g < 2 ^ 31 -> row_ok s r ->
    exists fns', each_fn (agg_add s r) fns = Ok fns' /\ fns_sum (g ++ [r]) fns'.
  Proof.
    intros [[E R] Su] Hg Hn Hr. destruct (each_add fns g r) as (fns' & A1 & A2 & A3 & A4); auto; [now rewrite E|].
    exists fns'. split; [auto|]. split; [split; [congruence|auto]|auto].
  Qed.

  Lemma aggregated_len g : zlen (aggregated s fs g) = widths outs /\ bytes (aggregated s fs g).
  Proof.
    apply agg_len. exact Hf.
  Qed.

  Lemma fns_compute g d : Forall (row_ok s) g -> g <> [] -> zlen g <= 2 ^ 31 -> zlen d = widths outs ->
    forall fns done, map akind fns = skipn (length done) fs -> Forall room fns -> Forall (sums g) fns ->
    firstn (length done) fs = done ->
    compute_fns outs (zlen done) fns (aggregated s done g ++ skipn (length (aggregated s done g)) d) =
    Ok (aggregated s fs g).
  Proof.
    intros Hg Hn Hz Hd. induction fns as [|f fns IH]; intros done E R Su Hp.
    - cbn [compute_fns]. assert (done = fs) as ->.
      { rewrite <- (firstn_skipn (length done) fs), Hp, <- E. now rewrite app_nil_r. }
      destruct (aggregated_len g) as [L1 L2]. rewrite skipn_all2 by (unfold zlen in *; lia). now rewrite app_nil_r.
    - cbn [map] in E. inversion R as [|? ? R1 R2]; inversion Su as [|? ? S1 S2]; subst.
      assert (Ef : fs = done ++ akind f :: map akind fns).
      { rewrite <- (firstn_skipn (length done) fs), Hp. f_equal. auto. }
      assert (Hd' : Forall (afun_ok s) done) by (rewrite Ef in Hf; apply Forall_app in Hf; tauto).
      assert (Hk : afun_ok s (akind f)).
      { rewrite Ef in Hf; apply Forall_app in Hf as [_ X]; inversion X; auto. }
      assert (Lx : zlen (aggregated s done g) = widths (map afun_desc done)).
      { apply agg_len. exact Hd'. }
      assert (Eo : outs = map afun_desc done ++ afun_desc (akind f) :: map afun_desc (map akind fns)).
      { unfold outs. rewrite Ef at 1. rewrite map_app. reflexivity. }
      assert (Wo : widths outs = widths (map afun_desc done) + (Z.abs (afun_desc (akind f)) + widths (map afun_desc (map akind fns)))).
      { rewrite Eo, widths_app, widths_cons. reflexivity. }
      pose proof (widths_nonneg (map afun_desc (map akind fns))).
      cbn [compute_fns].
      rewrite (compute_ok f g outs (zlen done) d (aggregated s done g)); auto.
      2:{ unfold col_in, zlen. rewrite Eo, app_length, map_length. cbn [length]. lia. }
      2:{ unfold col_desc. rewrite Eo, app_nth2 by (rewrite map_length; unfold zlen; lia). rewrite map_length.
          replace (Z.to_nat (zlen done) - length done)%nat with 0%nat by (unfold zlen; lia). reflexivity. }
      2:{ unfold coff. rewrite Lx. f_equal. rewrite Eo, firstn_app, map_length.
          replace (Z.to_nat (zlen done) - length done)%nat with 0%nat by (unfold zlen; lia). cbn [firstn].
          rewrite app_nil_r. apply firstn_all2. rewrite map_length. unfold zlen. lia. }
      2:{ rewrite Lx. lia. }
      cbn [bind]. specialize (IH (done ++ [akind f])).
      assert (Ea : aggregated s (done ++ [akind f]) g = aggregated s done g ++ afun_col s (akind f) g).
      { unfold aggregated. rewrite flat_map_app. cbn [flat_map]. now rewrite app_nil_r. }
      rewrite Ea in IH. rewrite zlen_app in IH. change (zlen [akind f]) with 1 in IH. apply IH; auto.
      + rewrite app_length. cbn [length]. rewrite Ef, skipn_app, skipn_all2 by lia. cbn [app].
        replace (length done + 1 - length done)%nat with 1%nat by lia. reflexivity.
      + rewrite app_length. cbn [length]. rewrite Ef, firstn_app, firstn_all2 by lia.
        replace (length done + 1 - length done)%nat with 1%nat by lia. reflexivity.
  Qed.
End Fns.

(** * The operator *)
Section AggOp.
  Variables (EI : env -> Prop) (F : nat) (sc : list Z) (kp : bool) (grp : list Z -> list Z -> bool) (fs : list afun).
  Hypothesis Hs : schema_ok sc.
  Hypothesis Hf : Forall (afun_ok sc) fs.
  Let outs := map afun_desc fs.
  Hypothesis Ho : schema_ok outs.

  Fixpoint take_run (l : list Z) (rs : list (list Z)) : list (list Z) * list (list Z) :=
    match rs with
    | [] => ([], [])
    | r :: rs' => if grp l r then let '(a, b) := take_run r rs' in (r :: a, b) else ([], rs)
    end.
  Lemma runs_take rs : forall l, runs grp (l :: rs) = (l :: fst (take_run l rs)) :: runs grp (snd (take_run l rs)).
  Proof.
    induction rs as [|r rs IH]; intros l; [reflexivity|].
    change (runs grp (l :: r :: rs)) with
      (match runs grp (r :: rs) with
       | (x :: g) :: gs => if grp l x then (l :: x :: g) :: gs else [l] :: (x :: g) :: gs
       | _ => [[l]] end).
    cbn [take_run]. destruct (grp l r) eqn:E.
    - rewrite (IH r), E. destruct (take_run r rs) as [a b]. reflexivity.
    - cbn [fst snd]. rewrite (IH r), E. reflexivity.
  Qed.
  Lemma take_len rs : forall l, (length (snd (take_run l rs)) <= length rs)%nat /\
    (length (fst (take_run l rs)) + length (snd (take_run l rs)) = length rs)%nat.
  Proof.
    induction rs as [|r rs IH]; intros l; [cbn; lia|]. cbn [take_run]. destruct (grp l r).
    - specialize (IH r). destruct (take_run r rs) as [a b]. cbn [fst snd length] in *. lia.
    - cbn [fst snd length]. lia.
  Qed.

  Lemma agg_loop_ok : forall rs i l g fns e f f' k, yields EI F sc kp (S k) i rs -> fns_sum sc fs g fns ->
    Forall (row_ok sc) g -> row_ok sc l -> zlen g + zlen rs <= 2 ^ 31 -> EI e -> (F <= f')%nat -> (length rs < f)%nat ->
    let '(a, b) := take_run l rs in
    exists e' i' fns' l', agg_loop (op_next f') f e i grp sc fns l true true =
        Ok (e', i', fns', l', true, true, match b with [] => false | _ => true end) /\
      EI e' /\ fns_sum sc fs (g ++ a) fns' /\ Forall (row_ok sc) (g ++ a) /\ row_ok sc l' /\
      match b with [] => ended EI F sc kp k i' | r :: b' => op_buf i' = Some r /\ yields EI F sc kp (S k) i' b' end.
  Proof.
    induction rs as [|r rs IH]; intros i l g fns e f f' k Y Su Hg Hl Hz He Hf' Hn; destruct f as [|f]; try (cbn [length] in Hn; lia).
    - cbn [take_run]. destruct Y as [_ H]. destruct (H e f' He Hf') as (e' & i' & E & A1 & _ & A2).
      exists e', i', fns, l. cbn [agg_loop]. rewrite E. cbn [bind negb]. rewrite app_nil_r. auto 7.
    - pose proof (yields_row EI sc F kp (S k) i r rs e f' He Hf' Y) as R.
      destruct Y as [_ H]. destruct (H e f' He Hf') as (e' & i' & E & A1 & A2 & A3).
      cbn [take_run agg_loop]. rewrite E. cbn [bind negb]. rewrite A2. cbn [deref bind negb orb].
      rewrite zlen_cons in Hz. pose proof (zlen_nonneg rs).
      destruct (grp l r).
      + destruct (fns_add sc Hs fs Hf fns g r Su Hg ltac:(lia) R) as (fns1 & E1 & Su1). rewrite E1. cbn [bind].
        rewrite size_schema by auto. rewrite ld_all by (destruct R; pose proof (widths_nonneg sc); lia). cbn [bind].
        rewrite st_all by (destruct R, Hl; lia). cbn [bind].
        specialize (IH i' r (g ++ [r]) fns1 e' f f' k A3 Su1). destruct (take_run r rs) as [a b].
        destruct IH as (e2 & i2 & fns2 & l2 & B1 & B2 & B3 & B4 & B5); auto.
        * apply Forall_app; auto.
        * rewrite zlen_app. change (zlen [r]) with 1. lia.
        * cbn [length] in Hn. lia.
        * exists e2, i2, fns2, l2. rewrite <- app_assoc in B3, B4. cbn [app] in B3, B4. auto 7.
      + exists e', i', fns, l. rewrite app_nil_r. auto 7.
  Qed.

  Definition agg_finish (b : list Z) (x : env * op * list aggf * list Z * bool * bool * bool) : res (env * op * bool) :=
    let '(e, i, fns, lastb, usable, inGroup, more) := x in
    if negb inGroup then Ok (e, OAgg grp fns i (Some outs) (Some b) (Some lastb) usable, false)
    else
      dst <- compute_fns outs 0 fns b ;;
      src <- deref (op_buf i) ;;
      bs <- ld src 0 (Z.to_nat (widths sc)) ;;
      lastb <- st lastb 0 bs ;;
      Ok (e, OAgg grp fns i (Some outs) (Some dst) (Some lastb) more, true).
  Lemma agg_unfold f e fns i b lb u : shaped sc i ->
    op_next (S f) e (OAgg grp fns i (Some outs) (Some b) (Some lb) u) =
    (fns <- each_fn (agg_reset sc) fns ;;
     fns <- (if u then each_fn (agg_add sc lb) fns else Ok fns) ;;
     x <- agg_loop (op_next f) f e i grp sc fns lb u u ;; agg_finish b x).
  Proof.
    intros [E _]. cbn [op_next]. rewrite E. cbn [deref bind].
    destruct (each_fn (agg_reset sc) fns) as [fns1| |]; cbn [bind]; auto.
    destruct (if u then each_fn (agg_add sc lb) fns1 else Ok fns1) as [fns2| |]; cbn [bind]; auto.
    destruct (agg_loop _ _ _ _ _ _ _ _ _ _) as [[[[[[[e1 i1] fns3] l1] u1] g1] m1]| |]; cbn [bind]; auto.
    unfold agg_finish. destruct (negb g1); auto. now rewrite size_schema.
  Qed.

  (** From inside a run to the end of the call. *)
  Lemma agg_rest rs i l fns e f f' k b : yields EI F sc kp (S k) i rs -> fns_sum sc fs [l] fns -> row_ok sc l -> row_ok outs b ->
    1 + zlen rs <= 2 ^ 31 -> EI e -> (F <= f')%nat -> (length rs < f)%nat ->
    exists e' i' fns' l', (x <- agg_loop (op_next f') f e i grp sc fns l true true ;; agg_finish b x) =
        Ok (e', OAgg grp fns' i' (Some outs) (Some (aggregated sc fs (l :: fst (take_run l rs)))) (Some l')
                  (match snd (take_run l rs) with [] => false | _ => true end), true) /\
      EI e' /\ fns_ok fs fns' /\ row_ok sc l' /\ row_ok outs (aggregated sc fs (l :: fst (take_run l rs))) /\
      match snd (take_run l rs) with [] => ended EI F sc kp k i' | r :: b' => l' = r /\ yields EI F sc kp (S k) i' b' end.
  Proof.
    intros Y Su Hl Hb Hz He Hf' Hn. pose proof (take_len rs l) as [_ TL].
    pose proof (agg_loop_ok rs i l [l] fns e f f' k Y Su (Forall_cons _ Hl (Forall_nil _)) Hl Hz He Hf' Hn) as X.
    destruct (take_run l rs) as [a rest] eqn:ET. cbn [fst snd] in *.
    destruct X as (e' & i' & fns' & l' & E & A1 & A2 & A3 & A4 & A5). rewrite E. cbn [bind agg_finish negb].
    destruct A2 as [A2 A6]. cbn [app] in A3, A6.
    pose proof (fns_compute sc Hs fs Hf Ho (l :: a) b A3) as P.
    destruct Hb as [Hb1 Hb2].
    specialize (P ltac:(discriminate) ltac:(rewrite zlen_cons; unfold zlen in *; lia) Hb2 fns' [] (proj1 A2) (proj2 A2) A6 eq_refl).
    cbn [aggregated flat_map app length skipn] in P. change (zlen (@nil afun)) with 0 in P. fold outs in P. rewrite P. cbn [bind].
    assert (Sh : exists src, op_buf i' = Some src /\ row_ok sc src /\ match rest with [] => True | r :: _ => src = r end).
    { destruct rest as [|r rest].
      - apply ended_shaped in A5 as (_ & src & S1 & S2). eauto.
      - destruct A5 as [S1 Y']. exists r. apply yields_shaped in Y' as (_ & src & S2 & S3). split; [auto|]. split; [congruence|auto]. }
    destruct Sh as (src & S1 & S2 & S3). rewrite S1. cbn [deref bind]. destruct S2 as [S2 S4]. destruct A4 as [A4 A7].
    rewrite ld_all by (pose proof (widths_nonneg sc); lia). cbn [bind]. rewrite st_all by lia. cbn [bind].
    eexists e', i', fns', src. split; [reflexivity|]. split; [auto|]. split; [auto|]. split; [split; auto|].
    split. { destruct (agg_len sc (l :: a) fs Hf). split; auto. }
    destruct rest as [|r rest]; [auto|]. destruct A5. auto.
  Qed.

  Lemma agg_ended F' : (F < F')%nat -> (2 <= F')%nat -> forall k i fns b lb, ended EI F sc kp k i -> fns_ok fs fns -> row_ok outs b -> row_ok sc lb ->
    ended EI F' outs true k (OAgg grp fns i (Some outs) (Some b) (Some lb) false).
  Proof.
    intros HF HF2. induction k as [|k IH]; intros i fns b lb Y Hn Hb Hl.
    - split; [|exact I]. split; [reflexivity|]. exists b. auto.
    - split; [split; [reflexivity|exists b; auto]|]. intros e f He Hf'. destruct f as [|f]; [lia|].
      rewrite agg_unfold by (eapply ended_shaped; eauto).
      destruct (fns_reset sc Hs fs Hf fns Hn) as (fns1 & E1 & Su1). rewrite E1. cbn [bind].
      destruct f as [|f]; [lia|].
      destruct Y as [_ H]. destruct (H e (S f) He ltac:(lia)) as (e' & i' & E & A1 & _ & A2).
      cbn [agg_loop]. rewrite E. cbn [bind negb agg_finish]. eexists _, _. split; [reflexivity|].
      split; [auto|]. split; [auto|]. apply IH; auto. apply Su1.
  Qed.

  Lemma agg_yields F' k : (F < F')%nat -> forall n rs, (length rs <= n)%nat -> (S (length rs) < pred F')%nat -> 1 + zlen rs <= 2 ^ 31 ->
    forall i fns b lb, yields EI F sc kp (S k) i rs -> fns_ok fs fns -> row_ok outs b -> row_ok sc lb ->
    yields EI F' outs true k (OAgg grp fns i (Some outs) (Some b) (Some lb) true) (map (aggregated sc fs) (runs grp (lb :: rs))).
  Proof.
    intros HF. induction n as [|n IH]; intros rs Hlen HF' Hz i fns b lb Y Hn Hb Hl; rewrite runs_take; cbn [map].
    all: split; [split; [reflexivity|exists b; auto]|]; intros e f He Hf'; destruct f as [|f]; [lia|].
    all: rewrite agg_unfold by (eapply yields_shaped; eauto).
    all: destruct (fns_reset sc Hs fs Hf fns Hn) as (fns1 & E1 & Su1); rewrite E1; cbn [bind].
    all: destruct (fns_add sc Hs fs Hf fns1 [] lb Su1 (Forall_nil _) eq_refl Hl) as (fns2 & E2 & Su2); rewrite E2; cbn [bind].
    all: cbn [app] in Su2.
    all: destruct (agg_rest rs i lb fns2 e f f k b Y Su2 Hl Hb Hz He ltac:(lia) ltac:(lia)) as
      (e' & i' & fns' & l' & E & A1 & A2 & A3 & A4 & A5); rewrite E.
    all: eexists _, _; split; [reflexivity|]; split; [auto|]; split; [reflexivity|].
    all: pose proof (take_len rs lb) as [TL1 TL2].
    all: destruct (snd (take_run lb rs)) as [|r rest] eqn:ER; [apply agg_ended; auto; lia|].
    - cbn [length] in *. lia.
    - destruct A5 as [-> A5]. cbn [length] in *. apply IH; auto; unfold zlen in *; lia.
  Qed.

  Lemma agg_starts F' k rs i fns b lb : (F < F')%nat -> (S (length rs) < pred F')%nat -> zlen rs <= 2 ^ 31 ->
    yields EI F sc kp (S k) i rs -> fns_ok fs fns -> row_ok outs b -> row_ok sc lb ->
    yields EI F' outs true k (OAgg grp fns i (Some outs) (Some b) (Some lb) false) (map (aggregated sc fs) (runs grp rs)).
  Proof.
    intros HF HF' Hz Y Hn Hb Hl. destruct rs as [|r rs].
    { apply agg_ended; auto; [lia|]. eapply ended_mono; [| |  |exact Y]; auto. }
    rewrite runs_take. cbn [map]. split; [split; [reflexivity|exists b; auto]|]. intros e f He Hf'. destruct f as [|f]; [lia|].
    pose proof (yields_row EI sc F kp (S k) i r rs e f He ltac:(lia) Y) as R. cbn [length] in HF'.
    rewrite agg_unfold by (eapply yields_shaped; eauto).
    destruct (fns_reset sc Hs fs Hf fns Hn) as (fns1 & E1 & Su1). rewrite E1. cbn [bind].
    destruct f as [|f]; [lia|].
    destruct Y as [_ H]. destruct (H e (S f) He ltac:(lia)) as (e1 & i1 & E & B1 & B2 & B3).
    cbn [agg_loop]. rewrite E. cbn [bind negb]. rewrite B2. cbn [deref bind negb orb].
    destruct (fns_add sc Hs fs Hf fns1 [] r Su1 (Forall_nil _) eq_refl R) as (fns2 & E2 & Su2). rewrite E2. cbn [bind app] in *.
    rewrite size_schema by auto. rewrite ld_all by (destruct R; pose proof (widths_nonneg sc); lia). cbn [bind].
    rewrite st_all by (destruct R, Hl; lia). cbn [bind]. rewrite zlen_cons in Hz.
    destruct (agg_rest rs i1 r fns2 e1 f (S f) k b B3 Su2 R Hb ltac:(lia) B1 ltac:(lia) ltac:(lia)) as
      (e' & i' & fns' & l' & E' & A1 & A2 & A3 & A4 & A5). rewrite E'.
    eexists _, _; split; [reflexivity|]; split; [auto|]; split; [reflexivity|].
    pose proof (take_len rs r) as [TL1 TL2].
    destruct (snd (take_run r rs)) as [|r' rest] eqn:ER; [apply agg_ended; auto; lia|].
    destruct A5 as [-> A5]. cbn [length] in *. apply (agg_yields F' k HF (length rest)); auto; unfold zlen in *; lia.
  Qed.
End AggOp.

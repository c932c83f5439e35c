(** Proofs about the bitmap functions and comparators of Util.v. *)
From Verif Require Import Base BaseFacts Util DB SpecUtil.
Open Scope Z_scope.

(** * Comparators *)
Lemma sign3_compare a b : sign3 (a - b) = match a ?= b with Lt => -1 | Eq => 0 | Gt => 1 end.
Proof.
  unfold sign3. destruct (Z.compare_spec a b).
  - subst. rewrite Z.sub_diag. reflexivity.
  - destruct (Z.ltb_spec (a - b) 0); lia.
  - destruct (Z.ltb_spec (a - b) 0); try lia. destruct (Z.gtb_spec (a - b) 0); lia.
Qed.

Lemma int32Comparator_order a b : 0 <= a < 2 ^ 31 -> 0 <= b < 2 ^ 31 ->
  int32Comparator a b = Ok (match a ?= b with Lt => -1 | Eq => 0 | Gt => 1 end).
Proof.
  intros. unfold int32Comparator. rewrite !i32_id by lia.
  rewrite <- sign3_compare.
  destruct (Z.ltb_spec (a - b) (- 2 ^ 31)); try lia.
  destruct (Z.geb_spec (a - b) (2 ^ 31)); try lia. reflexivity.
Qed.
Lemma int64Comparator_order a b : 0 <= a < 2 ^ 63 -> 0 <= b < 2 ^ 63 ->
  int64Comparator a b = Ok (match a ?= b with Lt => -1 | Eq => 0 | Gt => 1 end).
Proof.
  intros. unfold int64Comparator. rewrite !i64_id by lia.
  rewrite <- sign3_compare.
  destruct (Z.ltb_spec (a - b) (- 2 ^ 63)); try lia.
  destruct (Z.geb_spec (a - b) (2 ^ 63)); try lia. reflexivity.
Qed.
Lemma int32Comparator_wrap_order a b : 0 <= a < 2 ^ 31 -> 0 <= b < 2 ^ 31 ->
  int32Comparator_wrap a b = match a ?= b with Lt => -1 | Eq => 0 | Gt => 1 end.
Proof.
  intros. unfold int32Comparator_wrap. rewrite !i32_id by (rewrite ?i32_id; lia).
  apply sign3_compare.
Qed.
Lemma int64Comparator_wrap_order a b : 0 <= a < 2 ^ 63 -> 0 <= b < 2 ^ 63 ->
  int64Comparator_wrap a b = match a ?= b with Lt => -1 | Eq => 0 | Gt => 1 end.
Proof.
  intros. unfold int64Comparator_wrap. rewrite !i64_id by (rewrite ?i64_id; lia).
  apply sign3_compare.
Qed.

(** * Bits *)
Lemma testbit_pow2 j i : 0 <= j -> 0 <= i -> Z.testbit (2 ^ j) i = (i =? j).
Proof. intros. rewrite Z.pow2_bits_eqb; auto. apply Z.eqb_sym. Qed.

Lemma testbit_pred j i : 0 <= j -> 0 <= i -> Z.testbit (2 ^ j - 1) i = (i <? j).
Proof.
  intros. rewrite Z.sub_1_r, <- Z.ones_equiv.
  destruct (Z.ltb_spec i j).
  - apply Z.ones_spec_low; lia.
  - apply Z.ones_spec_high; lia.
Qed.

Lemma testbit_lnot_pred m j i : 0 <= j < m -> 0 <= i < m ->
  Z.testbit ((Z.lnot ((2 ^ j - 1) mod 2 ^ m)) mod 2 ^ m) i = (j <=? i).
Proof.
  intros. rewrite Z.mod_pow2_bits_low by lia. rewrite Z.lnot_spec by lia.
  rewrite Z.mod_pow2_bits_low by lia. rewrite testbit_pred by lia.
  destruct (Z.ltb_spec i j), (Z.leb_spec j i); simpl; auto; lia.
Qed.

Lemma testbit_lor_pred m j i : 0 <= j < m -> 0 <= i < m ->
  Z.testbit (Z.lor (2 ^ j) ((2 ^ j - 1) mod 2 ^ m)) i = (i <=? j).
Proof.
  intros. rewrite Z.lor_spec, Z.mod_pow2_bits_low by lia.
  rewrite testbit_pow2, testbit_pred by lia. lia.
Qed.

(** [le_enc] keeps the low bits. *)
Lemma pow256 n : 256 ^ Z.of_nat n = 2 ^ (8 * Z.of_nat n).
Proof. rewrite Z.pow_mul_r by lia. reflexivity. Qed.
Lemma testbit_le_dec_enc n z i : 0 <= i < 8 * Z.of_nat n ->
  Z.testbit (le_dec (le_enc n z)) i = Z.testbit z i.
Proof. intros. rewrite le_dec_enc_mod, pow256. apply Z.mod_pow2_bits_low; lia. Qed.

(** Two bitmaps (byte strings) share a bit. *)
Definition share_bit (a b : list Z) : Prop :=
  exists i, 0 <= i /\ Z.testbit (le_dec a) i = true /\ Z.testbit (le_dec b) i = true.

Lemma land_pos x y i : 0 <= x -> 0 <= i -> Z.testbit x i = true -> Z.testbit y i = true ->
  1 <= Z.land x y.
Proof.
  intros Hx Hi H1 H2.
  assert (0 <= Z.land x y) by (apply Z.land_nonneg; auto).
  assert (Z.land x y <> 0); [|lia].
  intros E. assert (F : Z.testbit (Z.land x y) i = false) by (rewrite E; apply Z.bits_0).
  rewrite Z.land_spec, H1, H2 in F. discriminate.
Qed.

Lemma testbit_cons b l i : 0 <= b < 256 -> 0 <= i ->
  Z.testbit (b + 256 * le_dec l) i =
  if i <? 8 then Z.testbit b i else Z.testbit (le_dec l) (i - 8).
Proof.
  intros Hb Hi. destruct (Z.ltb_spec i 8).
  - rewrite <- (Z.mod_pow2_bits_low (b + 256 * le_dec l) 8) by lia.
    change (2 ^ 8) with 256. rewrite Z.mul_comm, Z_mod_plus_full, Z.mod_small by lia. auto.
  - replace i with ((i - 8) + 8) at 1 by lia. rewrite <- Z.div_pow2_bits by lia.
    change (2 ^ 8) with 256. rewrite Z.mul_comm, Z_div_plus_full by lia.
    rewrite (Z.div_small b) by lia. auto.
Qed.

Lemma share_bit_overlap a b : bytes a -> bytes b -> length a = length b ->
  share_bit a b -> bitmapOverlap a b = true.
Proof.
  intros Ha. revert b. induction Ha as [|x a Hx Ha IH]; intros b Hb L (i & Hi & H1 & H2).
  - unfold le_dec in H1. now rewrite Z.bits_0 in H1.
  - destruct b as [|y b]; [discriminate|]. inversion Hb; subst.
    change (le_dec (x :: a)) with (x + 256 * le_dec a) in H1.
    change (le_dec (y :: b)) with (y + 256 * le_dec b) in H2. cbn [bitmapOverlap].
    rewrite testbit_cons in H1, H2 by lia.
    apply orb_true_iff. destruct (Z.ltb_spec i 8).
    + left. assert (1 <= Z.land x y) by (eapply land_pos; eauto; lia). lia.
    + right. apply IH; auto. exists (i - 8). auto with zarith.
Qed.

(** * The int8 and int16 buckets *)

(** Bucket exponent of a value, for each bitmap. *)
Definition exp8 (v : Z) : Z :=
  if v <? 10 then 7 else if v <? 20 then 6 else if v <? 30 then 5
  else if v <? 40 then 4 else if v <? 50 then 3 else if v <? 60 then 2
  else if v <? 100 then 1 else 0.
Definition exp16 (v : Z) : Z := Z.max 0 (15 - Z.max 0 ((v - 320 + 29) / 30)).

Lemma bit8_exp v : bit8 v = 2 ^ exp8 v.
Proof.
  unfold bit8, exp8. repeat match goal with |- context [?a <? ?b] => destruct (a <? b) end; reflexivity.
Qed.
Lemma exp8_range v : 0 <= exp8 v <= 7.
Proof. unfold exp8. repeat match goal with |- context [?a <? ?b] => destruct (a <? b) end; lia. Qed.
Lemma exp8_anti v w : v <= w -> exp8 w <= exp8 v.
Proof.
  intros. unfold exp8.
  repeat match goal with |- context [?a <? ?b] => destruct (Z.ltb_spec a b) end; lia.
Qed.
Lemma exp16_range v : 0 <= exp16 v <= 15.
Proof. unfold exp16. lia. Qed.
Lemma exp16_anti v w : v <= w -> exp16 w <= exp16 v.
Proof.
  intros. unfold exp16.
  assert ((v - 320 + 29) / 30 <= (w - 320 + 29) / 30) by (apply Z.div_le_mono; lia). lia.
Qed.

Lemma loop16_spec fuel val cur num k :
  val < 2 ^ 31 - 17 -> cur = 320 + 30 * k -> 0 <= k -> num = 32768 / 2 ^ k ->
  (Z.to_nat ((val - cur) / 30 + 1) < fuel)%nat ->
  loop16 fuel val cur num = Ok (32768 / 2 ^ Z.max k ((val - 320 + 29) / 30)).
Proof.
  revert cur num k. induction fuel; intros cur num k Hv Hc Hk Hn Hf; [lia|].
  cbn [loop16]. destruct (Z.gtb_spec val cur).
  - destruct (Z.geb_spec (cur + 30) (2 ^ 31)); [exfalso; lia|].
    rewrite (IHfuel (cur + 30) (num / 2) (k + 1)).
    + do 3 f_equal. clear - H Hc Hk. lia.
    + exact Hv.
    + lia.
    + lia.
    + subst num. rewrite Z.div_div by (try lia; apply Z.pow_pos_nonneg; lia).
      f_equal. rewrite Z.pow_add_r by lia. reflexivity.
    + clear - Hf H. lia.
  - subst num. do 3 f_equal. clear - H Hc Hk. lia.
Qed.

Lemma div_pow_big n k : 0 <= n -> n <= k -> 2 ^ n / 2 ^ k = if k =? n then 1 else 0.
Proof.
  intros. destruct (Z.eqb_spec k n).
  - subst. apply Z.div_same. assert (0 < 2 ^ n) by (apply Z.pow_pos_nonneg; lia). lia.
  - apply Z.div_small. split; [apply Z.pow_nonneg; lia|]. apply Z.pow_lt_mono_r; lia.
Qed.

Lemma loop16_exp val : val < 2 ^ 31 - 17 ->
  exists num, loop16 (S (Z.to_nat ((val - 320) / 30 + 1))) val 320 32768 = Ok num /\
    (if num =? 0 then 1 else num) = 2 ^ exp16 val.
Proof.
  intros.
  exists (32768 / 2 ^ Z.max 0 ((val - 320 + 29) / 30)). split.
  - apply loop16_spec with (k := 0); try lia.
  - unfold exp16. set (k := Z.max 0 ((val - 320 + 29) / 30)).
    assert (0 <= k) by lia.
    change 32768 with (2 ^ 15).
    destruct (Z_le_gt_dec k 15).
    + rewrite <- Z.pow_sub_r by lia. rewrite Z.max_r by lia.
      assert (0 < 2 ^ (15 - k)) by (apply Z.pow_pos_nonneg; lia).
      destruct (Z.eqb_spec (2 ^ (15 - k)) 0); lia.
    + rewrite div_pow_big by lia. destruct (Z.eqb_spec k 15); try lia.
      rewrite Z.max_l by lia. reflexivity.
Qed.

(** * Characterisation of the update functions *)
Lemma zrd0 d n : zrd d 0 n = firstn n d.
Proof. reflexivity. Qed.

Lemma lor_lt a b n : 0 <= n -> 0 <= a < 2 ^ n -> 0 <= b < 2 ^ n -> 0 <= Z.lor a b < 2 ^ n.
Proof.
  intros Hn Ha Hb. assert (0 <= Z.lor a b) by (apply Z.lor_nonneg; lia). split; auto.
  destruct (Z.eq_dec (Z.lor a b) 0) as [->|]; [lia|].
  destruct (Z.eq_dec n 0) as [->|]; [replace a with 0 by lia; replace b with 0 by lia; cbn; lia|].
  apply Z.log2_lt_pow2; [lia|]. rewrite Z.log2_lor by lia.
  assert (forall x, 0 <= x < 2 ^ n -> Z.log2 x < n).
  { intros x Hx. destruct (Z.eq_dec x 0) as [->|]; [cbn; lia|]. apply Z.log2_lt_pow2; lia. }
  pose proof (H0 a Ha). pose proof (H0 b Hb). lia.
Qed.

Lemma upd8_spec d bm : (2 <= length d)%nat -> length bm = 1%nat -> bytes bm ->
  exists r, updateBitmapInt8 d bm = Ok r /\ length r = 1%nat /\ bytes r /\
    le_dec r = Z.lor (le_dec bm) (2 ^ exp8 (val16 d)).
Proof.
  intros Hd Hl Hb.
  unfold updateBitmapInt8. rewrite ldz_ok by (unfold zlen; lia). rewrite bind_ok, zrd0.
  fold (val16 d). rewrite bit8_exp.
  rewrite ldz_ok by (unfold zlen; lia). rewrite bind_ok, zrd0.
  rewrite (firstn_all2 bm) by lia.
  rewrite st_ok by (rewrite ?le_enc_zlen; unfold zlen; lia).
  exists (le_enc 1 (Z.lor (le_dec bm) (2 ^ exp8 (val16 d)))). split.
  { f_equal. unfold zwr, wr. cbn [Z.to_nat firstn app]. rewrite le_enc_length, skipn_all2 by lia.
    apply app_nil_r. }
  split; [apply le_enc_length|]. split; [apply le_enc_bytes|].
  apply le_dec_enc. change (256 ^ Z.of_nat 1) with (2 ^ 8).
  pose proof (exp8_range (val16 d)). pose proof (le_dec_range bm Hb) as R.
  unfold zlen in R. rewrite Hl in R. change (256 ^ Z.of_nat 1) with (2 ^ 8) in R.
  apply lor_lt; try lia. split; [apply Z.pow_nonneg; lia|]. apply Z.pow_lt_mono_r; lia.
Qed.

Lemma upd16_spec d bm : (4 <= length d)%nat -> length bm = 2%nat -> bytes bm ->
  val32 d < 2 ^ 31 - 17 ->
  exists r, updateBitmapInt16 d bm = Ok r /\ length r = 2%nat /\ bytes r /\
    le_dec r = Z.lor (le_dec bm) (2 ^ exp16 (val32 d)).
Proof.
  intros Hd Hl Hb Hv.
  unfold updateBitmapInt16. rewrite ldz_ok by (unfold zlen; lia). rewrite bind_ok, zrd0.
  fold (val32 d). cbv zeta.
  destruct (loop16_exp (val32 d) Hv) as (num & -> & Hn). rewrite bind_ok, Hn.
  rewrite ldz_ok by (unfold zlen; lia). rewrite bind_ok, zrd0.
  rewrite (firstn_all2 bm) by lia.
  rewrite st_ok by (rewrite ?le_enc_zlen; unfold zlen; lia).
  exists (le_enc 2 (Z.lor (le_dec bm) (2 ^ exp16 (val32 d)))). split.
  { f_equal. unfold zwr, wr. cbn [Z.to_nat firstn app]. rewrite le_enc_length, skipn_all2 by lia.
    apply app_nil_r. }
  split; [apply le_enc_length|]. split; [apply le_enc_bytes|].
  apply le_dec_enc. change (256 ^ Z.of_nat 2) with (2 ^ 16).
  pose proof (exp16_range (val32 d)). pose proof (le_dec_range bm Hb) as R.
  unfold zlen in R. rewrite Hl in R. change (256 ^ Z.of_nat 2) with (2 ^ 16) in R.
  apply lor_lt; try lia. split; [apply Z.pow_nonneg; lia|]. apply Z.pow_lt_mono_r; lia.
Qed.

(** * The range builder, for any update function that sets the bit of a bucket
    and whose buckets are antitone in the value. *)
Section Range.
  Variables (n : nat) (upd : list Z -> list Z -> res (list Z)).
  Variables (dom : list Z -> Prop) (val : list Z -> Z) (ex : Z -> Z).
  Hypothesis n_pos : (0 < n)%nat.
  Hypothesis ex_range : forall v, 0 <= ex v < 8 * Z.of_nat n.
  Hypothesis ex_anti : forall v w, v <= w -> ex w <= ex v.
  Hypothesis upd_spec : forall d bm, dom d -> length bm = n -> bytes bm ->
    exists r, upd d bm = Ok r /\ length r = n /\ bytes r /\
      le_dec r = Z.lor (le_dec bm) (2 ^ ex (val d)).

  Lemma zeros_bytes m : bytes (repeat 0 m).
  Proof. induction m; constructor; auto; lia. Qed.

  Lemma upd_zero d : dom d -> exists r, upd d (repeat 0 n) = Ok r /\ length r = n /\
    ldz r 0 n = Ok (2 ^ ex (val d)).
  Proof.
    intros Hd. destruct (upd_spec d (repeat 0 n) Hd) as (r & E & L & B & D).
    - apply repeat_length.
    - apply zeros_bytes.
    - exists r. repeat split; auto. rewrite ldz_ok by (unfold zlen; lia).
      rewrite zrd0, firstn_all2, D by lia.
      f_equal. rewrite le_dec_zeros. apply Z.lor_0_l.
  Qed.

  (** Bits of the built bitmap: exactly the buckets between the two ends. *)
  Lemma build_bits mn mx :
    (forall d, mn = Some d -> dom d) -> (forall d, mx = Some d -> dom d) ->
    exists r, build_range n upd mn mx = Ok r /\ length r = n /\ bytes r /\
      forall i, 0 <= i < 8 * Z.of_nat n ->
        Z.testbit (le_dec r) i =
        (match mn with Some d => i <=? ex (val d) | None => true end) &&
        (match mx with Some d => ex (val d) <=? i | None => true end).
  Proof.
    intros Hmn Hmx. unfold build_range. rewrite pow256.
    assert (W : forall z, 0 <= z < 8 * Z.of_nat n -> 0 <= z < 8 * Z.of_nat n) by auto.
    destruct mn as [a|].
    - destruct (upd_zero a (Hmn a eq_refl)) as (ra & Ea & La & Da).
      rewrite Ea, bind_ok, Da, !bind_ok.
      destruct mx as [b|].
      + destruct (upd_zero b (Hmx b eq_refl)) as (rb & Eb & Lb & Db).
        rewrite Eb, bind_ok, Db, bind_ok.
        eexists; split; [reflexivity|]. split; [apply le_enc_length|].
        split; [apply le_enc_bytes|]. intros i Hi.
        rewrite testbit_le_dec_enc by auto. rewrite Z.land_spec.
        rewrite testbit_lor_pred by (auto; apply ex_range).
        rewrite testbit_lnot_pred by (auto; apply ex_range). reflexivity.
      + eexists; split; [reflexivity|]. split; [apply le_enc_length|].
        split; [apply le_enc_bytes|]. intros i Hi.
        rewrite testbit_le_dec_enc by auto.
        rewrite testbit_lor_pred by (auto; apply ex_range). now rewrite andb_true_r.
    - rewrite bind_ok. destruct mx as [b|].
      + destruct (upd_zero b (Hmx b eq_refl)) as (rb & Eb & Lb & Db).
        rewrite Eb, bind_ok, Db, bind_ok.
        eexists; split; [reflexivity|]. split; [apply le_enc_length|].
        split; [apply le_enc_bytes|]. intros i Hi.
        rewrite testbit_le_dec_enc by auto.
        rewrite testbit_lnot_pred by (auto; apply ex_range). reflexivity.
      + eexists; split; [reflexivity|]. split; [apply le_enc_length|].
        split; [apply le_enc_bytes|]. intros i Hi.
        rewrite testbit_le_dec_enc by auto.
        rewrite testbit_pred by lia. destruct (Z.ltb_spec i (8 * Z.of_nat n)); auto; lia.
  Qed.

  Lemma page_bitmap_spec vs bm : Forall dom vs -> length bm = n -> bytes bm ->
    exists r, page_bitmap upd vs bm = Ok r /\ length r = n /\ bytes r /\
      (forall i, Z.testbit (le_dec bm) i = true -> Z.testbit (le_dec r) i = true) /\
      (forall v, In v vs -> Z.testbit (le_dec r) (ex (val v)) = true).
  Proof.
    intros Hv. revert bm. induction Hv as [|v vs Hd Hv IH]; intros bm L B.
    - exists bm. simpl. repeat split; auto.
    - destruct (upd_spec v bm Hd L B) as (r & E & L' & B' & D).
      destruct (IH r L' B') as (q & E' & Lq & Bq & K & I).
      exists q. cbn [page_bitmap]. rewrite E, bind_ok. repeat split; auto.
      + intros i Hi. apply K. rewrite D, Z.lor_spec, Hi. reflexivity.
      + intros w [->|Hw]; auto. apply K. rewrite D, Z.lor_spec.
        rewrite testbit_pow2 by apply ex_range. rewrite Z.eqb_refl. apply orb_true_r.
  Qed.

  Lemma range_overlap mn mx vs v :
    (forall d, mn = Some d -> dom d /\ val d <= val v) ->
    (forall d, mx = Some d -> dom d /\ val v <= val d) ->
    Forall dom vs -> In v vs ->
    exists q p, build_range n upd mn mx = Ok q /\ page_bitmap upd vs (repeat 0 n) = Ok p /\
      bitmapOverlap q p = true.
  Proof.
    intros H1 H2 Hvs Hin.
    destruct (build_bits mn mx) as (q & Eq & Lq & Bq & Tq);
      [intros d E; apply (H1 d E)|intros d E; apply (H2 d E)|].
    destruct (page_bitmap_spec vs (repeat 0 n) Hvs) as (p & Ep & Lp & Bp & _ & I).
    { apply repeat_length. } { apply zeros_bytes. }
    exists q, p. repeat split; auto. apply share_bit_overlap; auto; [lia|].
    exists (ex (val v)). split; [apply ex_range|]. split; auto.
    rewrite Tq by apply ex_range.
    apply andb_true_iff. split.
    - destruct mn as [d|]; auto. destruct (H1 d eq_refl) as [_ Hle]. apply ex_anti in Hle. lia.
    - destruct mx as [d|]; auto. destruct (H2 d eq_refl) as [_ Hle]. apply ex_anti in Hle. lia.
  Qed.
End Range.

Lemma range_overlap8 mn mx vs v :
  (forall d, mn = Some d -> (2 <= length d)%nat /\ val16 d <= val16 v) ->
  (forall d, mx = Some d -> (2 <= length d)%nat /\ val16 v <= val16 d) ->
  Forall (fun d => (2 <= length d)%nat) vs -> In v vs ->
  exists q p, buildBitmapInt8FromRange mn mx = Ok q /\
    page_bitmap updateBitmapInt8 vs [0] = Ok p /\ bitmapOverlap q p = true.
Proof.
  apply (range_overlap 1 updateBitmapInt8 (fun d => (2 <= length d)%nat) val16 exp8).
  - lia.
  - intros w. pose proof (exp8_range w). lia.
  - apply exp8_anti.
  - intros. apply upd8_spec; auto.
Qed.

Lemma range_overlap16 mn mx vs v :
  (forall d, mn = Some d -> ((4 <= length d)%nat /\ val32 d < 2 ^ 31 - 17) /\ val32 d <= val32 v) ->
  (forall d, mx = Some d -> ((4 <= length d)%nat /\ val32 d < 2 ^ 31 - 17) /\ val32 v <= val32 d) ->
  Forall (fun d => (4 <= length d)%nat /\ val32 d < 2 ^ 31 - 17) vs -> In v vs ->
  exists q p, buildBitmapInt16FromRange mn mx = Ok q /\
    page_bitmap updateBitmapInt16 vs [0; 0] = Ok p /\ bitmapOverlap q p = true.
Proof.
  apply (range_overlap 2 updateBitmapInt16
           (fun d => (4 <= length d)%nat /\ val32 d < 2 ^ 31 - 17) val32 exp16).
  - lia.
  - intros w. pose proof (exp16_range w). lia.
  - apply exp16_anti.
  - intros d bm [? ?] ? ?. apply upd16_spec; auto.
Qed.

Lemma loop16_ub fuel val cur num k :
  2147483630 < val -> cur = 320 + 30 * k -> 0 <= k <= 71582777 -> 71582777 - k < Z.of_nat fuel ->
  loop16 fuel val cur num = UB.
Proof.
  revert cur num k. induction fuel; intros cur num k Hv Hc Hk Hf; [lia|].
  cbn [loop16]. destruct (Z.gtb_spec val cur); [|lia].
  destruct (Z.geb_spec (cur + 30) (2 ^ 31)); [reflexivity|].
  apply (IHfuel (cur + 30) (num / 2) (k + 1)); lia.
Qed.

Lemma upd16_ub d bm : (4 <= length d)%nat -> 2147483630 < val32 d -> updateBitmapInt16 d bm = UB.
Proof.
  intros Hd Hv. unfold updateBitmapInt16. rewrite ldz_ok by (unfold zlen; lia).
  rewrite bind_ok, zrd0. fold (val32 d). cbv zeta.
  rewrite (loop16_ub _ _ _ _ 0); [reflexivity|lia|reflexivity|lia|lia].
Qed.

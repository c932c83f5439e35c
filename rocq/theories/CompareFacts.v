(** Proofs about the comparison of advancedQueries.c and about schemas. *)
From Verif Require Import Base BaseFacts SpecUtil Schema Query.
Open Scope Z_scope.

Definition sgnc (c : comparison) : Z := match c with Lt => -1 | Eq => 0 | Gt => 1 end.

Lemma le_dec_app a b : le_dec (a ++ b) = le_dec a + 256 ^ zlen a * le_dec b.
Proof.
  induction a as [|x a IH].
  - unfold zlen; cbn [app length Z.of_nat]. change (le_dec []) with 0. lia.
  - cbn [app]. change (le_dec (x :: a ++ b)) with (x + 256 * le_dec (a ++ b)).
    change (le_dec (x :: a)) with (x + 256 * le_dec a). rewrite IH, zlen_cons.
    rewrite Z.pow_add_r by (try apply zlen_nonneg; lia). lia.
Qed.

(** Comparison from the most significant byte on is comparison of the values. *)
Lemma cmp_bytes_spec a b : bytes a -> bytes b -> length a = length b ->
  cmp_bytes (rev a) (rev b) = sgnc (le_dec a ?= le_dec b).
Proof.
  revert b. induction a as [|x a IH] using rev_ind; intros b Ha Hb L.
  - destruct b; [reflexivity|discriminate].
  - destruct b as [|y b _] using rev_ind.
    { rewrite app_length in L; simpl in L; lia. }
    rewrite !app_length in L; simpl in L.
    assert (La : length a = length b) by lia.
    apply Forall_app in Ha as [Ha Hx]. apply Forall_app in Hb as [Hb Hy].
    inversion Hx as [|? ? Hx' _]; inversion Hy as [|? ? Hy' _]; subst.
    rewrite !rev_unit, !le_dec_app. cbn [cmp_bytes].
    assert (Z : zlen a = zlen b) by (unfold zlen; lia). rewrite <- Z.
    change (le_dec [x]) with (x + 256 * 0). change (le_dec [y]) with (y + 256 * 0).
    pose proof (le_dec_range a Ha) as Ra. pose proof (le_dec_range b Hb) as Rb.
    rewrite <- Z in Rb. remember (256 ^ zlen a) as W.
    destruct (Z.ltb_spec x y).
    + assert (le_dec a + W * (x + 256 * 0) < le_dec b + W * (y + 256 * 0)) by nia.
      rewrite (proj2 (Z.compare_lt_iff _ _)); auto.
    + destruct (Z.gtb_spec x y).
      * assert (le_dec b + W * (y + 256 * 0) < le_dec a + W * (x + 256 * 0)) by nia.
        rewrite (proj2 (Z.compare_gt_iff _ _)); auto.
      * assert (x = y) by lia. subst y. rewrite IH by auto. f_equal.
        rewrite Z.add_comm, (Z.add_comm (le_dec b)).
        symmetry. apply Z.add_compare_mono_l.
Qed.

Lemma unsigned_spec a b : bytes a -> bytes b -> length a = length b ->
  compareUnsignedNumbers a b = sgnc (col_value false a ?= col_value false b).
Proof. intros. apply cmp_bytes_spec; auto. Qed.

(** The sign bit is the top bit of the value. *)
Lemma land128 x : 0 <= x < 256 -> Z.land x 128 = if x >=? 128 then 128 else 0.
Proof.
  intros H. assert (E : forallb (fun n => let x := Z.of_nat n in
     Z.land x 128 =? (if x >=? 128 then 128 else 0)) (seq 0 256) = true) by (vm_compute; reflexivity).
  rewrite forallb_forall in E. specialize (E (Z.to_nat x)). cbv zeta in E.
  rewrite Z2Nat.id in E by lia. apply Z.eqb_eq. apply E. apply in_seq. lia.
Qed.

Lemma last_sign a : bytes a -> a <> [] ->
  Z.land (last a 0) 128 = if 2 * le_dec a >=? 256 ^ zlen a then 128 else 0.
Proof.
  intros Ha N. destruct a as [|x a _] using rev_ind; [congruence|].
  rewrite last_last. apply Forall_app in Ha as [Ha Hx].
  inversion Hx as [|? ? Hx' _]; subst.
  rewrite land128 by auto. rewrite le_dec_app, zlen_app.
  change (zlen [x]) with 1. change (le_dec [x]) with (x + 256 * 0).
  pose proof (le_dec_range a Ha) as R. rewrite Z.pow_add_r by (try apply zlen_nonneg; lia).
  assert (0 < 256 ^ zlen a) by (apply Z.pow_pos_nonneg; [lia|apply zlen_nonneg]).
  remember (256 ^ zlen a) as W.
  destruct (Z.geb_spec x 128), (Z.geb_spec (2 * (le_dec a + W * (x + 256 * 0))) (W * 256 ^ 1));
    auto; exfalso; nia.
Qed.

Lemma signed_spec a b : bytes a -> bytes b -> length a = length b -> a <> [] ->
  compareSignedNumbers a b = sgnc (col_value true a ?= col_value true b).
Proof.
  intros Ha Hb L N. assert (Nb : b <> []) by (destruct a, b; simpl in *; congruence).
  unfold compareSignedNumbers. rewrite !last_sign by auto. rewrite cmp_bytes_spec by auto.
  unfold col_value. cbn [andb].
  assert (Z : zlen a = zlen b) by (unfold zlen; lia). rewrite <- Z.
  pose proof (le_dec_range a Ha) as Ra. pose proof (le_dec_range b Hb) as Rb.
  rewrite <- Z in Rb. remember (256 ^ zlen a) as W.
  destruct (Z.geb_spec (2 * le_dec a) W), (Z.geb_spec (2 * le_dec b) W); cbn.
  - f_equal. rewrite <- !Z.add_opp_r.
    rewrite (Z.add_comm _ (- W)), (Z.add_comm (le_dec b) (- W)).
    symmetry; apply Z.add_compare_mono_l.
  - rewrite (proj2 (Z.compare_lt_iff _ _)); auto. lia.
  - rewrite (proj2 (Z.compare_gt_iff _ _)); auto. lia.
  - reflexivity.
Qed.

Lemma compare_spec a b operation sg : bytes a -> bytes b -> length a = length b -> a <> [] ->
  compare a operation b sg = true <-> op_holds operation (col_value sg a) (col_value sg b).
Proof.
  intros Ha Hb L N. unfold compare.
  assert (E : (if sg then compareSignedNumbers a b else compareUnsignedNumbers a b)
              = sgnc (col_value sg a ?= col_value sg b)).
  { destruct sg; [apply signed_spec|apply unsigned_spec]; auto. }
  rewrite E. remember (col_value sg a) as x. remember (col_value sg b) as y.
  destruct (Z.compare_spec x y); cbn [sgnc];
    (destruct operation as [|[[[?|?|]|[?|?|]|]|[[?|?|]|[?|?|]|]|]|?];
     cbn; split; intros; try discriminate; try contradiction; try lia; auto).
Qed.

(** * Schemas *)
Lemma widths_nonneg s : 0 <= widths s.
Proof.
  induction s as [|c s IH]; [reflexivity|]. unfold widths in *. cbn [fold_right]. lia.
Qed.
Lemma widths_cons c s : widths (c :: s) = Z.abs c + widths s.
Proof. reflexivity. Qed.

Lemma size_from_spec s acc : 0 <= acc -> acc + widths s < 65536 -> size_from acc s = acc + widths s.
Proof.
  revert acc. induction s as [|c s IH]; intros acc Ha H.
  - cbn. lia.
  - cbn [size_from]. rewrite widths_cons in *. pose proof (widths_nonneg s).
    rewrite u16_id by lia. rewrite IH by lia. lia.
Qed.

Lemma record_size_spec s : widths s < 65536 -> getRecordSizeFromSchema s = widths s.
Proof. intros. unfold getRecordSizeFromSchema. rewrite size_from_spec; lia. Qed.

Lemma col_off_spec s n acc : (n <= length s)%nat -> 0 <= acc -> acc + widths s < 65536 ->
  col_off acc s n = Ok (acc + widths (firstn n s)).
Proof.
  revert s acc. induction n as [|n IH]; intros s acc Hn Ha H.
  - change (firstn 0 s) with (@nil Z). change (widths []) with 0.
    rewrite Z.add_0_r. destruct s; reflexivity.
  - destruct s as [|c s]; [simpl in Hn; lia|].
    cbn [col_off firstn]. rewrite widths_cons in *.
    pose proof (widths_nonneg s). rewrite u16_id by lia.
    rewrite IH by (simpl in Hn; lia). f_equal. lia.
Qed.

Lemma col_offset_spec s col : 0 <= col < 256 -> col <= zlen s -> widths s < 65536 ->
  getColOffsetFromSchema s col = Ok (widths (firstn (Z.to_nat col) s)).
Proof.
  intros. unfold getColOffsetFromSchema. rewrite u8_id by lia.
  rewrite col_off_spec; unfold zlen in *; try lia. reflexivity.
Qed.

Lemma widths_app a b : widths (a ++ b) = widths a + widths b.
Proof.
  induction a as [|x a IH]; [reflexivity|]. cbn [app]. rewrite !widths_cons. lia.
Qed.

Lemma col_size_ok s col c : 0 <= col -> nth_error s (Z.to_nat col) = Some c -> col_size s col = Ok c.
Proof. intros. unfold col_size. destruct (Z.ltb_spec col 0); try lia. now rewrite H0. Qed.

Lemma column_fits s col c : 0 <= col < 256 -> widths s < 65536 ->
  nth_error s (Z.to_nat col) = Some c ->
  exists off, getColOffsetFromSchema s col = Ok off /\ col_size s col = Ok c /\
    0 <= off /\ off + Z.abs c <= zlen (createBufferFromSchema s).
Proof.
  intros Hc Hw Hn. assert (Hl : (Z.to_nat col < length s)%nat) by (apply nth_error_Some; congruence).
  exists (widths (firstn (Z.to_nat col) s)). split.
  { apply col_offset_spec; auto. unfold zlen; lia. }
  split; [apply col_size_ok; auto; lia|]. split; [apply widths_nonneg|].
  unfold createBufferFromSchema. rewrite zlen_repeat, record_size_spec by auto.
  rewrite Z2Nat.id by apply widths_nonneg.
  apply nth_error_split in Hn as (l1 & l2 & -> & L). rewrite <- L.
  rewrite firstn_app, Nat.sub_diag, firstn_all. cbn [firstn]. rewrite app_nil_r.
  rewrite widths_app, widths_cons. pose proof (widths_nonneg l2). lia.
Qed.

(** A created schema stores each width, negated for signed columns. *)
Lemma create_schema_spec cols : 
  Forall (fun c => 0 < fst c < 128 /\ snd c <> None) cols ->
  embedDBCreateSchema cols =
  Some (map (fun c => match snd c with Some true => - fst c | _ => fst c end) cols).
Proof.
  induction 1 as [|[sz sg] cols [H1 H2] _ IH]; [reflexivity|].
  cbn [embedDBCreateSchema map fst snd] in *. rewrite u8_id by lia.
  destruct (Z.leb_spec sz 0); try lia. destruct sg as [b|]; [|congruence].
  rewrite IH. do 2 f_equal. destruct b; apply i8_id; lia.
Qed.

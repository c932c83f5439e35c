(** embedDBInit accepts only whole erase blocks, and with sound sizes only usable
    configurations. *)
From Verif Require Import Base BaseFacts Config Spline Storage DB Recovery Spec SpecPage SpecStore Run SpecRun SpecInit
  ReachFacts StoreThms.
Open Scope Z_scope.
Ltac Zify.zify_post_hook ::= ZifyBool.elim_bool_cstr.
Ltac Zify.zify_convert_to_euclidean_division_equations_flag ::= constr:(false).

Lemma whole_of_mod c n : eraseSize c <> 0 -> n mod eraseSize c = 0 -> whole_blocks c n.
Proof.
  intros HB H. exists (n / eraseSize c). pose proof (Z.div_mod n (eraseSize c) HB) as E.
  rewrite H in E. rewrite Z.mul_comm. lia.
Qed.
Lemma mod_of_whole c n : eraseSize c <> 0 -> whole_blocks c n -> n mod eraseSize c = 0.
Proof. intros HB (m & ->). now apply Z.mod_mul. Qed.

Lemma initIndex_areas c s f s' : initIndex c s f = Ok (s', 0) ->
  2 * eraseSize c <= numIndex c.
Proof.
  unfold initIndex. destruct (bitmapSize c =? 0); [discriminate|].
  destruct (init_page c) as [b| |]; cbn [bind]; try discriminate.
  destruct (st b 8 _) as [b'| |]; cbn [bind]; try discriminate.
  destruct (Z.ltb_spec (numIndex c) (eraseSize c * 2)); [discriminate|]. lia.
Qed.

Lemma init_areas c k fs s : embedDBInit c k fs = Ok (s, 0) -> areas c.
Proof.
  unfold embedDBInit. intros H. cbv zeta in H.
  destruct (Z.gtb_spec (keySize c) 8); [discriminate|].
  destruct (Z.eqb_spec (eraseSize c) 0) as [|HB]; [discriminate|].
  destruct (Z.eqb_spec (numData c mod eraseSize c) 0) as [HD|]; [cbn [negb] in H|discriminate].
  destruct (Z.ltb_spec (numData c) ((if useRLC c then 4 else 2) * eraseSize c)) as [|HM]; [discriminate|].
  destruct (useVar c && negb (numVar c mod eraseSize c =? 0)) eqn:HV; [discriminate|].
  destruct (useIndex c && negb (numIndex c mod eraseSize c =? 0)) eqn:HI; [discriminate|].
  destruct (recordSize c =? 0); [discriminate|].
  destruct (init_page c) as [w| |]; cbn [bind] in H; try discriminate.
  destruct (Z.ltb_spec (numData c) (((if useIndex c then 1 else 0) * 2 + 2) * eraseSize c)) as [|HM2]; [discriminate|].
  destruct (negb (useBinary c) && (numSplinePts c <? 4)) eqn:HS; [discriminate|].
  apply bind_inv in H as ((s1 & r1) & _ & H).
  destruct (Z.eqb_spec r1 0) as [E1|N]; cbn [negb] in H; [|injection H as _ E; congruence].
  assert (X : (useIndex c = true -> 2 * eraseSize c <= numIndex c /\ 4 <= bufBlocks c) /\
              (useVar c = true -> (if useIndex c then 6 else 4) <= bufBlocks c)).
  { destruct (useIndex c) eqn:EI.
    - destruct (Z.ltb_spec (bufBlocks c) 4) as [|H4]; [cbn [bind] in H; discriminate|].
      destruct (initIndex c s1 (kI k)) as [(s2, r2)| |] eqn:E2; cbn [bind] in H; try discriminate.
      destruct (Z.eqb_spec r2 0) as [E3|N]; cbn [negb] in H; [subst r2|injection H as _ E; congruence].
      apply initIndex_areas in E2. split; [auto|]. intros EV. rewrite EV in H.
      destruct (Z.ltb_spec (bufBlocks c) (4 + 2)); [discriminate|lia].
    - split; [discriminate|]. intros EV. cbn [bind] in H. rewrite EV in H. cbn [Z.eqb negb] in H.
      destruct (Z.ltb_spec (bufBlocks c) (4 + 0)); [discriminate|lia]. }
  destruct X as (X1 & X2). constructor; auto.
  - now apply whole_of_mod.
  - destruct (useRLC c), (useIndex c); cbn [orb]; lia.
  - intros EB. rewrite EB in HS. cbn [negb andb] in HS. lia.
  - intros EI. rewrite EI in HI. cbn [andb] in HI. split; [apply whole_of_mod; auto; lia|]. auto.
  - intros EV. rewrite EV in HV. cbn [andb] in HV. split; [apply whole_of_mod; auto; lia|]. auto.
Qed.

Lemma i8_small z : -128 <= z <= 127 -> i8 z = z.
Proof.
  intros H. unfold i8, sgn_of. change (2 ^ 8) with 256. change (2 ^ (8 - 1)) with 128.
  destruct (Z_lt_dec z 0).
  - replace (z mod 256) with (z + 256).
    2: { rewrite <- (Z.mod_add z 1 256) by lia. rewrite Z.mod_small by lia. lia. }
    destruct (Z.ltb_spec (z + 256) 128); lia.
  - rewrite Z.mod_small by lia. destruct (Z.ltb_spec z 128); lia.
Qed.

Lemma record_true c : sizes_ok c -> recordSize c = true_record c.
Proof.
  intros Z. pose proof (z_ks _ Z). pose proof (z_ds _ Z). pose proof (z_rec _ Z) as R.
  unfold recordSize, true_record in *. destruct (useVar c).
  - rewrite (i8_small (keySize c + dataSize c)) by lia. now rewrite i8_small by lia.
  - rewrite i8_small by lia. lia.
Qed.
Lemma header_true c : sizes_ok c -> headerSize c = true_header c.
Proof.
  intros Z. pose proof (z_ks _ Z). pose proof (z_ds _ Z). pose proof (z_bs _ Z). pose proof (z_hdr _ Z) as R.
  unfold headerSize, true_header in *. destruct (useIndex c), (useMaxMin c).
  - rewrite (i8_small (6 + bitmapSize c)) by lia. rewrite i8_small by lia. lia.
  - rewrite i8_small by lia. lia.
  - rewrite i8_small by lia. lia.
  - lia.
Qed.

(** The code's record count is the true one. *)
Lemma maxRec_true c : sizes_ok c -> pageSize c < 65536 ->
  maxRec c = (pageSize c - true_header c) / true_record c /\ 1 <= maxRec c <= 255.
Proof.
  intros Z P. pose proof (z_ks _ Z) as K. pose proof (z_ds _ Z) as D. pose proof (z_page _ Z) as G.
  pose proof (z_many _ Z) as M. pose proof (z_bs _ Z) as BS.
  unfold maxRec. rewrite (record_true c Z), (header_true c Z).
  assert (T : 1 <= true_record c) by (unfold true_record; destruct (useVar c); lia).
  rewrite Z.quot_div_nonneg by lia.
  assert (E1 : 1 <= (pageSize c - true_header c) / true_record c).
  { apply Z.div_le_lower_bound; lia. }
  assert (E2 : (pageSize c - true_header c) / true_record c < 256).
  { apply Z.div_lt_upper_bound; lia. }
  unfold u16. rewrite Z.mod_small; [lia|]. change (2 ^ 16) with 65536. lia.
Qed.

Lemma layout_of_sizes c : sizes_ok c -> keySize c <= 8 -> pageSize c < 65536 -> layout c.
Proof.
  intros Z K8 P. pose proof (z_ks _ Z) as K. pose proof (z_ds _ Z) as D. pose proof (z_bs _ Z) as BS.
  pose proof (z_two _ Z) as T2. pose proof (z_hdr _ Z) as H7.
  destruct (maxRec_true c Z P) as (M & MB). pose proof (record_true c Z) as R. pose proof (header_true c Z) as H.
  assert (T : 1 <= true_record c) by (unfold true_record; destruct (useVar c); lia).
  assert (A : true_record c * maxRec c <= pageSize c - true_header c /\
              pageSize c - true_header c < true_record c * (maxRec c + 1)).
  { rewrite M. pose proof (Z.mul_div_le (pageSize c - true_header c) (true_record c) ltac:(lia)).
    pose proof (Z.mul_succ_div_gt (pageSize c - true_header c) (true_record c) ltac:(lia)).
    unfold Z.succ in *. lia. }
  constructor; auto; try lia.
  - rewrite H. unfold true_header. destruct (useIndex c), (useMaxMin c); lia.
  - intros E. destruct (z_sum _ Z E) as (E1 & E2). rewrite H. unfold true_header. rewrite E, E1. lia.
  - intros E. destruct (z_bm _ Z E) as (E1 & E2 & _). rewrite H. unfold true_header. rewrite E1.
    split; [destruct (useMaxMin c); lia|lia].
  - intros E. apply (z_bm _ Z E).
  - right. unfold rec_off. rewrite R, H.
    replace (true_record c * (maxRec c - 1)) with (true_record c * (maxRec c + 1) - 2 * true_record c) by ring.
    lia.
Qed.

Section usable.
  Variable c : cfg.
  Variables KB PB : Z.
  Hypothesis Z : sizes_ok c.
  Hypothesis R : ranges c KB PB.
  Hypothesis F : plain_flags c.

  Lemma setting_of_init : areas c -> setting c KB PB.
  Proof.
    intros A. pose proof (a_B _ A) as HB. pose proof (r_er _ _ _ R) as HE. pose proof (a_min _ A) as HM.
    assert (HM2 : 2 * eraseSize c <= numData c) by (destruct (useRLC c || useIndex c); lia).
    constructor; try apply R; auto; try lia.
    - apply layout_of_sizes; auto; [apply A|apply R].
    - split; [lia|apply R].
    - now apply mod_of_whole, A.
    - intros E. split; [now apply A|now apply R].
    - intros E. now apply F.
    - intros E. destruct (z_idx _ Z E). destruct (a_idx _ A E) as (_ & X & _). pose proof (r_ni _ _ _ R E). lia.
  Qed.
  Lemma modes_of_flags : modes c.
  Proof.
    destruct (maxRec_true c Z (r_ps _ _ _ R)) as (_ & M).
    constructor; try apply F; try lia; intros E; apply (p_bin _ F E).
  Qed.
  Lemma scenario_of_init h : areas c -> useReset c = true -> plain_history c KB PB h -> scenario c KB PB h.
  Proof.
    intros A HR H. constructor; try apply H; auto; [now apply setting_of_init|apply modes_of_flags].
  Qed.

  Lemma usable k s h : embedDBInit c k [] = Ok (s, 0) -> useReset c = true -> plain_history c KB PB h ->
    1 <= maxRec c /\ exists s' xs, run c s h = Ok (s', xs) /\ length xs = length h.
  Proof.
    intros E HR H. destruct (maxRec_true c Z (r_ps _ _ _ R)) as (_ & M). split; [lia|].
    pose proof (scenario_of_init h (init_areas _ _ _ _ E) HR H) as Sc.
    pose proof (c31_no_ub c KB PB h k s Sc E) as U. pose proof (c34_no_fuel c KB PB h k s Sc E) as N.
    destruct (run c s h) as [(s', xs)| |] eqn:ER; try congruence. exists s', xs. split; [auto|].
    clear - ER. revert s s' xs ER. induction h as [|o h IH]; cbn [run]; intros s s' xs ER.
    - now injection ER as <- <-.
    - destruct (step c s o) as [(s1, x)| |]; cbn [bind] in ER; try discriminate.
      destruct (run c s1 h) as [(s2, ys)| |] eqn:E2; cbn [bind] in ER; try discriminate.
      injection ER as <- <-. cbn [length]. f_equal. eauto.
  Qed.
  Lemma accepted_config k : areas c -> useReset c = true -> exists s, embedDBInit c k [] = Ok (s, 0).
  Proof.
    intros A HR. apply (fresh_exists c KB PB); auto; try apply F; [now apply setting_of_init|].
    intros E. destruct (a_idx _ A E) as (A1 & A2 & A3). pose proof (a_min _ A) as A4. rewrite E, orb_true_r in A4.
    repeat split; auto. now apply mod_of_whole; [apply A|].
  Qed.
End usable.

(** Every session uses flash storage as SpecFlash.v says. *)
From Verif Require Import Base Config Spline Storage DB VarData Recovery BaseFacts Spec SpecPage SpecStore Run SpecRun SpecInit InitFacts
  SpecFlash FlashFacts.
Open Scope Z_scope.
Ltac Zify.zify_post_hook ::= ZifyBool.elim_bool_cstr.
Ltac Zify.zify_convert_to_euclidean_division_equations_flag ::= constr:(false).
Ltac fr := apply frame_ext; unfold frame; cbn; auto 20.

(** * The data area as a cyclic area *)
Section Plain.
  Variable c : cfg.
  Hypothesis Sz : sizes c.
  Variable im0 : image.
  Notation B := (eraseSize c).
  Notation LIM := (2 ^ 32 - 2).
  Definition plainOk (D : pset) (n a m r s : Z) : Prop := area c D n a (numData c).
  Notation ext := (ext c im0 plainOk).
  Notation disc := (disc c im0 plainOk).
  Hypothesis HdD : numData c mod B = 0 /\ B <= numData c.

  Lemma writePage_ext s s' r : writePage c s = Ok (s', r) -> ext s s'.
  Proof.
    unfold writePage. cbv zeta. intros H. destruct (set_pid _ _) as [w| |]; cbn [bind] in H; try discriminate.
    set (sA := set_d (set_d s _) _) in H.
    match type of H with bind ?y _ = _ => destruct y as [[s1 ok]| |] eqn:E1; cbn [bind] in H; try discriminate end.
    change (availD (sd sA)) with (availD (sd s)) in E1. change (sio sA) with (sio s) in E1.
    assert (N1 : nextD (sd s1) = u32 (nextD (sd s) + 1)).
    { destruct (availD (sd s) <=? 0); [destruct (io_erase c WD _ _ (sio s)) as [o1 oke]|]; brk E1; reflexivity. }
    (* the erase; [sB] is the state with the page counter not yet moved *)
    set (sB := set_d s1 (d_next (sd s1) (nextD (sd s)))).
    assert (S1 : (exists new, trace (sio s1) = new ++ trace (sio s)) /\
      (disc s -> zlen (trace (sio s1)) < LIM -> ok = true /\ 0 < availD (sd sB) /\ disc sB)).
    { destruct (Z.leb_spec (availD (sd s)) 0) as [Ha|Ha].
      - destruct (io_erase c WD _ _ (sio s)) as [o oke] eqn:Ee. pose proof (grow_erase c _ _ _ _ _ _ Ee) as [new Hn].
        assert (T1 : sio s1 = o). { destruct oke; brk E1; reflexivity. }
        split; [exists new; now rewrite T1|]. intros J L. rewrite (io_erase_run c _ _ _ _ (disc_faults _ _ _ _ J)) in Ee. injection Ee as <- <-.
        destruct J as (D & I & V & J). pose proof (j_D _ _ _ _ _ _ _ J) as A. red in A. assert (A0 : availD (sd s) = 0) by (pose proof (ar_a _ _ _ _ _ A); lia). rewrite A0 in A.
        destruct (area_erase c Sz _ (fD (sio s)) _ (numData c) (proj1 (sz_data _ Sz)) (proj1 HdD) (proj2 HdD) A) as (D' & He & Ha').
        assert (Hc : availD (sd s1) = B /\ si s1 = si s /\ sv s1 = sv s /\ ok = true).
        { pose proof (sz_data _ Sz). pose proof (sz_erase _ Sz). destruct HdD as [_ Hbn]. brk E1; cbn; rewrite A0, (u32_id (0 + B)) by lia; repeat split. }
        destruct Hc as (Hav & Hi & Hv & ->). split; [auto|]. pose proof (sz_erase _ Sz). split; [cbn; lia|].
        exists D', I, V. eapply (disc_D c im0 plainOk plainOk s); [exact J|exact T1|exact He| | | | | |]; unfold plainOk; cbn [sB set_d sd si sv d_next nextD availD]; rewrite ?Hi, ?Hv, ?Hav; auto; lia.
      - brk E1. split; [now exists []|]. intros J L. split; [auto|]. split; [exact Ha|]. destruct J as (D & I & V & []). exists D, I, V. constructor; auto. }
    destruct S1 as [[new1 T1] S1].
    destruct ok; cbn [negb] in H.
    2:{ brk H. split; [now exists new1|]. intros J L. destruct (S1 J L) as (F & _). discriminate. }
    destruct (io_write c WD _ _ (sio s1)) as [o ok] eqn:Ew. pose proof (grow_write c _ _ _ _ _ _ Ew) as [new2 T2].
    assert (T3 : sio s' = o) by (brk H; reflexivity).
    split; [exists (new2 ++ new1); rewrite T3, T2, T1; apply app_assoc|]. intros J L.
    rewrite T3 in L. pose proof (zlen_nonneg new2). pose proof (zlen_nonneg new1).
    assert (L1 : zlen (trace (sio s)) <= zlen (trace (sio s1)) < LIM). { rewrite T2, zlen_app in L. rewrite T1, zlen_app in L |- *. lia. }
    destruct (S1 J ltac:(lia)) as (_ & Ha & J').
    pose proof (disc_faults _ _ _ _ J') as Hf. cbn in Hf. rewrite (io_write_run c _ _ _ _ Hf) in Ew. injection Ew as <- <-.
    destruct J' as (D & I & V & J'). pose proof (j_D _ _ _ _ _ _ _ J') as A. red in A.
    destruct (area_write c _ (fD (sio s1)) _ _ (numData c) (wbuf (sd s1)) (proj1 (sz_data _ Sz)) A Ha) as (D' & He & Ha').
    destruct J as (D1 & I1 & V1 & J). pose proof (j_nD _ _ _ _ _ _ _ J) as Jn. pose proof (ar_n _ _ _ _ _ (j_D _ _ _ _ _ _ _ J)). pose proof (ar_a _ _ _ _ _ A) as Aa. pose proof (sz_data _ Sz). cbn [sB set_d sd d_next nextD availD] in Aa.
    rewrite u32_id in N1 by lia. cbn [sB set_d sd d_next nextD availD] in Ha, Ha'.
    injection H as <- <-.
    exists D', I, V. eapply (disc_D c im0 plainOk plainOk sB); [exact J'|reflexivity|exact He| | | | | |]; unfold plainOk; cbn [sB set_io set_d sd si sv d_next d_avail nextD availD]; rewrite ?N1, ?(u32_id (availD (sd s1) - 1)) by lia; auto; lia.
  Qed.

  Hypothesis HdI : useIndex c = true -> numIndex c mod B = 0 /\ B <= numIndex c.
  Hypothesis HdV : useVar c = true -> numVar c mod B = 0 /\ B <= numVar c.
  Hypothesis HR : useRLC c = false.
  Lemma embedDBPut_ext s k d s' r : embedDBPut c s k d = Ok (s', r) -> ext s s'.
  Proof.
    unfold embedDBPut. rewrite HR. destruct (get_count _) as [n| |]; cbn [bind]; try discriminate. intros H.
    match type of H with bind ?y _ = _ => destruct y as [[s1 rej]| |] eqn:E1; cbn [bind] in H; try discriminate end.
    assert (R1 : read_only s s1).
    { destruct (_ || _); [|brk E1; apply ro_refl].
      match type of E1 with bind ?y _ = _ => destruct y as [[s2 pv]| |] eqn:E2; cbn [bind] in E1; try discriminate end.
      brk E1. brk E2; ro; auto using ro_refl. }
    apply (ro_ext c im0 plainOk) in R1. eapply ext_trans; [exact R1|]. clear E1 R1.
    destruct rej; [brk H; apply ext_refl|].
    match type of H with bind ?y _ = _ => destruct y as [[[s2 n2] wr]| |] eqn:E1; cbn [bind] in H; try discriminate end.
    assert (R2 : ext s1 s2).
    { destruct (n >=? maxRec c); [|brk E1; apply ext_refl].
      destruct (writePage c s1) as [[s3 r3]| |] eqn:E3; cbn [bind] in E1; try discriminate. apply writePage_ext in E3.
      destruct (indexPage c s3 r3) as [s4| |] eqn:E4; cbn [bind] in E1; try discriminate. apply (indexPage_ext c im0 plainOk) in E4.
      destruct (put_index c s4 r3) as [s5| |] eqn:E5; cbn [bind] in E1; try discriminate. apply (put_index_ext c Sz im0 plainOk HdI HdV) in E5.
      eapply ext_trans; [exact E3|]. eapply ext_trans; [exact E4|]. eapply ext_trans; [exact E5|]. brk E1. fr. }
    eapply ext_trans; [exact R2|]. brk H. fr.
  Qed.
  Lemma embedDBFlush_ext s s' r : embedDBFlush c s = Ok (s', r) -> ext s s'.
  Proof.
    unfold embedDBFlush. destruct (get_count _) as [n| |]; cbn [bind]; try discriminate. intros H. destruct (n <? 1); [brk H; apply ext_refl|].
    destruct (writePage c s) as [[s3 r3]| |] eqn:E3; cbn [bind] in H; try discriminate. apply writePage_ext in E3. eapply ext_trans; [exact E3|].
    destruct (r3 =? NOPAGE); [brk H; apply ext_refl|].
    destruct (indexPage c s3 r3) as [s4| |] eqn:E4; cbn [bind] in H; try discriminate. apply (indexPage_ext c im0 plainOk) in E4. eapply ext_trans; [exact E4|].
    match type of H with bind ?y _ = _ => destruct y as [[s5 ok]| |] eqn:E1; cbn [bind] in H; try discriminate end.
    assert (R : ext s4 s5).
    { revert E1. case_eq (useIndex c); intros Ui E1; [|brk E1; apply ext_refl].
      destruct (get_count _) as [k| |]; cbn [bind] in E1; try discriminate.
      destruct (idx_append c s4 k) as [s6| |] eqn:E6; cbn [bind] in E1; try discriminate. apply (idx_append_ext c im0 plainOk) in E6. eapply ext_trans; [exact E6|].
      destruct (writeIndexPage c s6) as [[s7 r7]| |] eqn:E7; cbn [bind] in E1; try discriminate. apply (writeIndexPage_ext c Sz im0 plainOk HdI HdV) in E7; [|exact Ui].
      eapply ext_trans; [exact E7|]. brk E1; [apply ext_refl|fr]. }
    eapply ext_trans; [exact R|]. destruct ok; cbn [negb] in H; [|brk H; apply ext_refl].
    destruct (init_page c) as [b| |]; cbn [bind] in H; try discriminate.
    eapply ext_trans with (set_d s5 (d_wbuf (sd s5) b)); [fr|]. revert H. case_eq (useVar c); intros Uv H; [|brk H; apply ext_refl].
    destruct (embedDBFlushVar c _) as [[s8 r8]| |] eqn:E8; cbn [bind] in H; try discriminate. apply (embedDBFlushVar_ext c Sz im0 plainOk HdI HdV) in E8; [|exact Uv].
    eapply ext_trans; [exact E8|]. brk H; apply ext_refl.
  Qed.
End Plain.

(** * The data area with record-level consistency *)
Lemma mod_diff N x y : x < y < x + N -> x mod N <> y mod N.
Proof.
  intros H E. assert (N <> 0) by lia. pose proof (Z.div_mod x N ltac:(lia)). pose proof (Z.div_mod y N ltac:(lia)).
  assert (N * (y / N - x / N) = y - x) by lia. assert (0 < y / N - x / N) by nia. nia.
Qed.
Section Rlc.
  Variable c : cfg.
  Hypothesis Sz : sizes c.
  Variable im0 : image.
  Variable K : Z.
  Notation B := (eraseSize c).
  Notation N := (numData c).
  Notation LIM := (2 ^ 32 - 2).
  Hypothesis HN : N = K * B.
  Hypothesis HK : 4 <= K.
  Hypothesis HB2 : 2 <= B.
  Hypothesis HN31 : N < 2 ^ 31.

  (** Pages of the two temporary blocks (counted from the first) that are not
      programmed when [off] temporary pages have been written. *)
  Definition clean (off t : Z) : Prop :=
    off <= t < B \/ (2 <= off /\ B <= t < 2 * B /\ off <= t) \/ (B + 2 <= off /\ 0 <= t < B).
  Record rlc_at (k : Z) (D : pset) (n a m r s : Z) : Prop := {
    ra_k : 0 <= k;
    ra_n : k * B <= n <= (k + 1) * B;
    ra_s : s = ((k + 1) * B) mod N;
    ra_m : m = Z.max 0 ((k + 3) * B - N);
    ra_a : a = N - 2 * B - (n - m);
    ra_perm : forall j, n <= j < (k + 1) * B -> ~ D (j mod N);
    ra_tmp : exists off, 0 <= off <= 2 * B /\ 0 <= r <= N /\ r mod N = ((k + 1) * B + off) mod N /\
      forall t, clean off t -> 0 <= t -> ~ D (((k + 1) * B + t) mod N)
  }.
  (** Between puts; and between the sealing of a page and the move of the blocks. *)
  Definition calmOk D n a m r s := exists k, rlc_at k D n a m r s /\ n < (k + 1) * B.
  Definition midOk D n a m r s := exists k, rlc_at k D n a m r s /\ k * B < n.

  Local Lemma N4 : 4 * B <= N. Proof. nia. Qed.
  Local Lemma blk e t : 0 <= t < B -> (e * B + t) mod N = (e mod K) * B + t.
  Proof.
    intros Ht. symmetry. apply Z.mod_unique_pos with (e / K).
    - pose proof (Z.mod_pos_bound e K ltac:(lia)). rewrite HN. nia.
    - rewrite HN. pose proof (Z.div_mod e K ltac:(lia)). nia.
  Qed.
  Local Lemma blk0 e : (e * B) mod N = (e mod K) * B.
  Proof. pose proof (blk e 0 ltac:(lia)). now rewrite !Z.add_0_r in H. Qed.
  Local Lemma blk_in e : 0 <= (e mod K) * B /\ (e mod K) * B + B <= N.
  Proof. pose proof (Z.mod_pos_bound e K ltac:(lia)). rewrite HN. nia. Qed.

  Definition ext2 (X Y : pset -> Z -> Z -> Z -> Z -> Z -> Prop) (s s' : state) : Prop :=
    (exists new, trace (sio s') = new ++ trace (sio s)) /\ (disc c im0 X s -> zlen (trace (sio s')) < LIM -> disc c im0 Y s').
  Lemma ext2_trans X Y W a b d : ext2 X Y a b -> ext2 Y W b d -> ext2 X W a d.
  Proof.
    intros [[n1 A1] A2] [[n2 B1] B2]. split; [exists (n2 ++ n1); rewrite B1, A1; apply app_assoc|].
    intros D L. apply B2; auto. apply A2; auto. rewrite B1, zlen_app in L. pose proof (zlen_nonneg n2). lia.
  Qed.
  Lemma ext2_ext X s s' : ext c im0 X s s' -> ext2 X X s s'. Proof. auto. Qed.

  Lemma writePage_rlc s s' r : writePage c s = Ok (s', r) -> ext2 calmOk midOk s s'.
  Proof.
    intros H. assert (HdD : N mod B = 0 /\ B <= N). { split; [rewrite HN; apply Z.mod_mul; lia|nia]. }
    split; [exact (proj1 (writePage_ext c Sz im0 HdD s s' r H))|].
    intros (D & I & V & J) L. pose proof (j_D _ _ _ _ _ _ _ J) as (k & [k1 k2 k3 k4 k5 k6 k7] & Hlt).
    pose proof (j_nD _ _ _ _ _ _ _ J) as Jn. pose proof N4 as N4.
    assert (Ha : 0 < availD (sd s)) by nia.
    unfold writePage in H. cbv zeta in H. destruct (set_pid _ _) as [w| |]; cbn [bind] in H; try discriminate.
    match type of H with bind (if availD ?y <=? 0 then _ else _) _ = _ => change (availD y) with (availD (sd s)) in H end.
    destruct (Z.leb_spec (availD (sd s)) 0); [lia|]. cbn [bind negb] in H. cbn [set_d sio sd d_wbuf d_next wbuf nextD availD minD] in H.
    pose proof (j_faults _ _ _ _ _ _ _ J) as Hf. rewrite (io_write_run c _ _ _ _ Hf) in H. injection H as <- <-.
    cbn [set_io set_d sio getF putF trace] in L. rewrite zlen_cons in L.
    pose proof (Z.mod_pos_bound (nextD (sd s)) N ltac:(nia)) as Hm.
    eexists _, I, V. eapply (disc_D c im0 calmOk midOk s); [exact J|reflexivity|apply do_write; [exact Hm|apply k6; lia]| | | | | |].
    - cbn. rewrite !u32_id by nia. exists k. split; [|lia]. constructor; try lia; auto.
      + intros j Hj [Q|Q]; [apply (k6 j); auto; lia|]. revert Q. apply not_eq_sym, mod_diff. nia.
      + destruct k7 as (off & o1 & o2 & o3 & o4). exists off. repeat split; try lia; auto.
        intros t Ht Ht0 [Q|Q]; [apply (o4 t); auto|]. revert Q. apply not_eq_sym, mod_diff.
        assert (Ht2 : t < 2 * B) by (unfold clean in Ht; lia). clear - k1 k2 Hlt Ht2 Ht0 N4 HB2. replace ((k + 1) * B) with (k * B + B) in * by ring. lia.
    - cbn. rewrite u32_id by lia. lia.
    - reflexivity.
    - reflexivity.
    - reflexivity.
    - reflexivity.
  Qed.

  (** Erasing consecutive blocks. *)
  Lemma shift_grow n : forall st o o' ok, shift_erase c n st o = (o', ok) -> exists new, trace o' = new ++ trace o.
  Proof.
    induction n as [|n IH]; intros st o o' ok H; cbn [shift_erase] in H; [injection H as <- <-; now exists []|].
    cbv zeta in H. destruct (io_erase c WD st _ o) as [o1 ok1] eqn:E. pose proof (grow_erase c _ _ _ _ _ _ E) as [n1 T1].
    destruct ok1; [|injection H as <- <-; now exists n1]. apply IH in H as [n2 T2]. exists (n2 ++ n1). rewrite T2, T1. apply app_assoc.
  Qed.
  Lemma shift_erase_run n I V : forall e D o, faults o = [] -> flash_run c im0 (trace o) (D, I, V) (fD o, fI o, fV o) ->
    exists D' o', shift_erase c n ((e * B) mod N) o = (o', true) /\ faults o' = [] /\ fI o' = fI o /\ fV o' = fV o /\
      flash_run c im0 (trace o') (D', I, V) (fD o', fI o', fV o') /\ zlen (trace o) <= zlen (trace o') /\
      (forall q, D' q -> D q) /\ (forall i t, e <= i < e + Z.of_nat n -> 0 <= t < B -> ~ D' ((i * B + t) mod N)).
  Proof.
    induction n as [|n IH]; intros e D o F R; cbn [shift_erase].
    - exists D, o. repeat split; auto; lia.
    - cbv zeta. pose proof (blk_in e) as Hb. rewrite (blk0 e). pose proof N4 as N4. rewrite (u32_id ((e mod K) * B + B)) by (clear - Hb N4 HN31 HB2; lia).
      rewrite (io_erase_run c _ _ _ _ F).
      assert (E1 : ((e mod K) * B + B) mod N = ((e + 1) * B) mod N).
      { rewrite <- (blk0 e). rewrite Zplus_mod_idemp_l. f_equal. ring. }
      rewrite E1. set (o1 := putF WD o _).
      destruct (IH (e + 1) (fun q => D q /\ ~ ((e mod K) * B <= q < (e mod K) * B + B)) o1) as (D' & o' & S1 & S2 & S3 & S4 & S5 & S6 & S7 & S8).
      + exact F.
      + cbn [o1 putF trace fD fI fV]. eapply run_op; [exact R|]. apply step_data. cbn [getF]. apply do_erase; [lia|lia|]. apply Z.mod_mul. lia.
      + exists D', o'. repeat split; auto.
        * cbn [o1 putF trace] in S6. rewrite zlen_cons in S6. lia.
        * intros q Q. now apply S7 in Q as [Q _].
        * intros i t Hi Ht Q. destruct (Z.eq_dec i e) as [->|Ne].
          { apply S7 in Q as [_ Q]. apply Q. rewrite blk by exact Ht. lia. }
          { apply (S8 i t); auto. lia. }
  Qed.
  Lemma shift_rlc s s' r : nextD (sd s) mod B = 0 -> shiftRLC c s = Ok (s', r) -> ext2 midOk calmOk s s'.
  Proof.
    intros Hal H. unfold shiftRLC in H. cbv zeta in H.
    destruct (shift_erase c _ _ (sio s)) as [o ok] eqn:E. pose proof (shift_grow _ _ _ _ _ E) as G.
    assert (T : sio s' = o). { destruct ok; cbn [negb] in H; brk H; reflexivity. }
    split; [now rewrite T|]. intros (D & I & V & J) L. pose proof (j_D _ _ _ _ _ _ _ J) as (k & [k1 k2 k3 k4 k5 k6 k7] & Hlt).
    pose proof N4 as N4. pose proof (j_nD _ _ _ _ _ _ _ J) as Jn.
    assert (En : nextD (sd s) = (k + 1) * B).
    { apply Z.mod_divide in Hal as [q Hq]; [|lia]. rewrite Hq in *. assert (q = k + 1) by nia. lia. }
    rewrite k3 in E.
    destruct (shift_erase_run (if minD (sd s) mod N =? u32 (rlcStart (sd s) + B * 2) mod N then 2 else 3) I V (k + 1) D (sio s)
      (j_faults _ _ _ _ _ _ _ J) (j_run _ _ _ _ _ _ _ J)) as (D' & o' & S1 & S2 & S3 & S4 & S5 & S6 & S7 & S8).
    rewrite k3 in S1. rewrite S1 in E. injection E as <- <-. cbn [negb] in H. rewrite T in L.
    assert (W : (minD (sd s) mod N =? u32 (rlcStart (sd s) + B * 2) mod N) = (N <=? (k + 3) * B)).
    { pose proof (blk_in (k + 1)) as Hb. rewrite k3, (blk0 (k + 1)). rewrite u32_id by (clear - Hb N4 HN31 HB2; lia).
      rewrite <- (blk0 (k + 1)), Zplus_mod_idemp_l. replace ((k + 1) * B + B * 2) with ((k + 3) * B) by ring. rewrite k4.
      destruct (Z.leb_spec N ((k + 3) * B)) as [Hw|Hw].
      - rewrite Z.max_r by lia. apply Z.eqb_eq. rewrite <- (Z.mod_add _ 1 N) by lia. f_equal. lia.
      - rewrite Z.max_l by lia. rewrite Z.mod_0_l by lia. rewrite Z.mod_small by lia. apply Z.eqb_neq. clear - k1 HB2. nia. }
    rewrite W in H, S8.
    set (d1 := if N <=? (k + 3) * B then d_avail (sd s) (u32 (availD (sd s) + B)) (u32 (minD (sd s) + B)) else sd s).
    assert (X : exists d2, s' = set_d (set_io s o') (d_rlc d2 (u32 (rlcStart d2 + B) mod N) (u32 (rlcStart d2 + B) mod N)) /\
      nextD d2 = nextD d1 /\ availD d2 = availD d1 /\ minD d2 = minD d1 /\ rlcStart d2 = rlcStart d1).
    { match type of H with bind ?y _ = _ => destruct y as [d2| |] eqn:E2; cbn [bind] in H; try discriminate end.
      exists d2. injection H as <- _. split; [reflexivity|]. unfold d1. brk E2; auto. }
    destruct X as (d2 & -> & x1 & x2 & x3 & x4).
    assert (W4 : (k + 3) * B < N -> (k + 4) * B <= N). { clear - HN HB2. rewrite HN. intros. assert (k + 3 < K) by nia. nia. }
    assert (Y1 : nextD d1 = nextD (sd s)) by (unfold d1; now destruct (N <=? _)).
    assert (Y2 : rlcStart d1 = rlcStart (sd s)) by (unfold d1; now destruct (N <=? _)).
    assert (Y3 : minD d1 = Z.max 0 ((k + 1 + 3) * B - N)).
    { unfold d1. clear - HB2 k4 k1 k2 N4 W4 En Jn L S6. destruct (Z.leb_spec N ((k + 3) * B)); cbn [d_avail minD].
      - rewrite u32_id by lia. lia.
      - lia. }
    assert (Y4 : availD d1 = N - 2 * B - (nextD (sd s) - minD d1)).
    { rewrite Y3. unfold d1. clear - HB2 HN31 k4 k5 k1 k2 N4 W4 En Jn L S6. destruct (Z.leb_spec N ((k + 3) * B)); cbn [d_avail availD].
      - rewrite u32_id by lia. lia.
      - lia. }
    destruct J as [J1 J2 J3 J4 J5 J6 J7 J8]. exists D', I, V.
    assert (St : u32 (rlcStart d2 + B) mod N = ((k + 1 + 1) * B) mod N).
    { pose proof (blk_in (k + 1)) as Hb. rewrite x4, Y2, k3, (blk0 (k + 1)). rewrite u32_id by (clear - Hb N4 HN31 HB2; lia).
      rewrite <- (blk0 (k + 1)), Zplus_mod_idemp_l. f_equal. ring. }
    constructor; cbn [set_d set_io sio sd si sv d_rlc nextD availD minD nextRLC rlcStart];
      [exact S2|exact S5| |exact J4|exact J5|rewrite x1, Y1; clear - Jn S6; lia|clear - J7 S6; lia|clear - J8 S6; lia].
    rewrite St. exists (k + 1). split; [|rewrite x1, Y1, En; clear - HB2; lia].
    assert (Hw : 2 <= Z.of_nat (if N <=? (k + 3) * B then 2 else 3)) by (destruct (N <=? _); lia).
    constructor; [clear - k1; lia|rewrite x1, Y1, En; clear - HB2; lia|reflexivity|now rewrite x3|rewrite x2, x3, x1, Y1; exact Y4| |].
    - rewrite x1, Y1, En. intros j Hj. replace j with ((k + 1) * B + (j - (k + 1) * B)) by ring. apply S8; clear - Hw Hj; lia.
    - exists 0. pose proof (Z.mod_pos_bound ((k + 1 + 1) * B) N ltac:(clear - N4 HB2; lia)) as Hm. rewrite Z.mod_mod by (clear - N4 HB2; lia). rewrite Z.add_0_r.
      split; [clear - HB2; lia|]. split; [clear - Hm; lia|]. split; [reflexivity|].
      intros t Ht Ht0. apply S8; [clear - Hw; lia|]. unfold clean in Ht. clear - Ht Ht0 HB2. lia.
  Qed.

  Local Lemma ring_sub a off : 0 <= off < N -> 0 < N ->
    (a + off) mod N + (if (a + off) mod N <? a mod N then N else 0) - a mod N = off.
  Proof.
    intros Ho Hp. rewrite <- Zplus_mod_idemp_l. pose proof (Z.mod_pos_bound a N Hp) as Hx. set (x := a mod N) in *.
    destruct (Z.lt_ge_cases (x + off) N).
    - rewrite Z.mod_small by lia. destruct (Z.ltb_spec (x + off) x); lia.
    - replace ((x + off) mod N) with (x + off - N). { destruct (Z.ltb_spec (x + off - N) x); lia. }
      apply Z.mod_unique_pos with 1; lia.
  Qed.
  Lemma temp_rlc s s' r : writeTemporaryPage c s = Ok (s', r) -> ext c im0 calmOk s s'.
  Proof.
    unfold writeTemporaryPage. intros H. destruct (set_pid _ _) as [w| |]; cbn [bind] in H; try discriminate. cbv zeta in H.
    cbn [set_d sio sd d_wbuf wbuf nextD nextRLC rlcStart] in H.
    set (nx := if u32 _ >=? B * 2 then rlcStart (sd s) else nextRLC (sd s) mod N) in H.
    set (es := if nx =? u32 (rlcStart (sd s) + 1) then u32 (rlcStart (sd s) + B) mod N else rlcStart (sd s)) in H.
    set (sA := set_d s (d_wbuf (sd s) w)) in H.
    set (sE := if nx mod B =? 1 then _ else sA) in H.
    assert (TE : exists oE, sE = set_io sA oE /\ exists new, trace oE = new ++ trace (sio s)).
    { unfold sE. destruct (nx mod B =? 1); [|exists (sio s); split; [reflexivity|now exists []]].
      destruct (io_erase c WD es _ (sio s)) as [o1 ok1] eqn:E. exists o1. split; [reflexivity|]. exact (grow_erase c _ _ _ _ _ _ E). }
    destruct TE as (oE & TE & newE & GE).
    destruct (io_write c WD nx _ (sio sE)) as [o ok] eqn:Ew. pose proof (grow_write c _ _ _ _ _ _ Ew) as [new2 T2].
    injection H as <- _. rewrite TE in T2. cbn [set_io sio] in T2.
    split. { exists (new2 ++ newE). cbn [set_d set_io sio]. rewrite T2, GE. apply app_assoc. }
    intros (D & I & V & J) L. cbn [set_d set_io sio] in L. pose proof (j_D _ _ _ _ _ _ _ J) as (k & [k1 k2 k3 k4 k5 k6 (off & o1 & o2 & o3 & o4)] & Hlt).
    pose proof N4 as N4. pose proof (j_nD _ _ _ _ _ _ _ J) as Jn. pose proof (j_faults _ _ _ _ _ _ _ J) as Hf.
    set (off' := if 2 * B <=? off then 0 else off).
    assert (P0 : 0 < N) by (clear - N4 HB2; lia).
    assert (Nx : nx = ((k + 1) * B + off') mod N).
    { unfold nx, off'. rewrite o3, k3. pose proof (ring_sub ((k + 1) * B) off ltac:(clear - o1 N4 HB2; lia) P0) as Rs.
      pose proof (Z.mod_pos_bound ((k + 1) * B + off) N P0) as M1. pose proof (Z.mod_pos_bound ((k + 1) * B) N P0) as M2.
      rewrite (u32_id (_ + _)). 2:{ clear - M1 M2 HN31. destruct (_ <? _); lia. }
      rewrite Rs. rewrite u32_id by (clear - o1 N4 HN31 HB2; lia).
      destruct (Z.leb_spec (2 * B) off); destruct (Z.geb_spec off (B * 2)); try (exfalso; clear - H H0; lia); [now rewrite Z.add_0_r|reflexivity]. }
    assert (O' : 0 <= off' < 2 * B) by (unfold off'; clear - o1 HB2; destruct (Z.leb_spec (2 * B) off); lia).
    assert (C0 : forall t, clean off t \/ (off = 2 * B /\ clean 0 t) -> 0 <= t -> ~ D (((k + 1) * B + t) mod N)).
    { intros t [Ht|[-> Ht]] Ht0; apply o4; auto. unfold clean in *. clear - Ht Ht0 HB2. lia. }
    assert (C1 : clean off' off').
    { unfold clean. clear - O' HB2. lia. }
    assert (C1' : ~ D nx).
    { rewrite Nx. apply C0; [|clear - O'; lia]. unfold off' in *. destruct (Z.leb_spec (2 * B) off); [right; split; [clear - H o1; lia|exact C1]|now left]. }
    (* position in the two blocks *)
    assert (Pos : exists i t, (i = 0 \/ i = 1) /\ 0 <= t < B /\ off' = i * B + t).
    { destruct (Z.lt_ge_cases off' B); [exists 0, off'|exists 1, (off' - B)]; clear - H O'; lia. }
    destruct Pos as (i & t & Hi & Ht & Eo).
    assert (Nb : nx = ((k + 1 + i) mod K) * B + t).
    { rewrite Nx, Eo. replace ((k + 1) * B + (i * B + t)) with ((k + 1 + i) * B + t) by ring. now apply blk. }
    assert (Nm : nx mod B = t). { rewrite Nb, Z.add_comm, Z.mod_add by (clear - HB2; lia). apply Z.mod_small. exact Ht. }
    pose proof (blk_in (k + 1)) as B1. pose proof (blk_in (k + 2)) as B2. pose proof (blk_in (k + 1 + i)) as B3.
    assert (Es : t = 1 -> exists e, es = (e mod K) * B /\ e = k + 2 - i).
    { intros ->. exists (k + 2 - i). split; [|reflexivity]. unfold es. rewrite k3, (blk0 (k + 1)). rewrite (u32_id (_ + 1)) by (clear - B1 HN31 HB2; lia).
      destruct Hi as [-> | ->].
      - replace (k + 1 + 0) with (k + 1) in Nb by ring. rewrite Nb, Z.eqb_refl. rewrite u32_id by (clear - B1 HN31 HB2; lia).
        rewrite <- (blk0 (k + 1)), Zplus_mod_idemp_l. replace ((k + 1) * B + B) with ((k + 2) * B) by ring. replace (k + 2 - 0) with (k + 2) by ring. apply blk0.
      - replace (nx =? _) with false. { now replace (k + 2 - 1) with (k + 1) by ring. }
        symmetry. apply Z.eqb_neq. rewrite Nb, <- (blk (k + 1) 1) by exact Ht. rewrite <- (blk (k + 1 + 1) 1) by exact Ht. apply not_eq_sym, mod_diff.
        clear - HB2 N4. lia. }
    (* after the erase *)
    assert (S1 : exists D1, faults oE = [] /\ fI oE = fI (sio s) /\ fV oE = fV (sio s) /\ flash_run c im0 (trace oE) (D1, I, V) (fD oE, fI oE, fV oE) /\
      zlen (trace (sio s)) <= zlen (trace oE) /\ (forall q, D1 q -> D q) /\
      (t = 1 -> forall u, 0 <= u < B -> ~ D1 (((k + 2 - i) * B + u) mod N))).
    { unfold sE in TE. rewrite Nm in TE. destruct (Z.eqb_spec t 1) as [E1|E1].
      - destruct (Es E1) as (e & Ee & ->). rewrite Ee in TE. pose proof (blk_in (k + 2 - i)) as Hb. rewrite u32_id in TE by (clear - Hb HN31 HB2; lia).
        change (sio sA) with (sio s) in TE. rewrite (io_erase_run c _ _ _ _ Hf) in TE. cbn [fst getF] in TE.
        exists (fun q => D q /\ ~ (((k + 2 - i) mod K) * B <= q < ((k + 2 - i) mod K) * B + B)).
        assert (X : oE = putF WD (sio s) (file_erase c (fD (sio s)) ((k + 2 - i) mod K * B) ((k + 2 - i) mod K * B + B))) by (now injection TE).
        rewrite X. cbn [putF faults fI fV fD trace]. split; [exact Hf|]. split; [reflexivity|]. split; [reflexivity|]. split.
        { eapply run_op; [exact (j_run _ _ _ _ _ _ _ J)|]. apply step_data. apply do_erase; [clear - Hb; lia|clear - Hb; lia|]. apply Z.mod_mul. clear - HB2; lia. }
        split; [rewrite zlen_cons; clear; lia|]. split; [now intros q [Q _]|]. intros _ u Hu [_ Q]. apply Q. rewrite blk by exact Hu. clear - Hu; lia.
      - assert (X : oE = sio s) by (now injection TE). rewrite X. exists D. split; [exact Hf|]. split; [reflexivity|]. split; [reflexivity|].
        split; [exact (j_run _ _ _ _ _ _ _ J)|]. split; [clear; lia|]. split; [auto|]. intros F. contradiction. }
    destruct S1 as (D1 & F1 & F2 & F3 & F4 & F5 & F6 & F7).
    rewrite TE in Ew. cbn [set_io sio] in Ew. rewrite (io_write_run c _ _ _ _ F1) in Ew. injection Ew as Eo' Eok.
    exists (fun q => D1 q \/ q = nx), I, V. destruct J as [J1 J2 J3 J4 J5 J6 J7 J8]. rewrite TE.
    pose proof (Z.mod_pos_bound ((k + 1) * B + off') N P0) as Hm. rewrite <- Nx in Hm.
    constructor; cbn [set_d set_io sio sd si sv sA d_wbuf d_rlc nextD availD minD nextRLC rlcStart]; rewrite <- ?Eo'; cbn [putF faults fI fV fD trace];
      [exact F1| | |exact J4|exact J5|rewrite zlen_cons; clear - Jn F5; lia|rewrite zlen_cons; clear - J7 F5; lia|rewrite zlen_cons; clear - J8 F5; lia].
    { unfold image_of. cbn [set_d set_io sio fD fI fV]. eapply run_op; [exact F4|]. apply step_data. cbn [getF]. apply do_write; [exact Hm|]. intros Q. apply C1'. now apply F6. }
    exists k. split; [|exact Hlt]. constructor; auto.
    - intros j Hj [Q|Q]; [apply (k6 j); auto|]. rewrite Nx in Q. revert Q. apply mod_diff. clear - Hj k2 O' N4 HB2. lia.
    - exists (off' + 1). rewrite u32_id by (clear - Hm HN31; lia). split; [clear - O'; lia|]. split; [clear - Hm; lia|]. split.
      { rewrite Nx, Zplus_mod_idemp_l. f_equal. ring. }
      intros t' Hc Ht0 [Q|Q].
      2:{ rewrite Nx in Q. assert (Hn : t' < 2 * B /\ t' <> off') by (unfold clean in Hc; clear - Hc O' HB2; lia).
          destruct (Z.lt_total t' off') as [Hl|[Hl|Hl]]; [|now destruct Hn|].
          - revert Q. apply mod_diff. clear - Hl O' N4 Ht0 HB2. lia.
          - revert Q. apply not_eq_sym, mod_diff. clear - Hl O' N4 Hn HB2. lia. }
      assert (Q0 := F6 _ Q).
      destruct (Z.eq_dec t 1) as [E1|E1].
      + specialize (F7 E1). destruct Hi as [-> | ->].
        * destruct (Z.lt_ge_cases t' B).
          { revert Q0. apply C0; [|exact Ht0]. assert (off = off'); [|left; unfold clean in *; clear - Hc H H0 Eo E1 HB2; lia].
            unfold off' in *. destruct (Z.leb_spec (2 * B) off); [exfalso; clear - Eo E1; lia|reflexivity]. }
          { apply (F7 (t' - B)). { unfold clean in Hc. clear - Hc H HB2. lia. }
            now replace ((k + 2 - 0) * B + (t' - B)) with ((k + 1) * B + t') by ring. }
        * destruct (Z.lt_ge_cases t' B).
          { apply (F7 t'). { clear - H Ht0; lia. } now replace ((k + 2 - 1) * B + t') with ((k + 1) * B + t') by ring. }
          { revert Q0. apply C0; [|exact Ht0]. assert (off = off'); [|left; unfold clean in *; clear - Hc H H0 Eo E1 HB2; lia].
            unfold off' in *. destruct (Z.leb_spec (2 * B) off); [exfalso; clear - Eo E1 HB2; lia|reflexivity]. }
      + revert Q0. apply C0; [|exact Ht0]. unfold off' in *. destruct (Z.leb_spec (2 * B) off).
        * right. split; [clear - H o1; lia|]. unfold clean in *. clear - Hc HB2. lia.
        * left. unfold clean in *. clear - Hc Eo E1 Hi Ht HB2 Ht0. lia.
  Qed.

  Hypothesis HdI : useIndex c = true -> numIndex c mod B = 0 /\ B <= numIndex c.
  Hypothesis HdV : useVar c = true -> numVar c mod B = 0 /\ B <= numVar c.
  Hypothesis HR : useRLC c = true.
  Lemma put_rlc s k d s' r : embedDBPut c s k d = Ok (s', r) -> ext c im0 calmOk s s'.
  Proof.
    unfold embedDBPut. rewrite HR. destruct (get_count _) as [n| |]; cbn [bind]; try discriminate. intros H.
    match type of H with bind ?y _ = _ => destruct y as [[s1 rej]| |] eqn:E1; cbn [bind] in H; try discriminate end.
    assert (R1 : read_only s s1).
    { destruct (_ || _); [|brk E1; apply ro_refl].
      match type of E1 with bind ?y _ = _ => destruct y as [[s2 pv]| |] eqn:E2; cbn [bind] in E1; try discriminate end.
      brk E1. brk E2; ro; auto using ro_refl. }
    apply (ro_ext c im0 calmOk) in R1. eapply ext_trans; [exact R1|]. clear E1 R1.
    destruct rej; [brk H; apply ext_refl|].
    match type of H with bind ?y _ = _ => destruct y as [[[s2 n2] wr]| |] eqn:E1; cbn [bind] in H; try discriminate end.
    destruct (put_record c (wbuf (sd s2)) n2 k d (var_loc c s2)) as [w| |]; cbn [bind] in H; try discriminate.
    set (s3 := set_d s2 (d_wbuf (sd s2) w)) in H.
    match type of H with bind ?y _ = _ => destruct y as [s4| |] eqn:E4; cbn [bind] in H; try discriminate end.
    apply temp_rlc in H. eapply ext_trans; [|exact H]. clear H.
    destruct (n >=? maxRec c).
    - destruct (writePage c s1) as [[s5 r5]| |] eqn:E5; cbn [bind] in E1; try discriminate. apply writePage_rlc in E5.
      destruct (indexPage c s5 r5) as [s6| |] eqn:E6; cbn [bind] in E1; try discriminate. apply (indexPage_ext c im0 midOk) in E6.
      destruct (put_index c s6 r5) as [s7| |] eqn:E7; cbn [bind] in E1; try discriminate. apply (put_index_ext c Sz im0 midOk HdI HdV) in E7.
      assert (X : ext2 calmOk midOk s1 s3).
      { eapply ext2_trans; [exact E5|]. eapply ext2_trans; [apply ext2_ext; exact E6|]. eapply ext2_trans; [apply ext2_ext; exact E7|].
        brk E1. apply ext2_ext. unfold s3. fr. }
      assert (Ew : wr = true) by (brk E1; reflexivity). rewrite Ew in E4. cbn [andb] in E4.
      destruct (Z.eqb_spec (nextD (sd s3) mod B) 0) as [Hz|Hz].
      + destruct (shiftRLC c s3) as [[s8 r8]| |] eqn:E8; cbn [bind] in E4; try discriminate. apply shift_rlc in E8; [|exact Hz].
        injection E4 as <-. exact (ext2_trans _ _ _ _ _ _ X E8).
      + injection E4 as <-. destruct X as [X1 X2]. split; [exact X1|]. intros J L. destruct (X2 J L) as (D & I & V & [J1 J2 J3 J4 J5 J6 J7 J8]).
        exists D, I, V. constructor; auto. destruct J3 as (q & Q & Hq). exists q. split; [exact Q|].
        destruct Q as [_ Q _ _ _ _ _]. destruct (Z.eq_dec (nextD (sd s3)) ((q + 1) * B)) as [En|En]; [|clear - Q En; lia].
        exfalso. apply Hz. rewrite En. apply Z.mod_mul. clear - HB2; lia.
    - injection E1 as <- <- <-. cbn [andb] in E4. injection E4 as <-. unfold s3. fr.
  Qed.
End Rlc.

(** * Sessions *)
Lemma area_init c num : 0 < num -> num mod eraseSize c = 0 -> area c (fun _ => False) 0 num num.
Proof. intros H1 H2. constructor; try lia; auto. Qed.
Lemma init_reset c dk s : truncates c = true -> useReset c = true -> embedDBInit c dk [] = Ok (s, 0) ->
  faults (sio s) = [] /\ (trace (sio s) = [] /\ image_of s = (emptyFile, emptyFile, emptyFile)) /\
  (nextD (sd s) = 0 /\ minD (sd s) = 0 /\ availD (sd s) = (if useRLC c then u32 (numData c - eraseSize c * 2) else numData c) /\
   (useRLC c = true -> nextRLC (sd s) = eraseSize c /\ rlcStart (sd s) = eraseSize c)) /\
  (nextI (si s) = 0 /\ (useIndex c = true -> availI (si s) = numIndex c)) /\
  (nextV (sv s) = 0 /\ (useVar c = true -> availV (sv s) = numVar c)).
Proof.
  unfold embedDBInit. intros TR HR H. cbv zeta in H.
  assert (OW : forall f, open_w c f = emptyFile) by (intros f; unfold open_w; now rewrite TR).
  destruct (keySize c >? 8); [discriminate|]. destruct (eraseSize c =? 0); [discriminate|].
  destruct (negb _) in H; [discriminate|]. destruct (numData c <? _); [discriminate|].
  destruct (useVar c && _); [discriminate|]. destruct (useIndex c && _); [discriminate|]. destruct (recordSize c =? 0); [discriminate|].
  destruct (init_page c) as [w| |]; cbn [bind] in H; try discriminate. destruct (numData c <? _); [discriminate|]. destruct (negb (useBinary c) && _); [discriminate|].
  unfold initData in H. rewrite HR in H. cbn [bind] in H. change (negb (0 =? 0)) with false in H. cbv iota in H.
  match type of H with bind ?y _ = _ => destruct y as [[s1 r1]| |] eqn:E1; cbn [bind] in H; try discriminate end.
  destruct (Z.eqb_spec r1 0) as [->|N]; cbn [negb] in H; [|injection H as _ E; congruence].
  match type of E1 with context [initIndex c ?y _] => set (sx := y) in E1 end.
  assert (Y : nextD (sd sx) = 0 /\ minD (sd sx) = 0 /\ availD (sd sx) = (if useRLC c then u32 (numData c - eraseSize c * 2) else numData c) /\
   (useRLC c = true -> nextRLC (sd sx) = eraseSize c /\ rlcStart (sd sx) = eraseSize c) /\ nextI (si sx) = 0 /\ nextV (sv sx) = 0 /\ faults (sio sx) = [] /\ trace (sio sx) = [] /\ image_of sx = (emptyFile, emptyFile, emptyFile)).
  { unfold sx. destruct (useRLC c), (useBinary c); unfold image_of; cbn; rewrite ?OW; repeat split; auto; discriminate. }
  clearbody sx.
  assert (X : sd s1 = sd sx /\ sv s1 = sv sx /\ faults (sio s1) = [] /\ (trace (sio s1) = [] /\ image_of s1 = (emptyFile, emptyFile, emptyFile)) /\ nextI (si s1) = 0 /\ (useIndex c = true -> availI (si s1) = numIndex c)).
  { destruct Y as (y1 & y2 & y3 & y4 & y5 & y6 & y7 & y8 & y9). destruct (useIndex c).
    - destruct (bufBlocks c <? 4); [discriminate|]. unfold initIndex in E1. rewrite HR in E1. destruct (bitmapSize c =? 0); [discriminate|].
      destruct (init_page c) as [b| |]; cbn [bind] in E1; try discriminate. destruct (st b 8 _) as [b2| |]; cbn [bind] in E1; try discriminate.
      destruct (numIndex c <? _); [discriminate|]. destruct (negb _); [discriminate|]. injection E1 as <-. unfold image_of in *. cbn in *. injection y9 as e1 e2 e3. rewrite ?OW, ?e1, ?e3. auto 12.
    - injection E1 as <-. repeat split; auto; discriminate. }
  destruct Y as (y1 & y2 & y3 & y4 & y5 & y6 & y7 & y8 & y9). destruct X as (x1 & x2 & x3 & [x4 x7] & x5 & x6). rewrite <- x1, <- x2 in *. clear E1.
  destruct (useVar c).
  - match type of H with (if ?b then _ else _) = _ => destruct b; [discriminate H|] end. unfold initVarData in H. rewrite HR in H. cbn [negb andb] in H. injection H as <-. unfold image_of in *. cbn in *. injection x7 as e1 e2 _.
    rewrite ?OW, x4, ?e1, ?e2. auto 20.
  - injection H as <-. repeat split; auto; try discriminate; now apply y4.
Qed.
Lemma blocks_fit c n : sizes c -> 0 < n -> whole_blocks c n -> n mod eraseSize c = 0 /\ eraseSize c <= n.
Proof.
  intros Sz Hn (m & ->). pose proof (sz_erase _ Sz). split; [apply Z.mod_mul; lia|]. assert (0 < m) by nia. nia.
Qed.
Lemma init_disc c dk s (X : pset -> Z -> Z -> Z -> Z -> Z -> Prop) : sizes c -> useReset c = true -> embedDBInit c dk [] = Ok (s, 0) ->
  X (fun _ => False) (nextD (sd s)) (availD (sd s)) (minD (sd s)) (nextRLC (sd s)) (rlcStart (sd s)) -> disc c (image_of s) X s.
Proof.
  intros Sz HR H HX. pose proof (init_areas _ _ _ _ H) as [_ a1 a2 _ _ a3 a4].
  destruct (init_reset _ _ _ (sz_empty _ Sz) HR H) as (F & [T _] & (D1 & _) & (I1 & I2) & (V1 & V2)).
  exists (fun _ => False), (fun _ => False), (fun _ => False).
  constructor; rewrite ?T, ?D1, ?I1, ?V1; try (cbn; lia); auto.
  - apply run_nil.
  - now rewrite D1 in HX.
  - intros Ui. rewrite (I2 Ui). apply area_init; [now apply (sz_index _ Sz)|]. apply mod_of_whole; [auto|]. now apply a3.
  - intros Uv. rewrite (V2 Uv). apply area_init; [now apply (sz_var _ Sz)|]. apply mod_of_whole; [auto|]. now apply a4.
Qed.
Lemma flash_thm c dk s0 os s : sizes c -> useReset c = true -> useRLC c = false ->
  embedDBInit c dk [] = Ok (s0, 0) -> (In CFlushVar os -> useVar c = true) -> calls c s0 os = Ok s -> zlen (trace (sio s)) < 2 ^ 32 - 2 ->
  exists P, flash_run c (image_of s0) (trace (sio s)) P (image_of s).
Proof.
  intros Sz HR HL H0 Hv H L. pose proof (init_areas _ _ _ _ H0) as [_ a1 a2 _ _ a3 a4].
  assert (HdD : numData c mod eraseSize c = 0 /\ eraseSize c <= numData c) by (apply blocks_fit; auto; apply Sz).
  assert (HdI : useIndex c = true -> numIndex c mod eraseSize c = 0 /\ eraseSize c <= numIndex c).
  { intros Ui. apply blocks_fit; auto; [now apply (sz_index _ Sz)|]. now apply a3. }
  assert (HdV : useVar c = true -> numVar c mod eraseSize c = 0 /\ eraseSize c <= numVar c).
  { intros Uv. apply blocks_fit; auto; [now apply (sz_var _ Sz)|]. now apply a4. }
  assert (J : disc c (image_of s0) (plainOk c) s0).
  { eapply init_disc; eauto. destruct (init_reset _ _ _ (sz_empty _ Sz) HR H0) as (_ & _ & (-> & _ & -> & _) & _). rewrite HL. red. apply area_init; [apply Sz|apply HdD]. }
  destruct (calls_ext c Sz (image_of s0) (plainOk c) HdI HdV) with (os := os) (s := s0) (s' := s) as [_ G]; auto.
  - intros. eapply embedDBPut_ext; eauto.
  - intros. eapply embedDBFlush_ext; eauto.
  - destruct (G J L) as (D & I & V & J'). exists (D, I, V). apply J'.
Qed.
Lemma flash_rlc_thm c dk s0 os s : sizes c -> 2 <= eraseSize c -> numData c < 2 ^ 31 -> useReset c = true -> useRLC c = true ->
  embedDBInit c dk [] = Ok (s0, 0) -> (In CFlushVar os -> useVar c = true) -> ~ In CFlush os ->
  calls c s0 os = Ok s -> zlen (trace (sio s)) < 2 ^ 32 - 2 ->
  exists P, flash_run c (image_of s0) (trace (sio s)) P (image_of s).
Proof.
  intros Sz HB HN HR HL H0 Hv Hf H L. pose proof (init_areas _ _ _ _ H0) as [_ a1 [K a2] a5 _ a3 a4].
  rewrite HL in a5. cbn [orb] in a5. assert (HK : 4 <= K) by (rewrite a2 in a5; nia).
  assert (HdI : useIndex c = true -> numIndex c mod eraseSize c = 0 /\ eraseSize c <= numIndex c).
  { intros Ui. apply blocks_fit; auto; [now apply (sz_index _ Sz)|]. now apply a3. }
  assert (HdV : useVar c = true -> numVar c mod eraseSize c = 0 /\ eraseSize c <= numVar c).
  { intros Uv. apply blocks_fit; auto; [now apply (sz_var _ Sz)|]. now apply a4. }
  assert (J : disc c (image_of s0) (calmOk c) s0).
  { eapply init_disc; eauto. destruct (init_reset _ _ _ (sz_empty _ Sz) HR H0) as (_ & _ & (-> & -> & -> & St) & _). rewrite HL. destruct (St HL) as [-> ->].
    exists 0. split; [|lia]. constructor; try lia; auto.
    - rewrite Z.mod_small; lia.
    - rewrite u32_id by lia. lia.
    - exists 0. repeat split; try lia; auto. f_equal. lia. }
  destruct (calls_ext c Sz (image_of s0) (calmOk c) HdI HdV) with (os := os) (s := s0) (s' := s) as [_ G]; auto.
  - intros. eapply put_rlc; eauto.
  - intros. contradiction.
  - destruct (G J L) as (D & I & V & J'). exists (D, I, V). apply J'.
Qed.

(** * Contents *)
Lemma op_kept c num x P f P' f' : eraseFill c = Some x -> (forall q v, ~ P q -> file_read f q = Some v -> v = repeat x (psz c) \/ v = hole c) ->
  flash_op c num P f P' f' ->
  kept c x f f' /\ (forall q v, ~ P' q -> file_read f' q = Some v -> v = repeat x (psz c) \/ v = hole c).
Proof.
  intros Ex Inv Op. destruct Op as [p w f' H1 H2 H3 H4|b f' H1 H2 H3 H4 H5].
  - split.
    + intros q v v' Hv Hv'. destruct (Z.eq_dec p q) as [->|Ne]; [destruct (Inv _ _ H2 Hv); auto|].
      destruct (H4 q Ne) as [E|[E _]]; [left|]; congruence.
    + intros q v Hq Hv. destruct (Z.eq_dec p q) as [->|Ne]; [exfalso; apply Hq; now right|].
      destruct (H4 q Ne) as [E|[_ E]]; [|right; congruence]. apply (Inv q); [tauto|congruence].
  - rewrite Ex in H4. split.
    + intros q v v' Hv Hv'. destruct (Z.le_gt_cases b q); [destruct (Z.lt_ge_cases q (b + eraseSize c))|].
      * right. left. rewrite H4 in Hv' by lia. congruence.
      * destruct (H5 q) as [E|[E _]]; [lia| |]; [left|]; congruence.
      * destruct (H5 q) as [E|[E _]]; [lia| |]; [left|]; congruence.
    + intros q v Hq Hv. destruct (Z.le_gt_cases b q); [destruct (Z.lt_ge_cases q (b + eraseSize c))|].
      * left. rewrite H4 in Hv by lia. congruence.
      * destruct (H5 q) as [E|[_ E]]; [lia| |right; congruence]. apply (Inv q); [|congruence]. intros Q. apply Hq. split; [auto|lia].
      * destruct (H5 q) as [E|[_ E]]; [lia| |right; congruence]. apply (Inv q); [|congruence]. intros Q. apply Hq. split; [auto|lia].
Qed.
Lemma kept_refl c x f : kept c x f f.
Proof. intros q v v' H1 H2. left. congruence. Qed.
Lemma run_hd c a t P b : flash_run c a t P b -> hd a t = b.
Proof. now intros []. Qed.
Lemma run_kept c x a t P b : eraseFill c = Some x -> (forall q, file_read (fst (fst a)) q = None /\ file_read (snd (fst a)) q = None /\ file_read (snd a) q = None) ->
  flash_run c a t P b ->
  no_overwrite c x t a /\
  (forall q v, ~ fst (fst P) q -> file_read (fst (fst b)) q = Some v -> v = repeat x (psz c) \/ v = hole c) /\
  (forall q v, ~ snd (fst P) q -> file_read (snd (fst b)) q = Some v -> v = repeat x (psz c) \/ v = hole c) /\
  (forall q v, ~ snd P q -> file_read (snd b) q = Some v -> v = repeat x (psz c) \/ v = hole c).
Proof.
  intros Ex He R. induction R as [|t P b P' b' R (IH & I1 & I2 & I3) St].
  - split; [exact I|]. repeat split; intros q v _ Hv; destruct (He q) as (E1 & E2 & E3); congruence.
  - cbn [no_overwrite]. rewrite (run_hd _ _ _ _ _ R). unfold kept_image. destruct St as [d i v f g h d' f' Op|d i v f g h d' f' Op|d i v f g h d' f' Op]; cbn [fst snd] in *.
    + destruct (op_kept _ _ _ _ _ _ _ Ex I1 Op) as [O1 O2]. repeat split; auto using kept_refl.
    + destruct (op_kept _ _ _ _ _ _ _ Ex I2 Op) as [O1 O2]. repeat split; auto using kept_refl.
    + destruct (op_kept _ _ _ _ _ _ _ Ex I3 Op) as [O1 O2]. repeat split; auto using kept_refl.
Qed.

Lemma init_empty c dk s : truncates c = true -> useReset c = true -> embedDBInit c dk [] = Ok (s, 0) -> image_of s = (emptyFile, emptyFile, emptyFile).
Proof. intros TR HR H. destruct (init_reset _ _ _ TR HR H) as (_ & [_ T] & _). exact T. Qed.
Lemma empty_none q : file_read emptyFile q = None.
Proof. unfold file_read, emptyFile. cbn [flen]. destruct (Z.leb_spec 0 q); [|reflexivity]. destruct (Z.ltb_spec q 0); [lia|reflexivity]. Qed.
Lemma no_overwrite_thm c x dk s0 s P : truncates c = true -> eraseFill c = Some x -> useReset c = true -> embedDBInit c dk [] = Ok (s0, 0) ->
  flash_run c (image_of s0) (trace (sio s)) P (image_of s) -> no_overwrite c x (trace (sio s)) (image_of s0).
Proof.
  intros TR Ex HR H R. apply run_kept with (x := x) in R as [R _]; auto. rewrite (init_empty _ _ _ TR HR H). cbn. auto using empty_none.
Qed.

(** * Deciding that a page was overwritten *)
Definition same (p q : page) : bool := if list_eq_dec Z.eq_dec p q then true else false.
Lemma same_ne p q : same p q = false -> p <> q.
Proof. unfold same. now destruct (list_eq_dec Z.eq_dec p q). Qed.
Definition overb (c : cfg) (x q : Z) (f f' : file) : bool :=
  match file_read f q, file_read f' q with
  | Some v, Some v' => negb (same v' v) && negb (same v' (repeat x (psz c))) && negb (same v (repeat x (psz c))) && negb (same v (hole c))
  | _, _ => false
  end.
Lemma overb_ok c x q f f' : overb c x q f f' = true -> ~ kept c x f f'.
Proof.
  unfold overb. intros H K. destruct (file_read f q) as [v|] eqn:E1; [|discriminate]. destruct (file_read f' q) as [v'|] eqn:E2; [|discriminate].
  destruct (same v' v) eqn:N1; [discriminate|]. destruct (same v' (repeat x (psz c))) eqn:N2; [discriminate|].
  destruct (same v (repeat x (psz c))) eqn:N3; [discriminate|]. destruct (same v (hole c)) eqn:N4; [discriminate|].
  apply same_ne in N1, N2, N3, N4. destruct (K q v v' E1 E2) as [Q|[Q|[Q|Q]]]; auto.
Qed.
(** The [i]-th newest operation changes data page [q]. *)
Definition over_at (c : cfg) (x : Z) (i : nat) (q : Z) (t : list image) (a : image) : bool :=
  match skipn i t with
  | b :: t' => overb c x q (fst (fst (hd a t'))) (fst (fst b))
  | [] => false
  end.
Lemma over_at_ok c x i q t a : over_at c x i q t a = true -> ~ no_overwrite c x t a.
Proof.
  revert t. induction i as [|i IH]; intros t H N.
  - destruct t as [|b t]; [discriminate|]. cbn [no_overwrite] in N. destruct N as [(N & _) _]. unfold over_at in H. cbn [skipn] in H. now apply overb_ok in H.
  - destruct t as [|b t]; [discriminate|]. apply (IH t); [exact H|]. now destruct N.
Qed.

Lemma no_overwrite_plain c x dk s0 os s : sizes c -> useReset c = true -> useRLC c = false -> eraseFill c = Some x ->
  embedDBInit c dk [] = Ok (s0, 0) -> (In CFlushVar os -> useVar c = true) ->
  calls c s0 os = Ok s -> zlen (trace (sio s)) < 2 ^ 32 - 2 -> no_overwrite c x (trace (sio s)) (image_of s0).
Proof.
  intros S R L F I V C T. destruct (flash_thm c dk s0 os s S R L I V C T) as (P & H). exact (no_overwrite_thm c x dk s0 s P (sz_empty _ S) F R I H).
Qed.
Lemma no_overwrite_rlc c x dk s0 os s : sizes c -> 2 <= eraseSize c -> numData c < 2 ^ 31 -> useReset c = true -> useRLC c = true ->
  eraseFill c = Some x -> embedDBInit c dk [] = Ok (s0, 0) -> (In CFlushVar os -> useVar c = true) -> ~ In CFlush os ->
  calls c s0 os = Ok s -> zlen (trace (sio s)) < 2 ^ 32 - 2 -> no_overwrite c x (trace (sio s)) (image_of s0).
Proof.
  intros S B N R L F I V NF C T. destruct (flash_rlc_thm c dk s0 os s S B N R L I V NF C T) as (P & H). exact (no_overwrite_thm c x dk s0 s P (sz_empty _ S) F R I H).
Qed.

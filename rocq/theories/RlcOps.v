(** Record-level consistency: temporary pages, moving the reserved blocks,
    embedDBPut and embedDBFlush. *)
From Verif Require Import Base BaseFacts Config Spline Storage DB Recovery Spec SpecSpline SplineFacts
  SpecPage SpecStore SpecIter Run SpecRun SpecReopen SpecRlc LogFacts PageFacts SearchFacts StoreFacts PutFacts
  GetFacts RunFacts RecoverFacts RlcFacts.
Open Scope Z_scope.
Ltac Zify.zify_post_hook ::= ZifyBool.elim_bool_cstr.
Ltac Zify.zify_convert_to_euclidean_division_equations_flag ::= constr:(false).

Ltac scbn := cbn [bind negb set_d set_io d_next d_wbuf d_avail d_spl d_rlc d_rbuf sio sd si sv wbuf rbuf availD minD nextD
  bufD nextRLC rlcStart spl getF putF fD fI fV trace faults pages lo cur fst snd].

Section Ops.
  Variables (c : cfg) (KB PB : Z).
  Hypothesis R : rlc_db c KB PB.
  Notation N := (maxRec c).
  Notation D := (numData c).
  Notation B := (eraseSize c).
  Notation nb := (nb (eraseSize c)).
  Notation rlo := (rlc_lo (numData c) (eraseSize c)).
  Let G := rl_set _ _ _ R.
  Let L0 := L0 c KB PB G.
  Notation rdisk := (rdisk c).
  Notation rimg := (rimg c).
  Notation Inv := (Inv c KB PB).
  Notation InvG := (InvG c KB PB).

  (** The reserved blocks: [j] of their pages are in use. *)
  Record rl (F : file) (st nx : Z) (P : list (list rcd)) (w : list rcd) (l j : Z) : Prop := {
    rl_disk : rdisk F P l w;
    rl_j : 0 <= j <= 2 * B;
    rl_fit : nb (zlen P) + j <= l + D;
    rl_start : st = nb (zlen P) mod D;
    rl_next : nx mod D = (nb (zlen P) + j) mod D;
    rl_in : forall k, 0 <= k < j -> (nb (zlen P) + k) mod D < flen F;
    rl_cur : w <> [] -> 1 <= j /\ holds c (fpg F ((nb (zlen P) + (j - 1)) mod D)) w /\
             page_id (fpg F ((nb (zlen P) + (j - 1)) mod D)) = zlen P
  }.
  Lemma rl_img F st nx P w l j : rl F st nx P w l j -> rimg F P w.
  Proof.
    intros []. split; [eauto|]. intros Hw. destruct (rl_cur0 Hw) as (A & A1 & A2). exists (j - 1). split; [lia|].
    split; [|auto]. intros k' Hk. apply rl_in0. lia.
  Qed.

  (** The state of the storage after some operations. *)
  Definition io_ext (o o' : io) (new : list (file * file * file)) : Prop :=
    faults o' = [] /\ fI o' = fI o /\ fV o' = fV o /\ trace o' = new ++ trace o.
  Lemma ext_refl o : faults o = [] -> io_ext o o [].
  Proof. intros. repeat split; auto. Qed.
  Lemma ext_trans o o1 o2 n1 n2 : io_ext o o1 n1 -> io_ext o1 o2 n2 -> io_ext o o2 (n2 ++ n1).
  Proof.
    intros (A1 & A2 & A3 & A4) (B1 & B2 & B3 & B4). split; [auto|]. split; [congruence|]. split; [congruence|].
    now rewrite B4, A4, app_assoc.
  Qed.

  (** Every image keeps the pages retained and can be recovered. *)
  Definition imgs (F : file) (P : list (list rcd)) (w : list rcd) (m : Z) (new : list (file * file * file)) : Prop :=
    Forall (fun im => rimg (fst (fst im)) P w /\ keep c F (fst (fst im)) m (rlo (zlen P))) new.

  Lemma keep_trans F F1 F2 n l : keep c F F1 n l -> keep c F1 F2 n l -> keep c F F2 n l.
  Proof. intros H1 H2 id Hid. rewrite H2, H1; auto. Qed.
  Lemma keep_le F F1 n n' l l' : keep c F F1 n l -> l <= l' -> n' <= n -> keep c F F1 n' l'.
  Proof. intros H1 H2 H3 id Hid. apply H1. lia. Qed.
  Lemma keep_refl F n l : keep c F F n l.
  Proof. intros id _. reflexivity. Qed.

  (** ** Erasing a reserved block *)
  Lemma rl_erase F st nx P w l j a : rl F st nx P w l j -> a mod B = 0 -> zlen P <= a ->
    a <= l + D \/ eraseFill c = None -> a + B <= nb (zlen P) + 2 * B -> (w <> [] -> ~ (a <= nb (zlen P) + (j - 1) < a + B)) ->
    let F' := file_erase c F (a mod D) (a mod D + B) in
    exists l', l <= l' /\ (a + B <= l' + D \/ eraseFill c = None) /\ rl F' st nx P w l' j /\ keep c F F' (zlen P) (rlo (zlen P)).
  Proof.
    intros H Ha Hn Hn1 Hb Hw F'. pose proof H as [Dk Hj Hf Hs Hx Hi _].
    destruct (erase_ok c KB PB R F P l w Dk a Ha Hn Hn1 Hb) as (l' & Ll & Cs & Dk' & [So1 So2] & Ke).
    pose proof (B_pos c KB PB R) as HB. pose proof (D_four c KB PB R) as HD. pose proof (nb_b B (zlen P) HB) as Nb.
    pose proof (rd_lo _ _ _ _ _ Dk') as Rl.
    exists l'. split; [auto|]. split; [auto|]. split.
    - constructor; auto.
      + clear - Hf Ll. lia.
      + intros k Hk. eapply Z.lt_le_trans; [apply Hi; auto|exact So1].
      + intros W0. destruct (rl_cur _ _ _ _ _ _ _ H W0) as (A & A1 & A2). specialize (Hw W0). split; [auto|].
        assert (E : fpg F' ((nb (zlen P) + (j - 1)) mod D) = fpg F ((nb (zlen P) + (j - 1)) mod D)).
        { apply So2; [split; [apply (md c KB PB R)|apply Hi; lia]|]. intros Q.
          destruct (in_block c KB PB R a _ Ha Q) as (_ & r & Hr & Er). apply Hw.
          assert (nb (zlen P) + (j - 1) = a + r) as ->; [|clear - Hr; lia].
          apply (minj2 c KB PB R (zlen P)); [auto| |]; clear - Nb Hj HD A Hr Hn Hb HB; lia. }
        rewrite E. auto.
    - eapply keep_le; [exact Ke|apply Rl|apply Z.le_refl].
  Qed.

  (** ** writeTemporaryPage *)
  Section Slots.
    Variables (q j k : Z).
    Hypothesis HB : 0 < B.
    Hypothesis HD : 4 * B <= D < 2 ^ 31.
    Hypothesis Hq : q mod B = 0.

    Lemma slot_dist : 0 <= j <= 2 * B ->
      u32 (u32 ((q + j) mod D + (if (q + j) mod D <? q mod D then D else 0)) - q mod D) = j.
    Proof.
      intros Hj. pose proof (md c KB PB R q) as M.
      destruct (Z.lt_ge_cases (q mod D + j) D) as [Lt|Ge].
      - assert ((q + j) mod D = q mod D + j) as ->.
        { rewrite Z.add_mod, (Z.mod_small j) by (clear - Hj HB HD; lia). apply Z.mod_small. clear - Hj Lt M. lia. }
        generalize dependent (q mod D). clear - HB HD Hj. intros x M Lt.
        destruct (Z.ltb_spec (x + j) x); [lia|]. rewrite (u32_id (x + j + 0)) by lia. rewrite u32_id; lia.
      - assert ((q + j) mod D = q mod D + j - D) as ->.
        { rewrite Z.add_mod, (Z.mod_small j) by (clear - Hj HB HD; lia). symmetry. apply (Zmod_unique _ D 1); clear - Hj Ge M HD; lia. }
        generalize dependent (q mod D). clear - HB HD Hj. intros x M Ge.
        destruct (Z.ltb_spec (x + j - D) x); [|lia]. rewrite (u32_id (x + j - D + D)) by lia. rewrite u32_id; lia.
    Qed.

    Lemma slot_erase : 0 <= k < 2 * B -> (q + k) mod D mod B = 1 ->
      let es := if (q + k) mod D =? u32 (q mod D + 1) then u32 (q mod D + B) mod D else q mod D in
      exists a, es = a mod D /\ u32 (es + B) = a mod D + B /\ a mod B = 0 /\ (a = q /\ k = B + 1 \/ a = q + B /\ k = 1).
    Proof.
      intros Hk E1 es. pose proof (md c KB PB R q) as M. pose proof (md c KB PB R (q + B)) as M2.
      assert (B2 : 2 <= B). { destruct (Z.eq_dec B 1) as [EB|]; [|lia]. rewrite EB, Z.mod_1_r in E1. lia. }
      assert (A2 : (q + B) mod B = 0) by (apply al_add; auto; apply al_self; auto).
      assert (Es : es = if (q + k) mod D =? q mod D + 1 then (q + B) mod D else q mod D).
      { unfold es. rewrite (u32_id (q mod D + 1)) by (clear - M HD; lia). rewrite (u32_id (q mod D + B)) by (clear - M HB HD; lia).
        rewrite Z.add_mod_idemp_l by (clear - HB HD; lia). auto. }
      clearbody es. subst es.
      destruct (Z.lt_ge_cases k B) as [Lt|Ge].
      - rewrite (mod_in c KB PB R q k Hq) in * by (clear - Hk Lt; lia).
        assert (k = 1).
        { rewrite Z.add_mod, (mod_al c KB PB R _ Hq), Z.add_0_l, Z.mod_mod, Z.mod_small in E1 by (clear - Hk Lt HB; lia). auto. }
        subst k. rewrite Z.eqb_refl. exists (q + B). split; [auto|]. split; [|split; [auto|right; auto]].
        apply u32_id. clear - M2 HB HD. lia.
      - assert (Ek : (q + k) mod D = (q + B) mod D + (k - B)).
        { rewrite <- (mod_in c KB PB R (q + B) (k - B) A2) by (clear - Hk Ge; lia). f_equal. clear. lia. }
        rewrite Ek in *. assert (k - B = 1).
        { rewrite Z.add_mod, (mod_al c KB PB R _ A2), Z.add_0_l, Z.mod_mod, Z.mod_small in E1 by (clear - Hk Ge HB; lia). auto. }
        assert (K : k = B + 1) by (clear - H; lia). subst k. exists q.
        destruct (Z.eqb_spec ((q + B) mod D + (B + 1 - B)) (q mod D + 1)) as [Eq|_].
        + exfalso. assert (q = q + B); [|clear - H0 HB; lia]. apply (minj c KB PB R); [clear - Eq; lia|clear - HB HD; lia].
        + split; [auto|]. split; [|split; [auto|left; auto]]. apply u32_id. clear - M HB HD. lia.
    Qed.
  End Slots.

  Lemma writeTemp_ok s P w w' l j : faults (sio s) = [] -> nextD (sd s) = zlen P -> zlen P < 2 ^ 31 ->
    holds c (wbuf (sd s)) w' -> zlen w < zlen w' ->
    rl (fD (sio s)) (rlcStart (sd s)) (nextRLC (sd s)) P w l j ->
    exists o' wb nr l' j' im rest,
      writeTemporaryPage c s = Ok (mkS o' (mkD wb (rbuf (sd s)) (availD (sd s)) (minD (sd s)) (nextD (sd s)) (bufD (sd s)) nr
                                           (rlcStart (sd s)) (spl (sd s))) (si s) (sv s), 0) /\
      io_ext (sio s) o' (im :: rest) /\ fst (fst im) = fD o' /\ holds c wb w' /\
      rl (fD o') (rlcStart (sd s)) nr P w' l' j' /\ keep c (fD (sio s)) (fD o') (zlen P) (rlo (zlen P)) /\
      imgs (fD (sio s)) P w (zlen P) rest.
  Proof.
    intros Hf Hn Hn2 Hh Hl H. pose proof H as [Dk Hj Hfit Hs Hx _ _].
    pose proof (zlen_nonneg P) as N0.
    pose proof (B_pos c KB PB R) as HB. pose proof (D_four c KB PB R) as HD. pose proof (nb_b B (zlen P) HB) as Nb.
    pose proof (nb_al B (zlen P) HB) as Na. pose proof (rd_al _ _ _ _ _ Dk) as Al.
    pose proof (rd_room _ _ _ _ _ Dk) as Rm.
    pose proof (rd_lo _ _ _ _ _ Dk) as Rl. pose proof (rlo_b c KB PB R (zlen P) N0) as (_ & _ & _ & _ & b5 & _).
    assert (Ald : (l + D) mod B = 0) by (apply al_add; auto; apply (D_al c KB PB R)).
    unfold writeTemporaryPage. rewrite Hn.
    destruct (set_pid_ok c L0 (wbuf (sd s)) w' (zlen P) Hh ltac:(clear - N0 Hn2; lia)) as (wb & -> & Hwb & Hid). cbn [bind].
    scbn. rewrite Hx, Hs.
    rewrite (slot_dist _ j HB HD Hj).
    assert (exists k, 0 <= k < 2 * B /\ nb (zlen P) + k <= l + D /\ (k = 0 \/ k = j) /\ k <= j /\
      (if j >=? B * 2 then nb (zlen P) mod D else (nb (zlen P) + j) mod D) = (nb (zlen P) + k) mod D) as (k & Hk & Hkl & Hk0 & Hkj & ->).
    { clear - Hj HB Rm Hfit. destruct (Z.geb_spec j (B * 2)); [exists 0|exists j]; repeat split; auto; try lia. now rewrite Z.add_0_r. }
    (* the erased block *)
    assert (Er : exists l1 o1 new1,
      (if (nb (zlen P) + k) mod D mod B =? 1
       then set_io (set_d s (d_wbuf (sd s) wb)) (fst (io_erase c WD
              (if (nb (zlen P) + k) mod D =? u32 (nb (zlen P) mod D + 1) then u32 (nb (zlen P) mod D + B) mod D else nb (zlen P) mod D)
              (u32 ((if (nb (zlen P) + k) mod D =? u32 (nb (zlen P) mod D + 1) then u32 (nb (zlen P) mod D + B) mod D else nb (zlen P) mod D) + B)) (sio s)))
       else set_d s (d_wbuf (sd s) wb)) = set_io (set_d s (d_wbuf (sd s) wb)) o1 /\
      io_ext (sio s) o1 new1 /\ rl (fD o1) (rlcStart (sd s)) (nextRLC (sd s)) P w l1 j /\ l <= l1 /\
      keep c (fD (sio s)) (fD o1) (zlen P) (rlo (zlen P)) /\ imgs (fD (sio s)) P w (zlen P) new1).
    { destruct (Z.eqb_spec ((nb (zlen P) + k) mod D mod B) 1) as [E1|E1].
      2:{ exists l, (sio s), []. split; [destruct s; reflexivity|]. split; [apply ext_refl; auto|]. split; [exact H|].
          split; [clear; lia|]. split; [apply keep_refl|constructor]. }
      destruct (slot_erase _ k HB HD Na Hk E1) as (a & -> & -> & Aa & Cs).
      rewrite io_erase_nf by auto. scbn.
      assert (Hal : a <= l + D).
      { destruct Cs as [[-> _]|[-> K1]]; [exact Rm|]. apply al_lt; auto. clear - Hkl K1. lia. }
      destruct (rl_erase _ _ _ _ _ _ _ a H Aa) as (l1 & Hl1 & _ & H1 & K1).
      { clear - Cs Nb HB. lia. }
      { left. exact Hal. }
      { clear - Cs Nb HB. lia. }
      { intros _. clear - Cs Hk0 HB. lia. }
      exists l1. eexists _, [_]. split; [reflexivity|]. split; [repeat split; auto|]. scbn. split; [exact H1|]. split; [exact Hl1|].
      split; [exact K1|]. constructor; [|constructor]. scbn. split; [eapply rl_img; exact H1|exact K1]. }
    destruct Er as (l1 & o1 & new1 & -> & X1 & H1 & Hl1 & K1 & I1). scbn.
    rewrite io_write_nf by apply X1. scbn.
    destruct (temp_ok c KB PB R (fD o1) P l1 w (rl_disk _ _ _ _ _ _ _ H1) k wb w' Hk) as (l2 & Cs & Dk2 & [So1 So2] & Ke & Fl & Fp); auto.
    { clear - Hkl Hl1. lia. }
    pose proof (md c KB PB R (nb (zlen P) + k)) as Mk.
    pose proof (rd_lo _ _ _ _ _ Dk2) as Rl2.
    assert (K2 : keep c (fD (sio s)) (file_write c (fD o1) ((nb (zlen P) + k) mod D) wb) (zlen P) (rlo (zlen P))).
    { eapply keep_trans; [exact K1|]. eapply keep_le; [exact Ke|apply Rl2|apply Z.le_refl]. }
    rewrite u32_id by (clear - Mk HD; lia).
    eexists _, wb, ((nb (zlen P) + k) mod D + 1), l2, (k + 1), _, new1. split; [unfold set_d, set_io, d_rlc, d_wbuf; scbn; rewrite Hn; reflexivity|].
    split; [|split; [|split; [exact Hwb|split; [|split; [exact K2|exact I1]]]]].
    - destruct X1 as (x1 & x2 & x3 & x4). scbn. repeat split; auto. scbn. rewrite x4. reflexivity.
    - reflexivity.
    - scbn. constructor; auto.
      + clear - Hk. lia.
      + clear - Cs Hkl Hl1 HB. destruct Cs as [[-> ?]|[? ->]]; lia.
      + rewrite Z.add_mod_idemp_l by (clear - HB HD; lia). f_equal. clear. lia.
      + intros q Hq. destruct (Z.eq_dec q k) as [->|Nq]; [auto|].
        eapply Z.lt_le_trans; [|exact So1]. apply (rl_in _ _ _ _ _ _ _ H1). clear - Hq Nq Hkj. lia.
      + intros _. split; [clear - Hk; lia|]. replace (k + 1 - 1) with k by (clear; lia). rewrite Fp. auto.
  Qed.

  (** ** Moving the reserved blocks *)
  Lemma shift_erase_ok st nx P j k : forall a l w o, faults o = [] -> rl (fD o) st nx P w l j -> a mod B = 0 -> zlen P <= a ->
    a <= l + D \/ eraseFill c = None -> a + Z.of_nat k * B <= nb (zlen P) + 2 * B ->
    (w <> [] -> ~ (a <= nb (zlen P) + (j - 1) < a + Z.of_nat k * B)) ->
    exists o' new l', shift_erase c k (a mod D) o = (o', true) /\ io_ext o o' new /\ l <= l' /\
      rl (fD o') st nx P w l' j /\ keep c (fD o) (fD o') (zlen P) (rlo (zlen P)) /\ imgs (fD o) P w (zlen P) new.
  Proof.
    pose proof (B_pos c KB PB R) as HB. pose proof (D_four c KB PB R) as HD.
    induction k as [|k IH]; intros a l w o Hf H Ha Hn Hl Hb Hw.
    { exists o, [], l. split; [reflexivity|]. split; [apply ext_refl; auto|]. split; [apply Z.le_refl|]. split; [exact H|].
      split; [apply keep_refl|constructor]. }
    assert (Kb : Z.of_nat (S k) * B = Z.of_nat k * B + B) by (clear; lia).
    assert (K0 : 0 <= Z.of_nat k * B) by (clear - HB; apply Z.mul_nonneg_nonneg; lia).
    cbn [shift_erase]. pose proof (md c KB PB R a) as Ma. rewrite (u32_id (a mod D + B)) by (clear - Ma HB HD; lia).
    rewrite io_erase_nf by auto. cbn [getF].
    destruct (rl_erase _ _ _ _ _ _ _ a H Ha Hn Hl) as (l1 & Hl1 & Hl2 & H1 & K1).
    { clear - Hb Kb K0. lia. }
    { intros W0. specialize (Hw W0). clear - Hw Kb K0. lia. }
    rewrite Z.add_mod_idemp_l by (clear - HB HD; lia).
    destruct (IH (a + B) l1 w (putF WD o (file_erase c (fD o) (a mod D) (a mod D + B)))) as (o' & new & l' & -> & X & Hl3 & H2 & K2 & I2); auto.
    { apply al_add; auto. apply al_self; auto. }
    { clear - Hn HB. lia. }
    { clear - Hb Kb. lia. }
    { intros W0. specialize (Hw W0). clear - Hw Kb HB. lia. }
    cbn [putF fD] in K2, I2.
    eexists o', (new ++ [_]), l'. split; [reflexivity|]. split; [eapply ext_trans; [|exact X]; repeat split; auto|].
    split; [clear - Hl1 Hl3; lia|]. split; [exact H2|]. split; [eapply keep_trans; eauto|].
    apply Forall_app. split.
    - eapply Forall_impl; [|exact I2]. intros im (A1 & A2). split; [auto|]. eapply keep_trans; eauto.
    - constructor; [|constructor]. scbn. split; [eapply rl_img; exact H1|exact K1].
  Qed.

  Lemma wrap_test n : n mod B = 0 -> 0 < n -> n < 2 ^ 31 -> (rlo (n - 1) mod D =? u32 (n mod D + B * 2) mod D) = (D <=? n + 2 * B) /\
    rlo (n) = (if D <=? n + 2 * B then rlo (n - 1) + B else rlo (n - 1)).
  Proof.
    intros Ha H0 H1. pose proof (B_pos c KB PB R) as HB. pose proof (D_four c KB PB R) as HD. pose proof (md c KB PB R (n)) as M.
    rewrite u32_id by (clear - M HB HD; lia). rewrite Z.add_mod_idemp_l by (clear - HB HD; lia).
    rewrite !rlc_lo_nb. rewrite (nb_at B (n) HB Ha).
    rewrite <- (nb_bound B (n - 1) HB) by (replace (n - 1 + 1) with (n) by (clear; lia); auto).
    replace (n - 1 + 1) with (n) by (clear; lia).
    pose proof (D_al c KB PB R) as DA.
    assert (Z3 : n + 2 * B < D -> n + 2 * B + B <= D).
    { intros Q. apply al_lt; auto. apply al_add; auto. apply al_mul; auto. }
    clear M Ha DA.
    destruct (Z.leb_spec D (n + 2 * B)) as [Le|Lt].
    - rewrite Z.max_r by (clear - Le; lia). split; [|rewrite Z.max_r by (clear - Le HB; lia); clear; lia].
      apply Z.eqb_eq. rewrite <- (Z_mod_plus_full (n + 2 * B - D) 1 D). f_equal. clear. lia.
    - specialize (Z3 Lt). rewrite Z.max_l by (clear - Lt; lia). split; [|rewrite Z.max_l by (clear - Z3; lia); auto].
      apply Z.eqb_neq. rewrite Z.mod_0_l by (clear - HD HB; lia). rewrite Z.mod_small by (clear - H0 HB Lt; lia). clear - H0 HB. lia.
  Qed.

  Lemma shift_ok f s P l w1 : let L := mkLog P (rlo (zlen P - 1)) [] in let L' := mkLog P (rlo (zlen P)) [] in
    InvG f s L (zlen P) w1 -> zlen P mod B = 0 -> 0 < zlen P -> rdisk (fD (sio s)) P l [] -> rlcStart (sd s) = zlen P mod D ->
    exists s' new l', shiftRLC c s = Ok (s', 0) /\ InvG f s' L' (zlen P) w1 /\
      rl (fD (sio s')) (rlcStart (sd s')) (nextRLC (sd s')) P [] l' 0 /\ io_ext (sio s) (sio s') new /\
      keep c (fD (sio s)) (fD (sio s')) (zlen P) (rlo (zlen P)) /\ imgs (fD (sio s)) P [] (zlen P) new /\
      si s' = si s /\ sv s' = sv s /\ rbuf (sd s') = rbuf (sd s) /\ bufD (sd s') = bufD (sd s).
  Proof.
    intros L L' I Ha H0 Dk Hs. pose proof I as [If In Ip Im Ia Ids Iw W Rb Is If0 Ife Ii].
    pose proof (B_pos c KB PB R) as HB. pose proof (D_four c KB PB R) as HD. pose proof (D_al c KB PB R) as DA.
    pose proof (g_PB _ _ _ G) as GP. pose proof (g_err _ _ _ G) as GE.
    unfold L in In, Ip, Im, Ia, If0. cbn [pages lo] in In, Ip, Im, Ia, If0.
    assert (P31 : zlen P < 2 ^ 31) by (clear - Ip GP GE; lia).
    destruct (wrap_test (zlen P) Ha H0 P31) as [T1 T2].
    pose proof (rlo_b c KB PB R (zlen P) ltac:(clear - H0; lia)) as (b1 & b2 & b3 & b4 & b5 & b6).
    pose proof (rlo_b c KB PB R (zlen P - 1) ltac:(clear - H0; lia)) as (c1 & _ & c3 & _).
    pose proof (nb_at B (zlen P) HB Ha) as Nb. pose proof (rd_room _ _ _ _ _ Dk) as Rm. rewrite Nb in Rm.
    unfold shiftRLC. rewrite Im, Hs, T1.
    set (wr := D <=? zlen P + 2 * B) in *. set (k := if wr then 2%nat else 3%nat).
    assert (Rl0 : rl (fD (sio s)) (nb (zlen P) mod D) (nb (zlen P) mod D) P [] l 0).
    { constructor; auto; try congruence.
      - clear - HB. lia.
      - rewrite Nb. clear - Rm. lia.
      - rewrite Z.mod_mod by (clear - HB HD; lia). f_equal. clear. lia.
      - clear. lia. }
    destruct (shift_erase_ok _ _ P 0 k (zlen P) l [] (sio s) If Rl0 Ha) as (o' & new & l' & -> & X & Hl & H1 & K1 & I1).
    { apply Z.le_refl. } { left. clear - Rm HB. lia. }
    { rewrite Nb. unfold k. destruct wr; clear - HB; lia. }
    { congruence. }
    cbn [negb]. scbn. unfold reserve in Ia. rewrite (rl_rlc _ _ _ R) in Ia.
    assert (Em : u32 (zlen P mod D + B) mod D = nb (zlen P) mod D).
    { pose proof (md c KB PB R (zlen P)) as M. rewrite u32_id by (clear - M HB HD; lia).
      rewrite Z.add_mod_idemp_l by (clear - HB HD; lia). now rewrite Nb. }
    assert (W' : wf_log c KB L').
    { destruct W. constructor; cbn [L' pages lo cur] in *; auto. clear - b3 HB. lia. }
    assert (St : store_ok c (fD o') P (rlo (zlen P))).
    { unfold store_ok. rewrite (rl_rlc _ _ _ R). eapply rd_ok; [exact R|exact (rl_disk _ _ _ _ _ _ _ H1)|].
      apply (rd_lo _ _ _ _ _ (rl_disk _ _ _ _ _ _ _ H1)). }
    destruct wr.
    - assert (Sp : exists sp', (if noClean c
          then Ok (d_avail (sd s) (u32 (availD (sd s) + B)) (u32 (rlo (zlen P - 1) + B)))
          else match spl (sd s) with
               | Some sp => Ok (d_spl (d_avail (sd s) (u32 (availD (sd s) + B)) (u32 (rlo (zlen P - 1) + B)))
                              (Some (cleanSpline sp (u32 (rlo (zlen P - 1) + B)))))
               | None => UB
               end) = Ok (d_spl (d_avail (sd s) (u32 (availD (sd s) + B)) (u32 (rlo (zlen P - 1) + B))) sp') /\
          (if useBinary c then sp' = None else exists sp, sp' = Some sp /\ SI (kfun P) f KB PB sp (zlen P) /\ s_maxErr sp = maxErr c)).
      { rewrite (rl_bin _ _ _ R) in *. destruct Is as (sp & E1 & E2 & E3). destruct (noClean c).
        - exists (Some sp). split; [rewrite <- E1; destruct (sd s); reflexivity|eauto].
        - rewrite E1. rewrite (u32_id (rlo (zlen P - 1) + B)) by (rewrite <- T2; clear - b1 P31; lia).
          destruct (clean_SI (kfun P) f KB PB sp (zlen P) (rlo (zlen P - 1) + B) E2) as (C1 & C2 & _); [rewrite <- T2; left; specialize (b2 H0); clear - b2; lia|].
          eexists. split; [reflexivity|]. eexists. split; [reflexivity|]. split; [exact C1|congruence]. }
      destruct Sp as (sp' & -> & Hsp). cbn [bind]. scbn. rewrite Hs, Em, Ia.
      rewrite (u32_id (rlo (zlen P - 1) + B)) by (rewrite <- T2; clear - b1 P31; lia). rewrite <- T2.
      rewrite u32_id by (clear - c1 c3 HD HB H0; lia).
      eexists _, new, l'. split; [reflexivity|]. split; [|scbn; do 4 (split; [assumption|]); auto].
      destruct X as (x1 & x2 & x3 & x4). constructor; scbn; cbn [L' pages lo cur]; auto.
      + unfold reserve. rewrite (rl_rlc _ _ _ R). rewrite T2. clear. lia.
      + rewrite T2. clear - If0 HB. lia.
      + intros Y. rewrite (rl_idx _ _ _ R) in Y. discriminate.
    - cbn [bind]. scbn. rewrite Hs, Em. eexists _, new, l'. split; [reflexivity|]. split; [|scbn; do 4 (split; [assumption|]); auto].
      destruct X as (x1 & x2 & x3 & x4). constructor; scbn; cbn [L' pages lo cur]; auto.
      + now rewrite T2.
      + unfold reserve. rewrite (rl_rlc _ _ _ R). rewrite T2. auto.
      + rewrite T2. auto.
      + intros Y. rewrite (rl_idx _ _ _ R) in Y. discriminate.
  Qed.

  (** ** The invariant *)
  Record RI (f : Z) (s : state) (L : log) : Prop := {
    ri_inv : Inv f s L;
    ri_lo : lo L = rlo (zlen (pages L));
    ri_rl : exists l j, rl (fD (sio s)) (rlcStart (sd s)) (nextRLC (sd s)) (pages L) (cur L) l j
  }.
  Lemma RI_img f s L : RI f s L -> rimg (fD (sio s)) (pages L) (cur L).
  Proof. intros [_ _ (l & j & H)]. eapply rl_img. exact H. Qed.
  Lemma RI_rbuf f s s' L : RI f s L -> same_but_rbuf s s' -> Inv f s' L -> RI f s' L.
  Proof.
    intros [_ A2 A3] (E1 & _ & _ & p & q & E2) I. constructor; auto. rewrite E1, E2. exact A3.
  Qed.

  (** ** writePage *)
  Lemma writePage_rlc f s L l j : Inv f s L -> lo L = rlo (zlen (pages L)) ->
    rl (fD (sio s)) (rlcStart (sd s)) (nextRLC (sd s)) (pages L) (cur L) l j ->
    cur L <> [] -> zlen (pages L) + 1 + maxErr c < PB -> zlen (pages L) mod D <> bufD (sd s) ->
    let P' := pages L ++ [cur L] in
    exists s' im, writePage c s = Ok (s', zlen (pages L)) /\
      InvG f s' (mkLog P' (rlo (zlen (pages L))) []) (zlen (pages L)) (cur L) /\
      io_ext (sio s) (sio s') [im] /\ fst (fst im) = fD (sio s') /\ rdisk (fD (sio s')) P' l [] /\
      keep c (fD (sio s)) (fD (sio s')) (zlen (pages L)) (rlo (zlen (pages L))) /\
      flen (fD (sio s)) <= flen (fD (sio s')) /\
      si s' = si s /\ sv s' = sv s /\ rbuf (sd s') = rbuf (sd s) /\ bufD (sd s') = bufD (sd s) /\
      rlcStart (sd s') = rlcStart (sd s) /\ nextRLC (sd s') = nextRLC (sd s).
  Proof.
    intros I Hlo H Hc Hp Hz P'. pose proof I as [If In Ip Im Ia Ids Iw W Rb Is If0 Ife Ii].
    pose proof (B_pos c KB PB R) as HB. pose proof (D_four c KB PB R) as HD.
    pose proof (g_PB _ _ _ G) as GP. pose proof (g_err _ _ _ G) as GE. pose proof (zlen_nonneg (pages L)) as N0.
    assert (P31 : zlen (pages L) + 1 < 2 ^ 31) by (clear - Hp GP GE; lia).
    pose proof (rlo_b c KB PB R (zlen (pages L)) N0) as (b1 & b2 & b3 & b4 & b5 & b6).
    unfold reserve in Ia. rewrite (rl_rlc _ _ _ R), Hlo in Ia. rewrite Hlo in Im, If0.
    unfold writePage. rewrite In.
    destruct (set_pid_ok c L0 (wbuf (sd s)) (cur L) (zlen (pages L)) Iw ltac:(clear - N0 P31; lia)) as (wb & Ew & Hw & Hid).
    scbn. rewrite Ew. cbn [bind]. scbn. rewrite Ia, (u32_id (zlen (pages L) + 1)) by (clear - N0 P31; lia).
    destruct (Z.leb_spec (D - (zlen (pages L) - rlo (zlen (pages L))) - 2 * B) 0) as [Le|Gt]; [clear - Le b3; lia|].
    cbn [bind negb]. scbn. rewrite io_write_nf by auto. scbn. idtac.
    rewrite Ia. rewrite u32_id by (clear - Gt b1 HD HB; lia). rewrite Im.
    assert (ImgN : img c P' (zlen (pages L)) wb).
    { split; auto. unfold P', zlen. rewrite Nat2Z.id, app_nth2, Nat.sub_diag by auto. auto. }
    assert (Z1 : zlen P' = zlen (pages L) + 1) by (unfold P'; rewrite zlen_app; auto).
    destruct (rl_cur _ _ _ _ _ _ _ H Hc) as (Hj & _ & _). pose proof (rl_fit _ _ _ _ _ _ _ H) as Fit.
    pose proof (rl_disk _ _ _ _ _ _ _ H) as Dk.
    assert (Hnb : nb (zlen (pages L) + 1) <= l + D).
    { rewrite nb_S by auto. destruct (_ =? _); [|clear - Hj Fit; lia]. apply al_lt; auto; [apply nb_al; auto| |clear - Hj Fit; lia].
      apply al_add; auto; [apply (rd_al _ _ _ _ _ Dk)|apply (D_al c KB PB R)]. }
    destruct (page_ok c KB PB R (fD (sio s)) (pages L) l (cur L) Dk wb Hc ImgN Hnb) as (Dk' & [So _] & Ke).
    eexists _, (file_write c (fD (sio s)) (zlen (pages L) mod D) wb, fI (sio s), fV (sio s)). split; [reflexivity|]. scbn.
    split; [|split; [|split; [reflexivity|split; [exact Dk'|split; [|split; [exact So|repeat split; auto]]]]]].
    - constructor; scbn; auto.
      + rewrite Z1. clear - Hp. lia.
      + unfold reserve. rewrite (rl_rlc _ _ _ R), Z1. clear. lia.
      + unfold store_ok. rewrite (rl_rlc _ _ _ R). eapply rd_ok; [exact R|exact Dk'|]. apply (rd_lo _ _ _ _ _ Dk).
      + destruct W as [u1 u2 u3 u4 u5 u6 u7 u8]. constructor; scbn; rewrite ?Z1; auto.
        * clear - b1. lia.
        * intros _. clear - b1. lia.
        * clear - b3 HB. lia.
        * unfold P'. rewrite Forall_app. split; auto.
        * cbn. clear - u6. pose proof (zlen_nonneg (cur L)). lia.
        * unfold accepted, P' in *. scbn. rewrite concat_app. cbn [concat]. rewrite !app_nil_r. exact u7.
        * unfold accepted, P' in *. scbn. rewrite concat_app. cbn [concat]. rewrite !app_nil_r. exact u8.
      + destruct Rb as [Rb|[(id & A1 & A2 & A3)|[Rb1 Rb2]]]; [left; auto|right; left|right; right].
        * exists id. scbn. rewrite Z1. split; [clear - A1; lia|]. split; auto. apply img_app; auto.
        * scbn. split; auto. rewrite Z1. destruct (Z.eq_dec (bufD (sd s)) (zlen (pages L))) as [E|NE]; [|clear - Rb2 NE; lia].
          exfalso. apply Hz. rewrite E. apply Z.mod_small. clear - Rb2 E N0. lia.
      + rewrite (rl_bin _ _ _ R) in *. destruct Is as (sp & E1 & E2 & E3). exists sp. split; auto. split; auto.
        eapply SI_ext; [|exact E2]. intros q Hq. unfold P'. apply kfun_app. pose proof (si_f _ _ _ _ _ _ E2) as Sf. clear - Sf Hq If0. lia.
      + intros U. rewrite (rl_idx _ _ _ R) in U. discriminate.
    - scbn. repeat split; auto.
    - eapply keep_le; [exact Ke|apply (rd_lo _ _ _ _ _ Dk)|apply Z.le_refl].
  Qed.

  Lemma coh_seal s s' L : coh c s L -> rbuf (sd s') = rbuf (sd s) -> bufD (sd s') = bufD (sd s) ->
    zlen (pages L) mod D <> bufD (sd s) -> lo L = rlo (zlen (pages L)) -> forall x w, rlo (zlen (pages L)) <= x ->
    coh c s' (mkLog (pages L ++ [cur L]) x w).
  Proof.
    intros Co E1 E2 Hz Hlo x w Hx id Hid E. rewrite E1. cbn [pages lo] in Hid. rewrite zlen_app in Hid. change (zlen [cur L]) with 1 in Hid.
    assert (Nid : id <> zlen (pages L)) by (intros ->; congruence).
    pose proof (zlen_nonneg (pages L)) as N0. pose proof (rlo_b c KB PB R (zlen (pages L)) N0) as (b1 & _).
    apply img_app; [clear - Hid Nid b1 Hx; lia|]. apply Co; [rewrite Hlo; clear - Hid Nid Hx; lia|congruence].
  Qed.

  (** ** embedDBPut *)
  Lemma put_rlc f s L key data vl : RI f s L -> 0 <= key < KB -> length data = dsz c ->
    (forall x, In x (accepted L) -> rkey x < key) -> zlen (pages L) + 1 + maxErr c < PB ->
    (zlen (cur L) >= N -> zlen (pages L) mod D <> bufD (sd s)) ->
    (useVar c = true -> vl = var_loc c s /\ 0 <= vl < 2 ^ 32) ->
    let L' := rlc_put N D B L (mkR key data vl) in
    exists s' im rest, embedDBPut c s key data = Ok (s', 0) /\ RI f s' L' /\ sv s' = sv s /\
      io_ext (sio s) (sio s') (im :: rest) /\ fst (fst im) = fD (sio s') /\
      keep c (fD (sio s)) (fD (sio s')) (zlen (pages L)) (lo L') /\
      imgs (fD (sio s)) (pages L') (if zlen (cur L) >=? N then [] else cur L) (zlen (pages L)) rest /\
      (coh c s L -> coh c s' L').
  Proof.
    intros H Hk Hd Ha Hp Hz Hvl L'. pose proof (ri_inv _ _ _ H) as I. pose proof (i_wf _ _ _ _ _ _ _ _ I) as W.
    pose proof (i_w _ _ _ _ _ _ _ _ I) as Iw. pose proof (l_fit c L0) as Fit.
    pose proof (zlen_nonneg (cur L)) as Zc. pose proof (zlen_nonneg (pages L)) as Zp.
    pose proof (g_PB _ _ _ G) as GP. pose proof (g_err _ _ _ G) as GE. pose proof (B_pos c KB PB R) as HB.
    pose proof (D_four c KB PB R) as HD.
    assert (P31 : zlen (pages L) + 1 < 2 ^ 31) by (clear - Hp GP GE; lia).
    assert (Rr : rec_ok c KB (mkR key data vl)).
    { split; [auto|split; auto]. intros U. apply (Hvl U). }
    unfold embedDBPut. rewrite (get_count_ok c L0 _ _ Iw). cbn [bind].
    destruct (order_ok c KB PB f G s L key I Hk Ha) as (s0 & Chk & e1 & e2 & e3 & I0 & (p0 & q0 & e4) & Co0 & Es0).
    unfold order_check in Chk. rewrite Chk. clear Chk. cbn [bind].
    pose proof (i_w _ _ _ _ _ _ _ _ I0) as Iw0. rewrite (rl_rlc _ _ _ R).
    destruct (Z.geb_spec (zlen (cur L)) N) as [Ge|Lt].
    - (* a full page is written *)
      assert (Hc : cur L <> []) by (intros E; rewrite E in Ge; cbn in Ge; clear - Ge Fit; lia).
      rewrite (Es0 ltac:(left; clear - Ge Fit; lia)) in *. clear Es0 Co0 I0 e1 e2 e3 e4 p0 q0 Iw0.
      specialize (Hz ltac:(clear - Ge; lia)).
      destruct (ri_rl _ _ _ H) as (l & j & Hrl). pose proof (ri_lo _ _ _ H) as Hlo.
      destruct (writePage_rlc f s L l j I Hlo Hrl Hc Hp Hz)
        as (s1 & im1 & -> & I1 & X1 & Em1 & Dk1 & K1 & Fl1 & a1 & a2 & a3 & a4 & a5 & a6).
      set (P' := pages L ++ [cur L]) in *. assert (Z1 : zlen P' = zlen (pages L) + 1) by (unfold P'; rewrite zlen_app; auto).
      cbn [bind].
      destruct (indexPage_ok c KB PB f G s1 _ _ _ I1) as (x & -> & I2).
      { scbn. now rewrite Z1. }
      { scbn. unfold P', zlen. rewrite Nat2Z.id, app_nth2, Nat.sub_diag by auto. auto. }
      cbn [bind]. unfold put_index. rewrite (rl_idx _ _ _ R). cbn [negb bind].
      destruct (init_page_ok c L0) as (b & -> & Hb). cbn [bind]. scbn.
      destruct (put_record_ok c L0 b [] (mkR key data vl) (var_loc c (set_d (set_d s1 (d_spl (sd s1) x)) (d_wbuf (d_spl (sd s1) x) b))) KB Hb) as (w2 & Ew & Hw).
      { cbn. clear - Fit. lia. } { auto. } { intros U. cbn [rvar]. rewrite (proj1 (Hvl U)). unfold var_loc. cbn [set_d sv]. now rewrite a2. }
      change (zlen (@nil rcd)) with 0 in Ew. cbn [rkey rdata] in Ew. unfold set_d, d_wbuf in Ew |- *. scbn. cbn [sio sd si sv] in Ew. unfold d_spl in Ew |- *. scbn.
      cbn [wbuf rbuf availD minD nextD bufD nextRLC rlcStart spl] in Ew. rewrite Ew. cbn [bind]. scbn.
      set (s2 := mkS (sio s1) (mkD w2 (rbuf (sd s1)) (availD (sd s1)) (minD (sd s1)) (nextD (sd s1)) (bufD (sd s1)) (nextRLC (sd s1)) (rlcStart (sd s1)) x) (si s1) (sv s1)).
      assert (I3 : InvG f s2 (mkLog P' (rlo (zlen (pages L))) []) (zlen P') [mkR key data vl]).
      { pose proof (InvG_wbuf c KB PB f _ _ _ _ w2 [mkR key data vl] I2 Hw) as Q. rewrite Z1. exact Q. }
      clear I2 Ew Hb b.
      assert (Nx : nextD (sd s1) = zlen P') by apply (i_nextD _ _ _ _ _ _ _ _ I1). rewrite Nx.
      assert (Rr' : rlo (zlen (pages L)) <= rlo (zlen P')) by (rewrite Z1; apply (rlo_mono c KB PB R); auto).
      (* moving the reserved blocks *)
      assert (Sh : exists s3 new3 l3 j3,
        (if true && (zlen P' mod B =? 0) then '(s, _) <- shiftRLC c s2 ;; Ok s else Ok s2) = Ok s3 /\
        InvG f s3 (mkLog P' (rlo (zlen P')) []) (zlen P') [mkR key data vl] /\
        rl (fD (sio s3)) (rlcStart (sd s3)) (nextRLC (sd s3)) P' [] l3 j3 /\ io_ext (sio s1) (sio s3) new3 /\
        keep c (fD (sio s1)) (fD (sio s3)) (zlen P') (rlo (zlen P')) /\ imgs (fD (sio s1)) P' [] (zlen P') new3 /\
        sv s3 = sv s /\ rbuf (sd s3) = rbuf (sd s) /\ bufD (sd s3) = bufD (sd s)).
      { cbn [andb]. pose proof (rl_start _ _ _ _ _ _ _ Hrl) as Hst. destruct (Z.eqb_spec (zlen P' mod B) 0) as [Bd|NBd].
        - rewrite <- (nb_bound B (zlen (pages L)) HB) in Hst by (rewrite <- Z1; auto). rewrite <- Z1 in Hst.
          destruct (shift_ok f s2 P' l [mkR key data vl]) as (s3 & new3 & l3 & -> & I4 & Rl4 & X4 & K4 & G4 & d1 & d2 & d3 & d4).
          + replace (zlen P' - 1) with (zlen (pages L)) by (rewrite Z1; clear; lia). exact I3.
          + exact Bd.
          + rewrite Z1. clear - Zp. lia.
          + exact Dk1.
          + cbn [s2 sd rlcStart]. rewrite a5. exact Hst.
          + cbn [bind]. exists s3, new3, l3, 0. split; [reflexivity|]. split; [exact I4|]. split; [exact Rl4|]. split; [exact X4|].
            split; [exact K4|]. split; [exact G4|]. cbn [s2 sv sd rbuf bufD] in *. repeat split; congruence.
        - assert (Er : rlo (zlen P') = rlo (zlen (pages L))).
          { rewrite Z1. apply (rlo_same c KB PB R); auto. now rewrite <- Z1. }
          assert (En : nb (zlen P') = nb (zlen (pages L))).
          { rewrite Z1, nb_S by auto. rewrite <- Z1. destruct (Z.eqb_spec (zlen P' mod B) 0); [contradiction|auto]. }
          exists s2, [], l, j. split; [reflexivity|]. rewrite Er. split; [exact I3|]. split; [|split; [apply ext_refl; apply X1|]].
          + cbn [s2 sio sd rlcStart nextRLC]. rewrite a5, a6. destruct Hrl. constructor; rewrite ?En; auto; try congruence.
            intros k Hk'. eapply Z.lt_le_trans; [apply rl_in0; auto|exact Fl1].
          + split; [apply keep_refl|]. split; [constructor|]. cbn [s2 sv sd rbuf bufD]. repeat split; congruence. }
      destruct Sh as (s3 & new3 & l3 & j3 & -> & I4 & Rl4 & X4 & K4 & G4 & d2 & d3 & d4). cbn [bind].
      assert (N3 : nextD (sd s3) = zlen P') by apply (i_nextD _ _ _ _ _ _ _ _ I4).
      destruct (writeTemp_ok s3 P' [] [mkR key data vl] l3 j3) as (o' & wb & nr & l' & j' & im & rest & -> & X5 & Em5 & Hwb & Rl5 & K5 & G5).
      { apply X4. } { exact N3. } { rewrite Z1. exact P31. } { apply (i_w _ _ _ _ _ _ _ _ I4). } { cbn. clear. lia. } { exact Rl4. }
      assert (EL : L' = mkLog P' (rlo (zlen P')) [mkR key data vl]).
      { unfold L', rlc_put. destruct (Z.geb_spec (zlen (cur L)) N); [|clear - Ge H0; lia]. unfold rlc_seal. cbn [pages lo]. fold P'. now rewrite Z1. }
      assert (Ksm : keep c (fD (sio s)) (fD (sio s3)) (zlen (pages L)) (rlo (zlen P'))).
      { eapply keep_trans; [eapply keep_le; [exact K1|exact Rr'|apply Z.le_refl]|]. eapply keep_le; [exact K4|apply Z.le_refl|rewrite Z1; clear; lia]. }
      eexists _, im, (rest ++ new3 ++ [im1]). split; [reflexivity|]. rewrite EL. split; [|split; [|split; [|split; [|split; [|split]]]]].
      + constructor; scbn; auto; [|eauto]. unfold StoreFacts.Inv. scbn. pose proof (i_wf _ _ _ _ _ _ _ _ I4) as W4.
        pose proof (wf_append c KB _ (mkR key data vl) W4 ltac:(cbn; clear - Fit; lia) Rr) as W5. cbn [pages lo cur app] in W5.
        destruct I4 as [i1 i2 i3 i4 i5 i6 i7 i8 i9 i10 i11 i12 i13]. constructor; scbn; auto; try (intros Y; rewrite (rl_idx _ _ _ R) in Y; discriminate).
        * apply X5.
        * unfold store_ok. rewrite (rl_rlc _ _ _ R). eapply rd_ok; [exact R|exact (rl_disk _ _ _ _ _ _ _ Rl5)|].
          apply (rd_lo _ _ _ _ _ (rl_disk _ _ _ _ _ _ _ Rl5)).
        * apply W5. intros y Hy. cbn [rkey]. apply Ha. unfold accepted, P' in Hy. cbn [pages cur] in Hy.
          rewrite concat_app in Hy. cbn [concat] in Hy. rewrite !app_nil_r in Hy. exact Hy.
      + scbn. congruence.
      + scbn. change (im :: rest ++ new3 ++ [im1]) with ((im :: rest) ++ new3 ++ [im1]).
        eapply ext_trans; [|exact X5]. eapply ext_trans; [exact X1|exact X4].
      + exact Em5.
      + scbn. eapply keep_trans; [exact Ksm|]. eapply keep_le; [exact K5|apply Z.le_refl|rewrite Z1; clear; lia].
      + scbn. apply Forall_app. split; [|apply Forall_app; split].
        * eapply Forall_impl; [|exact G5]. intros q (A1 & A2). split; [auto|]. eapply keep_trans; [exact Ksm|].
          eapply keep_le; [exact A2|apply Z.le_refl|rewrite Z1; clear; lia].
        * eapply Forall_impl; [|exact G4]. intros q (A1 & A2). split; [auto|].
          eapply keep_trans; [eapply keep_le; [exact K1|exact Rr'|apply Z.le_refl]|]. eapply keep_le; [exact A2|apply Z.le_refl|rewrite Z1; clear; lia].
        * constructor; [|constructor]. rewrite Em1. split; [|eapply keep_le; [exact K1|exact Rr'|apply Z.le_refl]].
          split; [exists l; exact Dk1|congruence].
      + intros Co. eapply coh_seal; scbn; eauto.
    - (* room in the write buffer *)
      cbn [bind]. destruct (ri_rl _ _ _ H) as (l & j & Hrl). pose proof (ri_lo _ _ _ H) as Hlo.
      destruct (put_record_ok c L0 (wbuf (sd s0)) (cur L) (mkR key data vl) (var_loc c s0) KB Iw0 ltac:(clear - Lt; lia) Rr) as (w2 & Ew & Hw).
      { intros U. cbn [rvar]. rewrite (proj1 (Hvl U)). unfold var_loc. now rewrite e3. }
      cbn [rkey rdata] in Ew. rewrite Ew. cbn [bind andb].
      assert (N0 : nextD (sd s0) = zlen (pages L)) by apply (i_nextD _ _ _ _ _ _ _ _ I0).
      destruct (writeTemp_ok (set_d s0 (d_wbuf (sd s0) w2)) (pages L) (cur L) (cur L ++ [mkR key data vl]) l j)
        as (o' & wb & nr & l' & j' & im & rest & -> & X5 & Em5 & Hwb & Rl5 & K5 & G5); scbn; auto.
      { rewrite e1. apply (i_faults _ _ _ _ _ _ _ _ I). }
      { clear - P31. lia. }
      { rewrite zlen_app. cbn. clear. lia. }
      { rewrite e1, e4. exact Hrl. }
      assert (EL : L' = mkLog (pages L) (lo L) (cur L ++ [mkR key data vl])).
      { unfold L', rlc_put. destruct (Z.geb_spec (zlen (cur L)) N); [clear - Lt H0; lia|auto]. }
      cbn [set_d d_wbuf sio sd si sv] in *. scbn.
      eexists _, im, rest. split; [reflexivity|]. rewrite EL. rewrite <- e1. split; [|split; [|split; [|split; [|split; [|split]]]]].
      + constructor; scbn; auto; [|eauto]. unfold StoreFacts.Inv. scbn. 
        pose proof (wf_append c KB L (mkR key data vl) W Lt Rr Ha) as W5.
        destruct I0 as [i1 i2 i3 i4 i5 i6 i7 i8 i9 i10 i11 i12 i13]. constructor; scbn; auto; try (intros Y; rewrite (rl_idx _ _ _ R) in Y; discriminate).
        * apply X5.
        * unfold store_ok. rewrite (rl_rlc _ _ _ R). eapply rd_ok; [exact R|exact (rl_disk _ _ _ _ _ _ _ Rl5)|].
          rewrite Hlo. apply (rd_lo _ _ _ _ _ (rl_disk _ _ _ _ _ _ _ Rl5)).
      + scbn. congruence.
      + exact X5.
      + exact Em5.
      + scbn. rewrite Hlo. exact K5.
      + scbn. exact G5.
      + intros Co. specialize (Co0 Co). intros id J1 J2. exact (Co0 id J1 J2).
  Qed.

  (** ** embedDBFlush, not at the end of a block *)
  Lemma flush_rlc f s L : RI f s L -> cur L <> [] -> zlen (pages L) + 1 + maxErr c < PB ->
    zlen (pages L) mod D <> bufD (sd s) -> (zlen (pages L) + 1) mod B <> 0 ->
    (useVar c = true -> curVarLoc (sv s) mod pageSize c = varHdr c) ->
    let L' := rlc_seal D B L in
    exists s' im, embedDBFlush c s = Ok (s', 0) /\ RI f s' L' /\ sv s' = sv s /\
      io_ext (sio s) (sio s') [im] /\ fst (fst im) = fD (sio s') /\
      keep c (fD (sio s)) (fD (sio s')) (zlen (pages L)) (lo L') /\ (coh c s L -> coh c s' L').
  Proof.
    intros H Hc Hp Hz Hb Hvf L'. pose proof (ri_inv _ _ _ H) as I.
    pose proof (zlen_nonneg (pages L)) as Zp. pose proof (B_pos c KB PB R) as HB.
    pose proof (g_PB _ _ _ G) as GP. pose proof (g_err _ _ _ G) as GE.
    destruct (ri_rl _ _ _ H) as (l & j & Hrl). pose proof (ri_lo _ _ _ H) as Hlo.
    unfold embedDBFlush. rewrite (get_count_ok c L0 _ _ (i_w _ _ _ _ _ _ _ _ I)). cbn [bind].
    assert (C1 : 0 < zlen (cur L)) by (destruct (cur L); [congruence|unfold zlen; cbn [length]; clear; lia]).
    destruct (Z.ltb_spec (zlen (cur L)) 1); [clear - C1 H0; lia|].
    destruct (writePage_rlc f s L l j I Hlo Hrl Hc Hp Hz)
      as (s1 & im1 & -> & I1 & X1 & Em1 & Dk1 & K1 & Fl1 & a1 & a2 & a3 & a4 & a5 & a6).
    set (P' := pages L ++ [cur L]) in *. assert (Z1 : zlen P' = zlen (pages L) + 1) by (unfold P'; rewrite zlen_app; auto).
    cbn [bind]. destruct (Z.eqb_spec (zlen (pages L)) NOPAGE) as [E|_]; [exfalso; unfold NOPAGE in E; clear - E Hp GP GE; lia|].
    destruct (indexPage_ok c KB PB f G s1 _ _ _ I1) as (x & -> & I2).
    { scbn. now rewrite Z1. }
    { scbn. unfold P', zlen. rewrite Nat2Z.id, app_nth2, Nat.sub_diag by auto. auto. }
    cbn [bind]. rewrite (rl_idx _ _ _ R). cbn [bind negb].
    destruct (init_page_ok c L0) as (b & -> & Hbp). cbn [bind]. cbv zeta.
    set (s2 := set_d (set_d s1 (d_spl (sd s1) x)) _).
    assert (Ev : (if useVar c then '(s, r) <- embedDBFlushVar c s2 ;; (if r =? 0 then Ok (s, 0) else Ok (s, -1)) else Ok (s2, 0)) = Ok (s2, 0)).
    { destruct (useVar c) eqn:U; [|auto]. unfold embedDBFlushVar. replace (sv s2) with (sv s) by (unfold s2; cbn [set_d sv]; congruence).
      rewrite (Hvf eq_refl), Z.eqb_refl. reflexivity. }
    rewrite Ev. clear Ev. unfold s2. clear s2.
    assert (Er : rlo (zlen P') = rlo (zlen (pages L))) by (rewrite Z1; apply (rlo_same c KB PB R); auto).
    assert (En : nb (zlen P') = nb (zlen (pages L))).
    { rewrite Z1, nb_S by auto. destruct (Z.eqb_spec ((zlen (pages L) + 1) mod B) 0); [contradiction|auto]. }
    assert (EL : L' = mkLog P' (rlo (zlen P')) []) by (unfold L', rlc_seal; fold P'; now rewrite Z1).
    eexists _, im1. split; [reflexivity|]. rewrite EL. scbn.
    split; [|split; [auto|split; [exact X1|split; [exact Em1|split; [rewrite Er; exact K1|]]]]].
    - constructor; scbn; auto; try (intros Y; rewrite (rl_idx _ _ _ R) in Y; discriminate).
      + unfold StoreFacts.Inv. scbn. rewrite Er, Z1. exact (InvG_wbuf c KB PB f _ _ _ _ b [] I2 Hbp).
      + exists l, j. rewrite a5, a6. destruct Hrl as [r1 r2 r3 r4 r5 r6 r7]. constructor; rewrite ?En; auto; try congruence.
        intros k Hk'. eapply Z.lt_le_trans; [apply r6; auto|exact Fl1].
    - intros Co. eapply coh_seal; scbn; eauto. rewrite Er. apply Z.le_refl.
  Qed.
End Ops.

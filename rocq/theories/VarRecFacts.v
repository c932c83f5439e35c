(** Opening existing storage recovers the variable area. *)
From Verif Require Import Base BaseFacts Config Spline Storage DB VarData Recovery Spec SpecSpline SplineFacts
  SpecPage SpecStore SpecIter Run SpecRun SpecVar SpecReopen LogFacts PageFacts SearchFacts StoreFacts PutFacts
  GetFacts BinFacts RunFacts IdxRecFacts RecoverFacts ReopenThms TapeFacts VarFacts VarPutFacts VarRunFacts VarGetFacts.
Open Scope Z_scope.
Ltac Zify.zify_post_hook ::= ZifyBool.elim_bool_cstr.
Ltac Zify.zify_convert_to_euclidean_division_equations_flag ::= constr:(false).

(** One round of the first loop. *)
Lemma var_first_S c s f more i count : var_first c s (S f) more i count =
  if more && (i <? 2) then
    id <- get_pid (vrbuf (sv s)) ;;
    if numVar c =? 0 then UB
    else if id mod numVar c =? count then
      k <- ldz (vrbuf (sv s)) 4 (ksz c) ;;
      let '(s, r) := readVariablePage s (count + 1) in
      if negb (id =? 0) || negb (k =? 0)
      then Ok (s, r =? 0, count + 1, Some id)
      else var_first c s f (r =? 0) i (count + 1)
    else
      let count := count + (eraseSize c - count mod eraseSize c) in
      let '(s, r) := readVariablePage s count in
      var_first c s f (r =? 0) (i + 1) count
  else Ok (s, more, count, None).
Proof. reflexivity. Qed.

Section VarRec.
  Variables (c : cfg) (KB PB VB : Z).
  Hypothesis G : setting c KB PB.
  Hypothesis V : var_area c VB.
  Notation P := (pageSize c).
  Notation HD := (keySize c + 4).
  Notation NV := (numVar c).
  Notation B := (eraseSize c).
  Let L0 := L0 c KB PB G.

  Variables (F : file) (VP : list page).
  Notation n := (zlen VP).
  Notation l0 := (rec_lo (numVar c) (eraseSize c) (zlen VP)).

  Hypothesis Q : VDisk c F VP.

  (** The variable read buffer holds what is in the file. *)
  Definition vrc (s : state) : Prop :=
    faults (sio s) = [] /\ fV (sio s) = F /\
    (bufV (sv s) = NOPAGE \/ 0 <= bufV (sv s) < flen F /\ vrbuf (sv s) = fpg F (bufV (sv s))).

  Lemma fl_NV : flen F <= NV.
  Proof. rewrite (q_flen _ _ _ Q). lia. Qed.

  Lemma vrc_read s q : vrc s -> 0 <= q < flen F ->
    exists s', readVariablePage s q = (s', 0) /\ vrc s' /\ same_but_var s s' /\ vrbuf (sv s') = fpg F q /\ bufV (sv s') = q.
  Proof.
    intros (A1 & A2 & A3) Hq. pose proof fl_NV as Fl. pose proof (vB c KB PB VB G V) as Bd.
    unfold readVariablePage. destruct (Z.eqb_spec q (bufV (sv s))) as [E|NE].
    - exists s. split; [auto|]. split; [split; [auto|split; auto]|]. split; [apply same_var_refl|].
      destruct A3 as [A3|[A3 A4]]; [unfold NOPAGE in *; lia|]. rewrite E. auto.
    - rewrite io_read_nf by auto. cbn [getF]. rewrite A2. unfold file_read.
      destruct (Z.leb_spec 0 q); [|lia]. destruct (Z.ltb_spec q (flen F)); [|lia]. cbn [andb].
      eexists. split; [reflexivity|]. split; [|split; [|auto]].
      + split; [auto|]. split; [auto|]. right. cbn [sv v_rbuf vrbuf bufV]. auto.
      + do 3 (split; [reflexivity|]). do 2 eexists. reflexivity.
  Qed.
  Lemma vrc_end s q : vrc s -> flen F <= q < NOPAGE -> readVariablePage s q = (s, -1).
  Proof.
    intros (A1 & A2 & A3) Hq. unfold readVariablePage. destruct (Z.eqb_spec q (bufV (sv s))) as [E|NE].
    { exfalso. destruct A3 as [A3|[A3 A4]]; lia. }
    rewrite io_read_nf by auto. cbn [getF]. rewrite A2. unfold file_read.
    destruct (Z.ltb_spec q (flen F)); [lia|]. rewrite andb_false_r. destruct s; reflexivity.
  Qed.

  Section At.
    Variables (i m : Z).
    Hypothesis Sp : split_at NV n i m.

    Lemma vlen_split : flen F = if i =? 0 then m else NV.
    Proof.
      destruct Sp as (E & Hm & Hi & Hid & Hc). rewrite (q_flen _ _ _ Q). destruct (Z.eqb_spec i 0); lia.
    Qed.
    Lemma vnew j : 0 <= j < m -> fpg F j = vpg VP (i + j) /\ get_pid (fpg F j) = Ok (i + j).
    Proof.
      intros Hj. destruct Sp as (E & Hm & Hi & Hid & Hc).
      assert (E1 : fpg F j = vpg VP (i + j)).
      { rewrite <- (mod_at NV i j) at 1 by lia. apply (q_fpg _ _ _ Q); lia. }
      split; [auto|]. rewrite E1. apply (q_pid _ _ _ Q). lia.
    Qed.
    Lemma vold : i <> 0 -> m < NV -> get_pid (fpg F m) = Ok (n - NV).
    Proof.
      intros Ni Nm. destruct Sp as (E & Hm & Hi & Hid & Hc).
      pose proof (mod_back NV i m ltac:(lia) Hid ltac:(lia)) as Em.
      rewrite <- Em, (q_fpg _ _ _ Q) by lia. rewrite (q_pid _ _ _ Q) by lia. f_equal. lia.
    Qed.

    Lemma var_scan_ok fuel : forall j s, vrc s -> 1 <= j <= m ->
      (j < flen F -> vrbuf (sv s) = fpg F j) -> (Z.to_nat (m - j) < fuel)%nat ->
      exists s', var_scan c s fuel (j <? flen F) j (i + j - 1) = Ok (s', m <? flen F, m, n - 1) /\
        vrc s' /\ same_but_var s s'.
    Proof.
      pose proof (q_small _ _ _ Q) as Hn. pose proof (vB c KB PB VB G V) as Bd. pose proof vlen_split as FL.
      pose proof Sp as (E & Hm & Hi & Hid & Hc).
      induction fuel as [|fuel IH]; intros j s R Hj Hb Hf; [lia|]. cbn [var_scan].
      destruct (Z.eq_dec j m) as [->|Nj].
      - destruct (Z.ltb_spec m (flen F)) as [Lt|Ge]; cbn [andb].
        + destruct (Z.eqb_spec i 0) as [|Ni]; [lia|]. destruct (Z.ltb_spec m NV); [|lia].
          rewrite Hb by auto. rewrite vold by lia. cbn [bind].
          rewrite u32_id by lia. destruct (Z.eqb_spec (n - NV) (i + m - 1 + 1)); [lia|]. rewrite andb_false_r.
          exists s. split; [f_equal; f_equal; lia|]. split; [auto|apply same_var_refl].
        + exists s. split; [f_equal; f_equal; lia|]. split; [auto|apply same_var_refl].
      - assert (FLm : m <= flen F) by (rewrite FL; destruct (i =? 0); lia).
        destruct (Z.ltb_spec j (flen F)); [|lia]. destruct (Z.ltb_spec j NV); [|lia]. cbn [andb].
        rewrite Hb by auto. rewrite (proj2 (vnew j ltac:(lia))). cbn [bind].
        rewrite mod_at, Z.eqb_refl by lia. rewrite u32_id by lia. replace (i + j - 1 + 1) with (i + j) by lia.
        rewrite Z.eqb_refl. cbn [andb].
        destruct (Z.lt_ge_cases (j + 1) (flen F)) as [Lt|Ge].
        + destruct (vrc_read s (j + 1) R ltac:(lia)) as (s1 & -> & R1 & S1 & Eb & _).
          change (0 =? 0) with true.
          destruct (IH (j + 1) s1 R1 ltac:(lia)) as (s2 & E2 & R2 & S2); [auto|lia|].
          exists s2. split; [|split; [auto|exact (same_var_trans _ _ _ S1 S2)]].
          replace true with (j + 1 <? flen F) by lia. replace (i + j) with (i + (j + 1) - 1) by lia. exact E2.
        + rewrite (vrc_end s (j + 1) R) by (unfold NOPAGE; lia). change (-1 =? 0) with false.
          destruct (IH (j + 1) s R ltac:(lia)) as (s2 & E2 & R2 & S2); [lia|lia|].
          exists s2. split; [|auto].
          replace false with (j + 1 <? flen F) by lia. replace (i + j) with (i + (j + 1) - 1) by lia. exact E2.
    Qed.

    (** The first loop skips page 0 when its id and its key are 0. *)
    Lemma var_first_ok s : vrc s -> vrbuf (sv s) = fpg F 0 -> (n = 1 -> hkey c (vpg VP 0) <> 0) ->
      exists s' j, var_first c s 4 true 0 0 = Ok (s', j <? flen F, j, Some (i + j - 1)) /\ 1 <= j <= m /\ vrc s' /\ same_but_var s s' /\
        (j < flen F -> vrbuf (sv s') = fpg F j).
    Proof.
      intros R Hb H1. pose proof (q_small _ _ _ Q) as Hn. pose proof (vB c KB PB VB G V) as Bd. pose proof vlen_split as FL.
      pose proof (vP c KB PB G) as Pd. pose proof (L_ksz c L0) as Ks.
      pose proof Sp as (E & Hm & Hi & Hid & Hc).
      assert (FLm : m <= flen F) by (rewrite FL; destruct (i =? 0); lia).
      assert (Nz : (NV =? 0) = false) by lia.
      assert (Ld : forall j, 0 <= j < m -> ldz (fpg F j) 4 (ksz c) = Ok (hkey c (vpg VP (i + j)))).
      { intros j Hj. destruct (vnew j Hj) as [-> _]. rewrite ldz_ok; [reflexivity|lia|]. rewrite (q_plen _ _ _ Q) by lia. lia. }
      assert (Rd : forall t j, vrc t -> 0 <= j < flen F -> exists t', readVariablePage t (j + 1) = (t', if j + 1 <? flen F then 0 else -1) /\
                vrc t' /\ same_but_var t t' /\ (j + 1 < flen F -> vrbuf (sv t') = fpg F (j + 1))).
      { intros t j Rt Hj. destruct (Z.ltb_spec (j + 1) (flen F)) as [Lt|Ge].
        - destruct (vrc_read t (j + 1) Rt ltac:(lia)) as (t' & -> & R' & S' & Eb & _). eauto 10.
        - rewrite (vrc_end t (j + 1) Rt) by (pose proof fl_NV; unfold NOPAGE; lia). exists t. split; [auto|]. split; [auto|].
          split; [apply same_var_refl|lia]. }
      rewrite var_first_S. change (0 <? 2) with true. cbn [andb]. rewrite Hb, (proj2 (vnew 0 ltac:(lia))). cbn [bind]. rewrite Nz.
      rewrite Z.add_0_r, Hid. change (0 =? 0) with true. cbv iota. rewrite (Ld 0) by lia. cbn [bind].
      destruct (Rd s 0 R ltac:(lia)) as (s1 & E1 & R1 & S1 & B1). rewrite E1.
      assert (More : forall b : bool, ((if b then 0 else -1) =? 0) = b) by (intros []; reflexivity).
      rewrite More. change (0 + 1) with 1 in *.
      destruct (negb (i =? 0) || negb (hkey c (vpg VP (i + 0)) =? 0)) eqn:Tst.
      - exists s1, 1. replace (i + 1 - 1) with i by lia. split; [reflexivity|]. split; [lia|]. auto.
      - assert (Ei : i = 0) by lia. assert (Ek : hkey c (vpg VP 0) = 0) by (rewrite Ei in Tst; change (0 + 0) with 0 in Tst; lia).
        assert (n <> 1) by (intros N1; apply (H1 N1 Ek)).
        assert (m >= 2) by lia. replace (1 <? flen F) with true by lia. 
        rewrite var_first_S. change (0 <? 2) with true. cbn [andb]. rewrite B1 by lia. rewrite (proj2 (vnew 1 ltac:(lia))). cbn [bind]. rewrite Nz.
        rewrite mod_at by lia. change (1 =? 1) with true. cbv iota. rewrite (Ld 1) by lia. cbn [bind].
        destruct (Rd s1 1 R1 ltac:(lia)) as (s2 & E2 & R2 & S2 & B2). rewrite E2, More. change (1 + 1) with 2 in *.
        replace (negb (i + 1 =? 0)) with true by lia. cbn [orb].
        exists s2, 2. replace (i + 2 - 1) with (i + 1) by lia. split; [reflexivity|]. split; [lia|]. split; [auto|].
        split; [exact (same_var_trans _ _ _ S1 S2)|auto].
    Qed.
  End At.

  Lemma l0_b : 0 <= l0 <= n /\ (0 < n -> l0 < n) /\ n - l0 <= NV /\ l0 mod B = 0.
  Proof.
    pose proof (vB c KB PB VB G V). apply rec_lo_bounds; try lia; [apply (va_mod _ _ V)|apply zlen_nonneg].
  Qed.

  (** The smallest key looked up. *)
  Definition rec_kl (L : log) : Z :=
    if zlen (pages L) =? 0 then match cur L with r :: _ => rkey r | [] => 0 end else kfun (pages L) (lo L).

  (** ** The state after recovering the variable area *)
  Variables (f : Z) (L : log).
  Hypothesis Ne : 0 < zlen (pages L) \/ (useRLC c = true /\ cur L <> []).
  Notation M := (256 ^ keySize c).

  Definition recv (s s' : state) : Prop :=
    sio s' = sio s /\ si s' = si s /\ Inv c KB PB f s' L /\ coh c s' L /\ vwbuf (sv s') = vwbuf (sv s) /\
    nextV (sv s') = n /\ availV (sv s') = NV - (n - l0) /\ curVarLoc (sv s') = n mod NV * P + HD /\
    bufV (sv s') = l0 mod NV /\ vrbuf (sv s') = vpg VP l0 /\
    (if l0 =? 0 then minVarRec (sv s') = rec_kl L
     else minVarRec (sv s') mod M = (hkey c (vpg VP l0) + 1) mod M) /\
    (exists p q, sd s' = d_rbuf (sd s) p q).

  Lemma var_finish_ok s small : 0 < n -> vrc s -> Inv c KB PB f s L -> coh c s L -> small = l0 mod NV ->
    exists s', var_finish c s small (n - 1) = Ok (s', 0) /\ recv s s'.
  Proof.
    intros N0 R I Co Es. pose proof l0_b as (Lb1 & Lb2 & Lb3 & Lb4). specialize (Lb2 N0).
    pose proof (q_small _ _ _ Q) as Hn. pose proof (vB c KB PB VB G V) as Bd. pose proof (vP c KB PB G) as Pd.
    pose proof (mod_V c KB PB VB G V l0) as Ml. pose proof (mod_V c KB PB VB G V n) as Mn.
    assert (Ef : fpg F small = vpg VP l0) by (rewrite Es; apply (q_fpg _ _ _ Q); lia).
    assert (Sm : 0 <= small < flen F).
    { rewrite (q_flen _ _ _ Q), Es. destruct (Z.lt_ge_cases n NV); [rewrite Z.mod_small by lia|]; lia. }
    unfold var_finish. replace (n - 1 + 1) with n by lia. rewrite u32_id by lia.
    set (s0 := set_v s (v_next (sv s) n)).
    destruct (vrc_read s0 small R Sm) as (s1 & -> & R1 & (a1 & a2 & a3 & p1 & q1 & a4) & Eb & Eq).
    change (negb (0 =? 0)) with false. cbv iota. rewrite Eb, Ef, (q_pid _ _ _ Q) by lia. cbn [bind].
    assert (I1 : Inv c KB PB f s1 L) by (apply (Inv_same c KB PB f s); [exact I|exact a2|exact a3|rewrite a1; reflexivity|rewrite a1; reflexivity|apply R1]).
    assert (Co1 : coh c s1 L) by (apply (coh_same c s); [exact Co|exact a2]).
    assert (E1 : nextV (sv s1) = n /\ vwbuf (sv s1) = vwbuf (sv s) /\ minVarRec (sv s1) = minVarRec (sv s)).
    { rewrite a4. auto. }
    assert (Cl : u32 (n mod NV * P + varHdr c) = n mod NV * P + HD).
    { rewrite (vHdr c KB PB G). apply u32_id. pose proof (va_area _ _ V). nia. }
    assert (Av : u32 (NV + l0 - (n - 1) - 1) = NV - (n - l0)) by (rewrite u32_id by lia; lia).
    unfold recv. destruct (Z.eqb_spec l0 0) as [Z0|NZ].
    - pose proof (i_nextD _ _ _ _ _ _ _ _ I1) as Nx. destruct (useRLC c && (nextD (sd s1) =? 0)) eqn:Rl.
      { apply andb_prop in Rl as [Rl1 Rl2]. apply Z.eqb_eq in Rl2. rewrite Nx in Rl2.
        destruct Ne as [Ne1|[_ Ne1]]; [lia|]. destruct (cur L) as [|r rs] eqn:Ec; [congruence|].
        pose proof (i_w _ _ _ _ _ _ _ _ I1) as Iw. pose proof (cur_recs c KB L (i_wf _ _ _ _ _ _ _ _ I1)) as Cr. rewrite Ec in Iw, Cr.
        rewrite (min_key_ok c L0 _ r rs KB (proj2 (g_KB _ _ _ G)) Iw (Forall_inv Cr)). cbn [bind].
        eexists. split; [reflexivity|].
        cbn [set_v v_minrec v_avail v_loc sio si sv sd vwbuf nextV availV curVarLoc bufV vrbuf minVarRec].
        destruct E1 as (E1 & E2 & E3). rewrite E1, E2.
        split; [rewrite a1; reflexivity|]. split; [rewrite a3; reflexivity|]. split; [apply (Inv_same c KB PB f s1); auto; apply R1|].
        split; [apply (coh_same c s1); auto|]. rewrite Z0 in *. do 4 (split; [auto|]). split; [rewrite Eq; auto|]. split; [rewrite Eb; auto|].
        split; [unfold rec_kl; rewrite Rl2, Ec; reflexivity|]. exists (rbuf (sd s)), (bufD (sd s)). rewrite a2. cbn [s0 set_v sd]. destruct (sd s). reflexivity. }
      assert (Ne1 : 0 < zlen (pages L)).
      { destruct Ne as [Ne1|[Nr _]]; [auto|]. rewrite Nr in Rl. cbn [andb] in Rl. rewrite Nx in Rl. pose proof (zlen_nonneg (pages L)). lia. }
      clear Nx Rl. pose proof (i_wf _ _ _ _ _ _ _ _ I) as W. pose proof (w_lo _ _ _ W) as Wl. pose proof (w_ne _ _ _ W) as Wn. pose proof (w_live _ _ _ W) as Wv.
      rewrite (i_minD _ _ _ _ _ _ _ _ I1).
      destruct (readPage_live c KB PB f G s1 L _ _ (lo L) I1 ltac:(lia)) as (p & -> & Ex & Cp). specialize (Cp Co1).
      change (negb (0 =? 0)) with false. cbv iota. cbn [sd d_rbuf rbuf].
      destruct (page_ne c KB L (lo L) W ltac:(lia)) as (r & rs & Ep).
      destruct Cp as [A Ai]. pose proof (page_recs c KB L (lo L) W) as Rc. rewrite Ep in A, Rc.
      rewrite (min_key_ok c L0 _ r rs KB (proj2 (g_KB _ _ _ G)) A (Forall_inv Rc)). cbn [bind].
      eexists. split; [reflexivity|].
      cbn [set_v v_minrec v_avail v_loc sio si sv sd vwbuf nextV availV curVarLoc bufV vrbuf minVarRec].
      rewrite a1, a3. cbn [s0 set_v sio si]. split; [reflexivity|]. split; [reflexivity|].
      destruct E1 as (E1 & E2 & E3). rewrite E1, E2. split.
      { apply (Inv_same c KB PB f (mkS (sio s1) (d_rbuf (sd s1) p (lo L mod numData c)) (si s1) (sv s1))).
        - apply (readPage_inv c KB PB f); auto.
        - reflexivity.
        - cbn [si]. rewrite a3. reflexivity.
        - cbn [sio]. now rewrite a1.
        - cbn [sio]. now rewrite a1.
        - apply R. }
      split.
      { apply (coh_same c (mkS (sio s1) (d_rbuf (sd s1) p (lo L mod numData c)) (si s1) (sv s1))); [|reflexivity].
        apply (readPage_coh c KB PB G); auto; try lia. split; [rewrite Ep; auto|auto]. }
      rewrite Z0 in *. do 3 (split; [auto|]). split; [auto|]. split; [rewrite Eq; auto|]. split; [rewrite Eb; auto|].
      split; [|do 2 eexists; rewrite a2; reflexivity].
      unfold rec_kl, kfun. destruct (Z.eqb_spec (zlen (pages L)) 0); [lia|]. rewrite Ep. reflexivity.
    - pose proof (L_ksz c L0) as Ks. rewrite ldz_ok by (rewrite ?(q_plen _ _ _ Q); lia). cbn [bind].
      eexists. split; [reflexivity|].
      cbn [set_v v_minrec v_avail v_loc sio si sv sd vwbuf nextV availV curVarLoc bufV vrbuf minVarRec].
      destruct E1 as (E1 & E2 & E3). rewrite E1, E2, E3.
      split; [rewrite a1; reflexivity|]. split; [rewrite a3; reflexivity|]. split; [apply (Inv_same c KB PB f s1); auto; apply R1|].
      split; [apply (coh_same c s1); auto|]. do 4 (split; [auto|]). split; [rewrite Eq; auto|]. split; [rewrite Eb; auto|].
      split; [|exists (rbuf (sd s)), (bufD (sd s)); rewrite a2; cbn [s0 set_v sd]; destruct (sd s); reflexivity].
      fold (hkey c (vpg VP l0)). destruct (M_pos c KB PB G) as [Mp _].
      rewrite (u64_mod c KB PB G), <- Z.add_mod_idemp_l, (set_low_mod c KB PB G), Z.add_mod_idemp_l by lia. reflexivity.
  Qed.

  Lemma recv_from s t t' : same_but_var s t -> recv t t' -> recv s t'.
  Proof.
    intros (a1 & a2 & a3 & p & q & a4) (b1 & b2 & b3). unfold recv. rewrite a4, a2 in b3. cbn [v_rbuf vwbuf] in b3.
    split; [congruence|]. split; [congruence|]. exact b3.
  Qed.

  Lemma initVarDataFromFile_ok s : 0 < n -> (n = 1 -> hkey c (vpg VP 0) <> 0) -> vrc s -> Inv c KB PB f s L -> coh c s L ->
    exists s', initVarDataFromFile c s = Ok (s', 0) /\ recv s s'.
  Proof.
    intros N0 H1 R I Co. pose proof (vB c KB PB VB G V) as Bd. pose proof (va_mod _ _ V) as VM.
    unfold initVarDataFromFile.
    destruct (split_ex NV n ltac:(lia) ltac:(lia)) as (i & m & Sp). pose proof Sp as (E & Hm & Hi & Hid & Hc).
    pose proof (vlen_split i m Sp) as FL.
    assert (FLm : m <= flen F) by (rewrite FL; destruct (i =? 0); lia).
    destruct (vrc_read s 0 R ltac:(lia)) as (s1 & -> & R1 & S1 & Eb1 & _). change (0 =? 0) with true.
    destruct (var_first_ok i m Sp s1 R1 Eb1 H1) as (s2 & j & -> & Hj & R2 & S2 & Eb2). cbn [bind].
    destruct (var_scan_ok i m Sp (Z.to_nat (NV + 1)) j s2 R2 Hj Eb2 ltac:(lia)) as (s3 & -> & R3 & S3). cbn [bind].
    pose proof (same_var_trans _ _ _ S1 (same_var_trans _ _ _ S2 S3)) as S13.
    assert (Keep : forall t, vrc t -> same_but_var s t -> Inv c KB PB f t L /\ coh c t L).
    { intros t Rt (x1 & x2 & x3 & _). split; [apply (Inv_same c KB PB f s); auto; [congruence|congruence|apply Rt]|apply (coh_same c s); auto]. }
    pose proof (rec_lo_split NV B n i m ltac:(lia) ltac:(lia) VM Sp) as RL.
    destruct (Z.ltb_spec m (flen F)) as [Lt|Ge]; cbn [andb].
    - destruct (Z.eqb_spec i 0) as [|Ni]; [lia|].
      destruct (Z.ltb_spec m NV); [|lia]. destruct (Z.eqb_spec m NV); [lia|].
      destruct (next_block NV B m ltac:(lia) ltac:(lia) VM ltac:(lia)) as [Nb1 Nb2].
      set (ptb := B - m mod B) in *.
      destruct (Z.eq_dec (m + ptb) NV) as [Ed|Nd].
      + rewrite Ed, Z.mod_same by lia.
        destruct (vrc_read s3 0 R3 ltac:(lia)) as (s4 & -> & R4 & S4 & Eb4 & _). change (negb (0 =? 0)) with false. cbv iota.
        rewrite Eb4, (proj2 (vnew i m Sp 0 ltac:(lia))). cbn [bind]. rewrite Z.add_0_r, Hid. change (0 =? 0) with true. cbv iota.
        pose proof (same_var_trans _ _ _ S13 S4) as S14. destruct (Keep s4 R4 S14) as [I4 Co4].
        destruct (var_finish_ok s4 0 N0 R4 I4 Co4) as (s5 & -> & R5).
        { replace l0 with i by lia. auto. }
        exists s5. split; [auto|]. exact (recv_from _ _ _ S14 R5).
      + rewrite (Z.mod_small (m + ptb) NV) by lia.
        destruct (vrc_read s3 (m + ptb) R3 ltac:(lia)) as (s4 & -> & R4 & S4 & Eb4 & _). change (negb (0 =? 0)) with false. cbv iota.
        assert (Em : l0 mod NV = m + ptb).
        { replace l0 with (i - NV + (m + ptb)) by lia. apply mod_back; lia. }
        assert (Ep : get_pid (fpg F (m + ptb)) = Ok l0).
        { rewrite <- Em, (q_fpg _ _ _ Q) by lia. apply (q_pid _ _ _ Q). lia. }
        rewrite Eb4, Ep. cbn [bind]. rewrite Em, Z.eqb_refl.
        pose proof (same_var_trans _ _ _ S13 S4) as S14. destruct (Keep s4 R4 S14) as [I4 Co4].
        destruct (var_finish_ok s4 (m + ptb) N0 R4 I4 Co4) as (s5 & -> & R5); [auto|].
        exists s5. split; [auto|]. exact (recv_from _ _ _ S14 R5).
    - destruct (Keep s3 R3 S13) as [I3 Co3].
      destruct (var_finish_ok s3 0 N0 R3 I3 Co3) as (s5 & -> & R5).
      { rewrite RL, FL in *. destruct (Z.eqb_spec i 0); [now rewrite Z.mod_0_l by lia|].
        destruct (Z.eqb_spec m NV); [auto|lia]. }
      exists s5. split; [auto|]. exact (recv_from _ _ _ S13 R5).
  Qed.
End VarRec.

(** ** What storage holds of the variable data *)
Record VStored (c : cfg) (KB : Z) (T : Z -> Prop) (PD : list (list rcd)) (VR : list entry) (VP : list page) (acc : list Z) : Prop := {
  t_laid : forall k a bs, In (k, (a, bs)) VR ->
    0 <= a /\ keySize c + 4 <= a mod pageSize c <= pageSize c - 4 /\ zlen bs < 2 ^ 32 /\
    vread (pageSize c) (keySize c + 4) VP a (4 + length bs) = le_enc 4 (zlen bs) ++ bs /\
    vskip (pageSize c) (keySize c + 4) a (4 + length bs) <= zlen VP * pageSize c + (keySize c + 4);
  t_nodup : NoDup (map fst VR);
  t_rec : forall r, In r (concat PD) -> ~ T (rkey r) ->
    (rvar r = NOVAR /\ ~ In (rkey r) (map fst VR)) \/
    exists a bs, In (rkey r, (a, bs)) VR /\ rvar r = a mod (numVar c * pageSize c);
  t_in : forall k, In k (map fst VR) -> In k acc;
  t_acc : incl (map rkey (concat PD)) acc;
  t_keys : forall x, In x acc -> 0 <= x < KB;
  t_A : forall v k a, 0 <= v < zlen VP -> In (k, a) (map where_is VR) -> v < a / pageSize c -> hkey c (vpg VP v) < k;
  t_B : forall v, 0 <= v < zlen VP -> 0 <= hkey c (vpg VP v) /\ exists x, In x acc /\ hkey c (vpg VP v) <= x;
  t_torn : forall r, In r (concat PD) -> T (rkey r) -> rvar r mod pageSize c <= pageSize c - 4 /\ ~ In (rkey r) (map fst VR)
}.

(** The same storage under another configuration. *)
Lemma VStored_same c c' KB T PD VR VP acc : same_store c c' -> numVar c' = numVar c ->
  VStored c KB T PD VR VP acc -> VStored c' KB T PD VR VP acc.
Proof.
  intros S Nv []. assert (Hk : forall p, hkey c' p = hkey c p) by (intros p; unfold hkey, ksz; now rewrite (ss_ks _ _ S)).
  constructor; rewrite ?(ss_ks _ _ S), ?(ss_ps _ _ S), ?Nv; auto.
  - intros. rewrite Hk. eauto.
  - intros. rewrite Hk. eauto.
Qed.
Lemma VDisk_same c c' F VP : same_store c c' -> numVar c' = numVar c -> VDisk c F VP -> VDisk c' F VP.
Proof. intros S Nv []. constructor; rewrite ?(ss_ps _ _ S), ?Nv; auto. Qed.

(** The entries that survive a stop: those of records not in the write buffer. *)
Definition keep (ks : list Z) (e : Z) : bool := negb (existsb (Z.eqb e) ks).
Definition keptVR (L : log) (VR : list entry) : list entry := filter (fun e => keep (map rkey (cur L)) (fst e)) VR.
Lemma keep_iff ks e : keep ks e = true <-> ~ In e ks.
Proof.
  unfold keep. rewrite Bool.negb_true_iff, <- Bool.not_true_iff_false, existsb_exists. split; intros H.
  - intros Hi. apply H. exists e. split; [auto|apply Z.eqb_refl].
  - intros (x & Hx & Ex). apply Z.eqb_eq in Ex. subst. auto.
Qed.
Lemma kept_in L VR e : In e (keptVR L VR) <-> In e VR /\ ~ In (fst e) (map rkey (cur L)).
Proof. unfold keptVR. rewrite filter_In, keep_iff. tauto. Qed.
Lemma nodup_filter {A C} (g : A -> C) h (l : list A) : NoDup (map g l) -> NoDup (map g (filter h l)).
Proof.
  induction l as [|x l IH]; cbn [map filter]; [auto|]. intros H. apply NoDup_cons_iff in H as [H1 H2].
  destruct (h x); cbn [map]; auto. constructor; auto. intros Hi. apply H1. apply in_map_iff in Hi as (y & <- & Hy).
  apply filter_In in Hy as [Hy _]. now apply in_map.
Qed.
Lemma where_in (VR : list entry) k a : In (k, a) (map where_is VR) <-> exists bs, In (k, (a, bs)) VR.
Proof.
  rewrite in_map_iff. split.
  - intros ([k1 [a1 b1]] & E & Hi). injection E as -> ->. eauto.
  - intros (bs & Hi). exists (k, (a, bs)). auto.
Qed.

Lemma sealed_reads c KB PB : setting c KB PB -> forall VP Z a n, inside (pageSize c) (keySize c + 4) a ->
  vskip (pageSize c) (keySize c + 4) a n <= zlen VP * pageSize c + (keySize c + 4) ->
  vread (pageSize c) (keySize c + 4) (VP ++ Z) a n = vread (pageSize c) (keySize c + 4) VP a n.
Proof.
  intros G VP Z a n Ia Hs. pose proof (vP c KB PB G) as Pd. induction Z as [|w Z IH] using rev_ind; [now rewrite app_nil_r|].
  rewrite app_assoc, (sealed_read c KB PB G); auto. rewrite zlen_app. pose proof (zlen_nonneg Z). nia.
Qed.
(** The pages written up to some moment hold what the data pages written up to then
    refer to. *)
Lemma stored_mid c KB PB VB f kl sl off s L VR VP lv o acc Lb VRb VPm Z : setting c KB PB -> var_setting c VB ->
  VInv c KB PB f kl sl off notorn s L VR VP lv o acc -> wf_log c KB Lb -> NoDup (map fst VRb) -> incl VRb VR ->
  (forall r, In r (accepted Lb) -> (rvar r = NOVAR /\ ~ In (rkey r) (map fst VRb)) \/
     exists a bs, In (rkey r, (a, bs)) VRb /\ rvar r = a mod (numVar c * pageSize c)) ->
  incl (map rkey (accepted Lb)) acc -> VP = VPm ++ Z ->
  (forall k a bs, In (k, (a, bs)) VRb -> ~ In k (map rkey (cur Lb)) ->
     vskip (pageSize c) (keySize c + 4) a (4 + length bs) <= zlen VPm * pageSize c + (keySize c + 4)) ->
  VStored c KB notorn (pages Lb) (keptVR Lb VRb) VPm acc.
Proof.
  intros G V [I A La _ _ Ri _ St _ Ky _] W Nd Hin Re Ic -> Se. pose proof (vP c KB PB G) as Pd.
  destruct A as [_ [h1 h2 _ _ _ _ _ _] _ _]. rewrite zlen_app in h1, h2. pose proof (zlen_nonneg Z) as Zn.
  constructor; auto.
  - intros k a bs Hi. apply kept_in in Hi as [Hi Hk]. cbn [fst] in Hk. destruct (La k a bs (Hin _ Hi)) as (l1 & l2 & l3 & l4 & l5).
    do 3 (split; [auto|]). specialize (Se k a bs Hi Hk). split; [|auto].
    rewrite <- app_assoc, (sealed_reads c KB PB G) in l4; auto. split; lia.
  - apply nodup_filter. auto.
  - intros r Hr _. assert (Ha : In r (accepted Lb)) by (unfold accepted; apply in_or_app; auto).
    destruct (Re r Ha) as [[R1 R2]|(a & bs & R1 & R2)].
    + left. split; [auto|]. intros Hi. apply R2. apply in_map_iff in Hi as (e & Ee & Hi). apply kept_in in Hi as [Hi _].
      apply in_map_iff. eauto.
    + right. exists a, bs. split; [|auto]. apply kept_in. split; [auto|]. cbn [fst]. intros Hc.
      apply in_map_iff in Hc as (x & Ex & Hx). pose proof (w_asc _ _ _ W) as Wa. unfold accepted in Wa.
      rewrite asc_app in Wa. destruct Wa as (_ & _ & Wa). specialize (Wa r x Hr Hx). lia.
  - intros k Hi. apply Ri. apply in_map_iff in Hi as (e & Ee & Hi). apply kept_in in Hi as [Hi _]. apply in_map_iff. eauto.
  - intros x Hx. apply Ic. unfold accepted. rewrite map_app. apply in_or_app. auto.
  - intros v k a Hv Hi Ha. rewrite <- (vpg_app1 VPm Z) by lia. apply (h1 v k a); [lia| |auto].
    apply where_in in Hi as (bs & Hi). apply kept_in in Hi as [Hi _]. apply where_in. eauto.
  - intros v Hv. rewrite <- (vpg_app1 VPm Z) by lia. apply h2. lia.
  - intros r _ [].
Qed.
Lemma stored_of c KB PB VB f kl sl off s L VR VP lv o acc : setting c KB PB -> var_setting c VB ->
  VInv c KB PB f kl sl off notorn s L VR VP lv o acc -> VStored c KB notorn (pages L) (keptVR L VR) VP acc.
Proof.
  intros G V Y. pose proof Y as [I A La Nd Re Ri Se St Ic Ky _].
  apply (stored_mid c KB PB VB f kl sl off s L VR VP lv o acc L VR VP []); auto.
  - apply (i_wf _ _ _ _ _ _ _ _ I).
  - apply incl_refl.
  - now rewrite app_nil_r.
Qed.

Section Reopened.
  Variables (c : cfg) (KB PB VB : Z).
  Hypothesis G : setting c KB PB.
  Hypothesis V : var_area c VB.
  Notation P := (pageSize c).
  Notation HD := (keySize c + 4).
  Notation NV := (numVar c).
  Notation B := (eraseSize c).
  Notation M := (256 ^ keySize c).

  (** What recovery takes off the byte position. *)
  Definition wrapped_off (VP : list page) : Z := zlen VP / NV * (NV * P).

  Lemma off_ok VP : (0 <= wrapped_off VP /\ wrapped_off VP mod (NV * P) = 0) /\
    zlen VP mod NV * P + HD + wrapped_off VP = zlen VP * P + HD /\ wrapped_off VP <= zlen VP * P.
  Proof.
    unfold wrapped_off. pose proof (vP c KB PB G) as Pd. pose proof (vB c KB PB VB G V) as Bd. pose proof (zlen_nonneg VP) as Zn.
    destruct (area_u32 c KB PB VB G V) as [_ Ar]. pose proof (Z_div_mod_eq_full (zlen VP) NV) as E.
    pose proof (Z.div_pos (zlen VP) NV ltac:(lia) ltac:(lia)) as Dp. pose proof (mod_V c KB PB VB G V (zlen VP)) as Mb.
    set (q := zlen VP / NV) in *. set (r := zlen VP mod NV) in *. clearbody q r.
    split; [split; [nia|apply Z_mod_mult]|]. rewrite E. split; nia.
  Qed.

  (** The first page with a readable record. *)
  Definition rec_lv (VP : list page) : Z := let l := rec_lo NV B (zlen VP) in if l =? 0 then 0 else l + 1.

  Lemma kl_in L : wf_log c KB L -> accepted L <> [] -> In (rec_kl L) (map rkey (accepted L)).
  Proof.
    intros W Hne. unfold rec_kl. destruct (Z.eqb_spec (zlen (pages L)) 0) as [Z0|NZ].
    - assert (pages L = []) by (destruct (pages L) as [|y l]; [auto|rewrite zlen_cons in Z0; pose proof (zlen_nonneg l); lia]).
      unfold accepted in *. rewrite H in *. cbn [concat app] in *. destruct (cur L); [congruence|]. now left.
    - pose proof (zlen_nonneg (pages L)). pose proof (w_lo _ _ _ W) as Wl. pose proof (w_ne _ _ _ W) as Wn.
      destruct (page_ne c KB L (lo L) W ltac:(lia)) as (r & rs & Ep). unfold kfun. rewrite Ep. apply in_map.
      unfold accepted. apply in_or_app. left. apply in_concat. exists (r :: rs). split; [|now left]. rewrite <- Ep. apply nth_In. unfold zlen in *. lia.
  Qed.

  Lemma recv_VInv f T PD L F VP VR acc s s' : concat PD = accepted L -> accepted L <> [] -> 0 < zlen VP ->
    VDisk c F VP -> VStored c KB T PD VR VP acc ->
    faults (sio s) = [] -> fV (sio s) = F -> vwbuf (sv s) = init_var_page c -> recv c KB PB VP f L s s' ->
    VInv c KB PB f (rec_kl L) 1 (wrapped_off VP) T s' L VR VP (rec_lv VP) HD acc.
  Proof.
    intros Hc Ne N0 Q St Hf HF Hw (r1 & r2 & r3 & r4 & r5 & r6 & r7 & r8 & r9 & r10 & r11 & _).
    pose proof (vP c KB PB G) as Pd. pose proof (vB c KB PB VB G V) as Bd.
    destruct (l0_b c KB PB VB G V VP) as (Lb1 & Lb2 & Lb3 & Lb4). specialize (Lb2 N0).
    pose proof (rec_lo_up NV B (zlen VP) ltac:(lia) ltac:(lia) (va_mod _ _ V) (zlen_nonneg VP)) as Lu.
    destruct (off_ok VP) as (Of1 & Of2 & Of3). set (l := rec_lo NV B (zlen VP)) in *.
    pose proof (i_wf _ _ _ _ _ _ _ _ r3) as W. pose proof (w_lo _ _ _ W) as Wl. pose proof (w_ne _ _ _ W) as Wn.
    assert (Kl : In (rec_kl L) acc).
    { apply (t_acc _ _ _ _ _ _ _ St). rewrite Hc. apply (kl_in L W Ne). }
    assert (Ka : forall x, In x acc -> 0 <= x < M).
    { intros x Hx. pose proof (t_keys _ _ _ _ _ _ _ St x Hx). pose proof (KB_M c KB PB G). lia. }
    assert (Ed : forall k a, In (k, a) (map where_is VR) -> 0 <= a / P <= zlen VP).
    { intros k a Hi. apply where_in in Hi as (bs & Hi). destruct (t_laid _ _ _ _ _ _ _ St k a bs Hi) as (l1 & l2 & _ & _ & l5).
      assert (Sk : a + 4 <= vskip P HD a (4 + length bs)).
      { destruct (vskip_inside P HD (vPH c KB PB G) (4 + length bs) a ltac:(split; lia)). lia. }
      split; [apply Z.div_pos; lia|]. assert (a / P < zlen VP + 1); [|lia]. apply Z.div_lt_upper_bound; lia. }
    constructor.
    - exact r3.
    - constructor.
      + exists l. split; [|unfold rec_lv; fold l; destruct (Z.eqb_spec l 0); lia].
        constructor; auto; try lia.
        * rewrite r1. auto.
        * rewrite r1, HF. apply (q_flen _ _ _ Q).
        * rewrite r1, HF. apply (q_fpg _ _ _ Q).
        * apply (q_plen _ _ _ Q).
        * rewrite r5, Hw. apply (init_len c KB PB G).
        * right. exists l. split; [lia|]. split; [auto|]. split; [auto|]. left. lia.
        * apply (q_pid _ _ _ Q).
      + unfold rec_lv. fold l. constructor.
        * apply (t_A _ _ _ _ _ _ _ St).
        * apply (t_B _ _ _ _ _ _ _ St).
        * rewrite r5, Hw, (hkey_init c KB PB G). split; [lia|]. right. exists (rec_kl L). split; [auto|]. apply Ka. auto.
        * intros k a Hi. apply (Ed k a Hi).
        * intros k a Hi Hk Ha. destruct (Z.eqb_spec l 0) as [Z0|NZ].
          -- rewrite r11, Z.mod_small; [exact Hk|]. apply Ka. auto.
          -- rewrite r11. destruct (t_B _ _ _ _ _ _ _ St l ltac:(lia)) as [B1 _].
             pose proof (t_A _ _ _ _ _ _ _ St l k a ltac:(lia) Hi ltac:(lia)).
             pose proof (Z.mod_le (hkey c (vpg VP l) + 1) M ltac:(lia) ltac:(apply Z.pow_pos_nonneg; lia)). lia.
        * right. destruct (Z.eqb_spec l 0) as [Z0|NZ].
          -- exists (rec_kl L). split; [auto|]. rewrite r11. pose proof (Ka _ Kl). rewrite Z.mod_small by lia. lia.
          -- destruct (t_B _ _ _ _ _ _ _ St l ltac:(lia)) as [B1 (x & X1 & X2)]. exists x. split; [auto|]. rewrite r11.
             pose proof (Z.mod_le (hkey c (vpg VP l) + 1) M ltac:(lia) ltac:(apply Z.pow_pos_nonneg; lia)). lia.
        * intros Hd Hx k a Hi Ha. destruct (Z.eqb_spec l 0) as [Z0|NZ]; [specialize (Ed k a Hi); lia|].
          destruct (t_B _ _ _ _ _ _ _ St l ltac:(lia)) as [B1 (x & X1 & X2)]. exists x. split; [auto|].
          specialize (Hd l k a ltac:(lia) Hi ltac:(lia)). specialize (Hx x X1). rewrite r11, Z.mod_small by lia. lia.
        * destruct (Z.eqb_spec l 0); lia.
      + unfold at_cur. rewrite r8. lia.
      + lia.
    - intros k a bs Hi. destruct (t_laid _ _ _ _ _ _ _ St k a bs Hi) as (l1 & l2 & l3 & l4 & l5). do 3 (split; [auto|]).
      split; [|rewrite r8; lia]. rewrite (sealed_read c KB PB G); auto. split; lia.
    - apply (t_nodup _ _ _ _ _ _ _ St).
    - rewrite <- Hc. apply (t_rec _ _ _ _ _ _ _ St).
    - apply (t_in _ _ _ _ _ _ _ St).
    - intros k a bs Hi _. apply (t_laid _ _ _ _ _ _ _ St k a bs Hi).
    - auto.
    - rewrite <- Hc. apply (t_acc _ _ _ _ _ _ _ St).
    - apply (t_keys _ _ _ _ _ _ _ St).
    - rewrite <- Hc. apply (t_torn _ _ _ _ _ _ _ St).
  Qed.

  (** No variable page on storage, or no data page: as on a new database. *)
  Lemma empty_VInv f T L s acc rb hv : Inv c KB PB f s L -> faults (sio s) = [] -> flen (fV (sio s)) = 0 ->
    sv s = mkV (init_var_page c) rb NV 0 (2 ^ 64 - 1) (varHdr c) NOPAGE hv ->
    (forall r, In r (accepted L) -> ~ T (rkey r) -> rvar r = NOVAR) ->
    (forall r, In r (accepted L) -> T (rkey r) -> rvar r mod P <= P - 4) -> incl (map rkey (accepted L)) acc -> (forall x, In x acc -> 0 <= x < KB) ->
    VInv c KB PB f 0 1 0 T s L [] [] 0 HD acc.
  Proof.
    intros I Hf Fl Es Hr Ht Ha Hk. pose proof (vP c KB PB G) as Pd. pose proof (vB c KB PB VB G V) as Bd.
    constructor; auto.
    - constructor.
      + exists 0. split; [|change (zlen (@nil page)) with 0; lia].
        constructor; rewrite ?Es; change (zlen (@nil page)) with 0; cbn [nextV availV vwbuf bufV]; try lia; try (cbn; lia); auto.
        apply (init_len c KB PB G).
      + rewrite Es. cbn [vwbuf minVarRec]. constructor; change (zlen (@nil page)) with 0; cbn [map]; try (intros; lia); auto.
        * rewrite (hkey_init c KB PB G). split; [lia|]. destruct acc as [|x acc']; [left; auto|right]. exists x. split; [now left|].
          apply Hk. now left.
        * intros k0 a [].
        * intros k0 a [].
        * intros _ _ k0 a [].
      + unfold at_cur. rewrite Es. cbn [curVarLoc]. rewrite (vHdr c KB PB G). change (zlen (@nil page)) with 0. lia.
      + lia.
    - intros k0 a bs [].
    - constructor.
    - intros k0 [].
    - intros k0 a bs [].
  Qed.
End Reopened.

(** ** Opening existing storage with variable data *)
Section ReopenVar.
  Variables (c : cfg) (KB PB VB : Z).
  Hypothesis G : setting c KB PB.
  Hypothesis V : var_setting c VB.
  Notation P := (pageSize c).
  Notation HD := (keySize c + 4).
  Notation NV := (numVar c).

  Lemma retained_from L x : wf_log c KB L -> In x (retained L) -> rec_kl L <= rkey x.
  Proof.
    intros W Hx. destruct (Z.eqb_spec (zlen (pages L)) 0) as [Z0|NZ].
    { unfold rec_kl. rewrite Z0. cbn [Z.eqb]. pose proof (retained_asc c KB L W) as Ra. unfold retained, livePages in *.
      assert (pages L = []) as Ep by (destruct (pages L) as [|y l]; [auto|rewrite zlen_cons in Z0; pose proof (zlen_nonneg l); lia]).
      rewrite Ep, skipn_nil in Hx, Ra. cbn [concat app] in Hx, Ra. destruct (cur L) as [|r rs]; [destruct Hx|].
      destruct Hx as [->|Hx]; [lia|]. apply asc_cons in Ra as [Ra _]. specialize (Ra x Hx). lia. }
    assert (Hn : 0 < zlen (pages L)) by (pose proof (zlen_nonneg (pages L)); lia). pose proof (w_lo _ _ _ W) as Wl. pose proof (w_ne _ _ _ W) as Wn. unfold rec_kl, kfun.
    destruct (Z.eqb_spec (zlen (pages L)) 0); [lia|].
    destruct (page_ne c KB L (lo L) W ltac:(lia)) as (r & rs & Ep). rewrite Ep.
    pose proof (retained_asc c KB L W) as Ra. unfold retained, livePages in *.
    assert (Sk : forall (n : nat) (l : list (list rcd)), (n < length l)%nat -> skipn n l = nth n l [] :: skipn (S n) l).
    { clear. induction n; intros [|a l] H; cbn [length] in H; try lia; [reflexivity|]. cbn [skipn nth]. rewrite IHn by lia. reflexivity. }
    rewrite (Sk (Z.to_nat (lo L)) (pages L)) in Hx, Ra by (unfold zlen in *; lia).
    rewrite Ep in Hx, Ra. cbn [concat app] in Hx, Ra. destruct Hx as [->|Hx]; [lia|].
    apply asc_cons in Ra as [Ra _]. specialize (Ra x Hx). lia.
  Qed.

  Lemma reopen_var FD FV PD VR VP acc l k : idx_ready c k (zlen PD) -> 4 + (if useIndex c then 2 else 0) <= bufBlocks c -> blank c -> useReset c = false ->
    kD k = Some FD -> kV k = Some FV -> disk_ok c FD PD l -> wf_log c KB (recovered c PD) ->
    eraseFill c = None \/ l <= rec_lo (numData c) (eraseSize c) (zlen PD) -> zlen PD + maxErr c < PB ->
    maxErr c <= 1 \/ rec_lo (numData c) (eraseSize c) (zlen PD) = 0 ->
    VDisk c FV VP -> VStored c KB notorn PD VR VP acc -> (zlen VP = 1 -> hkey c (vpg VP 0) <> 0) ->
    let L := recovered c PD in
    let VR' := if zlen PD =? 0 then [] else VR in
    let VP' := if zlen PD =? 0 then [] else VP in
    exists s f kl off lv, embedDBInit c k [] = Ok (s, 0) /\ VInv c KB PB f kl 1 off notorn s L VR' VP' lv HD acc /\ coh c s L /\
      (0 <= off /\ off mod (NV * P) = 0) /\ (forall r, In r (retained L) -> kl <= rkey r) /\ (kl = 0 \/ In kl acc) /\
      var_fresh s /\ trace (sio s) = [].
  Proof.
    intros Ix Hb Bl HR HD' HV' Dk W Hl HP He Q T H1 L VR' VP'.
    pose proof (vP c KB PB G) as Pd. pose proof (vB c KB PB VB G V) as Bd. destruct (area_u32 c KB PB VB G V) as [_ Ar].
    destruct (reopen_data c KB PB FD PD l k G (vs_rlc _ _ V) Ix (vs_rec _ _ V) Bl (fun _ => vs_mod _ _ V) HR HD' Dk W Hl HP He)
      as (s & E & I & Co & Ef & Et & Es & _). fold L in I, Co.
    rewrite (vs_use _ _ V) in E. destruct (Z.ltb_spec (bufBlocks c) (4 + (if useIndex c then 2 else 0))); [lia|].
    pose proof (i_nextD _ _ _ _ _ _ _ _ I) as Nx. pose proof (i_faults _ _ _ _ _ _ _ _ I) as Fs. cbn [L recovered pages] in Nx.
    unfold initVarData in E. rewrite HR, HV' in E. cbn [negb andb] in E.
    set (v0 := mkV _ _ _ _ _ _ _ _) in E. cbn [set_v sd] in E. rewrite Nx, (vs_rlc _ _ V), Bool.orb_false_r in E.
    assert (Ev : v0 = mkV (init_var_page c) (gpage c) NV 0 (2 ^ 64 - 1) (varHdr c) NOPAGE (ghasvar c)) by (unfold v0; rewrite Es; reflexivity).
    assert (Keep : forall t, sd t = sd s -> si t = si s -> fD (sio t) = fD (sio s) -> fI (sio t) = fI (sio s) -> faults (sio t) = [] ->
              Inv c KB PB (rec_lo (numData c) (eraseSize c) (zlen PD)) t L /\ coh c t L).
    { intros t t1 t2 t3 t4 t5. split; [apply (Inv_same c KB PB _ s); auto|apply (coh_same c s); auto]. }
    assert (Hz : 0 <= 0 /\ 0 mod (NV * P) = 0) by (split; [lia|apply Z.mod_0_l; lia]).
    assert (Ac : accepted L = concat PD) by (unfold accepted, L, recovered; cbn [pages cur]; apply app_nil_r).
    unfold VR', VP'. destruct (Z.eqb_spec (zlen PD) 0) as [Z0|NZ].
    - destruct (Z.gtb_spec (zlen PD) 0); [lia|].
      assert (PD = []) as -> by (destruct PD; [auto|rewrite zlen_cons in Z0; pose proof (zlen_nonneg PD); lia]).
      eexists _, (rec_lo (numData c) (eraseSize c) (zlen (@nil (list rcd)))), 0, 0, 0. split; [exact E|]. cbn [set_v set_io sio sd si sv].
      destruct (Keep (set_io (set_v s v0) (mkIO (faults (sio s)) (fD (sio s)) (fI (sio s)) (open_w c (Some FV)) (trace (sio s))))) as [I' Co'];
        try reflexivity; [exact Fs|]. split.
      { apply (empty_VInv c KB PB VB G V _ notorn L _ acc (gpage c) (ghasvar c)); auto; try exact Fs; try exact Ev; try reflexivity.
        - cbn [set_io sio fV]. unfold open_w. rewrite (vs_trunc _ _ V). reflexivity.
        - rewrite Ac. intros r [].
        - intros r _ [].
        - rewrite Ac. intros r [].
        - apply (t_keys _ _ _ _ _ _ _ T). }
      split; [exact Co'|]. split; [auto|]. split; [|split; [auto|]].
      + intros r Hr. exfalso. unfold L, recovered, retained, livePages in Hr. cbn [pages lo cur] in Hr. rewrite skipn_nil in Hr. destruct Hr.
      + split; [|exact Et]. left. cbn [sv]. rewrite Ev. reflexivity.
    - destruct (Z.gtb_spec (zlen PD) 0); [|pose proof (zlen_nonneg PD); lia]. cbn [open_r] in E.
      set (s1 := set_io (set_v s v0) _) in E.
      destruct (Keep s1) as [I1 Co1]; try reflexivity; [exact Fs|].
      assert (R1 : vrc FV s1) by (split; [exact Fs|split; [reflexivity|left; cbn [s1 set_io set_v sv]; rewrite Ev; reflexivity]]).
      destruct (Z.eq_dec (zlen VP) 0) as [V0|Vn].
      + assert (VP = []) as -> by (destruct VP; [auto|rewrite zlen_cons in V0; pose proof (zlen_nonneg VP); lia]).
        assert (VR = []) as ->.
        { destruct VR as [|[k0 [a bs]] VR]; [auto|exfalso]. destruct (t_laid _ _ _ _ _ _ _ T k0 a bs ltac:(now left)) as (l1 & l2 & _ & _ & l5).
          change (zlen (@nil page)) with 0 in l5. destruct (vskip_inside P HD (vPH c KB PB G) (4 + length bs) a ltac:(split; lia)).
          pose proof (Z.mod_le a P ltac:(lia) ltac:(lia)). lia. }
        assert (Ei : initVarDataFromFile c s1 = Ok (s1, 0)).
        { unfold initVarDataFromFile. rewrite (vrc_end FV s1 0 R1); [reflexivity|].
          rewrite (q_flen _ _ _ Q). change (zlen (@nil page)) with 0. unfold NOPAGE. lia. }
        rewrite Ei in E. eexists _, (rec_lo (numData c) (eraseSize c) (zlen PD)), 0, 0, 0. split; [exact E|]. split.
        { apply (empty_VInv c KB PB VB G V _ notorn L _ acc (gpage c) (ghasvar c)); auto.
          - cbn [s1 set_io sio fV]. rewrite (q_flen _ _ _ Q). change (zlen (@nil page)) with 0. lia.
          - rewrite Ac. intros r Hr Ht. destruct (t_rec _ _ _ _ _ _ _ T r Hr (notorn_no _)) as [[A _]|(a & bs & [] & _)]. exact A.
          - intros r _ [].
          - rewrite Ac. apply (t_acc _ _ _ _ _ _ _ T).
          - apply (t_keys _ _ _ _ _ _ _ T). }
        split; [auto|]. split; [auto|]. split; [|split; [auto|split; [|exact Et]]].
        * intros r Hr. pose proof (w_recs _ _ _ W) as Wr. rewrite Forall_forall in Wr.
          assert (In r (accepted L)).
          { rewrite Ac. unfold retained, livePages, L, recovered in Hr. cbn [pages lo cur] in Hr. rewrite app_nil_r in Hr.
            apply in_concat in Hr as (x & Hx & Hrx). apply in_concat. exists x. split; [|auto]. rewrite <- (firstn_skipn (Z.to_nat (rec_lo (numData c) (eraseSize c) (zlen PD))) PD). apply in_or_app. now right. }
          apply (Wr r). auto.
        * left. cbn [s1 set_io set_v sv]. rewrite Ev. reflexivity.
      + pose proof (zlen_nonneg VP). pose proof (zlen_nonneg PD).
        assert (Ace : accepted L <> []).
        { assert (Wl := w_lo _ _ _ W). assert (Wn := w_ne _ _ _ W). fold L in Wl, Wn. cbn [L recovered pages lo] in Wl, Wn.
          destruct (page_ne c KB L (lo L) W) as (r & rs & Ep); [cbn [L recovered pages lo]; lia|]. intros E0.
          assert (Hr : In r (concat (pages L))).
          { apply in_concat. exists (r :: rs). split; [|now left]. rewrite <- Ep. apply nth_In. cbn [L recovered pages lo]. unfold zlen in *. lia. }
          unfold accepted in E0. apply app_eq_nil in E0 as [E0 _]. rewrite E0 in Hr. destruct Hr. }
        destruct (initVarDataFromFile_ok c KB PB VB G V FV VP Q _ L ltac:(cbn [L recovered pages]; lia) s1 ltac:(lia) H1 R1 I1 Co1) as (s2 & Ei & Rv).
        rewrite Ei in E. pose proof Rv as (r1 & _ & _ & Co2 & _ & _ & _ & _ & r9 & r10 & _).
        destruct (l0_b c KB PB VB G V VP) as (Lb1 & Lb2 & Lb3 & Lb4).
        exists s2, (rec_lo (numData c) (eraseSize c) (zlen PD)), (rec_kl L), (wrapped_off c VP), (rec_lv c VP).
        split; [exact E|]. split.
        { apply (recv_VInv c KB PB VB G V _ notorn PD L FV VP VR acc s1); auto; try (cbn [L recovered pages]; lia). }
        split; [auto|]. split; [apply (off_ok c KB PB VB G V VP)|]. split; [|split; [|split]].
        * intros r Hr. apply retained_from; auto.
        * right. apply (t_acc _ _ _ _ _ _ _ T). rewrite <- Ac. apply (kl_in c KB L W). exact Ace.
        * right. rewrite r1, r9, r10. symmetry. apply (q_fpg _ _ _ Q); lia.
        * rewrite r1. exact Et.
  Qed.
End ReopenVar.

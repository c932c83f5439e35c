(** Opening existing storage recovers the log. *)
From Verif Require Import Base BaseFacts Config Spline Storage DB Recovery Spec SpecSpline SplineFacts
  SpecPage SpecStore SpecIter Run SpecRun SpecReopen LogFacts PageFacts SearchFacts StoreFacts PutFacts
  GetFacts BinFacts RunFacts IdxRecFacts.
Open Scope Z_scope.
Ltac Zify.zify_post_hook ::= ZifyBool.elim_bool_cstr.
Ltac Zify.zify_convert_to_euclidean_division_equations_flag ::= constr:(false).

(** ** Positions in the area *)
(** [n] pages written: [i] is the id on physical page 0, [m] pages follow it. *)
Definition split_at (D n i m : Z) : Prop :=
  n = i + m /\ 1 <= m <= D /\ 0 <= i /\ i mod D = 0 /\ (i = 0 \/ D <= i).

Lemma split_ex D n : 0 < D -> 1 <= n -> exists i m, split_at D n i m.
Proof.
  intros HD Hn. pose proof (Z.div_mod (n - 1) D ltac:(lia)) as E. pose proof (Z.mod_pos_bound (n - 1) D HD) as Bd.
  pose proof (Z.div_pos (n - 1) D ltac:(lia) HD) as Q. set (q := (n - 1) / D) in *. set (r := (n - 1) mod D) in *.
  exists (D * q), (r + 1). split; [lia|]. split; [lia|].
  destruct (Z.eq_dec q 0) as [->|NZ].
  - rewrite Z.mul_0_r. split; [lia|]. split; [apply Z.mod_0_l; lia|auto].
  - assert (D * 1 <= D * q) by (apply Z.mul_le_mono_nonneg_l; lia).
    split; [lia|]. split; [|lia]. rewrite Z.mul_comm. apply Z.mod_mul. lia.
Qed.
Lemma mod_at D i j : 0 < D -> i mod D = 0 -> 0 <= j < D -> (i + j) mod D = j.
Proof.
  intros HD Hi Hj. rewrite Z.add_mod, Hi by lia. rewrite Z.add_0_l, Z.mod_mod by lia. apply Z.mod_small. auto.
Qed.
Lemma mod_back D i j : 0 < D -> i mod D = 0 -> 0 <= j < D -> (i - D + j) mod D = j.
Proof.
  intros HD Hi Hj. apply mod_at; auto. rewrite Zminus_mod, Hi, Z.mod_same by lia. apply Z.mod_0_l. lia.
Qed.
Lemma mod_block D B i : 0 < B -> 0 < D -> D mod B = 0 -> i mod D = 0 -> i mod B = 0.
Proof.
  intros HB HD H1 H2. apply Z.mod_divide in H1; [|lia]. apply Z.mod_divide in H2; [|lia]. apply Z.mod_divide; [lia|].
  eapply Z.divide_trans; eauto.
Qed.

Lemma rec_lo_split D B n i m : 0 < B -> 2 * B <= D -> D mod B = 0 -> split_at D n i m ->
  rec_lo D B n = (if i =? 0 then 0 else if m =? D then i else n - D + (B - m mod B)).
Proof.
  intros HB HD HDB (E & Hm & Hi & Hid & Hc). unfold rec_lo.
  destruct (Z.eqb_spec i 0) as [->|NZ].
  - destruct (Z.leb_spec n D); [auto|lia].
  - destruct (Z.leb_spec n D); [lia|].
    destruct (Z.eqb_spec m D) as [->|Nm].
    + rewrite E. rewrite Z.add_mod, Hid, Z.mod_same by lia. rewrite Z.mod_0_l by lia. cbn. lia.
    + rewrite E, mod_at by lia. destruct (Z.eqb_spec m 0); [lia|].
      rewrite Z.add_mod, (mod_block D B i) by lia. rewrite Z.add_0_l, Z.mod_mod by lia. lia.
Qed.

(** The block after the write position. *)
Lemma next_block D B m : 0 < B -> 0 < D -> D mod B = 0 -> 0 <= m < D ->
  m < m + (B - m mod B) <= D /\ (m + (B - m mod B)) mod B = 0.
Proof.
  intros HB HD H Hm. pose proof (Z.mod_pos_bound m B HB) as Mb. pose proof (Z.div_mod m B ltac:(lia)) as E.
  set (q := m / B) in *. set (r := m mod B) in *.
  assert (E2 : m + (B - r) = (q + 1) * B) by lia. rewrite E2.
  split; [|apply Z.mod_mul; lia]. apply Z.mod_divide in H as [k Hk]; [|lia]. subst D.
  split; [lia|]. assert (q < k); [|apply Z.mul_le_mono_nonneg_r; lia].
  destruct (Z.lt_ge_cases q k); auto. exfalso. assert (k * B <= q * B) by (apply Z.mul_le_mono_nonneg_r; lia). lia.
Qed.

Lemma rec_lo_bounds D B n : 0 < B -> 2 * B <= D -> D mod B = 0 -> 0 <= n ->
  0 <= rec_lo D B n <= n /\ (0 < n -> rec_lo D B n < n) /\ n - rec_lo D B n <= D /\ rec_lo D B n mod B = 0.
Proof.
  intros HB HD HDB Hn. destruct (Z.eq_dec n 0) as [->|NZ].
  { unfold rec_lo. destruct (Z.leb_spec 0 D); [|lia]. rewrite Z.mod_0_l by lia. lia. }
  destruct (split_ex D n ltac:(lia) ltac:(lia)) as (i & m & Sp). rewrite (rec_lo_split D B n i m) by auto.
  destruct Sp as (E & Hm & Hi & Hid & Hc).
  destruct (Z.eqb_spec i 0) as [->|Ni]; [rewrite Z.mod_0_l by lia; lia|].
  destruct (Z.eqb_spec m D) as [->|Nm].
  { split; [lia|]. split; [lia|]. split; [lia|]. apply (mod_block D B i); auto; lia. }
  destruct (next_block D B m HB ltac:(lia) HDB ltac:(lia)) as [H1 H2].
  pose proof (Z.mod_pos_bound m B HB). split; [lia|]. split; [lia|]. split; [lia|].
  replace (n - D + (B - m mod B)) with (i - D + (m + (B - m mod B))) by lia.
  rewrite Z.add_mod, H2, Z.add_0_r, Z.mod_mod by lia. rewrite Zminus_mod, HDB, (mod_block D B i) by lia.
  rewrite Z.sub_0_r. apply Z.mod_0_l. lia.
Qed.

(** ** Reading the live pages of a log back *)
Section Live.
  Variables (c : cfg) (KB PB : Z).
  Hypothesis G : setting c KB PB.
  Notation N := (maxRec c).
  Notation D := (numData c).
  Notation B := (eraseSize c).
  Let L0 := L0 c KB PB G.
  Variables (F : file) (LR : log).
  Notation P := (pages LR).
  Notation n := (zlen (pages LR)).
  Notation rlo := (lo LR).
  Hypothesis Lv : live_ok c F P rlo.
  Hypothesis W : wf_log c KB LR.
  Hypothesis HP : zlen P + maxErr c < PB.

  Lemma lv_small : 0 <= n < 2 ^ 31.
  Proof. pose proof (zlen_nonneg P). pose proof (g_PB _ _ _ G). pose proof (g_err _ _ _ G). lia. Qed.
  Lemma lv_img id : rlo <= id < n -> img c P id (fpg F (id mod D)).
  Proof. intros H. apply (Lv id H). Qed.
  Lemma in_file id : rlo <= id < n -> 0 <= id mod D < flen F.
  Proof.
    intros H. destruct (Lv id H) as [E _]. pose proof (mod_D c KB PB G id). unfold file_read in E.
    destruct (Z.leb_spec 0 (id mod D)); [|lia]. destruct (Z.ltb_spec (id mod D) (flen F)); [lia|discriminate].
  Qed.

  (** The read buffer holds what is in the file. *)
  Definition rc (s : state) : Prop :=
    faults (sio s) = [] /\ fD (sio s) = F /\
    (bufD (sd s) = NOPAGE \/ 0 <= bufD (sd s) < flen F /\ rbuf (sd s) = fpg F (bufD (sd s))).

  Lemma rc_read1 s q : faults (sio s) = [] -> fD (sio s) = F -> (q = bufD (sd s) -> rbuf (sd s) = fpg F q) ->
    0 <= q < flen F ->
    exists s', readPage s q = (s', 0) /\ rc s' /\ same_but_rbuf s s' /\ rbuf (sd s') = fpg F q /\ bufD (sd s') = q.
  Proof.
    intros A1 A2 A3 Hq.
    unfold readPage. destruct (Z.eqb_spec q (bufD (sd s))) as [E|NE].
    - exists s. split; [auto|]. split; [split; [auto|split; [auto|]]|].
      { right. rewrite <- E. auto. }
      split; [apply same_rbuf_refl|]. auto.
    - rewrite io_read_nf by auto. cbn [getF]. rewrite A2. unfold file_read.
      destruct (Z.leb_spec 0 q); [|lia]. destruct (Z.ltb_spec q (flen F)); [|lia]. cbn [andb].
      eexists. split; [reflexivity|]. cbn [sio sd d_rbuf rbuf bufD].
      split; [|split; [|auto]].
      + split; [auto|]. split; [auto|]. right. cbn [sd d_rbuf rbuf bufD]. auto.
      + do 3 (split; [reflexivity|]). do 2 eexists. reflexivity.
  Qed.
  Lemma rc_read s q : rc s -> 0 <= q < flen F -> q < D ->
    exists s', readPage s q = (s', 0) /\ rc s' /\ same_but_rbuf s s' /\ rbuf (sd s') = fpg F q /\ bufD (sd s') = q.
  Proof.
    intros (A1 & A2 & A3) Hq Hn. pose proof (g_D _ _ _ G) as GD. apply rc_read1; auto. intros ->.
    destruct A3 as [A3|[A3 A4]]; [unfold NOPAGE in *; lia|auto].
  Qed.
  Lemma rc_end s q : rc s -> flen F <= q < NOPAGE -> readPage s q = (s, -1).
  Proof.
    intros (A1 & A2 & A3) Hq. unfold readPage. destruct (Z.eqb_spec q (bufD (sd s))) as [E|NE].
    { exfalso. destruct A3 as [A3|[A3 A4]]; lia. }
    rewrite io_read_nf by auto. cbn [getF]. rewrite A2. unfold file_read.
    destruct (Z.ltb_spec q (flen F)); [lia|]. rewrite andb_false_r. destruct s; reflexivity.
  Qed.

  Lemma pid_img id p : img c P id p -> get_pid p = Ok id.
  Proof.
    intros [A <-]. unfold get_pid, page_id. pose proof (h_len _ _ _ A). pose proof (l_init c L0).
    pose proof (l_ks c L0). pose proof (l_ds c L0). rewrite ldz_ok by lia. reflexivity.
  Qed.
  Lemma hdr_img id p q : N <= 127 -> img c P id p -> 0 <= id < n -> id mod D = q -> hdr_ok c p q = Ok (id, true).
  Proof.
    intros N127 I Hid E. unfold hdr_ok. rewrite (pid_img id p I). cbn [bind]. destruct I as [A _].
    rewrite (get_count_ok c L0 _ _ A). cbn [bind]. pose proof (h_max _ _ _ A) as Hm.
    destruct (page_ne c KB LR id W Hid) as (r & rs & Ep). rewrite Ep in *.
    rewrite zlen_cons in *. pose proof (zlen_nonneg rs). rewrite i8_id by lia.
    rewrite E, Z.eqb_refl. cbn [andb]. f_equal. f_equal. lia.
  Qed.
  Hypothesis He : maxErr c <= 1 \/ rlo = 0.
  Lemma spline_from_file_ok k : forall pg s sp, useBinary c = false -> rc s -> rlo <= pg -> pg + Z.of_nat k = n ->
    spl (sd s) = Some sp -> SI (kfun P) rlo KB PB sp pg -> s_maxErr sp = maxErr c ->
    exists s' sp' p q, spline_from_file c s k pg = Ok s' /\ rc s' /\ sio s' = sio s /\ si s' = si s /\ sv s' = sv s /\
      sd s' = d_spl (d_rbuf (sd s) p q) (Some sp') /\ SI (kfun P) rlo KB PB sp' n /\ s_maxErr sp' = maxErr c /\
      ((0 < k)%nat \/ bufD (sd s) = (n - 1) mod D -> q = (n - 1) mod D).
  Proof.
    pose proof (w_lo _ _ _ W) as Rb1. pose proof (w_ne _ _ _ W) as Rb2. pose proof (w_live _ _ _ W) as Rb3. pose proof lv_small as Hn. pose proof (g_D _ _ _ G) as GD0. pose proof (g_err _ _ _ G) as GE.
    induction k as [|k IH]; intros pg s sp U R H1 H2 Es HS Hm.
    - cbn [spline_from_file]. exists s, sp, (rbuf (sd s)), (bufD (sd s)). split; [reflexivity|]. split; [auto|].
      do 3 (split; [reflexivity|]). split; [rewrite <- Es; destruct (sd s); reflexivity|].
      replace pg with n in HS by lia. split; [auto|]. split; [auto|]. intros [?|E]; [lia|auto].
    - cbn [spline_from_file]. destruct (rc_read s (pg mod D) R) as (s1 & -> & R1 & S1 & Eb & Eq).
      { apply in_file; lia. }
      { apply (mod_D c KB PB G). }
      rewrite Eb. pose proof (lv_img pg ltac:(lia)) as [A _].
      destruct (page_ne c KB LR pg W) as (r & rs & Ep); [lia|].
      rewrite Ep in A. pose proof (page_recs c KB LR pg W) as Rc.  rewrite Ep in Rc.
      pose proof (Forall_inv Rc) as Rr.
      rewrite (min_key_ok c L0 _ r rs KB (proj2 (g_KB _ _ _ G)) A Rr). cbn [bind].
      destruct S1 as (b1 & b2 & b3 & p1 & q1 & b4).
      assert (Es1 : spl (sd s1) = Some sp) by (rewrite b4; exact Es). rewrite Es1.
      assert (K : kfun P pg = rkey r) by (unfold kfun; rewrite Ep; auto). rewrite <- K.
      rewrite u32_id by lia.
      destruct (add_SI (kfun P) rlo KB PB sp pg HS) as (A1 & A2 & _).
      + lia.
      + rewrite K. apply Rr.
      + intros Hf. rewrite K. destruct (page_ne c KB LR (pg - 1) W) as (r' & rs' & E'); [lia|].
        unfold kfun. rewrite E'.
        eapply (pages_order P (Z.to_nat (pg - 1)) (Z.to_nat pg)).
        * pose proof (w_asc _ _ _ W) as Wa. unfold accepted in Wa. rewrite asc_app in Wa. tauto.
        * lia.
        * rewrite E'. now left.
        * rewrite Ep. now left.
      + intros _. rewrite Hm. exact He.
      + destruct (IH (pg + 1) (set_d s1 (d_spl (sd s1) (Some (spl_add sp (kfun P pg) pg)))) (spl_add sp (kfun P pg) pg) U)
          as (s' & sp' & p & q & E & R' & c1 & c2 & c3 & c4 & c5 & c6 & c7); auto; try lia.
        exists s', sp', p, q. split; [exact E|]. split; [auto|].
        cbn [set_d sio si sv sd] in *. do 3 (split; [congruence|]). split.
        { rewrite c4, b4. reflexivity. }
        split; [auto|]. split; [auto|]. intros _. destruct k.
        * apply c7. right. cbn [d_spl bufD]. rewrite Eq. f_equal. lia.
        * apply c7. left. lia.
  Qed.

  Definition fresh_spl (s : state) : Prop :=
    spl (sd s) = if useBinary c then None else Some (spl_init (numSplinePts c) (maxErr c) (gpoint c)).
  Definition got_spl (x : option spline) : Prop :=
    if useBinary c then x = None
    else exists sp, x = Some sp /\ SI (kfun P) rlo KB PB sp n /\ s_maxErr sp = maxErr c.

  (** The state after recovering the data area. *)
  Definition recd (res : Z) (s s' : state) : Prop :=
    sio s' = sio s /\ si s' = si s /\ sv s' = sv s /\ rc s' /\ wbuf (sd s') = wbuf (sd s) /\
    nextD (sd s') = n /\ minD (sd s') = rlo /\ availD (sd s') = D - (n - rlo) - res /\ nextRLC (sd s') = nextRLC (sd s) /\ rlcStart (sd s') = rlcStart (sd s) /\ got_spl (spl (sd s')) /\
    (0 < n -> bufD (sd s') = (n - 1) mod D).

  Lemma rec_finish_ok res s small : 0 < n -> faults (sio s) = [] -> fD (sio s) = F ->
    (small = bufD (sd s) -> rbuf (sd s) = fpg F small) -> fresh_spl s -> 0 <= small < flen F ->
    0 <= res <= D - (n - rlo) ->
    get_pid (fpg F small) = Ok rlo ->
    exists s', rec_finish c s small (n - 1) res = Ok (s', 0) /\ recd res s s'.
  Proof.
    intros N0 Rx Ry Rz Fs Hsm Hres Ep. pose proof (w_lo _ _ _ W) as Rb1. pose proof (w_ne _ _ _ W) as Rb2. pose proof (w_live _ _ _ W) as Rb3. pose proof lv_small as Hn. pose proof (g_D _ _ _ G) as GD0.
    pose proof (g_D _ _ _ G) as GD. unfold rec_finish.
    replace (n - 1 + 1) with n by lia. rewrite u32_id by lia.
    set (s0 := set_d s (d_next (sd s) n)).
    destruct (rc_read1 s0 small Rx Ry Rz Hsm) as (s1 & -> & R1 & (a1 & a2 & a3 & p1 & q1 & a4) & Eb & Eq).
    rewrite Eb, Ep. cbn [bind]. replace (D + rlo - (n - 1) - 1 - res) with (D - (n - rlo) - res) by lia. rewrite u32_id by lia.
    set (s2 := set_d s1 (d_avail (sd s1) (D - (n - rlo) - res) rlo)).
    assert (R2 : rc s2) by exact R1.
    assert (E2 : nextD (sd s2) = n) by (unfold s2, s0 in *; cbn [set_d sd d_avail nextD]; rewrite a4; reflexivity).
    rewrite E2. rewrite u32_id by lia.
    destruct (rc_read s2 ((n - 1) mod D) R2) as (s3 & -> & R3 & (b1 & b2 & b3 & p2 & q2 & b4) & Eb3 & Eq3).
    { apply in_file; lia. }
    { apply (mod_D c KB PB G). }
    assert (Nx : nextD (sd s3) = n) by (rewrite b4; exact E2).
    assert (Mi : minD (sd s3) = rlo) by (rewrite b4; reflexivity).
    assert (Sp3 : spl (sd s3) = spl (sd s)) by (rewrite b4; unfold s2; cbn [set_d sd d_rbuf d_avail spl]; rewrite a4; reflexivity).
    assert (Wb3 : wbuf (sd s3) = wbuf (sd s)) by (rewrite b4; unfold s2; cbn [set_d sd d_rbuf d_avail wbuf]; rewrite a4; reflexivity).
    assert (Av3 : availD (sd s3) = D - (n - rlo) - res) by (rewrite b4; reflexivity).
    assert (Rl3 : nextRLC (sd s3) = nextRLC (sd s)) by (rewrite b4; unfold s2; cbn [set_d sd d_rbuf d_avail nextRLC]; rewrite a4; reflexivity).
    assert (Rs3 : rlcStart (sd s3) = rlcStart (sd s)) by (rewrite b4; unfold s2; cbn [set_d sd d_rbuf d_avail rlcStart]; rewrite a4; reflexivity).
    assert (Io : sio s3 = sio s /\ si s3 = si s /\ sv s3 = sv s).
    { unfold s2, s0 in *. cbn [set_d sio si sv] in *. split; [congruence|split; congruence]. }
    destruct Io as (Io & Ii & Iv).
    unfold fresh_spl in Fs. unfold recd, got_spl. destruct (useBinary c) eqn:U.
    - exists s3. split; [reflexivity|]. rewrite Sp3. do 11 (split; [auto|]). auto.
    - rewrite Nx, Mi. rewrite u32_id by lia.
      destruct (g_spl _ _ _ G U). pose proof (g_KB _ _ _ G). pose proof (g_PB _ _ _ G). pose proof (g_err _ _ _ G). pose proof (g_prod _ _ _ G).
      destruct (spline_from_file_ok (Z.to_nat (n - rlo)) rlo s3 (spl_init (numSplinePts c) (maxErr c) (gpoint c)) U R3)
        as (s' & sp' & p & q & E & R' & c1 & c2 & c3 & c4 & c5 & c6 & c7); try lia.
      { rewrite Sp3. auto. }
      { apply init_SI; auto; lia. }
      { cbn [spl_init s_maxErr]. apply u32_id. lia. }
      rewrite E. cbn [bind]. exists s'. split; [reflexivity|]. rewrite c4. cbn [d_spl d_rbuf wbuf nextD minD availD spl bufD nextRLC rlcStart].
      do 3 (split; [congruence|]). split; [auto|]. cbn [nextRLC rlcStart]. do 6 (split; [auto|]). split; [eauto|].
      intros _. apply c7. auto.
  Qed.

End Live.

Section Rec.
  Variables (c : cfg) (KB PB : Z).
  Hypothesis G : setting c KB PB.
  Notation N := (maxRec c).
  Notation D := (numData c).
  Notation B := (eraseSize c).
  Let L0 := L0 c KB PB G.

  Lemma recovered_wf P : Forall (fun p => p <> [] /\ zlen p <= N) P -> ascending (concat P) ->
    Forall (rec_ok c KB) (concat P) -> wf_log c KB (recovered c P).
  Proof.
    intros H1 H2 H3. pose proof (g_B _ _ _ G) as GB. pose proof (g_D _ _ _ G) as GD. pose proof (g_DB _ _ _ G) as GDB.
    destruct (rec_lo_bounds D B (zlen P) ltac:(lia) ltac:(lia) GDB (zlen_nonneg P)) as (A1 & A2 & A3 & A4).
    constructor; unfold recovered; cbn [lo pages cur accepted]; auto.
    - change (zlen (@nil rcd)) with 0. pose proof (l_fit c L0). lia.
    - unfold accepted. cbn [pages cur]. now rewrite app_nil_r.
    - unfold accepted. cbn [pages cur]. now rewrite app_nil_r.
  Qed.

  Variables (F : file) (P : list (list rcd)) (l : Z).
  Hypothesis Dk : disk_ok c F P l.
  Hypothesis W : wf_log c KB (recovered c P).
  Hypothesis N127 : N <= 127.
  Hypothesis Bl : blank c.
  Hypothesis Hl : eraseFill c = None \/ l <= rec_lo D B (zlen P).
  Hypothesis HP : zlen P + maxErr c < PB.
  Notation n := (zlen P).
  Notation rlo := (rec_lo D B (zlen P)).

  Lemma rlo_b : 0 <= rlo <= n /\ (0 < n -> rlo < n) /\ n - rlo <= D /\ rlo mod B = 0.
  Proof.
    pose proof (g_B _ _ _ G). pose proof (g_D _ _ _ G).
    apply rec_lo_bounds; try lia; [apply (g_DB _ _ _ G)|apply zlen_nonneg].
  Qed.
  Lemma n_small : 0 <= n < 2 ^ 31.
  Proof. pose proof (zlen_nonneg P). pose proof (g_PB _ _ _ G). pose proof (g_err _ _ _ G). lia. Qed.

  Lemma live_img id : 0 <= id -> n - D <= id < n -> rlo <= id -> img c P id (fpg F (id mod D)).
  Proof.
    intros H1 H2 H3. destruct (dk_pg _ _ _ _ Dk id H1 H2) as [A|(A & b & B1 & _)]; auto.
    destruct Hl; [congruence|lia].
  Qed.
  Lemma disk_rlo : disk_ok c F P rlo.
  Proof.
    constructor; [apply (dk_len _ _ _ _ Dk)|apply (dk_end _ _ _ _ Dk)|]. intros id H1 H2.
    destruct (dk_pg _ _ _ _ Dk id H1 H2) as [A|(A & b & B1 & B2)]; auto.
    destruct Hl; [congruence|]. right. split; [lia|eauto].
  Qed.

  Notation LR := (recovered c P).
  Lemma rec_live : live_ok c F P rlo.
  Proof.
    intros id H. pose proof rlo_b as (R1 & R2 & R3 & R4). apply (disk_read c KB PB G F P rlo id disk_rlo); lia.
  Qed.
  Notation rc := (rc F).
  Notation rc_end := (rc_end F).
  Notation pid_img := (pid_img c KB PB G LR).
  Notation hdr_img := (hdr_img c KB PB G LR W).
  Notation recd := (recd c KB PB F LR 0).
  Lemma flen_D : flen F <= D.
  Proof. rewrite (dk_end _ _ _ _ Dk (proj1 Bl)). lia. Qed.
  Lemma rc_get s q : rc s -> 0 <= q < flen F ->
    exists s', readPage s q = (s', 0) /\ rc s' /\ same_but_rbuf s s' /\ rbuf (sd s') = fpg F q /\ bufD (sd s') = q.
  Proof. intros R Hq. pose proof flen_D. apply (rc_read c KB PB G F); auto. lia. Qed.
  Lemma pid_blank b : eraseFill c = Some b -> exists x, get_pid (repeat b (psz c)) = Ok x /\ x <> n \/ n = 0.
  Proof.
    intros E. destruct (Z.eq_dec n 0); [exists 0; auto|].
    pose proof (l_init c L0). pose proof (l_ks c L0). pose proof (l_ds c L0). pose proof (L_psz c L0).
    exists (le_dec (repeat b 4)). left.
    assert (Ez : zlen (repeat b (psz c)) = pageSize c) by (unfold zlen; rewrite repeat_length; lia).
    unfold get_pid. rewrite ldz_ok by lia. split.
    - f_equal. f_equal. unfold zrd, rd. change (Z.to_nat 0) with 0%nat. rewrite skipn_O.
      replace (psz c) with (4 + (psz c - 4))%nat by lia. rewrite repeat_app, firstn_app, repeat_length, Nat.sub_diag.
      rewrite firstn_O, app_nil_r. apply firstn_all2. rewrite repeat_length. auto.
    - pose proof n_small as Hn. pose proof (proj2 Bl) as Bl2. rewrite E in Bl2. change (le_dec (repeat b 4)) with (b + 256 * (b + 256 * (b + 256 * (b + 256 * 0)))).
      destruct Bl2 as [->|Hb]; lia.
  Qed.

  (** ** The scan for the newest page *)
  Section At.
    Variables (i m : Z).
    Hypothesis Sp : split_at D n i m.

    Lemma len_split : flen F = if i =? 0 then m else D.
    Proof.
      destruct Sp as (E & Hm & Hi & Hid & Hc). rewrite (dk_end _ _ _ _ Dk (proj1 Bl)).
      destruct (Z.eqb_spec i 0); lia.
    Qed.
    Lemma rlo_le : rlo <= i.
    Proof.
      pose proof (g_B _ _ _ G) as GB. pose proof (g_D _ _ _ G) as GD. pose proof (g_DB _ _ _ G) as GDB.
      rewrite (rec_lo_split D B n i m) by (auto; lia). destruct Sp as (E & Hm & Hi & Hid & Hc).
      destruct (Z.eqb_spec i 0); [lia|]. destruct (Z.eqb_spec m D); [lia|].
      destruct (next_block D B m ltac:(lia) ltac:(lia) GDB ltac:(lia)). lia.
    Qed.
    Lemma img_new j : 0 <= j < m -> img c P (i + j) (fpg F j).
    Proof.
      intros Hj. pose proof rlo_le. destruct Sp as (E & Hm & Hi & Hid & Hc).
      rewrite <- (mod_at D i j) at 2 by lia. apply live_img; lia.
    Qed.
    Lemma id_old : i <> 0 -> m < D -> exists x, get_pid (fpg F m) = Ok x /\ x <> n.
    Proof.
      intros Ni Nm. pose proof n_small as Hn. destruct Sp as (E & Hm & Hi & Hid & Hc).
      pose proof (mod_back D i m ltac:(lia) Hid ltac:(lia)) as Em.
      destruct (dk_pg _ _ _ _ Dk (i - D + m) ltac:(lia) ltac:(lia)) as [A|(A & b & E1 & E2)]; rewrite Em in *.
      - exists (i - D + m). split; [apply pid_img; auto|lia].
      - rewrite E2. destruct (pid_blank b E1) as (x & [X|X]); [eauto|lia].
    Qed.

    Lemma rec_scan_ok fuel : forall j s, rc s -> 1 <= j <= m ->
      (j < flen F -> rbuf (sd s) = fpg F j) -> (Z.to_nat (m - j) < fuel)%nat ->
      exists s', rec_scan c s fuel (j <? flen F) j (i + j - 1) = Ok (s', m <? flen F, m, n - 1) /\
        rc s' /\ same_but_rbuf s s'.
    Proof.
      pose proof n_small as Hn. pose proof (g_D _ _ _ G) as GD. pose proof len_split as FL. pose proof rlo_le.
      pose proof Sp as (E & Hm & Hi & Hid & Hc).
      induction fuel as [|fuel IH]; intros j s R Hj Hb Hf; [lia|]. cbn [rec_scan].
      destruct (Z.eq_dec j m) as [->|Nj].
      - destruct (Z.ltb_spec m (flen F)) as [Lt|Ge]; cbn [andb].
        + destruct (Z.eqb_spec i 0) as [|Ni]; [lia|]. destruct (Z.ltb_spec m D); [|lia].
          rewrite Hb by auto. destruct (id_old Ni ltac:(lia)) as (x & -> & Nx). cbn [bind].
          rewrite u32_id by lia. destruct (Z.eqb_spec x (i + m - 1 + 1)); [lia|]. rewrite andb_false_r.
          exists s. split; [f_equal; f_equal; lia|]. split; [auto|apply same_rbuf_refl].
        + exists s. split; [f_equal; f_equal; lia|]. split; [auto|apply same_rbuf_refl].
      - assert (FLm : m <= flen F) by (rewrite FL; destruct (i =? 0); lia).
        destruct (Z.ltb_spec j (flen F)); [|lia]. destruct (Z.ltb_spec j D); [|lia]. cbn [andb].
        rewrite Hb by auto. rewrite (pid_img (i + j) _ (img_new j ltac:(lia))). cbn [bind].
        rewrite mod_at, Z.eqb_refl by lia. rewrite u32_id by lia. replace (i + j - 1 + 1) with (i + j) by lia.
        rewrite Z.eqb_refl. cbn [andb].
        destruct (Z.lt_ge_cases (j + 1) (flen F)) as [Lt|Ge].
        + destruct (rc_get s (j + 1) R ltac:(lia)) as (s1 & -> & R1 & S1 & Eb & _).
          change (0 =? 0) with true.
          destruct (IH (j + 1) s1 R1 ltac:(lia)) as (s2 & E2 & R2 & S2); [auto|lia|].
          exists s2. split; [|split; [auto|exact (same_rbuf_trans _ _ _ S1 S2)]].
          replace true with (j + 1 <? flen F) by lia. replace (i + j) with (i + (j + 1) - 1) by lia. exact E2.
        + rewrite (rc_end s (j + 1) R) by (unfold NOPAGE; lia). change (-1 =? 0) with false.
          destruct (IH (j + 1) s R ltac:(lia)) as (s2 & E2 & R2 & S2); [lia|lia|].
          exists s2. split; [|auto].
          replace false with (j + 1 <? flen F) by lia. replace (i + j) with (i + (j + 1) - 1) by lia. exact E2.
    Qed.
  End At.

  Hypothesis He : maxErr c <= 1 \/ rlo = 0.

  Lemma finish_ok s small : 0 < n -> rc s -> fresh_spl c s -> 0 <= small < flen F ->
    get_pid (fpg F small) = Ok rlo ->
    exists s', rec_finish c s small (n - 1) 0 = Ok (s', 0) /\ recd s s'.
  Proof.
    intros N0 (R1 & R2 & R3) Fs Hs Ep. pose proof flen_D. pose proof rlo_b. pose proof (g_D _ _ _ G).
    apply (rec_finish_ok c KB PB G F LR rec_live W HP He 0 s small); auto.
    - intros ->. destruct R3 as [R3|[R3 R4]]; [unfold NOPAGE in *; lia|auto].
    - cbn [recovered lo pages]. lia.
  Qed.
  Lemma initDataFromFile_ok s : rc s -> fresh_spl c s -> nextD (sd s) = 0 -> minD (sd s) = 0 -> availD (sd s) = D ->
    exists s', initDataFromFile c s = Ok (s', 0) /\ recd s s'.
  Proof.
    intros R Fs Hn0 Hm0 Ha0. pose proof (zlen_nonneg P) as NN. pose proof (g_B _ _ _ G) as GB.
    pose proof (g_D _ _ _ G) as GD. pose proof (g_DB _ _ _ G) as GDB. pose proof n_small as Hn.
    unfold initDataFromFile.
    destruct (Z.eq_dec n 0) as [Z0|NZ].
    - assert (FL : flen F = 0) by (rewrite (dk_end _ _ _ _ Dk (proj1 Bl)); lia).
      rewrite (rc_end s 0 R) by (unfold NOPAGE; lia). change (-1 =? 0) with false. cbn [rec_first bind].
      exists s. split; [reflexivity|]. unfold recd. do 3 (split; [reflexivity|]). split; [auto|]. split; [auto|].
      assert (Rz : rlo = 0) by (rewrite Z0; unfold rec_lo; destruct (Z.leb_spec 0 D); [auto|lia]). cbn [recovered pages lo]. rewrite Rz, Z0.
      do 3 (split; [lia|]). do 2 (split; [auto|]). split; [|lia].
      unfold got_spl. cbn [recovered pages lo]. unfold fresh_spl in Fs. rewrite Fs. destruct (useBinary c) eqn:U; [auto|].
      eexists. split; [reflexivity|]. rewrite Rz, Z0. split.
      + destruct (g_spl _ _ _ G U). pose proof (g_KB _ _ _ G). pose proof (g_PB _ _ _ G). pose proof (g_err _ _ _ G). pose proof (g_prod _ _ _ G).
        apply init_SI; auto; lia.
      + cbn [spl_init s_maxErr]. pose proof (g_err _ _ _ G). apply u32_id. lia.
    - destruct (split_ex D n ltac:(lia) ltac:(lia)) as (i & m & Sp). pose proof Sp as (E & Hm & Hi & Hid & Hc).
      pose proof (len_split i m Sp) as FL.
      assert (FLm : m <= flen F) by (rewrite FL; destruct (i =? 0); lia).
      destruct (rc_get s 0 R ltac:(lia)) as (s1 & -> & R1 & S1 & Eb1 & _). change (0 =? 0) with true.
      cbn [rec_first]. rewrite Eb1. pose proof (img_new i m Sp 0 ltac:(lia)) as Im0. rewrite Z.add_0_r in Im0.
      rewrite (hdr_img i _ 0 N127 Im0) by (auto; cbn [recovered pages]; lia). cbn [bind].
      (* the first step to page 1 *)
      assert (exists s2, (let '(s, r) := readPage s1 (0 + 1) in Ok (s, r =? 0, 0 + 1, Some i)) =
                Ok (s2, 1 <? flen F, 1, Some i) /\ rc s2 /\ same_but_rbuf s s2 /\
                (1 < flen F -> rbuf (sd s2) = fpg F 1)) as (s2 & -> & R2 & S2 & Eb2).
      { change (0 + 1) with 1. destruct (Z.lt_ge_cases 1 (flen F)) as [Lt|Ge].
        - destruct (rc_get s1 1 R1 ltac:(lia)) as (s2 & -> & R2 & S2 & Eb2 & _). exists s2. change (0 =? 0) with true.
          replace (1 <? flen F) with true by lia. split; [reflexivity|]. split; [auto|].
          split; [exact (same_rbuf_trans _ _ _ S1 S2)|auto].
        - rewrite (rc_end s1 1 R1) by (unfold NOPAGE; lia). exists s1. change (-1 =? 0) with false.
          replace (1 <? flen F) with false by lia. split; [reflexivity|]. split; [auto|]. split; [exact S1|lia]. }
      cbn [bind].
      destruct (rec_scan_ok i m Sp (Z.to_nat (D + 1)) 1 s2 R2 ltac:(lia) Eb2 ltac:(lia)) as (s3 & E3 & R3 & S3).
      replace (i + 1 - 1) with i in E3 by lia. rewrite E3. cbn [bind].
      pose proof (same_rbuf_trans _ _ _ S2 S3) as S13.
      assert (Keep : forall t, same_but_rbuf s t -> fresh_spl c t).
      { intros t (_ & _ & _ & p & q & Et). unfold fresh_spl. rewrite Et. exact Fs. }
      assert (Fin : forall t t', same_but_rbuf s t -> recd t t' -> recd s t').
      { intros t t' (x1 & x2 & x3 & p & q & Et) (y1 & y2 & y3 & y4 & y5 & y6). unfold recd.
        rewrite Et in y5. cbn [d_rbuf wbuf] in y5. do 3 (split; [congruence|]). cbn [d_rbuf nextRLC rlcStart] in *. rewrite Et in y6. cbn [d_rbuf nextRLC rlcStart] in y6. auto. }
      pose proof (rec_lo_split D B n i m ltac:(lia) ltac:(lia) GDB Sp) as RL.
      destruct (Z.ltb_spec m (flen F)) as [Lt|Ge]; cbn [andb].
      + destruct (Z.eqb_spec i 0) as [|Ni]; [lia|].
        destruct (Z.ltb_spec m D); [|lia]. destruct (Z.eqb_spec m D); [lia|].
        destruct (next_block D B m ltac:(lia) ltac:(lia) GDB ltac:(lia)) as [Nb1 Nb2].
        set (ptb := B - m mod B) in *. 
        destruct (Z.eq_dec (m + ptb) D) as [Ed|Nd].
        * rewrite Ed, Z.mod_same by lia.
          destruct (rc_get s3 0 R3 ltac:(lia)) as (s4 & -> & R4 & S4 & Eb4 & _). change (negb (0 =? 0)) with false. cbv iota.
          rewrite Eb4, (pid_img i _ Im0). cbn [bind]. rewrite Hid. change (0 =? 0) with true. cbv iota.
          pose proof (same_rbuf_trans _ _ _ S13 S4) as S14.
          destruct (finish_ok s4 0) as (s5 & -> & R5); auto; try lia.
          { rewrite (pid_img i _ Im0). f_equal. lia. }
          exists s5. split; [auto|]. exact (Fin _ _ S14 R5).
        * rewrite (Z.mod_small (m + ptb) D) by lia.
          destruct (rc_get s3 (m + ptb) R3 ltac:(lia)) as (s4 & -> & R4 & S4 & Eb4 & _). change (negb (0 =? 0)) with false. cbv iota.
          assert (Im : img c P rlo (fpg F (m + ptb))).
          { rewrite <- (mod_back D i (m + ptb)) by lia. replace (i - D + (m + ptb)) with rlo by lia.
            apply live_img; lia. }
          rewrite Eb4, (pid_img rlo _ Im). cbn [bind].
          assert (Em : rlo mod D = m + ptb).
          { replace rlo with (i - D + (m + ptb)) by lia. apply mod_back; lia. }
          rewrite Em, Z.eqb_refl.
          pose proof (same_rbuf_trans _ _ _ S13 S4) as S14.
          destruct (finish_ok s4 (m + ptb)) as (s5 & -> & R5); auto; try lia.
          { apply pid_img. auto. }
          exists s5. split; [auto|]. exact (Fin _ _ S14 R5).
      + destruct (finish_ok s3 0) as (s5 & -> & R5); auto; try lia.
        { rewrite (pid_img i _ Im0). f_equal. rewrite RL, FL in *. destruct (Z.eqb_spec i 0); [auto|].
          destruct (Z.eqb_spec m D); lia. }
        exists s5. split; [auto|]. exact (Fin _ _ S13 R5).
  Qed.
End Rec.

(** ** embedDBInit without the reset flag *)
(** Up to and including the data area. *)
Lemma reopen_data c KB PB F P l k : setting c KB PB -> useRLC c = false -> idx_ready c k (zlen P) -> maxRec c <= 127 -> blank c ->
  (useVar c = true -> numVar c mod eraseSize c = 0) -> useReset c = false -> kD k = Some F ->
  disk_ok c F P l -> wf_log c KB (recovered c P) ->
  eraseFill c = None \/ l <= rec_lo (numData c) (eraseSize c) (zlen P) -> zlen P + maxErr c < PB ->
  maxErr c <= 1 \/ rec_lo (numData c) (eraseSize c) (zlen P) = 0 ->
  exists s, embedDBInit c k [] =
      (if useVar c then if bufBlocks c <? 4 + (if useIndex c then 2 else 0) then Ok (s, -1) else initVarData c s (kV k) else Ok (s, 0)) /\
    Inv c KB PB (rec_lo (numData c) (eraseSize c) (zlen P)) s (recovered c P) /\ coh c s (recovered c P) /\
    fD (sio s) = F /\ trace (sio s) = [] /\ sv s = mkV (gpage c) (gpage c) 0 0 0 0 NOPAGE (ghasvar c) /\
    (useIndex c = true -> get_count (iwbuf (si s)) = Ok 0 /\ forall X, kI k = Some X -> from_index c X s).
Proof.
  intros G HC Ix N127 Bl HVm HR HF Dk W Hl HP He. pose proof (L0 c KB PB G) as L0.
  pose proof (g_B _ _ _ G) as GB. pose proof (g_D _ _ _ G) as GD. pose proof (g_DB _ _ _ G) as GDB.
  pose proof (l_ks _ L0) as Lk. pose proof (l_ds _ L0) as Ld. pose proof (l_rec _ L0) as Lr.
  unfold embedDBInit. rewrite HC.
  destruct (Z.gtb_spec (keySize c) 8); [lia|]. destruct (Z.eqb_spec (eraseSize c) 0) as [|_]; [lia|].
  rewrite GDB. cbn [Z.eqb negb]. destruct (Z.ltb_spec (numData c) (2 * eraseSize c)); [lia|].
  assert (useVar c && negb (numVar c mod eraseSize c =? 0) = false) as ->.
  { destruct (useVar c); [|auto]. rewrite HVm by auto. reflexivity. }
  assert (useIndex c && negb (numIndex c mod eraseSize c =? 0) = false) as ->.
  { destruct (useIndex c) eqn:U; [|auto]. destruct (Ix U) as (_ & _ & _ & -> & _). reflexivity. }
  destruct (Z.eqb_spec (recordSize c) 0) as [|_]; [destruct (useVar c); lia|].
  destruct (init_page_ok c L0) as (w & -> & Hw). cbn [bind].
  destruct (Z.ltb_spec (numData c) (((if useIndex c then 1 else 0) * 2 + 2) * eraseSize c)) as [X|X].
  { exfalso. destruct (useIndex c) eqn:U; [destruct (Ix U) as (_ & _ & I4 & _)|]; lia. }
  assert (negb (useBinary c) && (numSplinePts c <? 4) = false) as ->.
  { destruct (useBinary c) eqn:Ub; [auto|]. destruct (g_spl _ _ _ G Ub). cbn [negb andb]. lia. }
  set (s0 := if useBinary c then _ else _). unfold initData. rewrite HR, HC, HF. cbn [open_r].
  set (s1 := set_io _ _).
  assert (S1 : rc F s1 /\ fresh_spl c s1 /\ nextD (sd s1) = 0 /\ minD (sd s1) = 0 /\ availD (sd s1) = numData c /\
               wbuf (sd s1) = w /\ fD (sio s1) = F /\ trace (sio s1) = [] /\
               sv s1 = mkV (gpage c) (gpage c) 0 0 0 0 NOPAGE (ghasvar c) /\ bufI (si s1) = NOPAGE).
  { unfold s1, s0, rc, fresh_spl. destruct (useBinary c);
      cbn [set_io set_d sio sd si sv bufI d_avail d_next d_spl d_wbuf faults fD trace bufD rbuf nextD minD availD spl wbuf]; auto 20. }
  destruct S1 as (R1 & F1 & a1 & a2 & a3 & a4 & a5 & a6 & a7 & a8).
  destruct (initDataFromFile_ok c KB PB G F P l Dk W N127 Bl Hl HP He s1 R1 F1 a1 a2 a3) as (s & -> & Rd).
  cbn [bind]. change (negb (0 =? 0)) with false. cbv iota. clearbody s0.
  destruct Rd as (b1 & b2 & b3 & (R1' & R2' & R3') & b5 & b6 & b7 & b8 & _ & _ & b9 & b10). cbn [recovered pages lo] in b6, b7, b8, b9, b10. rewrite Z.sub_0_r in b8.
  pose proof (rlo_b c KB PB G P) as (Rb1 & Rb2 & Rb3 & Rb4).
  pose proof (zlen_nonneg P) as NN. pose proof (disk_rlo c F P l Dk Hl) as Dk'.
  set (n := zlen P) in *. set (rlo := rec_lo (numData c) (eraseSize c) n) in *.
  assert (Rb : rb_ok c (sd s) P /\ coh c s (recovered c P)).
  { destruct (Z.eq_dec n 0) as [Z0|NZ].
    - assert (FL : flen F = 0) by (rewrite (dk_end _ _ _ _ Dk (proj1 Bl)); fold n; lia).
      destruct R3' as [R3'|[R3' _]]; [|lia]. split; [left; auto|]. intros id Hd. cbn [recovered pages lo] in Hd.
      fold n rlo in Hd. lia.
    - specialize (b10 ltac:(lia)).
      destruct R3' as [R3'|[R3' R4']].
      { exfalso. pose proof (mod_D c KB PB G (n - 1)). unfold NOPAGE in *. lia. }
      assert (Im : img c P (n - 1) (rbuf (sd s))).
      { rewrite R4', b10. apply (live_img c F P l Dk Hl); fold n rlo; try lia. }
      split; [right; left; exists (n - 1); fold n; split; [lia|split; auto]|].
      intros id Hd Eid. cbn [recovered pages lo] in *. fold n rlo in Hd. rewrite b10 in Eid.
      assert (Ei : id = n - 1) by (apply (mod_inj c KB PB G); auto; lia). rewrite Ei. auto. }
  destruct Rb as [Rb Co].
  assert (Fin : forall s', sd s' = sd s -> faults (sio s') = [] -> fD (sio s') = fD (sio s) -> idx_safe c s' ->
            Inv c KB PB rlo s' (recovered c P)).
  { intros s' e1 e2 e3 e4. constructor; rewrite ?e1, ?e3, ?b6, ?b7, ?b8; cbn [recovered pages lo cur]; unfold store_ok, reserve; rewrite ?HC; fold n rlo; auto; try lia.
    - rewrite R2'. auto.
    - rewrite b5, a4. auto. }
  destruct (useIndex c) eqn:U.
  - destruct (Ix U) as (_ & B4 & _). destruct (Z.ltb_spec (bufBlocks c) 4); [lia|].
    destruct (initIndex_ok c KB PB k s G U HR) as (s' & -> & e1 & e2 & e3 & e4 & e5 & e6 & e7 & e8).
    { rewrite b6. exact Ix. }
    { exact R1'. }
    { rewrite b2. exact a8. }
    { rewrite b6. fold n. lia. }
    cbn [bind]. change (negb (0 =? 0)) with false. cbv iota. exists s'. split; [reflexivity|].
    split; [apply Fin; auto|]. split; [unfold coh in *; rewrite e1; auto|]. rewrite e4, e5, e2, b1, b3. auto.
  - cbn [bind]. change (negb (0 =? 0)) with false. cbv iota. exists s. split; [reflexivity|].
    split; [apply Fin; auto; intros Z; congruence|]. split; [auto|]. rewrite b1, b3. repeat (split; [solve [auto]|]). intros Z; congruence.
Qed.

Lemma reopen_init c KB PB F P l k : plain_db c KB PB -> useReset c = false -> kD k = Some F ->
  disk_ok c F P l -> wf_log c KB (recovered c P) ->
  eraseFill c = None \/ l <= rec_lo (numData c) (eraseSize c) (zlen P) -> zlen P + maxErr c < PB ->
  maxErr c <= 1 \/ rec_lo (numData c) (eraseSize c) (zlen P) = 0 ->
  exists s, embedDBInit c k [] = Ok (s, 0) /\
    Inv c KB PB (rec_lo (numData c) (eraseSize c) (zlen P)) s (recovered c P) /\ coh c s (recovered c P) /\
    fD (sio s) = F /\ trace (sio s) = [].
Proof.
  intros [G M U N127 Bl] HR HF Dk W Hl HP He. pose proof (m_var _ M) as HV.
  assert (Ix : idx_ready c k (zlen P)) by (intros U'; congruence).
  destruct (reopen_data c KB PB F P l k G (m_rlc _ M) Ix N127 Bl ltac:(congruence) HR HF Dk W Hl HP He) as (s & E & I & Co & E1 & E2 & _).
  rewrite HV in E. eauto 10.
Qed.

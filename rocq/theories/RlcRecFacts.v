(** Record-level consistency: opening existing storage recovers the log. *)
From Verif Require Import Base BaseFacts Config Spline Storage DB Recovery Spec SpecSpline SplineFacts
  SpecPage SpecStore SpecIter Run SpecRun SpecReopen SpecRlc LogFacts PageFacts SearchFacts StoreFacts PutFacts
  GetFacts RunFacts RecoverFacts RlcFacts RlcOps.
Open Scope Z_scope.
Ltac Zify.zify_post_hook ::= ZifyBool.elim_bool_cstr.
Ltac Zify.zify_convert_to_euclidean_division_equations_flag ::= constr:(false).

Section Rec.
  Variables (c : cfg) (KB PB : Z).
  Hypothesis R : rlc_db c KB PB.
  Notation N := (maxRec c).
  Notation D := (numData c).
  Notation B := (eraseSize c).
  Notation nb := (nb (eraseSize c)).
  Notation rlo := (rlc_lo (numData c) (eraseSize c)).
  Let G := rl_set _ _ _ R.
  Let L0 := L0 c KB PB G.
  Notation rdisk := (rdisk c).
  Notation spare := (spare c).
  Notation rimg := (rimg c).
  Notation newest := (newest c).
  Notation rl := (rl c).
  Notation imgs := (imgs c).

  Lemma zero_holds : holds c (repeat 0 (psz c)) [].
  Proof.
    pose proof (L_ksz c L0) as K. pose proof (L_dsz c L0) as Kd. pose proof (L_psz c L0) as Kp. pose proof (L_bsz c L0) as Kb.
    pose proof (L_slot c L0 (maxRec c - 1)) as Sl. pose proof (page_big c KB PB R) as Pb.
    assert (Z0 : forall o n, 0 <= o -> o + Z.of_nat n <= pageSize c -> bytes_at (repeat 0 (psz c)) o n = repeat 0 n).
    { intros o n Ho Hn. apply zrd_repeat; lia. }
    pose proof L0 as L'. destruct L'. constructor.
    - rewrite zlen_repeat. lia.
    - rewrite Z0 by lia. reflexivity.
    - cbn. lia.
    - intros [|i] r; discriminate.
    - intros M _. specialize (Sl ltac:(lia)). apply Z0; try lia. destruct (useVar c); lia.
    - intros _ r0 rest; discriminate.
    - intros Hb. destruct (l_bm Hb). rewrite Z0 by lia. reflexivity.
  Qed.

  (** ** The read buffer, not trusted on the pages of [X] *)
  Definition rcx (F : file) (X : Z -> Prop) (s : state) : Prop :=
    faults (sio s) = [] /\ fD (sio s) = F /\
    (bufD (sd s) = NOPAGE \/ X (bufD (sd s)) \/ 0 <= bufD (sd s) < flen F /\ rbuf (sd s) = fpg F (bufD (sd s))).
  Lemma rcx_read F X s q : rcx F X s -> 0 <= q < NOPAGE -> ~ X q ->
    exists s', readPage s q = (s', if q <? flen F then 0 else -1) /\ rcx F X s' /\ same_but_rbuf s s' /\
      (q < flen F -> rbuf (sd s') = fpg F q /\ bufD (sd s') = q) /\ (flen F <= q -> s' = s).
  Proof.
    intros (A1 & A2 & A3) Hq HX. unfold readPage. destruct (Z.eqb_spec q (bufD (sd s))) as [E|NE].
    - exists s. destruct A3 as [A3|[A3|[A3 A4]]]; [clear - A3 E Hq; lia|exfalso; apply HX; rewrite E; auto|].
      destruct (Z.ltb_spec q (flen F)) as [Lt|Ge]; [|clear - Ge E A3; lia]. split; [auto|]. split; [split; auto|].
      split; [apply same_rbuf_refl|]. split; [intros _; rewrite E; auto|clear - Lt; lia].
    - rewrite io_read_nf by auto. cbn [getF]. rewrite A2. unfold file_read.
      destruct (Z.leb_spec 0 q); [|clear - H Hq; lia]. cbn [andb]. destruct (Z.ltb_spec q (flen F)) as [Lt|Ge].
      + eexists. split; [reflexivity|]. unfold rcx. scbn. split; [|split; [|split; [auto|clear - Lt; lia]]].
        * split; [auto|]. split; [auto|]. right; right. split; [clear - Lt Hq; lia|auto].
        * do 3 (split; [reflexivity|]). do 2 eexists. reflexivity.
      + exists s. split; [destruct s; reflexivity|]. split; [split; auto|]. split; [apply same_rbuf_refl|].
        split; [clear - Ge; lia|auto].
  Qed.
  Lemma rcx_erase F X s a b (E : Z -> Prop) o' : rcx F X s -> faults o' = [] -> fD o' = file_erase c F a b ->
    (forall q, a <= q < b -> E q) -> rcx (fD o') (fun q => X q \/ E q) (set_io s o').
  Proof.
    intros (A1 & A2 & A3) H1 H2 HE. unfold rcx. scbn. split; [auto|]. split; [auto|].
    destruct A3 as [A3|[A3|[A3 A4]]]; [auto|auto|]. rewrite H2. unfold file_erase. destruct (eraseFill c) as [v|]; [|auto].
    cbn [flen fpg]. rewrite A4. destruct ((a <=? bufD (sd s)) && (bufD (sd s) <? b)) eqn:Q.
    - right; left; right. apply HE. clear - Q. lia.
    - right; right. split; [clear - A3; lia|]. destruct (Z.ltb_spec (bufD (sd s)) (flen F)); [auto|clear - H A3; lia].
  Qed.
  Lemma rcx_weak F (X Y : Z -> Prop) s : rcx F X s -> (forall q, X q -> Y q) -> rcx F Y s.
  Proof. intros (A1 & A2 & [A3|[A3|A3]]) H; split; auto. Qed.

  Definition none (q : Z) : Prop := False.

  (** ** The search for the first page *)
  Definition bad (F : file) (q : Z) : Prop := q < flen F -> exists id, hdr_ok c (fpg F q) q = Ok (id, false).

  Lemma rec_first_none F t : forall q s, rcx F none s -> (q < flen F -> rbuf (sd s) = fpg F q) -> q mod B = 0 -> 0 <= q ->
    q + Z.of_nat t * B < NOPAGE -> (forall q', q <= q' < q + Z.of_nat t * B -> q' mod B = 0 -> bad F q') ->
    exists s' more k, rec_first c s (q <? flen F) t q = Ok (s', more, k, None) /\ rcx F none s' /\ same_but_rbuf s s'.
  Proof.
    pose proof (B_pos c KB PB R) as HB.
    induction t as [|t IH]; intros q s Rx Hb Ha H0 Hn Hbad.
    { cbn [rec_first]. do 3 eexists. split; [reflexivity|]. split; [auto|apply same_rbuf_refl]. }
    assert (Kb : Z.of_nat (S t) * B = Z.of_nat t * B + B) by (clear; lia).
    assert (K0 : 0 <= Z.of_nat t * B) by (clear - HB; apply Z.mul_nonneg_nonneg; lia).
    cbn [rec_first]. destruct (Z.ltb_spec q (flen F)) as [Lt|Ge].
    - rewrite (Hb Lt). destruct (Hbad q) with (2 := Ha) as (id & ->); [clear - HB K0 Kb; lia|auto|]. cbn [bind].
      destruct (rcx_read F none s (q + B) Rx) as (s1 & -> & R1 & S1 & B1 & _); [clear - H0 HB Hn Kb K0; lia|auto|].
      destruct (IH (q + B) s1 R1) as (s' & more & k & E & R' & S').
      + intros Lt1. apply B1. auto.
      + apply al_add; auto. apply al_self; auto.
      + clear - H0 HB. lia.
      + clear - Hn Kb. lia.
      + intros q' Hq'. apply Hbad. clear - Hq' Kb HB. lia.
      + replace ((if q + B <? flen F then 0 else -1) =? 0) with (q + B <? flen F) by (destruct (q + B <? flen F); auto).
        do 3 eexists. split; [exact E|]. split; [auto|]. exact (same_rbuf_trans _ _ _ S1 S').
    - do 3 eexists. split; [reflexivity|]. split; [auto|apply same_rbuf_refl].
  Qed.

  Lemma rec_first_some F q0 id0 t : q0 mod B = 0 -> q0 < flen F -> hdr_ok c (fpg F q0) q0 = Ok (id0, true) -> q0 + 1 < NOPAGE ->
    forall q s, rcx F none s -> rbuf (sd s) = fpg F q -> q mod B = 0 -> 0 <= q <= q0 -> q0 < q + Z.of_nat t * B ->
    (forall q', q <= q' < q0 -> q' mod B = 0 -> bad F q') ->
    exists s', rec_first c s true t q = Ok (s', q0 + 1 <? flen F, q0 + 1, Some id0) /\ rcx F none s' /\ same_but_rbuf s s' /\
      (q0 + 1 < flen F -> rbuf (sd s') = fpg F (q0 + 1)).
  Proof.
    pose proof (B_pos c KB PB R) as HB. intros A0 F0 H0 N0.
    induction t as [|t IH]; intros q s Rx Hb Ha Hq Hn Hbad.
    { exfalso. clear - Hq Hn. lia. }
    assert (Kb : Z.of_nat (S t) * B = Z.of_nat t * B + B) by (clear; lia).
    cbn [rec_first]. rewrite Hb. destruct (Z.eq_dec q q0) as [->|Nq].
    - rewrite H0. cbn [bind].
      destruct (rcx_read F none s (q0 + 1) Rx) as (s1 & -> & R1 & S1 & B1 & _); [clear - Hq N0; lia|auto|].
      replace ((if q0 + 1 <? flen F then 0 else -1) =? 0) with (q0 + 1 <? flen F) by (destruct (q0 + 1 <? flen F); auto).
      exists s1. split; [reflexivity|]. split; [auto|]. split; [auto|]. intros Lt. apply B1. auto.
    - assert (Qb : q + B <= q0) by (apply al_lt; auto; clear - Hq Nq; lia).
      destruct (Hbad q) with (2 := Ha) as (id & ->); [clear - Hq Nq; lia|clear - Hq F0; lia|]. cbn [bind].
      destruct (rcx_read F none s (q + B) Rx) as (s1 & -> & R1 & S1 & B1 & _); [clear - Hq HB Qb N0; lia|auto|].
      destruct (Z.ltb_spec (q + B) (flen F)) as [Lt|Ge]; [|clear - Ge F0 Qb; lia]. destruct (B1 Lt) as [B2 _].
      destruct (IH (q + B) s1 R1 B2) as (s' & E & R' & S' & B').
      + apply al_add; auto. apply al_self; auto.
      + clear - Hq HB Qb. lia.
      + clear - Hn Kb. lia.
      + intros q' Hq'. apply Hbad. clear - Hq' HB. lia.
      + exists s'. split; [exact E|]. split; [auto|]. split; [exact (same_rbuf_trans _ _ _ S1 S')|auto].
  Qed.

  Section File.
    Variables (P : list (list rcd)) (w : list rcd).
    Notation n := (zlen P).
    Hypothesis W : wf_log c KB (mkLog P (rlo (zlen P)) w).
    Hypothesis HP : n + maxErr c < PB.
    Let N0 : 0 <= n := zlen_nonneg P.
    Lemma n31 : n < PB /\ n < 2 ^ 31.
    Proof. pose proof (g_PB _ _ _ G). pose proof (g_err _ _ _ G). lia. Qed.
    Notation LR := (mkLog P (rlo (zlen P)) w).

    Lemma spare_bad F a : spare F P w a -> a mod B = 0 -> bad F (a mod D).
    Proof.
      intros S Ha Lt. unfold SpecRlc.spare in S. destruct S as [S|[S|[S|S]]].
      - exfalso. clear - S Lt. lia.
      - apply (blank_hdr c KB PB R); auto; [apply (mod_al c KB PB R); auto|apply (md c KB PB R)].
      - destruct S as (rs & A1 & A2 & A3 & A4 & A5). unfold hdr_ok. rewrite (pid_of c KB PB R _ _ A2). cbn [bind].
        rewrite (get_count_ok c L0 _ _ A2). cbn [bind]. destruct (Z.eqb_spec (page_id (fpg F (a mod D)) mod D) (a mod D)); [contradiction|].
        eexists. reflexivity.
      - exfalso. tauto.
    Qed.

    (** ** The search for the newest page *)
    Section Disk.
      Variables (F : file) (l : Z).
      Hypothesis Dk : rdisk F P l w.

      Section At.
        Variables (i m : Z).
        Hypothesis Sp : split_at D n i m.
        Let q0 := Z.max 0 (l - i).

        Lemma at_facts : 0 <= q0 < m /\ q0 mod B = 0 /\ q0 < 4 * B /\ l <= i + q0 /\ m <= flen F /\ i mod B = 0.
        Proof.
          pose proof (B_pos c KB PB R) as HB. pose proof (D_four c KB PB R) as HD. pose proof (D_al c KB PB R) as DA.
          destruct Sp as (E & Hm & Hi & Hid & Hc). pose proof (rd_lo _ _ _ _ _ Dk) as Rl. pose proof (rd_flen _ _ _ _ _ Dk) as Fl.
          pose proof (rlo_b c KB PB R n N0) as (b1 & b2 & _ & _ & _ & b6). pose proof (nb_b B n HB) as Nb.
          pose proof (mod_block D B i HB ltac:(clear - HB HD; lia) DA Hid) as Ib. specialize (b2 ltac:(clear - E Hm Hi; lia)).
          assert (L3 : l - i <= 3 * B).
          { destruct (Z.eq_dec (rlo n) 0) as [Z0|NZ]; [clear - Rl Z0 Hi HB; lia|]. specialize (b6 ltac:(clear - NZ b1; lia)).
            clear - b6 Nb Rl E Hm. lia. }
          split; [unfold q0; clear - Rl b2 E Hm; lia|]. split.
          { unfold q0. destruct (Z.max_spec 0 (l - i)) as [[_ ->]|[_ ->]]; [|apply Z.mod_0_l; clear - HB; lia].
            apply al_sub; auto. apply (rd_al _ _ _ _ _ Dk). }
          split; [unfold q0; clear - L3 HB; lia|]. split; [unfold q0; clear; lia|]. split; [clear - Fl E Hm Hi; lia|auto].
        Qed.
        Lemma live_at j : q0 <= j < m -> img c P (i + j) (fpg F j).
        Proof.
          intros Hj. pose proof at_facts as (A1 & _ & _ & A4 & _). destruct Sp as (E & Hm & Hi & Hid & Hc).
          rewrite <- (mod_at D i j) at 2 by (auto; clear - Hj A1 Hm; lia). apply (rd_live _ _ _ _ _ Dk). clear - A1 A4 Hj E. lia.
        Qed.
        Lemma bad_before q : 0 <= q < q0 -> q mod B = 0 -> bad F q.
        Proof.
          intros Hq Ha. pose proof at_facts as (A1 & _ & _ & A4 & _ & A6). destruct Sp as (E & Hm & Hi & Hid & Hc).
          assert (Eq : (i + D + q) mod D = q).
          { replace (i + D + q) with (i + q + 1 * D) by (clear; lia). rewrite Z_mod_plus_full. apply mod_at; auto; clear - Hq A1 Hm; lia. }
          rewrite <- Eq. apply spare_bad.
          - apply (rd_spare _ _ _ _ _ Dk). unfold q0 in Hq. clear - Hq E Hm. lia.
          - apply al_add; auto; [apply (B_pos c KB PB R)|]. apply al_add; auto; [apply (B_pos c KB PB R)|apply (D_al c KB PB R)].
        Qed.
        Lemma stop_at : m < D -> m < flen F -> exists x, get_pid (fpg F m) = Ok x /\ x <> n.
        Proof.
          intros Md Mf. pose proof n31 as [HPB _]. destruct Sp as (E & Hm & Hi & Hid & Hc).
          assert (Em : n mod D = m) by (rewrite E; apply mod_at; auto; clear - Hm Md; lia).
          pose proof (rd_spare _ _ _ _ _ Dk n) as S. pose proof (rd_win c KB PB R F P l w Dk) as Wn. specialize (S ltac:(clear - Wn; lia)).
          unfold SpecRlc.spare in S. rewrite Em in S. destruct S as [S|[S|[S|S]]].
          - exfalso. clear - S Mf. lia.
          - destruct (blank_pid c KB PB R _ S) as (b & -> & Hb). rewrite (rep_pid c KB PB R). eexists. split; [reflexivity|].
            clear - Hb HPB E Hm Hi. lia.
          - destruct S as (rs & A1 & A2 & A3 & A4 & A5). rewrite (pid_of c KB PB R _ _ A2). eexists. split; [reflexivity|]. congruence.
          - destruct S as (_ & _ & S). rewrite (pid_img c KB PB G LR _ _ S). eexists. split; [reflexivity|].
            pose proof (D_four c KB PB R). pose proof (B_pos c KB PB R). clear - H H0. lia.
        Qed.

        Lemma rec_scan_rlc fuel : forall j s, rcx F none s -> q0 < j <= m ->
          (j < flen F -> rbuf (sd s) = fpg F j) -> (Z.to_nat (m - j) < fuel)%nat ->
          exists s' more, rec_scan c s fuel (j <? flen F) j (i + j - 1) = Ok (s', more, m, n - 1) /\
            rcx F none s' /\ same_but_rbuf s s'.
        Proof.
          pose proof n31 as [HPB H31]. pose proof (D_four c KB PB R) as HD. pose proof at_facts as (A1 & _ & _ & A4 & A5 & _).
          pose proof Sp as (E & Hm & Hi & Hid & Hc).
          induction fuel as [|fuel IH]; intros j s Rx Hj Hb Hf; [clear - Hf; lia|]. cbn [rec_scan].
          destruct (Z.eq_dec j m) as [->|Nj].
          - replace (i + m - 1) with (n - 1) by (clear - E; lia).
            destruct ((m <? flen F) && (m <? D)) eqn:Q.
            + assert (Q2 : m < flen F /\ m < D) by (clear - Q; lia). destruct Q2 as [Q1 Q2].
              rewrite (Hb Q1). destruct (stop_at Q2 Q1) as (x & -> & Nx). cbn [bind].
              rewrite u32_id by (clear - E Hm Hi H31; lia). replace (n - 1 + 1) with n by (clear; lia).
              destruct (Z.eqb_spec x n); [contradiction|]. rewrite andb_false_r.
              do 2 eexists. split; [reflexivity|]. split; [auto|apply same_rbuf_refl].
            + do 2 eexists. split; [reflexivity|]. split; [auto|apply same_rbuf_refl].
          - destruct (Z.ltb_spec j (flen F)) as [Lt|Ge]; [|clear - Ge A5 Hj Nj; lia]. destruct (Z.ltb_spec j D) as [LtD|GeD]; [|clear - GeD Hj Hm Nj; lia]. cbn [andb].
            rewrite Hb by auto. rewrite (pid_img c KB PB G LR (i + j) _ (live_at j ltac:(clear - Hj Nj; lia))). cbn [bind].
            rewrite mod_at, Z.eqb_refl by (auto; clear - Hj A1 LtD HD; lia). rewrite u32_id by (clear - A1 E Hj Hi Hm H31; lia).
            replace (i + j - 1 + 1) with (i + j) by (clear; lia). rewrite Z.eqb_refl. cbn [andb].
            destruct (rcx_read F none s (j + 1) Rx) as (s1 & -> & R1 & S1 & B1 & _); [unfold NOPAGE; clear - LtD HD A1 Hj; lia|auto|].
            replace ((if j + 1 <? flen F then 0 else -1) =? 0) with (j + 1 <? flen F) by (destruct (j + 1 <? flen F); auto).
            destruct (IH (j + 1) s1 R1) as (s2 & more & E2 & R2 & S2); [clear - Hj Nj; lia|intros X; apply B1; auto|clear - Hf Hj Nj; lia|].
            do 2 eexists. split; [|split; [exact R2|exact (same_rbuf_trans _ _ _ S1 S2)]].
            replace (i + j) with (i + (j + 1) - 1) by (clear; lia). exact E2.
        Qed.
      End At.

      (** Both loops. *)
      Lemma newest_page s : rcx F none s ->
        exists s0 r s1 more cnt found, readPage s 0 = (s0, r) /\ rec_first c s0 (r =? 0) 4 0 = Ok (s1, more, cnt, found) /\
        match found with
        | None => n = 0 /\ rcx F none s1 /\ same_but_rbuf s s1
        | Some mx => 0 < n /\ exists i m s2 more', split_at D n i m /\
            rec_scan c s1 (Z.to_nat (D + 1)) more cnt mx = Ok (s2, more', m, n - 1) /\ rcx F none s2 /\ same_but_rbuf s s2
        end.
      Proof.
        intros Rx. pose proof (D_four c KB PB R) as HD. pose proof (B_pos c KB PB R) as HB.
        destruct (rcx_read F none s 0 Rx) as (s1 & -> & R1 & S1 & B1 & _); [unfold NOPAGE; clear; lia|auto|].
        exists s1, (if 0 <? flen F then 0 else -1).
        replace ((if 0 <? flen F then 0 else -1) =? 0) with (0 <? flen F) by (destruct (0 <? flen F); auto).
        destruct (Z.eq_dec n 0) as [Z0|NZ].
        - destruct (rec_first_none F 4 0 s1 R1) as (s2 & more & k & E & R2 & S2).
          + intros X. apply B1. auto.
          + apply Z.mod_0_l. clear - HB. lia.
          + clear; lia.
          + unfold NOPAGE. change (Z.of_nat 4) with 4. clear - HD. lia.
          + change (Z.of_nat 4) with 4. intros q Hq Ha. assert (Eq : q mod D = q) by (apply Z.mod_small; clear - Hq HD; lia).
            rewrite <- Eq. apply spare_bad; auto. apply (rd_spare _ _ _ _ _ Dk). pose proof (rd_lo _ _ _ _ _ Dk). clear - H Hq HD Z0. lia.
          + do 4 eexists. split; [reflexivity|]. rewrite E. split; [reflexivity|]. cbv iota beta. split; [auto|]. split; [auto|].
            exact (same_rbuf_trans _ _ _ S1 S2).
        - destruct (split_ex D n ltac:(clear - HD HB; lia) ltac:(clear - N0 NZ; lia)) as (i & m & Sp).
          pose proof (at_facts i m Sp) as (A1 & A2 & A3 & A4 & A5 & A6). set (q0 := Z.max 0 (l - i)) in *.
          pose proof Sp as (E & Hm & Hi & Hid & Hc).
          destruct (Z.ltb_spec 0 (flen F)) as [Lt|Ge]; [|clear - Ge A5 Hm; lia].
          destruct (rec_first_some F q0 (i + q0) 4 A2) with (q := 0) (s := s1) as (s2 & E2 & R2 & S2 & B2); auto.
          + clear - A1 A5. lia.
          + apply (hdr_img c KB PB G LR W).
            * apply (rl_rec _ _ _ R).
            * apply (live_at i m Sp). fold q0. clear - A1. lia.
            * cbn [pages]. clear - A1 E Hi. lia.
            * apply mod_at; auto; clear - A1 Hm; lia.
          + unfold NOPAGE. clear - A1 Hm HD. lia.
          + apply B1. auto.
          + clear - A1. lia.
          + intros q' Hq'. apply (bad_before i m Sp). exact Hq'.
          + destruct (rec_scan_rlc i m Sp (Z.to_nat (D + 1)) (q0 + 1) s2 R2) as (s3 & more & E3 & R3 & S3); auto.
            * fold q0. clear - A1. lia.
            * clear - A1 Hm. lia.
            * do 4 eexists. split; [reflexivity|]. rewrite E2. split; [reflexivity|]. cbv iota beta. split; [clear - NZ N0; lia|].
              replace (i + (q0 + 1) - 1) with (i + q0) in E3 by (clear; lia).
              exists i, m, s3, more. split; [auto|]. split; [exact E3|]. split; [auto|].
              exact (same_rbuf_trans _ _ _ S1 (same_rbuf_trans _ _ _ S2 S3)).
      Qed.
    End Disk.

    (** ** The search for the newest temporary page *)
    Definition want : Z := if n =? 0 then 1 else n.
    Definition perm : bool := negb (n =? 0).
    Definition hit (id : Z) : bool := (id =? want) || ((id =? 0) && negb perm).

    Section Slots.
      Variables (F : file) (l : Z).
      Hypothesis Dk : rdisk F P l w.
      Definition slotp (k : Z) : page := fpg F ((nb n + k) mod D).
      Definition upto (k : Z) : Prop := forall k', 0 <= k' <= k -> (nb n + k') mod D < flen F.

      Lemma old_slot k : 0 <= k < 2 * B -> D <= nb n + k -> img c P (nb n + k - D) (slotp k) ->
        exists id x, get_pid (slotp k) = Ok id /\ get_count (slotp k) = Ok x /\ id <> n /\ hit id = false.
      Proof.
        intros Hk Hd I. pose proof (rlo_b c KB PB R n N0) as (b1 & _ & _ & _ & b5 & b6).
        exists (nb n + k - D). eexists. split; [apply (pid_img c KB PB G LR _ _ I)|]. split; [apply (get_count_ok c L0 _ _ (proj1 I))|].
        assert (Q : nb n + k - D < n).
        { destruct (Z.eq_dec (rlo n) 0) as [Z0|NZ]; [clear - b5 Z0 Hk Hd; lia|].
          specialize (b6 ltac:(clear - NZ b1; lia)). clear - b6 b1 Hk. lia. }
        split; [clear - Q; lia|]. unfold hit, want, perm. destruct (Z.eqb_spec n 0) as [Z0|NZ]; [clear - Z0 Q Hd; lia|].
        cbn [negb]. rewrite andb_false_r, orb_false_r. clear - Q. lia.
      Qed.

      Lemma slot_info k : 0 <= k < 2 * B -> (nb n + k) mod D < flen F ->
        exists id x, get_pid (slotp k) = Ok id /\ get_count (slotp k) = Ok x /\
          (id = n -> hit id = true) /\
          (hit id = true -> exists rs, holds c (slotp k) rs /\ x = zlen rs /\ (rs = w \/ zlen rs < zlen w) /\
                                       page_id (slotp k) = n).
      Proof.
        intros Hk Hf. pose proof n31 as [HPB H31]. pose proof (B_pos c KB PB R) as HB. pose proof (nb_b B n HB) as Nb.
        pose proof (zlen_nonneg w) as Zw.
        assert (Hn : hit n = true).
        { unfold hit, want, perm. destruct (Z.eqb_spec n 0) as [Z0|NZ]; [rewrite Z0; reflexivity|]. rewrite Z.eqb_refl. reflexivity. }
        assert (Cs : spare F P w (nb n + k) \/ (D <= nb n + k /\ img c P (nb n + k - D) (slotp k))).
        { destruct (Z.lt_ge_cases (nb n + k) (l + D)) as [Lt|Ge].
          - left. apply (rd_spare _ _ _ _ _ Dk). clear - Nb Hk Lt. lia.
          - right. pose proof (rd_lo _ _ _ _ _ Dk) as Rl. pose proof (rlo_b c KB PB R n N0) as (b1 & _ & _ & _ & b5 & b6).
            split; [clear - Ge Rl; lia|]. unfold slotp.
            assert (Em : (nb n + k) mod D = (nb n + k - D) mod D).
            { rewrite <- (Z_mod_plus_full (nb n + k - D) 1 D). f_equal. clear. lia. }
            rewrite Em. apply (rd_live _ _ _ _ _ Dk). split; [clear - Ge; lia|].
            destruct (Z.eq_dec (rlo n) 0) as [Z0|NZ]; [clear - b5 Z0 Hk Ge Rl; lia|].
            specialize (b6 ltac:(clear - NZ b1; lia)). clear - b6 b1 Hk. lia. }
        destruct Cs as [[S|[S|[S|S]]]|[S1 S2]].
        - exfalso. clear - S Hf. lia.
        - destruct (blank_pid c KB PB R _ S) as (b & Eb & Hb). fold (slotp k) in Eb. rewrite Eb.
          exists (16843009 * b), (257 * b). split; [apply (rep_pid c KB PB R)|]. split; [apply (rep_count c KB PB R)|].
          split; [intros ->; auto|]. unfold hit, want, perm. intros Ht. destruct Hb as [->|Hb].
          + exists []. split; [apply zero_holds|]. split; [reflexivity|].
            assert (Z0 : n = 0) by (destruct (Z.eqb_spec n 0) as [|NZ]; [auto|clear - Ht NZ; lia]).
            assert (Ei : page_id (repeat 0 (psz c)) = 0).
            { pose proof (pid_of c KB PB R _ _ zero_holds) as Q. rewrite (rep_pid c KB PB R) in Q. injection Q as Q. auto. }
            split; [|congruence].
            destruct w; [auto|right]. rewrite zlen_cons. pose proof (zlen_nonneg l0). change (zlen []) with 0. clear - H. lia.
          + exfalso. destruct (Z.eqb_spec n 0); clear - Ht Hb HPB; lia.
        - destruct S as (rs & A1 & A2 & A3 & A4 & A5). fold (slotp k) in *.
          exists (page_id (slotp k)), (zlen rs). split; [apply (pid_of c KB PB R _ _ A2)|]. split; [apply (get_count_ok c L0 _ _ A2)|].
          split; [intros ->; auto|]. unfold hit, want, perm. intros Ht.
          assert (E : page_id (slotp k) = n).
          { destruct (Z.eqb_spec n 0) as [Z0|NZ]; [clear - A3 Z0; lia|]. cbn [negb] in Ht. rewrite andb_false_r, orb_false_r in Ht. clear - Ht. lia. }
          exists rs. do 2 (split; [auto|]). split; [|auto]. destruct (A5 E); auto.
        - destruct S as (_ & S1 & S2). destruct (old_slot k Hk S1 S2) as (id & x & e1 & e2 & e3 & e4).
          exists id, x. do 2 (split; [auto|]). split; congruence.
        - destruct (old_slot k Hk S1 S2) as (id & x & e1 & e2 & e3 & e4).
          exists id, x. do 2 (split; [auto|]). split; congruence.
      Qed.
      Lemma newest_pid k : newest F P w k -> get_pid (slotp k) = Ok n /\ get_count (slotp k) = Ok (zlen w).
      Proof.
        intros (_ & A & E). fold (slotp k) in *. rewrite (pid_of c KB PB R _ _ A), E. split; [auto|]. apply (get_count_ok c L0 _ _ A).
      Qed.

      Definition bestok (k : Z) (best : option (Z * Z)) : Prop :=
        match best with
        | None => forall k', 0 <= k' < k -> ~ newest F P w k'
        | Some (x, idx) => 0 <= idx < k /\ upto idx /\ exists rs, holds c (slotp idx) rs /\ x = zlen rs /\
            (rs = w \/ zlen rs < zlen w) /\ page_id (slotp idx) = n /\
            (forall k', 0 <= k' < k -> newest F P w k' -> rs = w)
        end.
      Definition bestfin (best : option (Z * Z)) : Prop :=
        match best with
        | None => w = []
        | Some (x, idx) => 0 <= idx < 2 * B /\ upto idx /\ holds c (slotp idx) w /\ page_id (slotp idx) = n
        end.
      Hypothesis Nw : w <> [] -> exists k, 0 <= k < 2 * B /\ newest F P w k.
      Variable X : Z -> Prop.
      Hypothesis HX : forall k, 0 <= k <= 2 * B -> ~ X ((nb n + k) mod D).

      Lemma best_end k best : k <= 2 * B -> bestok k best -> (k = 2 * B \/ flen F <= (nb n + k) mod D) -> 0 <= k -> bestfin best.
      Proof.
        intros Hk Hb He K0.
        assert (Hin : w <> [] -> exists k', 0 <= k' < k /\ newest F P w k').
        { intros W0. destruct (Nw W0) as (k' & Hk' & Hn). exists k'. split; [|auto].
          destruct (Z.lt_ge_cases k' k) as [|Ge]; [clear - H Hk'; lia|]. exfalso. destruct He as [He|He]; [clear - He Ge Hk'; lia|].
          destruct Hn as (Hn & _). specialize (Hn k ltac:(clear - K0 Ge; lia)). clear - He Hn. lia. }
        destruct best as [[x idx]|].
        - destruct Hb as (h1 & h2 & rs & h3 & h4 & h5 & h6 & h7).
          assert (rs = w).
          { destruct h5 as [h5|h5]; auto. destruct w as [|r0 w0] eqn:Ew; [pose proof (zlen_nonneg rs); change (zlen []) with 0 in h5; clear - H h5; lia|].
            destruct (Hin ltac:(discriminate)) as (k' & Hk' & Hn). apply (h7 k' Hk' Hn). }
          subst rs. split; [clear - h1 Hk; lia|]. auto.
        - cbn [bestok bestfin] in *. destruct w as [|r0 w0] eqn:Ew; [auto|]. exfalso.
          destruct (Hin ltac:(discriminate)) as (k' & Hk' & Hn). apply (Hb k' Hk' Hn).
      Qed.

      Lemma rlc_scan_ok t : forall k s best, 0 <= k -> k + Z.of_nat t = 2 * B -> rcx F X s ->
        ((nb n + k) mod D < flen F -> rbuf (sd s) = slotp k) -> bestok k best -> upto (k - 1) ->
        exists s' best', rlc_scan c s t ((nb n + k) mod D <? flen F) ((nb n + k) mod D) k want perm best = Ok (s', best') /\
          rcx F X s' /\ same_but_rbuf s s' /\ bestfin best'.
      Proof.
        pose proof (D_four c KB PB R) as HD. pose proof (B_pos c KB PB R) as HB.
        induction t as [|t IH]; intros k s best K0 Kt Rx Hb Bk Up.
        { cbn [rlc_scan]. do 2 eexists. split; [reflexivity|]. split; [auto|]. split; [apply same_rbuf_refl|].
          apply (best_end k); auto; [clear - Kt; lia|left; clear - Kt; lia]. }
        cbn [rlc_scan]. pose proof (md c KB PB R (nb n + k)) as Mk. destruct (Z.ltb_spec ((nb n + k) mod D) (flen F)) as [Lt|Ge].
        2:{ do 2 eexists. split; [reflexivity|]. split; [auto|]. split; [apply same_rbuf_refl|].
            apply (best_end k); auto. clear - Kt. lia. }
        assert (K2 : 0 <= k < 2 * B) by (clear - Kt K0; lia).
        destruct (slot_info k K2 Lt) as (id & x & e1 & e2 & e3 & e4). rewrite (Hb Lt), e1, e2. cbn [bind]. fold (hit id).
        set (best1 := if hit id then _ else _).
        assert (Upk : upto k).
        { intros k' Hk'. destruct (Z.eq_dec k' k) as [->|Nq]; [auto|]. apply Up. clear - Hk' Nq. lia. }
        assert (Nk : newest F P w k -> hit id = true /\ x = zlen w).
        { intros Hn. destruct (newest_pid k Hn) as [p1 p2]. rewrite e1 in p1. rewrite e2 in p2. injection p1 as p1. injection p2 as p2. auto. }
        assert (Bk1 : bestok (k + 1) best1).
        { unfold best1. destruct (hit id) eqn:Ht.
          - destruct (e4 eq_refl) as (rs & r1 & r2 & r3 & r4).
            assert (Nk2 : newest F P w k -> rs = w).
            { intros Hn. destruct (Nk Hn) as [_ Q]. destruct r3 as [|r3]; [auto|]. clear - Q r2 r3. lia. }
            destruct best as [[m j]|].
            + destruct Bk as (h1 & h2 & rs0 & h3 & h4 & h5 & h6 & h7). destruct (Z.gtb_spec x m) as [Gt|Le].
              * split; [clear - K0; lia|]. split; [auto|]. exists rs. do 4 (split; [auto|]). intros k' Hk' Hn.
                destruct (Z.eq_dec k' k) as [->|Nq]; [auto|]. exfalso. specialize (h7 k' ltac:(clear - Hk' Nq; lia) Hn). subst rs0.
                destruct r3 as [->|r3]; clear - Gt h4 r2 r3 || clear - Gt h4 r2; lia.
              * split; [clear - h1; lia|]. split; [auto|]. exists rs0. do 4 (split; [auto|]). intros k' Hk' Hn.
                destruct (Z.eq_dec k' k) as [->|Nq]; [|apply (h7 k'); auto; clear - Hk' Nq; lia].
                specialize (Nk2 Hn). subst rs. destruct h5 as [|h5]; [auto|]. clear - h5 Le h4 r2. lia.
            + split; [clear - K0; lia|]. split; [auto|]. exists rs. do 4 (split; [auto|]). intros k' Hk' Hn.
              destruct (Z.eq_dec k' k) as [->|Nq]; [auto|]. exfalso. apply (Bk k'); auto. clear - Hk' Nq. lia.
          - assert (Nk3 : ~ newest F P w k) by (intros Hn; destruct (Nk Hn); discriminate).
            destruct best as [[m j]|].
            + destruct Bk as (h1 & h2 & rs0 & h3 & h4 & h5 & h6 & h7). split; [clear - h1; lia|]. split; [auto|].
              exists rs0. do 4 (split; [auto|]). intros k' Hk' Hn. destruct (Z.eq_dec k' k) as [->|Nq]; [contradiction|]. apply (h7 k'); auto. clear - Hk' Nq. lia.
            + intros k' Hk' Hn. destruct (Z.eq_dec k' k) as [->|Nq]; [contradiction|]. apply (Bk k'); auto. clear - Hk' Nq. lia. }
        rewrite Z.add_mod_idemp_l by (clear - HD HB; lia). replace (nb n + k + 1) with (nb n + (k + 1)) by (clear; lia).
        pose proof (md c KB PB R (nb n + (k + 1))) as Mk1.
        destruct (rcx_read F X s ((nb n + (k + 1)) mod D) Rx) as (s1 & -> & R1 & S1 & B1 & _).
        { unfold NOPAGE. clear - Mk1 HD. lia. }
        { apply HX. clear - K2. lia. }
        replace ((if (nb n + (k + 1)) mod D <? flen F then 0 else -1) =? 0) with ((nb n + (k + 1)) mod D <? flen F) by (destruct (_ <? flen F); auto).
        destruct (IH (k + 1) s1 best1) as (s' & best' & E & R' & S' & Bf); auto.
        - clear - K0. lia.
        - clear - Kt. lia.
        - intros Lt1. apply B1. auto.
        - replace (k + 1 - 1) with k by (clear; lia). auto.
        - do 2 eexists. split; [exact E|]. split; [auto|]. split; [exact (same_rbuf_trans _ _ _ S1 S')|auto].
      Qed.

      Lemma slot_fit k : 0 <= k < 2 * B -> page_id (slotp k) = n -> nb n + (k + 1) <= l + D.
      Proof.
        intros Hk E. destruct (Z.lt_ge_cases (nb n + k) (l + D)) as [Lt|Ge]; [clear - Lt; lia|]. exfalso.
        pose proof (rd_lo _ _ _ _ _ Dk) as Rl. pose proof (rlo_b c KB PB R n N0) as (b1 & _ & _ & _ & b5 & b6).
        assert (Em : (nb n + k) mod D = (nb n + k - D) mod D).
        { rewrite <- (Z_mod_plus_full (nb n + k - D) 1 D). f_equal. clear. lia. }
        assert (Q : nb n + k - D < n).
        { destruct (Z.eq_dec (rlo n) 0) as [Z0|NZ]; [clear - b5 Z0 Hk Ge Rl; lia|].
          specialize (b6 ltac:(clear - NZ b1; lia)). clear - b6 b1 Hk. lia. }
        destruct (rd_live _ _ _ _ _ Dk (nb n + k - D) ltac:(clear - Q Ge; lia)) as [_ Ei]. unfold slotp in E. rewrite Em, Ei in E. clear - E Q. lia.
      Qed.
      Lemma rl_at idx st nx : 0 <= idx < 2 * B -> upto idx -> holds c (slotp idx) w -> page_id (slotp idx) = n ->
        st = nb n mod D -> nx mod D = (nb n + (idx + 1)) mod D -> rl F st nx P w l (idx + 1).
      Proof.
        intros Hi Hu Hh Hp Hs Hx. constructor; auto.
        - clear - Hi. lia.
        - apply slot_fit; auto.
        - intros k Hk. apply Hu. clear - Hk. lia.
        - intros _. replace (idx + 1 - 1) with idx by (clear; lia). split; [clear - Hi; lia|auto].
      Qed.
    End Slots.

    Lemma rl_of F : rimg F P w -> exists l j, rl F (nb n mod D) (nb n + j) P w l j.
    Proof.
      intros ((l & Dk) & Nw). pose proof (B_pos c KB PB R) as HB. destruct w as [|r0 w0] eqn:Ew.
      - exists l, 0. constructor; auto; try congruence.
        + clear - HB. lia.
        + rewrite Z.add_0_r. apply (rd_room _ _ _ _ _ Dk).
        + clear. lia.
      - destruct (Nw ltac:(discriminate)) as (k & Hk & Hu & Hh & Hp). exists l, (k + 1). rewrite <- Ew in *. apply rl_at; auto.
    Qed.

    (** ** The erase before the search for temporary pages *)
    Lemma file_erase_flen F a b : flen F <= flen (file_erase c F a b).
    Proof. unfold file_erase. destruct (eraseFill c); cbn [flen]; clear; lia. Qed.
    Lemma rl_beyond F st nx l j : rl F st nx P w l j -> D <= n ->
      let F' := file_erase c F D (D + B) in rl F' st nx P w l j /\ keep c F F' n (rlo n).
    Proof.
      intros H Hn F'. pose proof H as [Dk Hj Hf Hs Hx Hi Hc]. pose proof Dk as [d1 d2 d3 d4 d5 d6 d7].
      pose proof (D_four c KB PB R) as HD. pose proof (B_pos c KB PB R) as HB.
      assert (Fl : flen F <= flen F') by apply file_erase_flen. assert (FD : D <= flen F) by (clear - d6 Hn; lia).
      assert (Pg : forall x, fpg F' (x mod D) = fpg F (x mod D)).
      { intros x. pose proof (md c KB PB R x) as M. unfold F', file_erase. destruct (eraseFill c); [|auto]. cbn [fpg].
        destruct ((D <=? x mod D) && (x mod D <? D + B)) eqn:Q; [clear - Q M; lia|].
        destruct (Z.ltb_spec (x mod D) (flen F)); [auto|clear - H0 M FD; lia]. }
      split; [|intros id _; apply Pg]. constructor; auto.
      - constructor; auto.
        + intros id Hid. rewrite Pg. auto.
        + intros a Ha. specialize (d5 a Ha). unfold SpecRlc.spare in *. rewrite Pg. destruct d5 as [d5|d5]; [|auto].
          pose proof (md c KB PB R a) as M. clear - d5 M FD. lia.
        + clear - d6 Fl. lia.
        + intros Q. pose proof (nb_b B n HB) as Nb. clear - Q Nb Hn HB. lia.
      - intros k Hk. specialize (Hi k Hk). clear - Hi Fl. lia.
      - intros W0. rewrite Pg. auto.
    Qed.

    Definition X1 (count : Z) (q : Z) : Prop := n mod B = 0 /\ count <= q < count + B.
    Lemma first_erase s F l j st nx count : rcx F none s -> rl F st nx P w l j ->
      count mod D = n mod D -> 0 <= count <= D -> (count = D -> D <= n) ->
      exists o1 new l1,
        (if B - count mod B =? B then let '(o, ok) := io_erase c WD count (count + B) (sio s) in (set_io s o, ok) else (s, true))
        = (set_io s o1, true) /\
        io_ext (sio s) o1 new /\ rl (fD o1) st nx P w l1 j /\ keep c F (fD o1) n (rlo n) /\ imgs F P w n new /\
        rcx (fD o1) (X1 count) (set_io s o1).
    Proof.
      intros Rx H Hc C0 C1. pose proof Rx as (Rx1 & Rx2 & Rx3). pose proof (B_pos c KB PB R) as HB. pose proof (D_four c KB PB R) as HD.
      pose proof (D_al c KB PB R) as DA.
      assert (Em : count mod B = n mod B).
      { apply Z.mod_divide in DA; [|clear - HB; lia]. assert (D0 : 0 < D) by (clear - HD HB; lia).
        rewrite (Znumtheory.Zmod_div_mod B D count HB D0 DA), (Znumtheory.Zmod_div_mod B D n HB D0 DA), Hc. reflexivity. }
      rewrite Em. destruct (Z.eqb_spec (B - n mod B) B) as [E0|E0].
      - assert (Na : n mod B = 0) by (clear - E0; lia).
        rewrite io_erase_nf by auto. cbn [getF].
        assert (Q : exists l1, rl (file_erase c F count (count + B)) st nx P w l1 j /\ keep c F (file_erase c F count (count + B)) n (rlo n)).
        { destruct (Z.eq_dec count D) as [->|Nc].
          - exists l. apply rl_beyond; auto.
          - rewrite Z.mod_small in Hc by (clear - C0 Nc; lia). rewrite Hc.
            pose proof (nb_at B n HB Na) as Nb. pose proof (rd_room _ _ _ _ _ (rl_disk _ _ _ _ _ _ _ _ H)) as Rm.
            destruct (rl_erase c KB PB R F st nx P w l j n H Na) as (l1 & _ & _ & H1 & H2).
            + clear; lia.
            + left. clear - Rm Nb HB. lia.
            + clear - Nb HB. lia.
            + intros W0. destruct (rl_cur _ _ _ _ _ _ _ _ H W0) as (J & _). clear - J Nb. lia.
            + exists l1. auto. }
        destruct Q as (l1 & H1 & H2). eexists _, [_], l1. split; [reflexivity|]. rewrite Rx2 in *. scbn.
        split; [repeat split; auto|]. split; [exact H1|]. split; [exact H2|].
        split; [constructor; [|constructor]; scbn; split; [eapply rl_img; exact H1|exact H2]|].
        eapply rcx_weak; [apply (rcx_erase F none s count (count + B) (fun q => count <= q < count + B)); auto|].
        intros q [[]|Hq]. split; auto.
      - exists (sio s), [], l. split; [destruct s; reflexivity|]. rewrite Rx2. split; [apply ext_refl; auto|]. split; [auto|].
        split; [apply keep_refl|]. split; [constructor|]. replace (set_io s (sio s)) with s by (destruct s; reflexivity).
        eapply rcx_weak; [exact Rx|]. intros q [].
    Qed.

    (** ** The erases after it *)
    Lemma rcx_shift k : forall a s F X o' , rcx F X s -> a mod B = 0 -> shift_erase c k (a mod D) (sio s) = (o', true) ->
      rcx (fD o') (fun q => X q \/ exists r, 0 <= r < Z.of_nat k * B /\ q = (a + r) mod D) (set_io s o').
    Proof.
      pose proof (B_pos c KB PB R) as HB. pose proof (D_four c KB PB R) as HD.
      induction k as [|k IH]; intros a s F X o' Rx Ha E.
      { cbn [shift_erase] in E. injection E as E. subst o'. replace (set_io s (sio s)) with s by (destruct s; reflexivity).
        destruct Rx as (A1 & A2 & A3). rewrite A2. eapply rcx_weak; [split; [auto|split; [auto|exact A3]]|]. auto. }
      assert (Kb : Z.of_nat (S k) * B = Z.of_nat k * B + B) by (clear; lia).
      assert (K0 : 0 <= Z.of_nat k * B) by (clear - HB; apply Z.mul_nonneg_nonneg; lia).
      cbn [shift_erase] in E. pose proof (md c KB PB R a) as Ma. rewrite (u32_id (a mod D + B)) in E by (clear - Ma HB HD; lia).
      pose proof Rx as (A1 & A2 & A3). rewrite io_erase_nf in E by auto. cbn [getF] in E. rewrite A2 in E.
      rewrite Z.add_mod_idemp_l in E by (clear - HB HD; lia).
      set (o1 := putF WD (sio s) (file_erase c F (a mod D) (a mod D + B))) in *.
      assert (R1 : rcx (fD o1) (fun q => X q \/ exists r, 0 <= r < B /\ q = (a + r) mod D) (set_io s o1)).
      { apply (rcx_erase F X s (a mod D) (a mod D + B)); auto. intros q Hq. destruct (in_block c KB PB R a q Ha Hq) as (_ & r & Hr & Er). eauto. }
      assert (Ab : (a + B) mod B = 0) by (apply al_add; auto; apply al_self; auto).
      specialize (IH (a + B) (set_io s o1) _ _ o' R1 Ab E). replace (set_io (set_io s o1) o') with (set_io s o') in IH by reflexivity.
      eapply rcx_weak; [exact IH|]. intros q [[Hq|(r & Hr & ->)]|(r & Hr & ->)]; [auto|right; exists r; split; [clear - Hr Kb K0; lia|auto]|].
      right. exists (B + r). split; [clear - Hr Kb HB; lia|]. f_equal. clear. lia.
    Qed.

    (** ** The rest of the recovery *)
    (** embedDB.c:474-584, for any values of the variables before. *)
    Definition rlc_tail (s : state) (count mx : Z) (prm : bool) : res (state * Z) :=
      let ptb := B - count mod B in
      let '(s, ok) :=
        if ptb =? B then
          let '(o, ok) := io_erase c WD count (count + B) (sio s) in (set_io s o, ok)
        else (s, true) in
      if negb ok then Ok (s, -1)
      else
        let start := (count + ptb) mod numData c in
        let s := set_d s (d_rlc (sd s) start start) in
        let '(s, r) := readPage s start in
        '(s, best) <- rlc_scan c s (Z.to_nat (B * 2)) (r =? 0) start 0 (u32 (mx + 1)) prm None ;;
        '(s, err, es, nb) <-
          (match best with
           | None => Ok (s, false, start mod numData c, 2%nat)
           | Some (_, idx) =>
               let s := set_d s (d_rlc (sd s) ((start + idx + 1) mod numData c) start) in
               let '(s, r) := readPage s ((start + idx) mod numData c) in
               if negb (r =? 0) then Ok (s, true, 0, O)
               else
                 let s := set_d s (d_wbuf (sd s) (rbuf (sd s))) in
                 Ok (s, false, (start + (if idx <? B then B else 0)) mod numData c, 1%nat)
           end) ;;
        if (err : bool) then Ok (s, -1)
        else
          let '(o, ok) := shift_erase c nb es (sio s) in
          let s := set_io s o in
          if negb ok then Ok (s, -1)
          else if negb prm then Ok (s, 0)
          else
            let phys := (start + 2 * B) mod numData c in
            let '(s, r) := readPage s phys in
            small <- (if r =? 0 then
                        id <- get_pid (rbuf (sd s)) ;;
                        Ok (if id mod numData c =? phys then phys else 0)
                      else Ok 0) ;;
            rec_finish c s small mx (2 * B).
    Lemma tail_eq s : initDataFromFileRLC c s =
      let '(s, r) := readPage s 0 in
      '(s, more, count, found) <- rec_first c s (r =? 0) 4 0 ;;
      '(s, count, mx) <-
        (match found with
         | Some mx =>
             '(s, more, count, mx) <- rec_scan c s (Z.to_nat (numData c + 1)) more count mx ;;
             Ok (s, count, mx)
         | None => Ok (s, 0, 0)
         end) ;;
      rlc_tail s count mx (match found with Some _ => true | None => false end).
    Proof. reflexivity. Qed.

    (** The second half: the reserved blocks are cleaned except for the newest
        temporary page, which becomes the write buffer. *)
    Lemma clean_ok F l best X s0 s1 : rdisk F P l w -> bestfin F best -> rcx F X s1 -> same_but_rbuf s0 s1 ->
      holds c (wbuf (sd s0)) [] -> nextRLC (sd s0) = nb n mod D -> rlcStart (sd s0) = nb n mod D ->
      (forall k, 0 <= k <= 2 * B -> ~ X ((nb n + k) mod D)) ->
      exists s2 es k o' new l' j nx,
        (match best with
         | None => Ok (s1, false, (nb n mod D) mod D, 2%nat)
         | Some (_, idx) =>
             let s := set_d s1 (d_rlc (sd s1) ((nb n mod D + idx + 1) mod D) (nb n mod D)) in
             let '(s, r) := readPage s ((nb n mod D + idx) mod D) in
             if negb (r =? 0) then Ok (s, true, 0, O)
             else
               let s := set_d s (d_wbuf (sd s) (rbuf (sd s))) in
               Ok (s, false, (nb n mod D + (if idx <? B then B else 0)) mod D, 1%nat)
         end) = Ok (s2, false, es, k) /\
        shift_erase c k es (sio s2) = (o', true) /\ io_ext (sio s0) o' new /\
        (exists wb rb bf, set_io s2 o' = mkS o' (mkD wb rb (availD (sd s0)) (minD (sd s0)) (nextD (sd s0)) bf nx (nb n mod D) (spl (sd s0))) (si s0) (sv s0) /\
          holds c wb w) /\
        rl (fD o') (nb n mod D) nx P w l' j /\ keep c F (fD o') n (rlo n) /\ imgs F P w n new /\
        rcx (fD o') (fun q => X q \/ exists r, 0 <= r < 2 * B /\ q = (nb n + r) mod D) (set_io s2 o').
    Proof.
      intros Dk Hb Rx Sm Hw Hnx Hst HX.
      pose proof (B_pos c KB PB R) as HB. pose proof (D_four c KB PB R) as HD. pose proof (nb_al B n HB) as Na. pose proof (nb_b B n HB) as Nb.
      destruct Sm as (e1 & e2 & e3 & p & q & e4). destruct best as [[x idx]|]; cbv zeta.
      - destruct Hb as (Hi & Hu & Hh & Hp).
        set (st1 := set_d s1 _).
        assert (Ei : (nb n mod D + idx) mod D = (nb n + idx) mod D) by (apply Z.add_mod_idemp_l; clear - HB HD; lia).
        rewrite Ei. pose proof (md c KB PB R (nb n + idx)) as Mi. pose proof (Hu idx ltac:(clear - Hi; lia)) as Lt.
        assert (Rx1 : rcx F X st1) by exact Rx.
        destruct (rcx_read F X st1 ((nb n + idx) mod D) Rx1) as (s2 & -> & R2 & (f1 & f2 & f3 & p2 & q2 & f4) & B2 & _).
        { unfold NOPAGE. clear - Mi HD. lia. } { apply HX. clear - Hi. lia. }
        destruct (Z.ltb_spec ((nb n + idx) mod D) (flen F)) as [_|Ge]; [|clear - Ge Lt; lia]. destruct (B2 Lt) as [B3 B4].
        change (negb (0 =? 0)) with false. cbv iota zeta.
        set (a := nb n + (if idx <? B then B else 0)).
        assert (Ea : (nb n mod D + (if idx <? B then B else 0)) mod D = a mod D) by (apply Z.add_mod_idemp_l; clear - HB HD; lia).
        rewrite Ea. set (s3 := set_d s2 _). set (nx := (nb n mod D + idx + 1) mod D).
        assert (Rl : rl F (nb n mod D) nx P w l (idx + 1)).
        { apply rl_at; auto. unfold nx. rewrite Z.mod_mod by (clear - HB HD; lia).
          rewrite <- Z.add_assoc, Z.add_mod_idemp_l by (clear - HB HD; lia). auto. }
        assert (Aa : a mod B = 0).
        { unfold a. apply al_add; auto. destruct (idx <? B); [apply al_self; auto|apply Z.mod_0_l; clear - HB; lia]. }
        assert (R3 : rcx F X s3) by exact R2. pose proof R3 as (g1 & g2 & g3).
        pose proof (rl_fit _ _ _ _ _ _ _ _ Rl) as Fit.
        destruct (shift_erase_ok c KB PB R (nb n mod D) nx P (idx + 1) 1 a l w (sio s3)) as (o' & new & l' & E & Ex & _ & Rl' & K' & I').
        { exact g1. } { rewrite g2. exact Rl. } { exact Aa. } { unfold a. clear - Nb HB. destruct (idx <? B); lia. }
        { left. unfold a. pose proof (rd_room _ _ _ _ _ Dk) as Rm. destruct (Z.ltb_spec idx B); [|clear - Rm; lia].
          apply al_lt; auto; [apply al_add; auto; [apply (rd_al _ _ _ _ _ Dk)|apply (D_al c KB PB R)]|clear - Fit Hi; lia]. }
        { unfold a. clear - HB. change (Z.of_nat 1) with 1. destruct (idx <? B); lia. }
        { intros _. unfold a. change (Z.of_nat 1) with 1. clear - Hi. destruct (Z.ltb_spec idx B); lia. }
        exists s3, (a mod D), 1%nat, o', new, l', (idx + 1), nx. split; [reflexivity|]. split; [exact E|].
        assert (Io : sio s3 = sio s0) by (unfold s3; scbn; rewrite f1; unfold st1; scbn; auto).
        rewrite Io in *. rewrite g2 in *. split; [exact Ex|]. split.
        { exists (rbuf (sd s2)), p2, q2. split; [|rewrite B3; exact Hh]. clear - e2 e3 e4 f2 f3 f4. unfold s3, set_io. scbn.
          rewrite f2, f3. unfold st1 in *. scbn. rewrite e2, e3. rewrite f4. unfold d_wbuf. scbn. rewrite e4. reflexivity. }
        split; [exact Rl'|]. split; [exact K'|]. split; [exact I'|].
        rewrite <- Io in E. eapply rcx_weak; [apply (rcx_shift 1 a s3 F X o' R3 Aa E)|].
        intros q' [Hq|(r & Hr & ->)]; [auto|right]. change (Z.of_nat 1) with 1 in Hr.
        exists ((if idx <? B then B else 0) + r). split; [clear - Hr HB; destruct (idx <? B); lia|]. unfold a. f_equal. clear. lia.
      - cbn [bestfin] in Hb. subst w. pose proof Rx as (g1 & g2 & g3).
        assert (Rl : rl F (nb n mod D) (nb n mod D) P [] l 0).
        { constructor; auto; try congruence.
          - clear - HB. lia.
          - rewrite Z.add_0_r. apply (rd_room _ _ _ _ _ Dk).
          - rewrite Z.mod_mod, Z.add_0_r by (clear - HB HD; lia). auto.
          - clear. lia. }
        rewrite Z.mod_mod by (clear - HB HD; lia).
        destruct (shift_erase_ok c KB PB R (nb n mod D) (nb n mod D) P 0 2 (nb n) l [] (sio s1)) as (o' & new & l' & E & Ex & _ & Rl' & K' & I').
        { exact g1. } { rewrite g2. exact Rl. } { exact Na. } { clear - Nb. lia. }
        { left. apply (rd_room _ _ _ _ _ Dk). }
        { change (Z.of_nat 2) with 2. clear. lia. } { congruence. }
        exists s1, (nb n mod D), 2%nat, o', new, l', 0, (nb n mod D). split; [reflexivity|]. split; [exact E|].
        rewrite g2 in *. rewrite e1 in *. split; [exact Ex|]. split.
        { exists (wbuf (sd s0)), p, q. split; [|exact Hw]. unfold set_io. rewrite e2, e3, e4. unfold d_rbuf. rewrite Hnx, Hst. reflexivity. }
        split; [exact Rl'|]. split; [exact K'|]. split; [exact I'|].
        rewrite <- e1 in E. exact (rcx_shift 2 (nb n) s1 F X o' Rx Na E).
    Qed.

    Hypothesis He : maxErr c <= 1 \/ rlo n = 0.

    (** The state after recovering the data area. *)
    Record recr (F : file) (s s' : state) : Prop := {
      rr_ext : exists new, io_ext (sio s) (sio s') new /\ imgs F P w n new;
      rr_keep : keep c F (fD (sio s')) n (rlo n);
      rr_rl : exists l j, rl (fD (sio s')) (rlcStart (sd s')) (nextRLC (sd s')) P w l j;
      rr_i : si s' = si s;
      rr_v : sv s' = sv s;
      rr_w : holds c (wbuf (sd s')) w;
      rr_next : nextD (sd s') = n;
      rr_min : minD (sd s') = rlo n;
      rr_avail : availD (sd s') = D - (n - rlo n) - 2 * B;
      rr_spl : exists sp, spl (sd s') = Some sp /\ SI (kfun P) (rlo n) KB PB sp n /\ s_maxErr sp = maxErr c;
      rr_buf : if n =? 0 then bufD (sd s') = NOPAGE \/ 0 <= bufD (sd s') < D
               else bufD (sd s') = (n - 1) mod D /\ rbuf (sd s') = fpg (fD (sio s')) ((n - 1) mod D)
    }.

    Lemma imgs_trans F F1 new1 new : keep c F F1 n (rlo n) -> imgs F P w n new1 -> imgs F1 P w n new -> imgs F P w n (new ++ new1).
    Proof.
      intros K I1 I2. apply Forall_app. split; [|exact I1]. eapply Forall_impl; [|exact I2]. intros im (A1 & A2).
      split; [auto|]. eapply keep_trans; eauto.
    Qed.

    Lemma tail_ok s F count mx : rcx F none s -> fresh_spl c s -> rimg F P w -> holds c (wbuf (sd s)) [] ->
      count mod D = n mod D -> 0 <= count <= D -> (count = D -> D <= n) -> u32 (mx + 1) = want -> (0 < n -> mx = n - 1) ->
      nextD (sd s) = 0 -> minD (sd s) = 0 -> availD (sd s) = D - 2 * B ->
      exists s', rlc_tail s count mx perm = Ok (s', 0) /\ recr F s s'.
    Proof.
      intros Rx Fs Im Hw Hc C0 C1 Hmx Hmx2 Hnd Hmd Had.
      pose proof (B_pos c KB PB R) as HB. pose proof (D_four c KB PB R) as HD. pose proof (nb_al B n HB) as Na. pose proof (nb_b B n HB) as Nb.
      pose proof (D_al c KB PB R) as DA. pose proof n31 as [HPB H31]. pose proof (rlo_b c KB PB R n N0) as (b1 & b2 & b3 & b4 & b5 & b6).
      destruct (rl_of F Im) as (l & j & Rl).
      unfold rlc_tail. destruct (first_erase s F l j _ _ count Rx Rl Hc C0 C1) as (o1 & new1 & l1 & -> & Ex1 & Rl1 & K1 & I1 & Rx1).
      cbn [negb].
      assert (Es : (count + (B - count mod B)) mod D = nb n mod D).
      { assert (Em : count mod B = n mod B).
        { apply Z.mod_divide in DA; [|clear - HB; lia]. assert (D0 : 0 < D) by (clear - HD HB; lia).
          rewrite (Znumtheory.Zmod_div_mod B D count HB D0 DA), (Znumtheory.Zmod_div_mod B D n HB D0 DA), Hc. reflexivity. }
        rewrite Em, <- Z.add_mod_idemp_l, Hc, Z.add_mod_idemp_l by (clear - HD HB; lia). f_equal.
        unfold SpecRlc.nb. pose proof (Z.div_mod n B ltac:(clear - HB; lia)) as Q. clear - Q. lia. }
      rewrite Es, Hmx. set (st := nb n mod D) in *. set (s1 := set_d (set_io s o1) _). set (F1 := fD o1) in *.
      pose proof (rl_disk _ _ _ _ _ _ _ _ Rl1) as Dk1. pose proof (rl_img _ _ _ _ _ _ _ _ Rl1) as [_ Nw1].
      assert (HX1 : forall k, 0 <= k <= 2 * B -> ~ X1 count ((nb n + k) mod D)).
      { intros k Hk (Qa & Qb). pose proof (md c KB PB R (nb n + k)) as M. destruct (Z.eq_dec count D) as [Ec|Nc]; [clear - Qb Ec M; lia|].
        rewrite Z.mod_small in Hc by (clear - C0 Nc; lia). rewrite Hc in Qb.
        destruct (in_block c KB PB R n _ Qa Qb) as (_ & r & Hr & Er). pose proof (nb_at B n HB Qa) as Nba.
        assert (n + r = nb n + k); [|clear - H Hr Hk Nba; lia]. apply (minj2 c KB PB R n); auto; clear - Hr Hk Nba HD HB; lia. }
      assert (Rs1 : rcx F1 (X1 count) s1) by exact Rx1. pose proof (md c KB PB R (nb n)) as Mn.
      destruct (rcx_read F1 (X1 count) s1 st Rs1) as (s2 & -> & Rx2 & Sm2 & B2 & _).
      { unfold st, NOPAGE. clear - Mn HD. lia. }
      { specialize (HX1 0 ltac:(clear - HB; lia)). rewrite Z.add_0_r in HX1. exact HX1. }
      replace ((if st <? flen F1 then 0 else -1) =? 0) with (st <? flen F1) by (destruct (st <? flen F1); auto).
      destruct (rlc_scan_ok F1 l1 Dk1 Nw1 (X1 count) HX1 (Z.to_nat (B * 2)) 0 s2 None) as (s3 & best & E3 & Rx3 & Sm3 & Bf).
      { clear; lia. } { clear - HB; lia. } { exact Rx2. }
      { unfold slotp. rewrite Z.add_0_r. intros Lt. apply B2. exact Lt. }
      { intros k' Hk'. clear - Hk'. lia. }
      { intros k' Hk'. clear - Hk'. lia. }
      rewrite Z.add_0_r in E3. fold st in E3. rewrite E3. cbn [bind].
      assert (Sm13 : same_but_rbuf s1 s3) by exact (same_rbuf_trans _ _ _ Sm2 Sm3).
      destruct (clean_ok F1 l1 best (X1 count) s1 s3 Dk1 Bf Rx3 Sm13) as (s4 & es & kk & o4 & new4 & l4 & j4 & nx4 & E4 & E5 & Ex4 & (wb & rb & bf & E6 & Hwb) & Rl4 & K4 & I4 & Rx4); auto.
      fold st in E4. cbv zeta in E4. cbv zeta. rewrite E4. cbn [bind]. rewrite E5. cbn [negb].
      set (s5 := set_io s4 o4) in *. set (F4 := fD o4) in *.
      assert (K : keep c F F4 n (rlo n)) by (eapply keep_trans; eauto).
      assert (Ex : exists new, io_ext (sio s) o4 new /\ imgs F P w n new).
      { exists (new4 ++ new1). split; [eapply ext_trans; [exact Ex1|exact Ex4]|]. exact (imgs_trans F F1 new1 new4 K1 I1 I4). }
      pose proof (rl_disk _ _ _ _ _ _ _ _ Rl4) as Dk4.
      assert (Spl5 : fresh_spl c s5) by (unfold fresh_spl; rewrite E6; exact Fs).
      unfold perm. destruct (Z.eqb_spec n 0) as [Z0|NZ]; cbn [negb].
      - exists s5. split; [reflexivity|].
        assert (R0 : rlo n = 0) by (clear - b1 Z0; lia).
        assert (S5 : sio s5 = o4) by (unfold s5; reflexivity).
        constructor; rewrite ?S5.
        + exact Ex.
        + exact K.
        + rewrite E6. scbn. eauto.
        + rewrite E6. reflexivity.
        + rewrite E6. reflexivity.
        + rewrite E6. exact Hwb.
        + rewrite E6. unfold s1. scbn. congruence.
        + rewrite E6. unfold s1. scbn. congruence.
        + rewrite E6, R0, Z0. unfold s1. scbn. clear - Had. lia.
        + rewrite E6. scbn.
          unfold fresh_spl in Fs. rewrite (rl_bin _ _ _ R) in Fs. rewrite R0, Z0. eexists. split; [exact Fs|].
          destruct (g_spl _ _ _ G (rl_bin _ _ _ R)) as [g1 g2]. pose proof (g_KB _ _ _ G) as g3. pose proof (g_PB _ _ _ G) as g4.
          pose proof (g_err _ _ _ G) as g5. pose proof (g_prod _ _ _ G) as g6.
          split; [apply init_SI; auto; clear - g1 g2 g3 g4 g5 g6 HP Z0; lia|]. cbn [spl_init s_maxErr]. apply u32_id. clear - g5. lia.
        + rewrite Z0. change (0 =? 0) with true. cbv iota. destruct Rx4 as (_ & _ & Q). rewrite E6 in Q |- *. cbn [sd bufD] in Q |- *.
          assert (Nb0 : nb n = B) by (rewrite Z0; unfold SpecRlc.nb; rewrite Z.div_0_l by (clear - HB; lia); clear; lia).
          destruct Q as [Q|[[[_ Q]|(r & Hr & Q)]|[Q _]]]; [left; auto|right|right|right].
          * assert (count = 0); [|clear - Q H HB HD; lia]. assert (Cn : count <> D) by (intros Ec; specialize (C1 Ec); clear - C1 Z0 HD HB; lia).
            rewrite Z.mod_small in Hc by (clear - C0 Cn; lia). rewrite Hc, Z0. apply Z.mod_0_l. clear - HD HB. lia.
          * rewrite Q. apply (md c KB PB R).
          * pose proof (rd_len _ _ _ _ _ Dk4 ltac:(rewrite Nb0; clear - HD HB; lia)) as Fl. rewrite Nb0 in Fl. fold F4 in Fl. clear - Fl Q HD HB. lia.
      - assert (Np : 0 < n) by (clear - NZ N0; lia). specialize (b2 Np). specialize (Hmx2 Np).
        assert (Ep : (st + 2 * B) mod D = (nb n + 2 * B) mod D) by (apply Z.add_mod_idemp_l; clear - HB HD; lia). rewrite Ep.
        set (X2 := fun q => X1 count q \/ _) in Rx4.
        assert (HX2 : forall a, nb n + 2 * B <= a < n + D -> ~ X2 (a mod D)).
        { intros a Hk [(Qa & Qb)|(r & Hr & Er)].
          - pose proof (md c KB PB R a) as M. destruct (Z.eq_dec count D) as [Ec|Nc]; [clear - Qb Ec M; lia|].
            rewrite Z.mod_small in Hc by (clear - C0 Nc; lia). rewrite Hc in Qb.
            destruct (in_block c KB PB R n _ Qa Qb) as (_ & r & Hr & Er). pose proof (nb_at B n HB Qa) as Nba.
            assert (n + r = a); [|clear - H Hr Hk Nba HB; lia]. apply (minj2 c KB PB R n); auto; clear - Hr Hk Nba HD HB; lia.
          - assert (a = nb n + r); [|clear - H Hr Hk; lia]. apply (minj2 c KB PB R n); auto; clear - Hr Hk Nb HD HB; lia. }
        pose proof (md c KB PB R (nb n + 2 * B)) as M2.
        destruct (rcx_read F4 X2 s5 ((nb n + 2 * B) mod D) Rx4) as (s6 & -> & Rx6 & Sm6 & B6 & _).
        { unfold NOPAGE. clear - M2 HD. lia. } { apply HX2. clear - Nb HD HB. lia. }
        assert (Lv4 : live_ok c F4 P (rlo n)).
        { eapply rd_ok; [exact R|exact Dk4|]. apply (rd_lo _ _ _ _ _ Dk4). }
        assert (Im4 : img c P (rlo n) (fpg F4 (rlo n mod D))) by (apply (lv_img c F4 LR Lv4); cbn [pages lo]; clear - b1 b2; lia).
        assert (In4 : 0 <= rlo n mod D < flen F4) by (apply (in_file c KB PB G F4 LR Lv4); cbn [pages lo]; clear - b1 b2; lia).
        assert (Sm : exists s7, (small <- (if (if (nb n + 2 * B) mod D <? flen F4 then 0 else -1) =? 0
                       then id <- get_pid (rbuf (sd s6)) ;; Ok (if id mod D =? (nb n + 2 * B) mod D then (nb n + 2 * B) mod D else 0)
                       else Ok 0) ;; rec_finish c s6 small mx (2 * B)) = rec_finish c s7 (rlo n mod D) mx (2 * B) /\ s7 = s6).
        { exists s6. split; [|auto]. destruct (Z.lt_ge_cases (nb n + 2 * B) D) as [Lt|Ge].
          - assert (R0 : rlo n = 0) by (rewrite rlc_lo_nb; clear - Lt; lia).
            pose proof (rd_len _ _ _ _ _ Dk4 Lt) as Fl. fold F4 in Fl. rewrite (Z.mod_small (nb n + 2 * B)) by (clear - Lt Nb N0 HB; lia).
            destruct (Z.ltb_spec (nb n + 2 * B) (flen F4)) as [X|_]; [clear - X Fl; lia|]. change (-1 =? 0) with false. cbn [bind].
            rewrite R0, Z.mod_0_l by (clear - HD HB; lia). reflexivity.
          - assert (Em : (nb n + 2 * B) mod D = rlo n mod D).
            { rewrite rlc_lo_nb, Z.max_r by (clear - Ge; lia). rewrite <- (Z_mod_plus_full (nb n + 2 * B - D) 1 D). f_equal. clear. lia. }
            rewrite Em in *. destruct (Z.ltb_spec (rlo n mod D) (flen F4)) as [Lt|X]; [|clear - X In4; lia]. change (0 =? 0) with true. cbv iota.
            destruct (B6 Lt) as [-> _]. rewrite (pid_img c KB PB G LR _ _ Im4). cbn [bind]. rewrite Z.eqb_refl. reflexivity. }
        destruct Sm as (s7 & -> & ->). rewrite Hmx2. destruct Rx6 as (r1 & r2 & r3). destruct Sm6 as (x1 & x2 & x3 & xp & xq & x4).
        destruct (rec_finish_ok c KB PB G F4 LR Lv4 W HP He (2 * B) s6 (rlo n mod D)) as (s8 & E8 & Rd); auto.
        + intros Eb. destruct r3 as [r3|[r3|[_ r3]]]; [|exfalso|].
          * exfalso. pose proof (md c KB PB R (rlo n)) as M. unfold NOPAGE in r3. clear - M r3 Eb HD. lia.
          * rewrite <- Eb in r3. apply (HX2 (rlo n + D)); [clear - b5 b2; lia|].
            replace (rlo n + D) with (rlo n + 1 * D) by (clear; lia). rewrite Z_mod_plus_full. exact r3.
          * rewrite r3, Eb. auto.
        + unfold fresh_spl. rewrite x4. scbn. exact Spl5.
        + cbn [pages lo]. clear - b3 HB. lia.
        + apply (pid_img c KB PB G LR _ _ Im4).
        + exists s8. split; [exact E8|]. destruct Rd as (y1 & y2 & y3 & y4 & y5 & y6 & y7 & y8 & y9 & y10 & y11 & y12). cbn [pages lo] in *.
          unfold got_spl in y11. rewrite (rl_bin _ _ _ R) in y11. cbn [pages lo] in y11.
          rewrite x1 in y1. assert (S5 : sio s5 = o4) by reflexivity. rewrite S5 in y1. rewrite x4, E6 in y5, y9, y10. cbn [sd d_rbuf wbuf nextRLC rlcStart] in y5, y9, y10.
          rewrite E6 in x2, x3. cbn [si sv] in x2, x3. unfold s1 in x2, x3. scbn.
          constructor; rewrite ?y1; auto.
          * rewrite y9, y10. eauto.
          * rewrite y2, x2. reflexivity.
          * rewrite y3, x3. reflexivity.
          * rewrite y5. exact Hwb.
          * destruct (Z.eqb_spec n 0) as [|_]; [contradiction|]. specialize (y12 Np). split; [exact y12|].
            destruct y4 as (_ & _ & [z|[_ z]]); [exfalso|rewrite y12 in z; exact z].
            pose proof (md c KB PB R (n - 1)) as M. unfold NOPAGE in z. clear - z y12 M HD. lia.
    Qed.
  End File.
End Rec.

(** ** embedDBInit without the reset flag *)
Lemma reopen_rlc_data c KB PB F P w k : rlc_db c KB PB -> (useVar c = true -> numVar c mod eraseSize c = 0) ->
  useReset c = false -> kD k = Some F -> rimg c F P w ->
  let lo := rlc_lo (numData c) (eraseSize c) (zlen P) in let L := mkLog P lo w in
  wf_log c KB L -> zlen P + maxErr c < PB -> maxErr c <= 1 \/ lo = 0 ->
  exists s, embedDBInit c k [] = (if useVar c then if bufBlocks c <? 4 then Ok (s, -1) else initVarData c s (kV k) else Ok (s, 0)) /\
    RI c KB PB lo s L /\ coh c s L /\
    imgs c F P w (zlen P) (trace (sio s)) /\ keep c F (fD (sio s)) (zlen P) lo /\
    sv s = mkV (gpage c) (gpage c) 0 0 0 0 NOPAGE (ghasvar c).
Proof.
  intros R HNV HR HF Im lo L W HP He. pose proof (rl_set _ _ _ R) as G. pose proof (L0 c KB PB G) as L0.
  pose proof (B_pos c KB PB R) as HB. pose proof (D_four c KB PB R) as HD. pose proof (g_DB _ _ _ G) as GDB.
  pose proof (l_ks _ L0) as Lk. pose proof (l_ds _ L0) as Ld. pose proof (l_rec _ L0) as Lr.
  pose proof (rl_rlc _ _ _ R) as HC. pose proof (rl_idx _ _ _ R) as HI. pose proof (rl_bin _ _ _ R) as Hb.
  assert (Lr0 : 0 < recordSize c) by (rewrite Lr; clear - Lk Ld; destruct (useVar c); lia).
  assert (HNV' : useVar c && negb (numVar c mod eraseSize c =? 0) = false) by (destruct (useVar c); [rewrite (HNV eq_refl); reflexivity|reflexivity]).
  pose proof (zlen_nonneg P) as N0. pose proof (rlo_b c KB PB R (zlen P) N0) as (b1 & b2 & b3 & b4 & b5 & b6). fold lo in b1, b2, b3, b4, b5, b6.
  unfold embedDBInit. rewrite HC, HI, Hb. cbn [andb].
  destruct (Z.gtb_spec (keySize c) 8); [clear - H Lk; lia|]. destruct (Z.eqb_spec (eraseSize c) 0) as [|_]; [clear - e HB; lia|].
  rewrite GDB. cbn [Z.eqb negb]. destruct (Z.ltb_spec (numData c) (4 * eraseSize c)); [clear - H0 HD; lia|]. rewrite HNV'.
  destruct (Z.eqb_spec (recordSize c) 0) as [|_]; [clear - e Lr0; lia|].
  destruct (init_page_ok c L0) as (wb & -> & Hw). cbn [bind].
  destruct (Z.ltb_spec (numData c) ((0 * 2 + 2) * eraseSize c)) as [X|X]; [clear - X HD HB; lia|].
  cbn [negb andb]. destruct (Z.ltb_spec (numSplinePts c) 4) as [X4|_]; [destruct (g_spl _ _ _ G Hb) as [g1 _]; clear - g1 X4; lia|].
  unfold initData. rewrite HR, HC, HF. cbn [open_r].
  set (s1 := set_io _ _).
  assert (Rx : rcx F none s1) by (split; [reflexivity|split; [reflexivity|left; reflexivity]]).
  assert (Fs : fresh_spl c s1) by (unfold fresh_spl; rewrite Hb; reflexivity).
  assert (Av : availD (sd s1) = numData c - 2 * eraseSize c).
  { unfold s1. scbn. rewrite u32_id by (clear - HB HD; lia). clear. lia. }
  assert (Rr : exists s', initDataFromFileRLC c s1 = Ok (s', 0) /\ recr c KB PB P w F s1 s').
  { rewrite tail_eq. destruct Im as ((l & Dk) & Nw).
    destruct (newest_page c KB PB R P w W HP F l Dk s1 Rx) as (t0 & r & t1 & more & cnt & found & -> & -> & Hf). cbn [bind].
    assert (Tl : forall t count mx, rcx F none t -> same_but_rbuf s1 t -> count mod numData c = zlen P mod numData c ->
               0 <= count <= numData c -> (count = numData c -> numData c <= zlen P) -> u32 (mx + 1) = want P -> (0 < zlen P -> mx = zlen P - 1) ->
               exists s', rlc_tail c t count mx (perm P) = Ok (s', 0) /\ recr c KB PB P w F s1 s').
    { intros t count mx Rt (a1 & a2 & a3 & p & q & a4) h1 h2 h3 h4 h5.
      destruct (tail_ok c KB PB R P w W HP He t F count mx) as (s' & E & Q); auto; try (rewrite a4; scbn; auto; fail).
      - unfold fresh_spl. rewrite a4. exact Fs.
      - split; [eauto|auto].
      - exists s'. split; [exact E|]. destruct Q as [q1 q2 q3 q4 q5 q6 q7 q8 q9 q10 q11]. rewrite a1, a2, a3 in *. constructor; auto. }
    destruct found as [mx|].
    - destruct Hf as (Np & i & m & t2 & more' & Sp & -> & Rt & St). cbn [bind].
      assert (Pm : perm P = true) by (unfold perm; destruct (Z.eqb_spec (zlen P) 0) as [Z0|]; [clear - Np Z0; lia|auto]).
      rewrite <- Pm. pose proof Sp as (E & Hm & Hi & Hid & Hc). apply Tl; auto.
      + rewrite E. rewrite Z.add_mod, Hid, Z.add_0_l, Z.mod_mod by (clear - HD HB; lia). auto.
      + clear - Hm. lia.
      + clear - E Hi. lia.
      + unfold want. destruct (Z.eqb_spec (zlen P) 0) as [Z0|]; [clear - Np Z0; lia|]. pose proof (n31 c KB PB R P HP) as [_ Q].
        rewrite u32_id by (clear - Q Np; lia). clear. lia.
    - destruct Hf as (Np & Rt & St). cbn [bind].
      assert (Pm : perm P = false) by (unfold perm; destruct (Z.eqb_spec (zlen P) 0) as [Z0|NZ]; [auto|clear - Np NZ; lia]).
      rewrite <- Pm. apply Tl; auto.
      + rewrite Np. reflexivity.
      + clear - HD HB. lia.
      + clear - HD HB. lia.
      + unfold want. rewrite Np. reflexivity.
      + clear - Np. lia. }
  destruct Rr as (s & -> & Q). cbn [bind]. change (negb (0 =? 0)) with false. cbv iota. cbn [bind]. change (negb (0 =? 0)) with false. cbv iota.
  change (4 + 0) with 4.
  exists s. split; [reflexivity|]. destruct Q as [(new & (x1 & x2 & x3 & x4) & q1) q2 (l & j & q3) q4 q5 q6 q7 q8 q9 q10 q11].
  fold lo in q2, q8, q9, q10. change (trace (sio s1)) with (@nil (file * file * file)) in x4. rewrite app_nil_r in x4.
  assert (Rb : rb_ok c (sd s) P /\ coh c s L).
  { destruct (Z.eqb_spec (zlen P) 0) as [Z0|NZ].
    - split.
      + destruct q11 as [q11|q11]; [left; auto|right; right]. split; auto. rewrite Z0. auto.
      + intros id Hd. cbn [L pages Spec.lo] in Hd. exfalso. clear - Hd Z0 b1. lia.
    - assert (Np : 0 < zlen P) by (clear - NZ N0; lia). specialize (b2 Np). destruct q11 as [q11 q12].
      assert (Img : img c P (zlen P - 1) (rbuf (sd s))).
      { rewrite q12. apply (rd_live _ _ _ _ _ (rl_disk _ _ _ _ _ _ _ _ q3)). pose proof (rd_lo _ _ _ _ _ (rl_disk _ _ _ _ _ _ _ _ q3)) as Rl.
        fold lo in Rl. clear - Rl b2. lia. }
      split; [right; left; exists (zlen P - 1); split; [clear - Np; lia|auto]|].
      intros id Hd Eid. cbn [L pages Spec.lo] in *. rewrite q11 in Eid.
      assert (Ei : id = zlen P - 1) by (apply (minj c KB PB R); auto; clear - Hd b3 HB; lia). rewrite Ei. auto. }
  destruct Rb as [Rb Co]. split; [|split; [exact Co|split; [rewrite x4; exact q1|split; [exact q2|exact q5]]]].
  constructor; cbn [L pages Spec.lo cur]; auto.
  - constructor; cbn [L pages Spec.lo cur]; auto.
    + unfold reserve. rewrite HC. auto.
    + unfold store_ok. rewrite HC. eapply rd_ok; [exact R|exact (rl_disk _ _ _ _ _ _ _ _ q3)|]. apply (rd_lo _ _ _ _ _ (rl_disk _ _ _ _ _ _ _ _ q3)).
    + rewrite Hb. auto.
    + clear - b1. lia.
    + intros U. congruence.
  - eauto.
Qed.

Lemma reopen_rlc c KB PB F P w k : rlc_db c KB PB -> useVar c = false -> useReset c = false -> kD k = Some F -> rimg c F P w ->
  let lo := rlc_lo (numData c) (eraseSize c) (zlen P) in let L := mkLog P lo w in
  wf_log c KB L -> zlen P + maxErr c < PB -> maxErr c <= 1 \/ lo = 0 ->
  exists s, embedDBInit c k [] = Ok (s, 0) /\ RI c KB PB lo s L /\ coh c s L /\
    imgs c F P w (zlen P) (trace (sio s)) /\ keep c F (fD (sio s)) (zlen P) lo.
Proof.
  intros R HV HR HF Im lo L W HP He.
  destruct (reopen_rlc_data c KB PB F P w k R ltac:(congruence) HR HF Im W HP He) as (s & E & H1 & H2 & H3 & H4 & _).
  rewrite HV in E. exists s. auto.
Qed.

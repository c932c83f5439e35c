(** Opening an existing index file: the scan ends, and the next index page number it
    finds is not larger than the number of data pages allows. *)
From Verif Require Import Base BaseFacts Config Spline Storage DB Recovery Spec SpecSpline SplineFacts
  SpecPage SpecStore SpecIter Run SpecRun SpecReopen LogFacts PageFacts SearchFacts StoreFacts PutFacts.
Open Scope Z_scope.
Ltac Zify.zify_post_hook ::= ZifyBool.elim_bool_cstr.
Ltac Zify.zify_convert_to_euclidean_division_equations_flag ::= constr:(false).

Section Idx.
  Variables (c : cfg) (KB PB : Z).
  Hypothesis G : setting c KB PB.
  Let L0 := L0 c KB PB G.
  Notation NI := (numIndex c).
  Variables (F : file) (b : Z).
  Hypothesis Fp : forall i, 0 <= i < flen F -> zlen (fpg F i) = pageSize c /\ u32 (page_id (fpg F i) + 1) <= b.

  (** The index read buffer holds a page of the file or nothing. *)
  Definition irc (s : state) : Prop :=
    faults (sio s) = [] /\ fI (sio s) = F /\
    (bufI (si s) = NOPAGE \/ 0 <= bufI (si s) < flen F /\ irbuf (si s) = fpg F (bufI (si s))).
  Definition same_but_ibuf (s s' : state) : Prop :=
    sio s' = sio s /\ sd s' = sd s /\ sv s' = sv s /\ exists p q, si s' = i_rbuf (si s) p q.
  Lemma ibuf_refl s : same_but_ibuf s s.
  Proof. do 3 (split; [auto|]). exists (irbuf (si s)), (bufI (si s)). destruct (si s); reflexivity. Qed.
  Lemma ibuf_trans a1 a2 a3 : same_but_ibuf a1 a2 -> same_but_ibuf a2 a3 -> same_but_ibuf a1 a3.
  Proof.
    intros (A1 & A2 & A3 & p & q & A4) (B1 & B2 & B3 & p' & q' & B4). do 3 (split; [congruence|]).
    exists p', q'. rewrite B4, A4. reflexivity.
  Qed.

  Lemma ird s n : irc s -> 0 <= n < NOPAGE -> exists s' r, readIndexPage s n = (s', r) /\ irc s' /\ same_but_ibuf s s' /\
    ((r = 0 /\ n < flen F /\ irbuf (si s') = fpg F n) \/ (r = -1 /\ flen F <= n /\ s' = s)).
  Proof.
    intros (R1 & R2 & R3) Hn. unfold readIndexPage. destruct (Z.eqb_spec n (bufI (si s))) as [E|E].
    - exists s, 0. split; [reflexivity|]. split; [repeat split; auto|]. split; [apply ibuf_refl|]. left.
      destruct R3 as [R3|[R3 R4]]; [unfold NOPAGE in *; lia|]. rewrite E. split; [auto|split; [lia|auto]].
    - rewrite io_read_nf by auto. cbn [getF]. rewrite R2. unfold file_read.
      destruct (Z.leb_spec 0 n) as [_|]; [|lia]. cbn [andb]. destruct (Z.ltb_spec n (flen F)) as [Hl|Hl].
      + eexists _, 0. split; [reflexivity|]. split; [|split].
        * unfold irc. cbn [sio si i_rbuf bufI irbuf]. repeat split; auto. right. split; [lia|auto].
        * unfold same_but_ibuf. cbn [sio sd si sv]. do 3 (split; [auto|]). eauto.
        * left. cbn [si i_rbuf irbuf]. auto.
      + exists s, (-1). replace (set_io s (sio s)) with s by (destruct s; reflexivity).
        split; [reflexivity|]. split; [repeat split; auto|]. split; [apply ibuf_refl|]. right. auto.
  Qed.

  Lemma ipid p : zlen p = pageSize c -> get_pid p = Ok (page_id p).
  Proof.
    intros H. unfold get_pid, page_id. pose proof (l_init c L0). pose proof (l_ks c L0). pose proof (l_ds c L0).
    rewrite ldz_ok by lia. reflexivity.
  Qed.

  Lemma scan_ok fuel : forall s more count mx, irc s -> 0 <= count -> NI < NOPAGE ->
    (more = true -> count < flen F /\ irbuf (si s) = fpg F count) ->
    (0 < count -> zlen (irbuf (si s)) = pageSize c /\ exists j, 0 <= j < flen F /\ mx = page_id (fpg F j)) ->
    Z.max (NI - count) 0 < Z.of_nat fuel ->
    exists s' count' mx' w id, idx_scan c s fuel more count mx = Ok (s', count', mx', w, id) /\ irc s' /\ same_but_ibuf s s' /\
      0 <= count' /\ (0 < count' -> zlen (irbuf (si s')) = pageSize c /\ exists j, 0 <= j < flen F /\ mx' = page_id (fpg F j)).
  Proof.
    induction fuel as [|f IH]; intros s more count mx R Hc HN Hm Hx Hf; [lia|]. cbn [idx_scan].
    assert (Stop : exists s' count' mx' w id, @Ok (state * Z * Z * bool * Z) (s, count, mx, false, mx) = Ok (s', count', mx', w, id) /\ irc s' /\ same_but_ibuf s s' /\
      0 <= count' /\ (0 < count' -> zlen (irbuf (si s')) = pageSize c /\ exists j, 0 <= j < flen F /\ mx' = page_id (fpg F j))).
    { exists s, count, mx, false, mx. split; [reflexivity|]. split; [auto|]. split; [apply ibuf_refl|auto]. }
    destruct more; cbn [andb]; [|exact Stop]. destruct (Z.ltb_spec count NI) as [Lt|Ge]; [|exact Stop]. clear Stop.
    destruct (Hm eq_refl) as [H1 H2]. rewrite H2. destruct (Fp count ltac:(lia)) as [F1 F2]. rewrite (ipid _ F1). cbn [bind].
    destruct ((count =? 0) || _).
    - destruct (ird s (count + 1) R ltac:(lia)) as (s1 & r & -> & R1 & S1 & Hr).
      destruct (IH s1 (r =? 0) (count + 1) (page_id (fpg F count)) R1 ltac:(lia) HN) as (s' & count' & mx' & w & id & E & A1 & A2 & A3).
      + intros Hr0. apply Z.eqb_eq in Hr0. destruct Hr as [Hr|Hr]; [tauto|lia].
      + intros _. split; [|exists count; split; [lia|auto]].
        destruct Hr as [(_ & Hr & ->)|(_ & _ & ->)]; [apply Fp; lia|congruence].
      + lia.
      + rewrite E. eexists _, _, _, _, _. split; [reflexivity|]. split; [auto|]. split; [eapply ibuf_trans; eauto|auto].
    - eexists _, _, _, _, _. split; [reflexivity|]. split; [auto|]. split; [apply ibuf_refl|auto].
  Qed.

  Lemma idx_file_ok s : irc s -> bufI (si s) = NOPAGE -> 2 <= NI < 2 ^ 31 ->
    exists s', initIndexFromFile c s = Ok (s', 0) /\ sio s' = sio s /\ sd s' = sd s /\ sv s' = sv s /\
      iwbuf (si s') = iwbuf (si s) /\ (nextI (si s') = nextI (si s) \/ 0 <= nextI (si s') <= b).
  Proof.
    intros R Hb HN. unfold initIndexFromFile.
    destruct (ird s 0 R ltac:(unfold NOPAGE; lia)) as (s1 & r & -> & R1 & S1 & Hr).
    destruct (scan_ok (Z.to_nat (NI + 1)) s1 (r =? 0) 0 0 R1) as (s2 & count & mx & w & id & -> & R2 & S2 & Hc & Hx); try (unfold NOPAGE; lia).
    { intros Hr0. apply Z.eqb_eq in Hr0. destruct Hr as [Hr|Hr]; [tauto|lia]. }
    cbn [bind]. pose proof (ibuf_trans _ _ _ S1 S2) as (a1 & a2 & a3 & p & q & a4).
    destruct (Z.eqb_spec count 0) as [Z0|NZ].
    { exists s2. split; [reflexivity|]. do 3 (split; [auto|]). rewrite a4. cbn [i_rbuf iwbuf nextI]. auto. }
    destruct (Hx ltac:(lia)) as (Hi & j & Hj & ->). destruct (Fp j Hj) as [F1 F2].
    set (s3 := set_i s2 _). assert (R3 : irc s3) by exact R2.
    assert (Sm : 0 <= (if w then id mod NI else 0) < NOPAGE).
    { destruct w; [pose proof (Z.mod_pos_bound id NI ltac:(lia))|]; unfold NOPAGE; lia. }
    destruct (ird s3 _ R3 Sm) as (s4 & r4 & -> & R4 & S4 & Hr4).
    assert (Lb : zlen (irbuf (si s4)) = pageSize c).
    { destruct Hr4 as [(_ & H1 & ->)|(_ & _ & ->)]; [apply Fp; lia|].
      exact Hi. }
    rewrite (ipid _ Lb). cbn [bind]. eexists. split; [reflexivity|]. destruct S4 as (b1 & b2 & b3 & p4 & q4 & b4).
    cbn [set_i sio sd sv si]. split; [rewrite b1; exact a1|]. split; [rewrite b2; exact a2|]. split; [rewrite b3; exact a3|].
    rewrite b4. unfold s3. cbn [set_i si i_rbuf i_avail i_next iwbuf nextI]. rewrite a4. cbn [i_rbuf iwbuf]. split; [auto|].
    right. split; [unfold u32; apply Z.mod_pos_bound; lia|auto].
  Qed.
End Idx.

(** embedDBInitIndex without the reset flag. *)
Definition idx_ready (c : cfg) (k : disk) (n : Z) : Prop :=
  useIndex c = true -> idx_blank c /\ 4 <= bufBlocks c /\ 4 * eraseSize c <= numData c /\
    numIndex c mod eraseSize c = 0 /\ 2 * eraseSize c <= numIndex c /\
    forall F, kI k = Some F -> idx_pages c F (n + 1).

(** The index part of the state is what initIndexFromFile makes of the index file. *)
Definition from_index (c : cfg) (F : file) (s : state) : Prop :=
  exists s0, initIndexFromFile c s0 = Ok (s, 0) /\ irc F s0 /\
    bufI (si s0) = NOPAGE /\ nextI (si s0) = 0 /\ minI (si s0) = 0 /\ availI (si s0) = numIndex c.

Lemma initIndex_ok c KB PB k s : setting c KB PB -> useIndex c = true -> useReset c = false ->
  idx_ready c k (nextD (sd s)) -> faults (sio s) = [] -> bufI (si s) = NOPAGE -> 0 <= nextD (sd s) ->
  exists s', initIndex c s (kI k) = Ok (s', 0) /\ sd s' = sd s /\ sv s' = sv s /\
    faults (sio s') = [] /\ fD (sio s') = fD (sio s) /\ trace (sio s') = trace (sio s) /\
    idx_safe c s' /\ get_count (iwbuf (si s')) = Ok 0 /\ forall F, kI k = Some F -> from_index c F s'.
Proof.
  intros G U HR Rd Hf Hb Hn. pose proof (L0 c KB PB G) as L0. destruct (Rd U) as (Bl & _ & _ & NIm & NI2 & Fp). clear Rd.
  destruct (g_idx _ _ _ G U) as (A1 & A2 & A3). pose proof (g_B _ _ _ G) as GB.
  pose proof (l_init c L0). pose proof (l_ks c L0). pose proof (l_ds c L0).
  unfold initIndex. destruct (Z.eqb_spec (bitmapSize c) 0); [lia|].
  destruct (init_page_ok c L0) as (w & -> & Hw). cbn [bind]. pose proof (h_len _ _ _ Hw) as Lw.
  rewrite st_ok by (rewrite ?le_enc_zlen; lia). cbn [bind].
  set (w1 := zwr w 8 (le_enc 4 (nextD (sd s)))).
  assert (Lz : zlen w1 = pageSize c) by (unfold w1; rewrite zwr_length; rewrite ?le_enc_zlen; lia).
  assert (C0 : get_count w1 = Ok 0).
  { unfold w1. rewrite (count_other c) by (rewrite ?le_enc_zlen; lia). rewrite (get_count_ok c L0 _ _ Hw). reflexivity. }
  destruct (Z.ltb_spec (numIndex c) (eraseSize c * 2)); [lia|]. rewrite NIm. cbn [Z.eqb negb]. rewrite HR.
  cbn [set_i sio si sd sv faults fD fI fV trace open_r].
  assert (Fin : forall s', sd s' = sd s -> iwbuf (si s') = w1 -> 0 <= nextI (si s') <= nextD (sd s) + 1 ->
            idx_pages c (fI (sio s')) (nextD (sd s) + 1) -> idx_safe c s' /\ get_count (iwbuf (si s')) = Ok 0).
  { intros s' e1 e2 e3 e4. rewrite e2. split; [|exact C0]. intros _. rewrite e1, e2. split; [exact Lz|]. split; [auto|].
    split; [|auto]. exists 0. split; [exact C0|]. destruct (maxIdx_spec c KB PB G U). lia. }
  destruct (kI k) as [F|] eqn:Ek; cbn [open_r].
  - pose proof (Fp F eq_refl Bl) as Fp1.
    set (s1 := set_io _ _).
    assert (Ic : irc F s1) by (unfold irc, s1; cbn [set_io set_i sio si faults fI bufI]; auto).
    assert (Bf : bufI (si s1) = NOPAGE) by (unfold s1; cbn [set_io set_i si bufI]; auto).
    destruct (idx_file_ok c KB PB G F (nextD (sd s) + 1) Fp1 s1 Ic Bf) as (s' & Ef & e1 & e2 & e3 & e4 & e5).
    { lia. }
    rewrite Ef. exists s'. split; [reflexivity|]. split; [auto|]. split; [auto|]. rewrite e1. cbn [s1 set_io sio faults fD trace].
    do 3 (split; [auto|]). apply and_assoc. split.
    2:{ intros F' E'. injection E' as <-. exists s1. auto 10. }
    apply Fin; auto.
    + destruct e5 as [e5|e5]; [rewrite e5; cbn [s1 set_io set_i si nextI]; lia|auto].
    + rewrite e1. intros _. exact Fp1.
  - eexists. split; [reflexivity|]. cbn [set_io set_i sio si sd sv faults fD fI trace]. do 5 (split; [auto|]). apply and_assoc. split; [|discriminate].
    apply Fin; cbn [set_io set_i sio si sd fI iwbuf nextI]; auto; [lia|].
    intros (Tr & _) i Hi. exfalso. unfold open_w in Hi. rewrite Tr in Hi. cbn in Hi. lia.
Qed.

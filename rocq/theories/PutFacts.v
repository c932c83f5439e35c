(** embedDBPut and embedDBFlush refine the log. *)
From Verif Require Import Base BaseFacts Config Spline Storage DB Spec SpecSpline SplineFacts
  SpecPage SpecStore LogFacts PageFacts SearchFacts StoreFacts.
Open Scope Z_scope.
Ltac Zify.zify_post_hook ::= ZifyBool.elim_bool_cstr.
Ltac Zify.zify_convert_to_euclidean_division_equations_flag ::= constr:(false).

Section Put.
  Variables (c : cfg) (KB PB f : Z).
  Hypothesis G : setting c KB PB.
  Notation InvG := (InvG c KB PB f).
  Notation Inv := (Inv c KB PB f).
  Notation N := (maxRec c).
  Notation D := (numData c).
  Notation B := (eraseSize c).

  Let L0 := L0 c KB PB G.

  (** ** Adding the page to the learned index *)
  Lemma indexPage_ok s L n w : InvG s L n w -> n + 1 = zlen (pages L) ->
    nth (Z.to_nat n) (pages L) [] = w ->
    exists x, indexPage c s n = Ok (set_d s (d_spl (sd s) x)) /\
      InvG (set_d s (d_spl (sd s) x)) L (n + 1) w.
  Proof.
    intros I Hn Hw. unfold indexPage. pose proof (i_spl _ _ _ _ _ _ _ _ I) as Is.
    destruct (useBinary c) eqn:U.
    - exists (spl (sd s)). split; [destruct s as [a [] ? ?]; reflexivity|].
      destruct I. constructor; auto. rewrite U. auto.
    - destruct Is as (sp & E1 & E2 & E3). rewrite E1. pose proof (si_f _ _ _ _ _ _ E2) as Sf.
      destruct (page_ne c KB L n (i_wf _ _ _ _ _ _ _ _ I) ltac:(lia)) as (r & rs & E).
      rewrite Hw in E. pose proof (i_w _ _ _ _ _ _ _ _ I) as Iw. rewrite E in Iw.
      pose proof (page_recs c KB L n (i_wf _ _ _ _ _ _ _ _ I)) as Rc. rewrite Hw, E in Rc.
      pose proof (Forall_inv Rc) as Rr.
      rewrite (min_key_ok c L0 _ r rs KB (proj2 (g_KB _ _ _ G)) Iw Rr). cbn [bind].
      assert (K : kfun (pages L) n = rkey r) by (unfold kfun; rewrite Hw, E; auto).
      rewrite <- K. eexists; split; [reflexivity|].
      destruct (add_SI (kfun (pages L)) f KB PB sp n E2) as (A1 & A2 & _).
      + pose proof (i_PB _ _ _ _ _ _ _ _ I). lia.
      + rewrite K. apply Rr.
      + intros Hf. rewrite K.
        destruct (page_ne c KB L (n - 1) (i_wf _ _ _ _ _ _ _ _ I) ltac:(lia)) as (r' & rs' & E').
        unfold kfun. rewrite E'. eapply (pages_order (pages L) (Z.to_nat (n - 1)) (Z.to_nat n)).
        * pose proof (w_asc _ _ _ (i_wf _ _ _ _ _ _ _ _ I)) as W. unfold accepted in W. rewrite asc_app in W. tauto.
        * lia.
        * rewrite E'. now left.
        * rewrite Hw, E. now left.
      + pose proof (i_fe _ _ _ _ _ _ _ _ I). rewrite E3. lia.
      + destruct I. constructor; auto. rewrite U. eexists; split; [reflexivity|]. split; auto. congruence.
  Qed.

  (** ** The bitmap index *)
  Lemma maxIdx_spec : useIndex c = true -> 1 <= maxIdx c < 65536 /\ 16 + bitmapSize c * maxIdx c <= pageSize c.
  Proof.
    intros U. destruct (g_idx _ _ _ G U) as (A & B1 & C). pose proof (l_ps c L0). unfold maxIdx.
    rewrite Z.quot_div_nonneg by lia. assert (P : 0 <= pageSize c - 16) by lia.
    set (x := pageSize c - 16) in *. pose proof (Z.mul_div_le x (bitmapSize c) ltac:(lia)) as Q.
    assert (Q1 : 1 <= x / bitmapSize c) by (apply Z.div_le_lower_bound; lia).
    assert (x / bitmapSize c <= x).
    { apply Z.div_le_upper_bound; try lia. assert (1 * x <= bitmapSize c * x) by (apply Z.mul_le_mono_nonneg_r; lia). lia. }
    rewrite u16_id by lia. unfold x in *. lia.
  Qed.

  Lemma count_other p off bs : zlen p = pageSize c -> 6 <= off -> off + zlen bs <= pageSize c ->
    get_count (zwr p off bs) = get_count p.
  Proof.
    intros E1 E2 E3. unfold get_count. pose proof (zlen_nonneg bs).
    rewrite !ldz_ok by (rewrite ?zwr_length by lia; lia). apply f_equal, f_equal, zrd_zwr_other; lia.
  Qed.

  Lemma idx_append_ok s i : useIndex c = true -> zlen (iwbuf (si s)) = pageSize c ->
    get_count (iwbuf (si s)) = Ok i -> 0 <= i < maxIdx c -> zlen (wbuf (sd s)) = pageSize c ->
    exists b, idx_append c s i = Ok (set_i s (i_wbuf (si s) b)) /\ zlen b = pageSize c /\
      get_count b = Ok (i + 1).
  Proof.
    intros U Hz Hc Hi Hw. destruct (maxIdx_spec U) as [M1 M2]. destruct (g_idx _ _ _ G U) as (A & B1 & C).
    pose proof (l_init c L0). pose proof (l_ks c L0). pose proof (l_ds c L0). pose proof (L_bsz c L0) as Bz.
    unfold idx_append, inc_count. rewrite Hc. cbn [bind].
    rewrite st_ok by (rewrite ?le_enc_zlen; lia). cbn [bind]. rewrite ld_ok by lia. cbn [bind].
    assert (Lz : zlen (zrd (wbuf (sd s)) 6 (bsz c)) = bitmapSize c).
    { unfold zlen. rewrite zrd_length by lia. lia. }
    assert (Bi : bitmapSize c * (i + 1) <= bitmapSize c * maxIdx c) by (apply Z.mul_le_mono_nonneg_l; lia).
    assert (B0 : 0 <= bitmapSize c * i) by (apply Z.mul_nonneg_nonneg; lia).
    assert (Lb : zlen (zwr (iwbuf (si s)) 4 (le_enc 2 (i + 1))) = pageSize c)
      by (rewrite zwr_length; rewrite ?le_enc_zlen; lia).
    rewrite st_ok by lia. cbn [bind]. eexists. split; [reflexivity|].
    split; [rewrite zwr_length; lia|].
    rewrite count_other by lia. unfold get_count. rewrite ldz_ok by lia.
    rewrite zrd_zwr_same; rewrite ?le_enc_zlen, ?le_enc_length; try lia; auto.
    rewrite le_dec_enc; auto. change (256 ^ Z.of_nat 2) with 65536. lia.
  Qed.

  (** Writing and erasing index pages. *)
  Lemma fill_id x n : (4 <= n)%nat -> x = 0 \/ x = 255 -> u32 (page_id (repeat x n) + 1) <= 1.
  Proof.
    intros H Hx. do 4 (destruct n; [lia|]). unfold page_id, bytes_at. destruct Hx as [-> | ->]; vm_compute; discriminate.
  Qed.
  Lemma psz4 : Z.of_nat (psz c) = pageSize c /\ (4 <= psz c)%nat.
  Proof. pose proof (l_init c L0). pose proof (l_ks c L0). pose proof (l_ds c L0). unfold psz. lia. Qed.
  Lemma idx_write F n p b : idx_pages c F b -> 0 <= n -> 1 <= b -> zlen p = pageSize c -> u32 (page_id p + 1) <= b ->
    idx_pages c (file_write c F n p) b.
  Proof.
    intros H Hn Hb Hz Hp Bl i Hi. destruct psz4 as [P1 P2]. unfold file_write in *. cbn [flen fpg] in *.
    destruct (Z.eqb_spec i n) as [->|]; [auto|]. destruct (Z.ltb_spec i (flen F)); [apply H; auto; lia|].
    split; [unfold zlen; rewrite repeat_length; lia|]. destruct Bl as (_ & _ & Bl). pose proof (fill_id _ (psz c) P2 Bl). lia.
  Qed.
  Lemma idx_erase F x y b : idx_pages c F b -> 1 <= b -> 0 <= x -> idx_pages c (file_erase c F x y) b.
  Proof.
    intros H Hb Hx Bl i Hi. destruct psz4 as [P1 P2]. unfold file_erase in *.
    destruct (eraseFill c) as [v|] eqn:Ef; [|apply H; auto]. cbn [flen fpg] in *.
    assert (Hv : v = 0 \/ v = 255) by (destruct Bl as (_ & [Bl|[Bl|Bl]] & _); rewrite Ef in Bl; [discriminate| |]; injection Bl; auto).
    destruct ((x <=? i) && (i <? y)).
    { split; [unfold zlen; rewrite repeat_length; lia|]. pose proof (fill_id _ (psz c) P2 Hv). lia. }
    destruct (Z.ltb_spec i (flen F)); [apply H; auto; lia|].
    split; [unfold zlen; rewrite repeat_length; lia|]. destruct Bl as (_ & _ & Bl). pose proof (fill_id _ (psz c) P2 Bl). lia.
  Qed.

  Lemma writeIndexPage_ok s : faults (sio s) = [] -> zlen (iwbuf (si s)) = pageSize c ->
    0 <= nextI (si s) < 2 ^ 31 ->
    exists s' new, writeIndexPage c s = Ok (s', nextI (si s)) /\ sd s' = sd s /\ sv s' = sv s /\
      faults (sio s') = [] /\ fD (sio s') = fD (sio s) /\ fV (sio s') = fV (sio s) /\
      nextI (si s') = nextI (si s) + 1 /\ zlen (iwbuf (si s')) = pageSize c /\
      get_count (iwbuf (si s')) = get_count (iwbuf (si s)) /\
      trace (sio s') = new ++ trace (sio s) /\ Forall (fun im => fst (fst im) = fD (sio s)) new /\
      (0 < numIndex c -> forall b, nextI (si s) + 1 <= b -> idx_pages c (fI (sio s)) b ->
         idx_pages c (fI (sio s')) b /\ Forall (fun im => idx_pages c (snd (fst im)) b) new).
  Proof.
    intros Hf Hz Hn. unfold writeIndexPage. cbn [set_i si i_next iwbuf]. unfold set_pid.
    pose proof (l_init c L0). pose proof (l_ks c L0). pose proof (l_ds c L0).
    rewrite st_ok by (rewrite ?le_enc_zlen; lia). cbn [bind].
    set (w := zwr (iwbuf (si s)) 0 (le_enc 4 (nextI (si s)))).
    assert (Lw : zlen w = pageSize c) by (unfold w; rewrite zwr_length; rewrite ?le_enc_zlen; lia).
    assert (Cw : get_count w = get_count (iwbuf (si s))).
    { unfold get_count. rewrite !ldz_ok by lia. apply f_equal, f_equal. unfold w. apply zrd_zwr_other; rewrite ?le_enc_zlen; lia. }
    assert (Iw : u32 (page_id w + 1) = nextI (si s) + 1).
    { unfold page_id. rewrite bytes_at_zrd. unfold w. rewrite zrd_zwr_same; rewrite ?le_enc_zlen, ?le_enc_length; try lia; auto.
      rewrite le_dec_enc by (change (256 ^ Z.of_nat 4) with (2 ^ 32); lia). apply u32_id. lia. }
    unfold set_i, set_io, i_wbuf, i_avail, i_next; cbn [sio sd si sv iwbuf irbuf availI minI nextI bufI].
    destruct (availI (si s) <=? 0).
    - rewrite io_erase_nf by auto. cbn [negb sio sd si sv iwbuf irbuf availI minI nextI bufI putF getF].
      rewrite io_write_nf by auto. cbn [negb sio sd si sv iwbuf irbuf availI minI nextI bufI putF getF faults fD fI fV trace].
      eexists _, [_; _]. split; [reflexivity|].
      cbn [negb sio sd si sv iwbuf irbuf availI minI nextI bufI putF getF faults fD fI fV trace].
      rewrite u32_id by lia. do 9 (split; [solve [auto | reflexivity]|]). split; [repeat constructor|].
      intros HI b Hb IP. pose proof (Z.mod_pos_bound (nextI (si s)) (numIndex c) HI) as Md.
      assert (IQ : idx_pages c (file_erase c (fI (sio s)) (nextI (si s) mod numIndex c) (nextI (si s) mod numIndex c + eraseSize c)) b) by (apply idx_erase; auto; lia).
      assert (IR : idx_pages c (file_write c (file_erase c (fI (sio s)) (nextI (si s) mod numIndex c) (nextI (si s) mod numIndex c + eraseSize c))
        (nextI (si s) mod numIndex c) w) b) by (apply idx_write; auto; lia).
      split; [exact IR|]. constructor; [exact IR|constructor; [exact IQ|constructor]].
    - cbn [negb sio sd si sv iwbuf irbuf availI minI nextI bufI putF getF].
      rewrite io_write_nf by auto. cbn [negb sio sd si sv iwbuf irbuf availI minI nextI bufI putF getF faults fD fI fV trace].
      eexists _, [_]. split; [reflexivity|].
      cbn [negb sio sd si sv iwbuf irbuf availI minI nextI bufI putF getF faults fD fI fV trace].
      rewrite u32_id by lia. do 9 (split; [solve [auto | reflexivity]|]). split; [repeat constructor|].
      intros HI b Hb IP. pose proof (Z.mod_pos_bound (nextI (si s)) (numIndex c) HI) as Md.
      assert (IR : idx_pages c (file_write c (fI (sio s)) (nextI (si s) mod numIndex c) w) b) by (apply idx_write; auto; lia).
      split; [exact IR|]. constructor; [exact IR|constructor].
  Qed.

  (** A state that differs from [s] in its index part only. *)
  Lemma InvG_idx s s' L n w : InvG s L n w -> sd s' = sd s -> faults (sio s') = [] ->
    fD (sio s') = fD (sio s) -> idx_safe c s' -> InvG s' L n w.
  Proof. intros [] E1 E2 E3 E4. constructor; rewrite ?E1, ?E3; auto. Qed.

  Lemma put_index_ok s L n w pn : InvG s L n w -> (useIndex c = true -> nextI (si s) <= nextD (sd s)) ->
    exists s' new, put_index c s pn = Ok s' /\ InvG s' L n w /\ sd s' = sd s /\ sv s' = sv s /\
      fD (sio s') = fD (sio s) /\ fV (sio s') = fV (sio s) /\
      trace (sio s') = new ++ trace (sio s) /\ Forall (fun im => fst (fst im) = fD (sio s)) new /\
      (useIndex c = false -> new = []) /\
      (useIndex c = true -> Forall (fun im => idx_pages c (snd (fst im)) (nextD (sd s) + 1)) new) /\
      (useIndex c = true -> forall i, get_count (iwbuf (si s)) = Ok i ->
         get_count (iwbuf (si s')) = Ok (if i >=? maxIdx c then 1 else i + 1)).
  Proof.
    intros I Hx. unfold put_index. destruct (useIndex c) eqn:U; cbn [negb].
    2:{ exists s, []. repeat (split; [solve [auto]|]); intros; discriminate. }
    specialize (Hx eq_refl). destruct (i_idx _ _ _ _ _ _ _ _ I U) as (Z1 & Nx & (i & Ci & Hi) & Ip).
    destruct (g_idx _ _ _ G U) as (_ & _ & NI).
    destruct (maxIdx_spec U) as [M1 M2]. pose proof (h_len _ _ _ (i_w _ _ _ _ _ _ _ _ I)) as Hw.
    pose proof (i_nextD _ _ _ _ _ _ _ _ I) as ND. pose proof (i_PB _ _ _ _ _ _ _ _ I) as IP.
    pose proof (g_PB _ _ _ G) as GP. pose proof (g_err _ _ _ G) as GE.
    pose proof (i_faults _ _ _ _ _ _ _ _ I) as If. pose proof (l_init c L0). pose proof (l_ks c L0). pose proof (l_ds c L0).
    rewrite Ci. cbn [bind].
    destruct (Z.geb_spec i (maxIdx c)) as [Ge|Lt].
    - destruct (writeIndexPage_ok s If Z1 ltac:(lia)) as (s1 & new & -> & e1 & e2 & e3 & e4 & e5 & e6 & e7 & e8 & e9 & e10 & e11).
      destruct (e11 ltac:(lia) (nextD (sd s) + 1) ltac:(lia) Ip) as [e12 e13].
      cbn [bind]. destruct (init_page_ok c L0) as (b & -> & Hb). cbn [bind].
      pose proof (h_len _ _ _ Hb) as Lb.
      rewrite st_ok by (rewrite ?le_enc_zlen; lia). cbn [bind].
      set (b1 := zwr b 8 (le_enc 4 pn)).
      assert (Lb1 : zlen b1 = pageSize c) by (unfold b1; rewrite zwr_length; rewrite ?le_enc_zlen; lia).
      assert (Cb1 : get_count b1 = Ok 0).
      { unfold b1. rewrite count_other by (rewrite ?le_enc_zlen; lia). rewrite (get_count_ok c L0 _ _ Hb). auto. }
      destruct (idx_append_ok (set_i s1 (i_wbuf (si s1) b1)) 0 U) as (b2 & E & Lb2 & Cb2); auto; try lia.
      { cbn. rewrite e1. auto. }
      rewrite E. eexists _, new. split; [reflexivity|]. cbn [set_i sd sv sio si i_wbuf].
      split; [|do 6 (split; [solve [auto]|]); split; [congruence|split; [auto|]]].
      2:{ intros _ j Ej. try rewrite Ci in Ej. injection Ej as <-. destruct (Z.geb_spec i (maxIdx c)); [exact Cb2|lia]. }
      eapply InvG_idx; eauto.
      intros _. cbn [set_i i_wbuf si sd sio iwbuf nextI]. rewrite e1, e6. split; [auto|split; [lia|split; [|exact e12]]]. exists 1. rewrite Cb2. split; [f_equal; lia|lia].
    - cbn [bind]. destruct (idx_append_ok s i U) as (b2 & E & Lb2 & Cb2); auto; try lia.
      rewrite E. eexists _, []. split; [reflexivity|]. cbn [set_i sd sv sio si i_wbuf].
      split; [|do 6 (split; [solve [auto]|]); split; [auto|split; [auto|]]].
      2:{ intros _ j Ej. try rewrite Ci in Ej. injection Ej as <-. destruct (Z.geb_spec i (maxIdx c)); [lia|exact Cb2]. }
      eapply InvG_idx; eauto.
      intros _. cbn [set_i i_wbuf si sd sio iwbuf nextI]. split; [auto|split; [lia|split; [|exact Ip]]]. eexists. rewrite Cb2. split; [reflexivity|lia].
  Qed.

  (** Starting a new write buffer. *)
  Lemma InvG_wbuf s L n w p w' : InvG s L n w -> holds c p w' -> InvG (set_d s (d_wbuf (sd s) p)) L n w'.
  Proof. intros [] H. constructor; auto. Qed.

  (** The log with a record appended. *)
  Lemma wf_append L r : wf_log c KB L -> zlen (cur L) < N -> rec_ok c KB r ->
    (forall x, In x (accepted L) -> rkey x < rkey r) ->
    wf_log c KB (mkLog (pages L) (lo L) (cur L ++ [r])).
  Proof.
    intros [] Hl Hr Ha. constructor; cbn [pages lo cur]; auto.
    - rewrite zlen_app. change (zlen [r]) with 1. lia.
    - unfold accepted in *. cbn [pages cur]. rewrite app_assoc, asc_app. split; auto. split; [exact I1 || (split; auto; exact I)|].
      intros x y Hx [<-|[]]. auto.
    - unfold accepted in *. cbn [pages cur]. rewrite app_assoc, Forall_app. split; auto.
  Qed.
  Lemma nth_seal L : nth (Z.to_nat (zlen (pages L))) (pages (seal D B L)) [] = cur L.
  Proof. unfold seal, zlen. cbn [pages]. rewrite Nat2Z.id, app_nth2, Nat.sub_diag by auto. auto. Qed.
  Lemma zlen_seal L : zlen (pages (seal D B L)) = zlen (pages L) + 1.
  Proof. unfold seal. cbn [pages]. rewrite zlen_app. auto. Qed.

  (** What sealing does, apart from the index area. *)
  Definition sealed (s s' : state) (L : log) (new : list (file * file * file)) : Prop :=
    let L' := seal D B L in
    Inv s' L' /\ sv s' = sv s /\ fV (sio s') = fV (sio s) /\
    (exists p, img c (pages L') (zlen (pages L)) p /\ fD (sio s') = sealed_file c (fD (sio s)) L p) /\
    trace (sio s') = new ++ trace (sio s) /\
    crash_ok c new (seal_points D B L) /\
    rbuf (sd s') = rbuf (sd s) /\ bufD (sd s') = bufD (sd s) /\
    (coh c s L -> zlen (pages L) mod D <> bufD (sd s) -> coh c s' L').

  Lemma crash_app new1 new2 F cps : crash_ok c new1 cps ->
    (exists p tl, cps = p :: tl /\ disk_ok c F (fst p) (snd p) /\
       (useIndex c = true -> Forall (fun im : file * file * file => idx_pages c (snd (fst im)) (zlen (fst p) + 1)) new2)) ->
    Forall (fun im : file * file * file => fst (fst im) = F) new2 ->
    (useIndex c = false -> new2 = []) -> crash_ok c (new2 ++ new1) cps.
  Proof.
    intros (H1 & H1' & n2 & n1 & En & H6 & H7) (p & tl & Hp & H2 & H5) H3 H4.
    assert (A : Forall (fun im => at_point c im p) new2).
    { apply Forall_forall. intros im E. rewrite Forall_forall in H3. unfold at_point. rewrite (H3 _ E). split; [auto|].
      intros U. specialize (H5 U). rewrite Forall_forall in H5. auto. }
    split; [|split; [intros U; rewrite (H4 U); auto|]].
    - apply Forall_app. split; auto. eapply Forall_impl; [|exact A]. intros im [A1 A2]. exists p. rewrite Hp. split; [now left|auto].
    - exists (new2 ++ n2), n1. subst. split; [now rewrite app_assoc|]. split; [auto|]. apply Forall_app. auto.
  Qed.

  Lemma put_seal s L : useRLC c = false -> Inv s L -> cur L <> [] -> zlen (pages L) + 1 + maxErr c < PB ->
    exists s1 s2 s3 b new, writePage c s = Ok (s1, zlen (pages L)) /\
      indexPage c s1 (zlen (pages L)) = Ok s2 /\ put_index c s2 (zlen (pages L)) = Ok s3 /\
      init_page c = Ok b /\ holds c b [] /\ sealed s (set_d s3 (d_wbuf (sd s3) b)) L new /\
      (useIndex c = true -> forall i, get_count (iwbuf (si s)) = Ok i ->
         get_count (iwbuf (si s3)) = Ok (if i >=? maxIdx c then 1 else i + 1)).
  Proof.
    intros HC I Hc Hp. destruct (writePage_ok c KB PB f G s L HC I Hc Hp)
      as (s1 & new & E1 & I1 & a1 & a2 & a3 & a4 & a5 & a6 & a7 & a8 & a9 & a10 & a11).
    destruct (indexPage_ok s1 _ _ _ I1) as (x & E2 & I2).
    { now rewrite zlen_seal. }
    { apply nth_seal. }
    destruct (put_index_ok (set_d s1 (d_spl (sd s1) x)) _ _ _ (zlen (pages L)) I2)
      as (s3 & new3 & E3 & I3 & b1 & b2 & b3 & b4 & b5 & b6 & b7 & b8 & b9).
    { intros U. cbn [set_d si sd d_spl nextD]. rewrite a1.
      destruct (i_idx _ _ _ _ _ _ _ _ I U) as (_ & Nx & _). rewrite (i_nextD _ _ _ _ _ _ _ _ I) in Nx.
      rewrite (i_nextD _ _ _ _ _ _ _ _ I1), zlen_seal. lia. }
    destruct (init_page_ok c L0) as (b & Eb & Hb).
    exists s1, (set_d s1 (d_spl (sd s1) x)), s3, b, (new3 ++ new).
    do 5 (split; [assumption|]). cbn [set_d d_spl sio sd sv] in *.
    split; [|cbn [set_d si] in b9; rewrite a1 in b9; exact b9].
    unfold sealed. split.
    { pose proof (InvG_wbuf _ _ _ _ b [] I3 Hb) as Q. unfold StoreFacts.Inv. rewrite zlen_seal. exact Q. }
    cbn [set_d d_wbuf sio sd sv rbuf bufD]. rewrite b1. cbn [d_spl rbuf bufD].
    split; [congruence|]. split; [congruence|]. split.
    { exists (wbuf (sd s1)). split; [|congruence]. split; [|auto]. rewrite nth_seal. apply (i_w _ _ _ _ _ _ _ _ I1). }
    split; [rewrite b5, a9; now rewrite app_assoc|]. split.
    { eapply crash_app; eauto. exists (pages (seal D B L), lo (seal D B L)). eexists. split; [reflexivity|].
      cbn [fst snd]. split; [apply (plain_disk _ _ _ _ _ _ _ _ HC I1)|].
      intros U. change (nextD (d_spl (sd s1) x)) with (nextD (sd s1)) in b8. rewrite (i_nextD _ _ _ _ _ _ _ _ I1) in b8. auto. }
    split; [auto|]. split; [auto|].
    intros Co Hh. specialize (a11 Co Hh). intros id H1 H2. cbn [set_d d_wbuf sd rbuf bufD] in *.
    apply a11; auto.
  Qed.

  (** ** embedDBPut with an acceptable key *)
  Definition vloc (s : state) : Z := if useVar c then var_loc c s else 0.

  (** What one accepted put does.  [hz]: the page about to be overwritten is not
      the one in the read buffer. *)
  Definition no_hazard_put (s : state) (L : log) : Prop :=
    zlen (cur L) >= N -> zlen (pages L) mod D <> bufD (sd s).
  Definition no_hazard_flush (s : state) (L : log) : Prop :=
    cur L <> [] -> zlen (pages L) mod D <> bufD (sd s).

  Lemma cmp_gt a b : 0 <= a < KB -> 0 <= b < KB -> b < a -> cmpK c a b = 1.
  Proof.
    intros Ha Hb H. rewrite (g_cmp _ _ _ G) by auto.
    destruct (Z.ltb_spec a b); [lia|]. destruct (Z.eqb_spec a b); [lia|auto].
  Qed.

  Lemma accepted_page L id r : In r (nth (Z.to_nat id) (pages L) []) -> In r (accepted L).
  Proof. intros H. unfold accepted. apply in_or_app. left. eapply in_page_concat; eauto. Qed.

  (** The key compared with by the order check after a flush. *)
  Lemma last_slot s L n w p id : InvG s L n w -> 0 <= id < zlen (pages L) -> img c (pages L) id p ->
    exists k, rec_key c p (N - 1) = Ok k /\ 0 <= k < KB /\
      (zlen (nth (Z.to_nat id) (pages L) []) = N -> last_key (nth (Z.to_nat id) (pages L) []) = Some k) /\
      (zlen (nth (Z.to_nat id) (pages L) []) < N -> k = 0).
  Proof.
    intros I Hid [Hh _]. pose proof (i_wf _ _ _ _ _ _ _ _ I) as W.
    destruct (page_snoc c KB L id W Hid) as (r & rs & E). rewrite E in *.
    pose proof (page_recs c KB L id W) as Rc. rewrite E, Forall_app in Rc. destruct Rc as [_ Rc]. pose proof (Forall_inv Rc) as Rr.
    pose proof (l_fit c L0) as Fit. pose proof (h_max _ _ _ Hh) as Hm.
    assert (Zl : zlen (rs ++ [r]) = zlen rs + 1) by (rewrite zlen_app; auto). pose proof (zlen_nonneg rs) as Z0.
    destruct (Z.eq_dec (zlen (rs ++ [r])) N) as [Full|NF].
    - exists (rkey r). replace (N - 1) with (Z.of_nat (length rs)) by (unfold zlen in *; lia).
      split; [|split; [apply Rr|split; [intros _; apply last_key_app|lia]]].
      eapply rec_key_ok; eauto; [apply (g_KB _ _ _ G)|]. rewrite nth_error_app2, Nat.sub_diag; auto.
    - exists 0. split; [|split; [pose proof (g_KB _ _ _ G); lia|split; [lia|auto]]].
      unfold rec_key. pose proof (L_slot c L0 (N - 1) ltac:(lia)) as (S1 & S2 & S3).
      pose proof (L_ksz c L0). pose proof (h_len _ _ _ Hh) as Hl. pose proof (l_ks c L0).
      assert (keySize c <= recordSize c) by (pose proof (l_ds c L0); rewrite (l_rec c L0); destruct (useVar c); lia).
      rewrite ldz_ok by lia. rewrite <- bytes_at_zrd, (h_tail _ _ _ Hh) by lia. now rewrite le_dec_zeros.
  Qed.

  (** The order check of embedDBPut. *)
  Definition order_check (s : state) (count key : Z) : res (state * bool) :=
    if (nextD (sd s) >? 0) || (count >? 0) then
       '(s, prev) <-
         (if count =? 0 then
            let '(s, _) := readPage s (u32 (nextD (sd s) - 1) mod numData c) in
            k <- rec_key c (rbuf (sd s)) (maxRec c - 1) ;;
            Ok (s, k)
          else
            k <- rec_key c (wbuf (sd s)) (count - 1) ;;
            Ok (s, k)) ;;
       Ok (s, negb (cmpK c key prev =? 1))
     else Ok (s, false).
  Lemma order_ok s L key : Inv s L -> 0 <= key < KB -> (forall x, In x (accepted L) -> rkey x < key) ->
    exists s0, order_check s (zlen (cur L)) key = Ok (s0, false) /\ sio s0 = sio s /\ si s0 = si s /\ sv s0 = sv s /\ Inv s0 L /\
              (exists p q, sd s0 = d_rbuf (sd s) p q) /\
              (coh c s L -> coh c s0 L) /\ (zlen (cur L) > 0 \/ zlen (pages L) = 0 -> s0 = s).
  Proof.
    intros I Hk Ha. pose proof (i_wf _ _ _ _ _ _ _ _ I) as W.
    pose proof (i_w _ _ _ _ _ _ _ _ I) as Iw. pose proof (l_fit c L0) as Fit.
    pose proof (zlen_nonneg (cur L)) as Zc. pose proof (zlen_nonneg (pages L)) as Zp.
    assert (Same : exists p q, sd s = d_rbuf (sd s) p q) by (exists (rbuf (sd s)), (bufD (sd s)); destruct (sd s); reflexivity).
    unfold order_check. rewrite (i_nextD _ _ _ _ _ _ _ _ I).
      destruct ((zlen (pages L) >? 0) || (zlen (cur L) >? 0)) eqn:C.
      2:{ exists s. do 5 (split; [solve [auto]|]). split; [exact Same|]. auto. }
      destruct (Z.eqb_spec (zlen (cur L)) 0) as [C0|C1].
      - assert (NP : 0 < zlen (pages L)) by lia. pose proof (w_ne _ _ _ W NP) as WN.
        pose proof (i_PB _ _ _ _ _ _ _ _ I). pose proof (g_PB _ _ _ G). pose proof (g_err _ _ _ G).
        rewrite u32_id by lia.
        destruct (readPage_live c KB PB f G s L _ _ (zlen (pages L) - 1) I ltac:(lia)) as (p & -> & Ex & Co).
        pose proof (readPage_inv c KB PB f s L _ _ (zlen (pages L) - 1) p I Ex) as I0.
        destruct Ex as (id' & Hid' & Em & Im).
        cbn [sd d_rbuf rbuf].
        destruct (last_slot s L _ _ p id' I Hid' Im) as (k & Ek & Kr & K1 & K2). rewrite Ek. cbn [bind].
        assert (Lt : k < key).
        { destruct (Z.eq_dec (zlen (nth (Z.to_nat id') (pages L) [])) N) as [F1|F1].
          - specialize (K1 F1). destruct (page_snoc c KB L id' W Hid') as (r & rs & E). rewrite E in *.
            rewrite last_key_app in K1. injection K1 as <-. apply Ha. apply (accepted_page L id').
            rewrite E. apply in_or_app. right. now left.
          - rewrite K2 by (pose proof (h_max _ _ _ (proj1 Im)); lia).
            destruct (page_ne c KB L id' W Hid') as (r & rs & E).
            assert (Ia : In r (accepted L)) by (apply (accepted_page L id'); rewrite E; now left).
            specialize (Ha _ Ia). pose proof (w_recs _ _ _ W) as Wr. rewrite Forall_forall in Wr.
            destruct (Wr _ Ia) as [? _]. lia. }
        rewrite (cmp_gt key k Hk Kr Lt). change (negb (1 =? 1)) with false.
        eexists. split; [reflexivity|]. cbn [sio si sv]. do 3 (split; [reflexivity|]). split; [exact I0|].
        split; [do 2 eexists; reflexivity|]. split; [|lia]. intros Hc. pose proof (w_live _ _ _ W). pose proof (w_lo _ _ _ W).
        apply (readPage_coh c KB PB G); auto; lia.
      - destruct (exists_last (l := cur L)) as (rs & r & E); [intros E; rewrite E in C1; now apply C1|].
        assert (Zl : zlen (cur L) = zlen rs + 1) by (rewrite E, zlen_app; auto).
        replace (zlen (cur L) - 1) with (Z.of_nat (length rs)) by (unfold zlen in *; lia).
        assert (In r (accepted L)) by (unfold accepted; apply in_or_app; right; rewrite E; apply in_or_app; right; now left).
        pose proof (w_recs _ _ _ W) as Wr. rewrite Forall_forall in Wr.
        rewrite (rec_key_ok c L0 _ (cur L) (length rs) r KB (proj2 (g_KB _ _ _ G)) Iw); auto.
        2:{ rewrite E, nth_error_app2, Nat.sub_diag; auto. }
        cbn [bind]. rewrite (cmp_gt key (rkey r) Hk (proj1 (Wr _ H)) (Ha _ H)).
        change (negb (1 =? 1)) with false. exists s. do 5 (split; [solve [auto]|]). split; [exact Same|]. auto.
  Qed.

  Lemma put_ok s L key data : Inv s L -> useRLC c = false -> 0 <= key < KB -> length data = dsz c ->
    (forall x, In x (accepted L) -> rkey x < key) -> zlen (pages L) + 1 + maxErr c < PB ->
    (useVar c = true -> 0 <= vloc s < 2 ^ 32) ->
    let L' := log_put N D B L (mkR key data (vloc s)) in
    exists s' new, embedDBPut c s key data = Ok (s', 0) /\ Inv s' L' /\ sv s' = sv s /\
      fV (sio s') = fV (sio s) /\
      trace (sio s') = new ++ trace (sio s) /\ crash_ok c new (put_points N D B L) /\
      (zlen (cur L) >= N -> exists p, img c (pages L') (zlen (pages L)) p /\ fD (sio s') = sealed_file c (fD (sio s)) L p) /\
      (zlen (cur L) < N -> sio s' = sio s /\ si s' = si s) /\
      (coh c s L -> no_hazard_put s L -> coh c s' L') /\
      (zlen (cur L) > 0 \/ zlen (pages L) = 0 -> bufD (sd s') = bufD (sd s)) /\
      (zlen (cur L) >= N -> useIndex c = true -> forall i, get_count (iwbuf (si s)) = Ok i ->
         get_count (iwbuf (si s')) = Ok (if i >=? maxIdx c then 1 else i + 1)).
  Proof.
    intros I Hrlc Hk Hd Ha Hp Hv L'. pose proof (i_wf _ _ _ _ _ _ _ _ I) as W.
    pose proof (i_w _ _ _ _ _ _ _ _ I) as Iw. pose proof (l_fit c L0) as Fit.
    pose proof (zlen_nonneg (cur L)) as Zc. pose proof (zlen_nonneg (pages L)) as Zp.
    assert (Rr : rec_ok c KB (mkR key data (vloc s))) by (split; [auto|split; auto]).
    unfold embedDBPut. rewrite (get_count_ok c L0 _ _ Iw). cbn [bind].
    destruct (order_ok s L key I Hk Ha) as (s0 & Chk & e1 & e2 & e3 & I0 & _ & Co0 & Es0).
    unfold order_check in Chk. rewrite Chk. clear Chk. cbn [bind].
    pose proof (i_w _ _ _ _ _ _ _ _ I0) as Iw0.
    assert (Vl : vloc s0 = vloc s) by (unfold vloc, var_loc; now rewrite e3).
    rewrite Hrlc.
    destruct (Z.geb_spec (zlen (cur L)) N) as [Ge|Lt].
    - (* a full page is written *)
      assert (Hc : cur L <> []) by (intros E; rewrite E in *; cbn in Ge; lia).
      rewrite (Es0 ltac:(left; lia)) in *. clear Es0 Co0 I0 e1 e2 e3.
      destruct (put_seal s L Hrlc I Hc Hp) as (s1 & s2 & s3 & b & new & E1 & E2 & E3 & Eb & Hb & Sd & Cn).
      rewrite E1. cbn [bind]. rewrite E2. cbn [bind]. rewrite E3. cbn [bind]. rewrite Eb. cbn [bind].
      destruct Sd as (I3 & b1 & bV & b2 & b3 & b4 & b5 & b6 & b7). cbn [set_d d_wbuf sd wbuf sio sv rbuf bufD] in *.
      pose proof (i_w _ _ _ _ _ _ _ _ I3) as Iw3.
      replace (var_loc c (set_d s3 (d_wbuf (sd s3) b))) with (var_loc c s) by (unfold var_loc; cbn [set_d sv]; now rewrite b1).
      destruct (put_record_ok c L0 b [] (mkR key data (vloc s)) (var_loc c s) KB Hb ltac:(cbn; lia) Rr)
        as (w & Ew & Hw).
      { intros U. unfold vloc. cbn [rvar]. now rewrite U. }
      change (zlen (@nil rcd)) with 0 in Ew. cbn [rkey rdata] in Ew. rewrite Ew. cbn [bind].
      eexists _, new. split; [reflexivity|]. cbn [sio sv sd si d_wbuf rbuf bufD].
      assert (EL : L' = mkLog (pages (seal D B L)) (lo (seal D B L)) [mkR key data (vloc s)]).
      { unfold L', log_put. destruct (Z.geb_spec (zlen (cur L)) N); [auto|lia]. }
      assert (W' : wf_log c KB L').
      { rewrite EL. pose proof (i_wf _ _ _ _ _ _ _ _ I3) as W3.
        apply (wf_append (seal D B L) (mkR key data (vloc s))); auto.
        - cbn. lia.
        - intros x Hx. cbn [rkey]. apply Ha. unfold accepted, seal in Hx. cbn [pages cur] in Hx.
          rewrite concat_app in Hx. cbn [concat] in Hx. rewrite !app_nil_r in Hx. exact Hx. }
      split; [|split; [auto|split; [exact bV|split; [exact b3|split; [|split; [|split; [|split; [|split]]]]]]]].
      + unfold StoreFacts.Inv. rewrite EL. cbn [pages lo cur]. rewrite EL in W'.
        destruct I3. constructor; auto.
      + unfold put_points. destruct (Z.geb_spec (zlen (cur L)) N); [auto|lia].
      + intros _. rewrite EL. cbn [pages]. destruct b2 as (p & P1 & P2). exists p. auto.
      + lia.
      + intros Co Hz. specialize (b7 Co (Hz ltac:(lia))). rewrite EL. intros id J1 J2. apply (b7 id J1 J2).
      + intros _. exact b6.
      + intros _. exact Cn.
    - (* room in the write buffer *)
      cbn [bind]. fold (vloc s0) in *.
      destruct (put_record_ok c L0 (wbuf (sd s0)) (cur L) (mkR key data (vloc s)) (var_loc c s0) KB Iw0 ltac:(lia) Rr)
        as (w & Ew & Hw).
      { intros U. rewrite <- Vl. unfold vloc. cbn [rvar]. now rewrite U. }
      cbn [rkey rdata] in Ew. rewrite Ew. cbn [bind].
      eexists _, []. split; [reflexivity|]. cbn [set_d sio sv sd si].
      assert (EL : L' = mkLog (pages L) (lo L) (cur L ++ [mkR key data (vloc s)])).
      { unfold L', log_put. destruct (Z.geb_spec (zlen (cur L)) N); [lia|auto]. }
      assert (W' : wf_log c KB L').
      { rewrite EL. apply wf_append; auto. }
      split; [|split; [auto|split; [now rewrite e1|split; [now rewrite e1|split; [|split; [|split; [|split; [|split]]]]]]]].
      + unfold StoreFacts.Inv. rewrite EL in *. cbn [pages lo cur].
        destruct I0. constructor; auto.
      + apply crash_intro. unfold put_points. destruct (Z.geb_spec (zlen (cur L)) N); [lia|constructor].
      + lia.
      + auto.
      + intros Co _. specialize (Co0 Co). rewrite EL. intros id J1 J2. apply (Co0 id J1 J2).
      + intros Hb. cbn [d_wbuf bufD]. now rewrite (Es0 Hb).
      + lia.
  Qed.

  (** ** embedDBPut with a key that is not larger than the last one *)
  Lemma cmp_le a b : 0 <= a < KB -> 0 <= b < KB -> a <= b -> cmpK c a b <> 1.
  Proof.
    intros Ha Hb H. rewrite (g_cmp _ _ _ G) by auto.
    destruct (Z.ltb_spec a b); [lia|]. destruct (Z.eqb_spec a b); lia.
  Qed.

  Definition same_but_rbuf (s s' : state) : Prop :=
    sio s' = sio s /\ si s' = si s /\ sv s' = sv s /\
    exists p q, sd s' = d_rbuf (sd s) p q.

  Lemma same_rbuf_refl s : same_but_rbuf s s.
  Proof. do 3 (split; [auto|]). exists (rbuf (sd s)), (bufD (sd s)). destruct (sd s); reflexivity. Qed.

  Lemma last_page_last s L : Inv s L -> 0 < zlen (pages L) -> cur L = [] ->
    last_key (accepted L) = last_key (nth (Z.to_nat (zlen (pages L) - 1)) (pages L) []).
  Proof.
    intros I NP C0. pose proof (i_wf _ _ _ _ _ _ _ _ I) as W.
    destruct (page_snoc c KB L (zlen (pages L) - 1) W ltac:(lia)) as (r & rs & E). rewrite E.
    unfold accepted. rewrite C0, app_nil_r.
    destruct (exists_last (l := pages L)) as (ps & p & Ep); [intros Z0; rewrite Z0 in NP; now cbn in NP|].
    assert (Zp : zlen (pages L) = zlen ps + 1) by (rewrite Ep, zlen_app; auto).
    replace (Z.to_nat (zlen (pages L) - 1)) with (length ps) in E by (unfold zlen in *; lia).
    rewrite Ep in *. rewrite app_nth2, Nat.sub_diag in E by auto. cbn in E. subst p.
    rewrite concat_app. cbn [concat]. rewrite app_nil_r, app_assoc, !last_key_app. auto.
  Qed.

  Lemma put_reject s L key data k0 : Inv s L -> 0 <= key < KB -> last_key (accepted L) = Some k0 -> key <= k0 ->
    (cur L = [] -> coh c s L /\ zlen (nth (Z.to_nat (zlen (pages L) - 1)) (pages L) []) = N) ->
    exists s', embedDBPut c s key data = Ok (s', 1) /\ Inv s' L /\ same_but_rbuf s s' /\
      (coh c s L -> coh c s' L) /\ (cur L <> [] -> s' = s).
  Proof.
    intros I Hk HL Hle Hf. pose proof (i_wf _ _ _ _ _ _ _ _ I) as W.
    pose proof (i_w _ _ _ _ _ _ _ _ I) as Iw. pose proof (l_fit c L0) as Fit.
    pose proof (zlen_nonneg (cur L)) as Zc. pose proof (zlen_nonneg (pages L)) as Zp.
    unfold embedDBPut. rewrite (get_count_ok c L0 _ _ Iw). cbn [bind].
    rewrite (i_nextD _ _ _ _ _ _ _ _ I).
    destruct (Z.eqb_spec (zlen (cur L)) 0) as [C0|C1].
    - assert (Ce : cur L = []) by (destruct (cur L); [auto|exfalso; unfold zlen in C0; cbn in C0; lia]).
      assert (NP : 0 < zlen (pages L)).
      { destruct (pages L) eqn:E; [|unfold zlen; cbn; lia]. exfalso. unfold accepted in HL. rewrite E, Ce in HL. discriminate. }
      destruct (Hf Ce) as [Co Full]. pose proof (w_ne _ _ _ W NP) as WN.
      pose proof (i_PB _ _ _ _ _ _ _ _ I) as IP. pose proof (g_PB _ _ _ G) as GP. pose proof (g_err _ _ _ G) as GE.
      replace ((zlen (pages L) >? 0) || (zlen (cur L) >? 0)) with true by lia.
      rewrite u32_id by lia.
      destruct (readPage_live c KB PB f G s L _ _ (zlen (pages L) - 1) I ltac:(lia)) as (p & -> & Ex & Cp).
      pose proof (readPage_inv c KB PB f s L _ _ (zlen (pages L) - 1) p I Ex) as I0.
      specialize (Cp Co). cbn [sd d_rbuf rbuf].
      destruct (last_slot s L _ _ p (zlen (pages L) - 1) I ltac:(lia) Cp) as (k & Ek & Kr & K1 & K2). rewrite Ek. cbn [bind].
      specialize (K1 Full). rewrite (last_page_last s L I NP Ce), K1 in HL. injection HL as ->.
      pose proof (cmp_le key k0 Hk Kr Hle) as Q.
      destruct (Z.eqb_spec (cmpK c key k0) 1); [contradiction|]. cbn [negb bind].
      eexists. split; [reflexivity|]. split; [exact I0|]. split.
      { do 3 (split; [reflexivity|]). do 2 eexists; reflexivity. }
      split; [|congruence]. intros _. pose proof (w_live _ _ _ W). pose proof (w_lo _ _ _ W).
      apply (readPage_coh c KB PB G); auto; lia.
    - destruct (exists_last (l := cur L)) as (rs & r & E); [intros E; rewrite E in C1; now apply C1|].
      assert (Zl : zlen (cur L) = zlen rs + 1) by (rewrite E, zlen_app; auto).
      pose proof (zlen_nonneg rs) as Zr.
      replace ((zlen (pages L) >? 0) || (zlen (cur L) >? 0)) with true by lia.
      replace (zlen (cur L) - 1) with (Z.of_nat (length rs)) by (unfold zlen in *; lia).
      assert (Ir : In r (accepted L)) by (unfold accepted; apply in_or_app; right; rewrite E; apply in_or_app; right; now left).
      pose proof (w_recs _ _ _ W) as Wr. rewrite Forall_forall in Wr.
      rewrite (rec_key_ok c L0 _ (cur L) (length rs) r KB (proj2 (g_KB _ _ _ G)) Iw); auto.
      2:{ rewrite E, nth_error_app2, Nat.sub_diag; auto. }
      cbn [bind].
      assert (rkey r = k0).
      { unfold accepted in HL. rewrite E, app_assoc, last_key_app in HL. now injection HL. }
      subst k0. pose proof (cmp_le key (rkey r) Hk (proj1 (Wr _ Ir)) Hle) as Q.
      destruct (Z.eqb_spec (cmpK c key (rkey r)) 1); [contradiction|]. cbn [negb bind].
      exists s. split; [reflexivity|]. split; [exact I|]. split; [apply same_rbuf_refl|]. auto.
  Qed.

  (** ** embedDBFlush, data and index part *)
  Lemma flush_empty s L : Inv s L -> cur L = [] -> embedDBFlush c s = Ok (s, 0).
  Proof.
    intros I Hc. unfold embedDBFlush. rewrite (get_count_ok c L0 _ _ (i_w _ _ _ _ _ _ _ _ I)), Hc. reflexivity.
  Qed.

  (** Room for one more entry in the buffered index page. *)
  Definition index_room (s : state) : Prop :=
    useIndex c = true -> exists n, get_count (iwbuf (si s)) = Ok n /\ n < maxIdx c.

  Lemma flush_data_ok s L : useRLC c = false -> Inv s L -> cur L <> [] -> zlen (pages L) + 1 + maxErr c < PB -> index_room s ->
    exists s' new, embedDBFlush c s =
        (if useVar c then '(s, r) <- embedDBFlushVar c s' ;; if r =? 0 then Ok (s, 0) else Ok (s, -1)
         else Ok (s', 0)) /\ sealed s s' L new /\ (useIndex c = true -> get_count (iwbuf (si s')) = Ok 0).
  Proof.
    intros HC I Hc Hp Hr. destruct (writePage_ok c KB PB f G s L HC I Hc Hp)
      as (s1 & new & E1 & I1 & a1 & a2 & a3 & a4 & a5 & a6 & a7 & a8 & a9 & a10 & a11).
    pose proof (zlen_nonneg (pages L)) as Zp. pose proof (g_PB _ _ _ G) as GP. pose proof (g_err _ _ _ G) as GE.
    unfold embedDBFlush. rewrite (get_count_ok c L0 _ _ (i_w _ _ _ _ _ _ _ _ I)). cbn [bind].
    assert (C1 : 0 < zlen (cur L)) by (destruct (cur L); [congruence|unfold zlen; cbn [length]; lia]).
    destruct (Z.ltb_spec (zlen (cur L)) 1); [lia|]. rewrite E1. cbn [bind].
    destruct (Z.eqb_spec (zlen (pages L)) NOPAGE); [unfold NOPAGE in *; lia|].
    destruct (indexPage_ok s1 _ _ _ I1) as (x & E2 & I2).
    { now rewrite zlen_seal. }
    { apply nth_seal. }
    rewrite E2. cbn [bind]. set (s2 := set_d s1 (d_spl (sd s1) x)) in *.
    destruct (init_page_ok c L0) as (b & Eb & Hb). pose proof (h_len _ _ _ Hb) as Lb.
    assert (Ix : exists s3 new3, (if useIndex c then
             idxcount <- get_count (iwbuf (si s2)) ;;
             s <- idx_append c s2 idxcount ;;
             '(s, r) <- writeIndexPage c s ;;
             if r =? NOPAGE then Ok (s, false)
             else b <- init_page c ;; Ok (set_i s (i_wbuf (si s) b), true)
           else Ok (s2, true)) = Ok (s3, true) /\ InvG s3 (seal D B L) (zlen (pages L) + 1) (cur L) /\
           sd s3 = sd s2 /\ sv s3 = sv s2 /\ fD (sio s3) = fD (sio s2) /\ fV (sio s3) = fV (sio s2) /\
           trace (sio s3) = new3 ++ trace (sio s2) /\ Forall (fun im => fst (fst im) = fD (sio s2)) new3 /\
           (useIndex c = false -> new3 = []) /\
           (useIndex c = true -> Forall (fun im => idx_pages c (snd (fst im)) (nextD (sd s2) + 1)) new3) /\
           (useIndex c = true -> get_count (iwbuf (si s3)) = Ok 0)).
    { destruct (useIndex c) eqn:U.
      2:{ exists s2, []. repeat (split; [solve [auto]|]); intros; discriminate. }
      destruct (i_idx _ _ _ _ _ _ _ _ I2 U) as (Z1 & Nx & (i & Ci & Hi) & Ip).
      destruct (g_idx _ _ _ G U) as (_ & _ & NI).
      destruct (Hr U) as (i' & Ci' & Hi'). rewrite <- a1 in Ci'.
      change (si s2) with (si s1) in *. assert (i' = i) by congruence. subst i'.
      rewrite Ci. cbn [bind].
      assert (Nx' : 0 <= nextI (si s1) <= zlen (pages L) + 1).
      { destruct (i_idx _ _ _ _ _ _ _ _ I U) as (_ & Nx' & _). rewrite (i_nextD _ _ _ _ _ _ _ _ I) in Nx'. rewrite a1. lia. }
      destruct (idx_append_ok s2 i U Z1 Ci ltac:(lia)) as (b2 & -> & Lb2 & Cb2).
      { apply (h_len _ _ _ (i_w _ _ _ _ _ _ _ _ I2)). }
      cbn [bind].
      destruct (writeIndexPage_ok (set_i s2 (i_wbuf (si s2) b2))) as (s3 & new3 & -> & e1 & e2 & e3 & e4 & e5 & e6 & e7 & e8 & e9 & e10 & e11).
      { apply (i_faults _ _ _ _ _ _ _ _ I2). }
      { exact Lb2. }
      { cbn [set_i i_wbuf si nextI]. change (si s2) with (si s1). lia. }
      cbn [bind]. cbn [set_i i_wbuf si nextI]. change (si s2) with (si s1) in *.
      destruct (Z.eqb_spec (nextI (si s1)) NOPAGE); [unfold NOPAGE in *; lia|].
      rewrite Eb. cbn [bind]. eexists _, new3. split; [reflexivity|].
      cbn [set_i i_wbuf si nextI sd sv sio iwbuf] in *.
      destruct (e11 ltac:(lia) (nextD (sd s2) + 1)) as [e12 e13]; [|exact Ip|].
      { rewrite (i_nextD _ _ _ _ _ _ _ _ I2), zlen_seal. lia. }
      split; [|do 6 (split; [solve [auto]|]); split; [congruence|split; [auto|]]].
      2:{ intros _. apply (get_count_ok c L0 _ _ Hb). }
      eapply InvG_idx; eauto.
      intros _. cbn [set_i i_wbuf si sd sio iwbuf nextI]. rewrite e6, e1. split; [auto|]. split.
      { unfold s2. cbn [set_d d_spl sd nextD]. rewrite (i_nextD _ _ _ _ _ _ _ _ I1), zlen_seal. lia. }
      split; [|exact e12]. exists 0. rewrite (get_count_ok c L0 _ _ Hb). split; [auto|]. destruct (maxIdx_spec U). lia. }
    destruct Ix as (s3 & new3 & -> & I3 & b1 & b2 & b3 & b4 & b5 & b6 & b7 & b8 & b9). cbn [bind negb].
    rewrite Eb. cbn [bind]. exists (set_d s3 (d_wbuf (sd s3) b)), (new3 ++ new). split; [reflexivity|].
    unfold s2 in *. cbn [set_d d_spl sio sd sv] in *. split; [|exact b9].
    unfold sealed. split.
    { pose proof (InvG_wbuf _ _ _ _ b [] I3 Hb) as Q. unfold StoreFacts.Inv. rewrite zlen_seal. exact Q. }
    cbn [set_d d_wbuf sio sd sv rbuf bufD]. rewrite b1. cbn [d_spl rbuf bufD].
    split; [congruence|]. split; [congruence|]. split.
    { exists (wbuf (sd s1)). split; [|congruence]. split; [|auto]. rewrite nth_seal. apply (i_w _ _ _ _ _ _ _ _ I1). }
    split; [rewrite b5, a9; now rewrite app_assoc|]. split.
    { eapply crash_app; eauto. exists (pages (seal D B L), lo (seal D B L)). eexists. split; [reflexivity|].
      cbn [fst snd]. split; [apply (plain_disk _ _ _ _ _ _ _ _ HC I1)|].
      intros U. change (nextD (d_spl (sd s1) x)) with (nextD (sd s1)) in b8. rewrite (i_nextD _ _ _ _ _ _ _ _ I1) in b8. auto. }
    split; [auto|]. split; [auto|].
    intros Co Hh. specialize (a11 Co Hh). intros id H1 H2. cbn [set_d d_wbuf sd rbuf bufD] in *.
    apply a11; auto.
  Qed.
End Put.

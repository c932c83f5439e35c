(** The invariant of a database without record-level consistency, and its
    preservation by page writes. *)
From Verif Require Import Base BaseFacts Config Spline Storage DB Spec SpecSpline SplineFacts
  SpecPage SpecStore LogFacts PageFacts SearchFacts.
Open Scope Z_scope.
Ltac Zify.zify_post_hook ::= ZifyBool.elim_bool_cstr.
Ltac Zify.zify_convert_to_euclidean_division_equations_flag ::= constr:(false).

(** First key of page [p]. *)
Definition kfun (P : list (list rcd)) (p : Z) : Z :=
  match nth (Z.to_nat p) P [] with [] => 0 | r :: _ => rkey r end.

(** Every page of the index file carries a number below [b], or is erased. *)
Definition idx_pages (c : cfg) (F : file) (b : Z) : Prop :=
  idx_blank c -> forall i, 0 <= i < flen F -> zlen (fpg F i) = pageSize c /\ u32 (page_id (fpg F i) + 1) <= b.
Definition idx_safe (c : cfg) (s : state) : Prop :=
  useIndex c = true ->
  zlen (iwbuf (si s)) = pageSize c /\ 0 <= nextI (si s) <= nextD (sd s) + 1 /\
  (exists n, get_count (iwbuf (si s)) = Ok n /\ 0 <= n <= maxIdx c) /\
  idx_pages c (fI (sio s)) (nextD (sd s) + 1).

(** The read buffer: nothing, or the image of some page written earlier at the
    place it is labelled with.  With record-level consistency it may also hold a
    page read from a place where no page has been written yet. *)
Definition rb_ok (c : cfg) (d : dst) (P : list (list rcd)) : Prop :=
  bufD d = NOPAGE \/
  (exists id, 0 <= id < zlen P /\ bufD d = id mod numData c /\ img c P id (rbuf d)) \/
  (useRLC c = true /\ zlen P <= bufD d < numData c).

(** Pages kept free for record-level consistency; the data file with them. *)
Definition reserve (c : cfg) : Z := if useRLC c then 2 * eraseSize c else 0.
Definition live_ok (c : cfg) (F : file) (P : list (list rcd)) (l : Z) : Prop :=
  forall id, l <= id < zlen P -> file_read F (id mod numData c) = Some (fpg F (id mod numData c)) /\
                                 img c P id (fpg F (id mod numData c)).
Definition store_ok (c : cfg) (F : file) (P : list (list rcd)) (l : Z) : Prop :=
  if useRLC c then live_ok c F P l else disk_ok c F P l.

(** The read buffer is not stale. *)
Definition coh (c : cfg) (s : state) (L : log) : Prop :=
  forall id, lo L <= id < zlen (pages L) -> id mod numData c = bufD (sd s) ->
    img c (pages L) id (rbuf (sd s)).

(** An aligned block does not straddle the end of the area. *)
Lemma aligned_block l D B : 0 < B -> 0 < D -> D mod B = 0 -> l mod B = 0 -> l mod D + B <= D.
Proof.
  intros HB HD M1 M2. apply Z.mod_divide in M1 as [q ->], M2 as [t ->]; try lia.
  rewrite Z.mul_mod_distr_r by nia. assert (0 < q) by nia. pose proof (Z.mod_pos_bound t q ltac:(lia)). nia.
Qed.
Lemma mod_window a b D B : 0 < D -> b <= a < b + D -> b mod D <= a mod D -> a mod D < b mod D + B -> a < b + B.
Proof.
  intros HD H H1 H2. pose proof (Z.mod_eq a D ltac:(lia)) as A. pose proof (Z.mod_eq b D ltac:(lia)) as Bq.
  set (q := a / D) in *. set (r := b / D) in *. clearbody q r.
  pose proof (Z.mod_pos_bound a D HD). pose proof (Z.mod_pos_bound b D HD).
  set (x := a mod D) in *. set (y := b mod D) in *. clearbody x y.
  assert (q = r) by nia. subst. lia.
Qed.

Section Store.
  Variables (c : cfg) (KB PB f : Z).
  Hypothesis G : setting c KB PB.

  (** [n] pages are in the spline; the write buffer holds [w]. *)
  Record InvG (s : state) (L : log) (n : Z) (w : list rcd) : Prop := {
    i_faults : faults (sio s) = [];
    i_nextD : nextD (sd s) = zlen (pages L);
    i_PB : zlen (pages L) + maxErr c < PB;
    i_minD : minD (sd s) = lo L;
    i_availD : availD (sd s) = numData c - (zlen (pages L) - lo L) - reserve c;
    i_disk : store_ok c (fD (sio s)) (pages L) (lo L);
    i_w : holds c (wbuf (sd s)) w;
    i_wf : wf_log c KB L;
    i_rb : rb_ok c (sd s) (pages L);
    i_spl : if useBinary c then spl (sd s) = None
            else exists sp, spl (sd s) = Some sp /\ SI (kfun (pages L)) f KB PB sp n /\
                            s_maxErr sp = maxErr c;
    i_f : 0 <= f <= lo L;
    i_fe : maxErr c <= 1 \/ f = 0;
    i_idx : idx_safe c s
  }.
  Definition Inv (s : state) (L : log) : Prop := InvG s L (zlen (pages L)) (cur L).
  Lemma plain_disk s L n w : useRLC c = false -> InvG s L n w -> disk_ok c (fD (sio s)) (pages L) (lo L).
  Proof. intros HC []. unfold store_ok in i_disk0. now rewrite HC in i_disk0. Qed.

  Lemma L0 : layout c.
  Proof. exact (g_lay _ _ _ G). Qed.

  (** ** Small facts *)
  Lemma D_pos : 0 < numData c.
  Proof. destruct G. lia. Qed.
  Lemma mod_D id : 0 <= id mod numData c < numData c.
  Proof. pose proof D_pos. apply Z.mod_pos_bound. auto. Qed.

  (** Two pages in a window of [D] pages with the same physical place are equal. *)
  Lemma mod_inj a b : a mod numData c = b mod numData c -> a <= b < a + numData c -> a = b.
  Proof.
    intros E H. pose proof D_pos as DP.
    pose proof (Z_div_mod_eq_full a (numData c)) as A. pose proof (Z_div_mod_eq_full b (numData c)) as B.
    rewrite E in A. set (q := a / numData c) in *. set (r := b / numData c) in *. clearbody q r.
    assert (q = r) by nia. subst. lia.
  Qed.

  Lemma page_asc L id : wf_log c KB L -> ascending (nth (Z.to_nat id) (pages L) []).
  Proof. intros []. apply asc_page. unfold accepted in w_asc. rewrite asc_app in w_asc. tauto. Qed.
  Lemma page_recs L id : wf_log c KB L -> Forall (rec_ok c KB) (nth (Z.to_nat id) (pages L) []).
  Proof.
    intros []. apply Forall_forall. intros r H. apply in_page_concat in H.
    eapply Forall_forall; [exact w_recs|]. unfold accepted. apply in_or_app; auto.
  Qed.
  Lemma page_ne L id : wf_log c KB L -> 0 <= id < zlen (pages L) ->
    exists r rs, nth (Z.to_nat id) (pages L) [] = r :: rs.
  Proof.
    intros [] H. destruct (nth_z (pages L) id H) as [p Hp].
    assert (Hn : p <> []) by (eapply Forall_forall in w_pages; [apply w_pages|]; eapply nth_error_In; eauto).
    rewrite (nth_error_nth _ _ _ Hp). destruct p; [congruence|eauto].
  Qed.
  Lemma page_snoc L id : wf_log c KB L -> 0 <= id < zlen (pages L) ->
    exists r rs, nth (Z.to_nat id) (pages L) [] = rs ++ [r].
  Proof.
    intros W H. destruct (page_ne L id W H) as (r & rs & E). rewrite E.
    destruct (exists_last (l := r :: rs)) as (a & x & ->); [discriminate|]. eauto.
  Qed.
  Lemma cur_asc L : wf_log c KB L -> ascending (cur L).
  Proof. intros []. unfold accepted in w_asc. rewrite asc_app in w_asc. tauto. Qed.
  Lemma cur_recs L : wf_log c KB L -> Forall (rec_ok c KB) (cur L).
  Proof. intros []. unfold accepted in w_recs. rewrite Forall_app in w_recs. tauto. Qed.

  Lemma img_app P x id p : 0 <= id < zlen P -> img c P id p -> img c (P ++ [x]) id p.
  Proof. unfold img, zlen. intros H [A B]. rewrite app_nth1 by lia. auto. Qed.
  Lemma img_len P id p : img c P id p -> zlen p = pageSize c.
  Proof. intros [H _]. apply H. Qed.

  (** ** Storage operations without faults *)
  Lemma io_read_nf w n o : faults o = [] -> io_read w n o = (o, file_read (getF w o) n).
  Proof. intros E. unfold io_read, take_fault. now rewrite E. Qed.
  Lemma io_write_nf w n p o : faults o = [] ->
    io_write c w n p o = (putF w o (file_write c (getF w o) n p), true).
  Proof. intros E. unfold io_write, take_fault. now rewrite E. Qed.
  Lemma io_erase_nf w a b o : faults o = [] ->
    io_erase c w a b o = (putF w o (file_erase c (getF w o) a b), true).
  Proof. intros E. unfold io_erase, take_fault. now rewrite E. Qed.

  (** ** The data file *)
  Lemma disk_erase F P l : disk_ok c F P l -> 0 <= l -> l mod eraseSize c = 0 -> zlen P - l = numData c ->
    disk_ok c (file_erase c F (zlen P mod numData c) (zlen P mod numData c + eraseSize c)) P (l + eraseSize c).
  Proof.
    intros [Hl He Hp] L1 Lm Full. pose proof (g_B _ _ _ G) as GB. pose proof (g_D _ _ _ G) as GD.
    pose proof (g_DB _ _ _ G) as GDB. unfold file_erase. destruct (eraseFill c) as [b|] eqn:E.
    2:{ constructor; auto. intros id I1 I2. destruct (Hp id I1 I2) as [A|(A & b & X & _)]; [auto|discriminate]. }
    assert (Hm : zlen P mod numData c = l mod numData c).
    { replace (zlen P) with (l + 1 * numData c) by lia. apply Z_mod_plus_full. }
    pose proof (mod_D l) as Ml.
    pose proof (aligned_block l (numData c) (eraseSize c) ltac:(lia) ltac:(lia) GDB Lm) as Hb.
    constructor; cbn [flen fpg].
    - lia.
    - intros T. rewrite (He T). lia.
    - intros id I1 I2. rewrite Hm.
      destruct ((l mod numData c <=? id mod numData c) && (id mod numData c <? l mod numData c + eraseSize c)) eqn:R.
      + right. split; [|eauto].
        apply andb_true_iff in R as [R1 R2]. apply Z.leb_le in R1. apply Z.ltb_lt in R2.
        apply (mod_window id l (numData c)); [lia|lia|exact R1|exact R2].
      + pose proof (mod_D id). destruct (Z.ltb_spec (id mod numData c) (flen F)); [|lia].
        destruct (Hp id I1 I2) as [A|(A & b' & X1 & X2)]; auto. right. split; [lia|].
        exists b'. split; [congruence|auto].
  Qed.

  Lemma disk_write F P l x p : disk_ok c F P l -> 0 <= l <= zlen P -> zlen P - l < numData c ->
    img c (P ++ [x]) (zlen P) p ->
    disk_ok c (file_write c F (zlen P mod numData c) p) (P ++ [x]) l.
  Proof.
    intros [Hl He Hp] L1 Full Hi. pose proof D_pos as DP.
    assert (Z1 : zlen (P ++ [x]) = zlen P + 1) by (rewrite zlen_app; auto).
    constructor; cbn [file_write flen fpg].
    - rewrite Z1. destruct (Z.lt_ge_cases (zlen P) (numData c)).
      + rewrite Z.mod_small by (pose proof (zlen_nonneg P); lia). lia.
      + pose proof (mod_D (zlen P)). lia.
    - intros T. rewrite (He T), Z1. destruct (Z.lt_ge_cases (zlen P) (numData c)).
      + rewrite Z.mod_small by (pose proof (zlen_nonneg P); lia). lia.
      + pose proof (mod_D (zlen P)). lia.
    - intros id I1 I2. rewrite Z1 in I2. destruct (Z.eqb_spec (id mod numData c) (zlen P mod numData c)) as [E|NE].
      + left. assert (id = zlen P).
        { apply mod_inj; auto. lia. }
        subst id. auto.
      + assert (id <> zlen P) by congruence.
        assert (id mod numData c < flen F).
        { destruct (Z.lt_ge_cases (zlen P) (numData c)).
          - rewrite Z.mod_small by lia. lia.
          - pose proof (mod_D id). lia. }
        destruct (Z.ltb_spec (id mod numData c) (flen F)); [|lia].
        destruct (Hp id I1 ltac:(lia)) as [A|A]; auto. left. apply img_app; auto. lia.
  Qed.

  (** Reading a retained page from the file. *)
  Lemma disk_read F P l id : disk_ok c F P l -> 0 <= l <= id -> zlen P - numData c <= id < zlen P ->
    file_read F (id mod numData c) = Some (fpg F (id mod numData c)) /\
    img c P id (fpg F (id mod numData c)).
  Proof.
    intros [Hl _ Hp] L1 H. destruct (Hp id ltac:(lia) H) as [A|[A _]]; [|lia]. split; auto.
    unfold file_read. pose proof (mod_D id).
    assert (id mod numData c < Z.min (zlen P) (numData c)).
    { destruct (Z.lt_ge_cases (zlen P) (numData c)); [rewrite Z.mod_small by lia|]; lia. }
    destruct (Z.leb_spec 0 (id mod numData c)); [|lia].
    destruct (Z.ltb_spec (id mod numData c) (flen F)); [auto|lia].
  Qed.
  Lemma store_read F P l id : store_ok c F P l -> 0 <= l <= id -> zlen P - numData c <= id < zlen P ->
    file_read F (id mod numData c) = Some (fpg F (id mod numData c)) /\
    img c P id (fpg F (id mod numData c)).
  Proof. unfold store_ok. destruct (useRLC c); intros; [apply H; lia|apply (disk_read F P l); auto]. Qed.
  (** ** Reading a page *)
  Lemma NOPAGE_not id : id mod numData c <> NOPAGE.
  Proof. pose proof (mod_D id). pose proof (g_D _ _ _ G). unfold NOPAGE. lia. Qed.

  Lemma InvG_rb s L n w p b : InvG s L n w -> rb_ok c (d_rbuf (sd s) p b) (pages L) ->
    InvG (mkS (sio s) (d_rbuf (sd s) p b) (si s) (sv s)) L n w.
  Proof. intros [] H. constructor; auto. Qed.

  Lemma readPage_live s L n w id : InvG s L n w -> lo L <= id < zlen (pages L) ->
    exists p, readPage s (id mod numData c)
              = (mkS (sio s) (d_rbuf (sd s) p (id mod numData c)) (si s) (sv s), 0) /\
      (exists id', 0 <= id' < zlen (pages L) /\ id' mod numData c = id mod numData c /\
                   img c (pages L) id' p) /\
      (coh c s L -> img c (pages L) id p).
  Proof.
    intros I H. destruct I as [? ? ? ? ? Dk ? W Rb ? ? ? ?]. destruct W.
    unfold readPage. destruct (Z.eqb_spec (id mod numData c) (bufD (sd s))) as [E|NE].
    - exists (rbuf (sd s)). split.
      + rewrite E. destruct s as [o d ii v]; destruct d; reflexivity.
      + destruct Rb as [Rb|[(id' & A & B & C)|[_ Rb]]].
        * exfalso. apply (NOPAGE_not id). congruence.
        * split; [exists id'; split; [auto|split; [congruence|auto]]|]. intros Co. apply Co; auto.
        * exfalso. pose proof (mod_D id). rewrite Z.mod_small in E by lia. lia.
    - rewrite io_read_nf by auto. cbn [getF].
      destruct (store_read (fD (sio s)) (pages L) (lo L) id Dk) as [R Im]; [lia|lia|].
      rewrite R. eexists. split; [reflexivity|]. split; [|auto]. exists id. split; [lia|auto].
  Qed.

  Lemma readPage_inv s L n w id p : InvG s L n w -> 
    (exists id', 0 <= id' < zlen (pages L) /\ id' mod numData c = id mod numData c /\
                   img c (pages L) id' p) ->
    InvG (mkS (sio s) (d_rbuf (sd s) p (id mod numData c)) (si s) (sv s)) L n w.
  Proof.
    intros I (id' & A & B & C). apply InvG_rb; auto. right; left. exists id'. cbn. auto.
  Qed.
  Lemma readPage_coh s L id p : lo L <= id -> 0 <= lo L -> zlen (pages L) - lo L <= numData c ->
    img c (pages L) id p -> id < zlen (pages L) ->
    coh c (mkS (sio s) (d_rbuf (sd s) p (id mod numData c)) (si s) (sv s)) L.
  Proof.
    intros H H0 H1 I H2 j Hj E. cbn in *. assert (j = id).
    { destruct (Z.le_ge_cases j id); [apply mod_inj; auto; lia|symmetry; apply mod_inj; auto; lia]. }
    subst. auto.
  Qed.

  (** ** Writing the page in the write buffer *)
  Definition at_point (im : file * file * file) (p : list (list rcd) * Z) : Prop :=
    disk_ok c (fst (fst im)) (fst p) (snd p) /\ (useIndex c = true -> idx_pages c (snd (fst im)) (zlen (fst p) + 1)).
  Definition crash_ok (new : list (file * file * file)) (cps : list (list (list rcd) * Z)) : Prop :=
    Forall (fun im => exists p, In p cps /\ disk_ok c (fst (fst im)) (fst p) (snd p) /\
      (useIndex c = true -> idx_pages c (snd (fst im)) (zlen (fst p) + 1))) new /\
    (useIndex c = false -> Forall2 (fun im p => disk_ok c (fst (fst im)) (fst p) (snd p)) new cps) /\
    (exists new2 new1, new = new2 ++ new1 /\ Forall2 at_point new1 cps /\
      Forall (fun im => match cps with [] => False | p :: _ => at_point im p end) new2).
  Lemma idx_pages_mono F b b' : idx_pages c F b -> b <= b' -> idx_pages c F b'.
  Proof. intros H Hb Bl i Hi. destruct (H Bl i Hi). split; [auto|lia]. Qed.
  Lemma crash_intro new cps : Forall2 (fun im p => disk_ok c (fst (fst im)) (fst p) (snd p) /\
      (useIndex c = true -> idx_pages c (snd (fst im)) (zlen (fst p) + 1))) new cps ->
    crash_ok new cps.
  Proof.
    intros H. split.
    - induction H as [|im p new cps H1 H IH]; constructor.
      + exists p. split; [now left|auto].
      + eapply Forall_impl; [|exact IH]. intros x (q & A & B). exists q. split; [now right|auto].
    - split.
      + intros _. induction H as [|im p new cps H1 H IH]; constructor; tauto.
      + exists [], new. split; [reflexivity|]. split; [exact H|constructor].
  Qed.

  Lemma seal_lo L : lo (seal (numData c) (eraseSize c) L) =
    if zlen (pages L) - lo L >=? numData c then lo L + eraseSize c else lo L.
  Proof. reflexivity. Qed.

  Lemma kfun_app P x p : 0 <= p < zlen P -> kfun (P ++ [x]) p = kfun P p.
  Proof. intros H. unfold kfun. rewrite app_nth1 by (unfold zlen in *; lia). auto. Qed.

  Lemma wf_seal L : wf_log c KB L -> cur L <> [] -> wf_log c KB (seal (numData c) (eraseSize c) L).
  Proof.
    intros [] Hc. pose proof (g_B _ _ _ G). pose proof (g_D _ _ _ G).
    assert (Z1 : zlen (pages L ++ [cur L]) = zlen (pages L) + 1) by (rewrite zlen_app; auto).
    constructor; cbn [seal pages lo cur]; rewrite ?Z1.
    - destruct (Z.geb_spec (zlen (pages L) - lo L) (numData c)); lia.
    - intros _. destruct (Z.geb_spec (zlen (pages L) - lo L) (numData c)); lia.
    - destruct (_ >=? _); auto. rewrite Z.add_mod by lia. rewrite w_mod, Z.mod_same by lia.
      apply Z.mod_0_l. lia.
    - destruct (Z.geb_spec (zlen (pages L) - lo L) (numData c)); lia.
    - apply Forall_app. split; auto.
    - rewrite zlen_nil. pose proof (zlen_nonneg (cur L)). lia.
    - unfold accepted, seal in *. cbn [pages cur]. rewrite concat_app. cbn [concat]. now rewrite !app_nil_r.
    - unfold accepted, seal in *. cbn [pages cur]. rewrite concat_app. cbn [concat]. now rewrite !app_nil_r.
  Qed.

  (** The file after sealing. *)
  Definition sealed_file (F : file) (L : log) (p : page) : file :=
    let ph := zlen (pages L) mod numData c in
    file_write c (if zlen (pages L) - lo L >=? numData c
                  then file_erase c F ph (ph + eraseSize c) else F) ph p.

  Lemma writePage_ok s L : useRLC c = false -> Inv s L -> cur L <> [] -> zlen (pages L) + 1 + maxErr c < PB ->
    let L' := seal (numData c) (eraseSize c) L in
    exists s' new, writePage c s = Ok (s', zlen (pages L)) /\
      InvG s' L' (zlen (pages L)) (cur L) /\
      si s' = si s /\ sv s' = sv s /\ fI (sio s') = fI (sio s) /\ fV (sio s') = fV (sio s) /\
      rbuf (sd s') = rbuf (sd s) /\ bufD (sd s') = bufD (sd s) /\
      page_id (wbuf (sd s')) = zlen (pages L) /\
      fD (sio s') = sealed_file (fD (sio s)) L (wbuf (sd s')) /\
      trace (sio s') = new ++ trace (sio s) /\
      crash_ok new (seal_points (numData c) (eraseSize c) L) /\
      (coh c s L -> zlen (pages L) mod numData c <> bufD (sd s) -> coh c s' L').
  Proof.
    intros HC I Hc Hpb L'. pose proof (wf_seal L (i_wf _ _ _ _ I) Hc) as W'.
    destruct I as [If In Ip Im Ia Dk Iw W Rb Is If0 Ife Ii]. unfold store_ok in Dk. unfold reserve in Ia. rewrite HC in Dk, Ia. rewrite Z.sub_0_r in Ia.
    pose proof (g_B _ _ _ G) as GB. pose proof (g_D _ _ _ G) as GD. pose proof (g_PB _ _ _ G) as GP.
    pose proof (g_err _ _ _ G) as GE. pose proof (g_DB _ _ _ G) as GDB.
    pose proof (zlen_nonneg (pages L)) as N0. set (n := zlen (pages L)) in *.
    unfold writePage. rewrite In. fold n.
    destruct (set_pid_ok c L0 (wbuf (sd s)) (cur L) n Iw ltac:(lia)) as (w & Ew & Hw & Hid).
    cbn [set_d sd d_next wbuf]. rewrite Ew. cbn [bind].
    assert (ImgN : img c (pages L ++ [cur L]) n w).
    { split; auto. unfold n, zlen. rewrite Nat2Z.id, app_nth2, Nat.sub_diag by auto. auto. }
    assert (Z1 : zlen (pages L ++ [cur L]) = n + 1) by (rewrite zlen_app; auto).
    destruct W.
    assert (Rb' : forall d', bufD d' = bufD (sd s) -> rbuf d' = rbuf (sd s) -> rb_ok c d' (pages L ++ [cur L])).
    { intros d' E1 E2. destruct Rb as [Rb|[(id & A & B & C)|[Rb _]]]; [left; congruence| |congruence].
      right; left. exists id. rewrite E1, E2, Z1. split; [lia|]. split; auto. apply img_app; auto. }
    assert (Spl' : forall sp m, s_maxErr sp = maxErr c -> SI (kfun (pages L)) f KB PB sp m -> m <= n ->
               SI (kfun (pages L ++ [cur L])) f KB PB sp m).
    { intros sp m _ HS Hm. eapply SI_ext; [|exact HS]. intros p Hp. apply kfun_app.
      pose proof (si_f _ _ _ _ _ _ HS). lia. }
    unfold set_d, set_io, d_next, d_wbuf, d_avail, d_spl; cbn [sio sd si sv wbuf rbuf availD minD nextD bufD nextRLC rlcStart spl].
    rewrite (u32_id (n + 1)) by lia. rewrite Ia, Im. fold n.
    unfold L', sealed_file. cbn [seal]. unfold crash_ok, seal_points. cbn [seal pages lo]. fold n.
    destruct (Z.leb_spec (numData c - (n - lo L)) 0) as [Full|NFull].
    - (* the area is full *)
      assert (Fl : n - lo L = numData c) by lia.
      destruct (Z.geb_spec (n - lo L) (numData c)) as [_|]; [|lia].
      rewrite io_erase_nf by auto. cbn [getF].
      set (ph := n mod numData c) in *.
      pose proof (disk_erase _ _ _ Dk ltac:(lia) w_mod Fl) as Dk1. fold n ph in Dk1.
      set (F1 := file_erase c (fD (sio s)) ph (ph + eraseSize c)) in *.
      assert (Dk2 : disk_ok c (file_write c F1 ph w) (pages L ++ [cur L]) (lo L + eraseSize c)).
      { apply (disk_write F1 (pages L) (lo L + eraseSize c) (cur L) w); auto; fold n; lia. }
      rewrite (u32_id (numData c - (n - lo L) + eraseSize c)), (u32_id (lo L + eraseSize c)) by lia.
      assert (exists sp', (if noClean c
          then Ok (mkS (putF WD (sio s) F1) (mkD w (rbuf (sd s)) (numData c - (n - lo L) + eraseSize c)
                  (lo L + eraseSize c) (n + 1) (bufD (sd s)) (nextRLC (sd s)) (rlcStart (sd s)) (spl (sd s))) (si s) (sv s), true)
          else match spl (sd s) with
               | None => UB
               | Some sp => Ok (mkS (putF WD (sio s) F1) (mkD w (rbuf (sd s)) (numData c - (n - lo L) + eraseSize c)
                  (lo L + eraseSize c) (n + 1) (bufD (sd s)) (nextRLC (sd s)) (rlcStart (sd s))
                  (Some (cleanSpline sp (lo L + eraseSize c)))) (si s) (sv s), true)
               end) = Ok (mkS (putF WD (sio s) F1) (mkD w (rbuf (sd s)) (numData c - (n - lo L) + eraseSize c)
                  (lo L + eraseSize c) (n + 1) (bufD (sd s)) (nextRLC (sd s)) (rlcStart (sd s)) sp') (si s) (sv s), true)
         /\ if useBinary c then sp' = None else exists sp, sp' = Some sp /\
             SI (kfun (pages L ++ [cur L])) f KB PB sp n /\ s_maxErr sp = maxErr c) as (sp' & Esp & Hsp).
      { pose proof (g_clean _ _ _ G) as GC. destruct (useBinary c) eqn:UB'.
        - rewrite (GC eq_refl). exists None. rewrite Is. auto.
        - destruct Is as (sp & E1 & E2 & E3). rewrite E1. destruct (noClean c).
          + exists (Some sp). split; auto. exists sp. split; auto. split; auto. apply Spl'; auto. lia.
          + exists (Some (cleanSpline sp (lo L + eraseSize c))). split; auto. eexists; split; [reflexivity|].
            destruct (clean_SI (kfun (pages L)) f KB PB sp n (lo L + eraseSize c) E2) as (C1 & C2 & _); [lia|].
            split; [|congruence]. apply Spl'; auto; [congruence|lia]. }
      cbn [sio sd si sv wbuf rbuf availD minD nextD bufD nextRLC rlcStart spl].
      rewrite Esp. cbn [bind negb sio sd si sv wbuf rbuf availD minD nextD bufD nextRLC rlcStart spl].
      rewrite io_write_nf by auto.
      cbn [bind negb sio sd si sv wbuf rbuf availD minD nextD bufD nextRLC rlcStart spl getF putF fD fI fV trace faults].
      rewrite u32_id by lia.
      eexists _, [_; _]. split; [reflexivity|].
      cbn [sio sd si sv wbuf rbuf availD minD nextD bufD nextRLC rlcStart spl getF putF fD fI fV trace faults].
      split; [constructor|].
      all: cbn [sio sd si sv wbuf rbuf availD minD nextD bufD nextRLC rlcStart spl getF putF fD fI fV trace faults seal pages lo cur]; fold n; unfold store_ok, reserve; rewrite ?Z1, ?HC; auto; try lia.
      + destruct (Z.geb_spec (n - lo L) (numData c)); lia.
      + destruct (Z.geb_spec (n - lo L) (numData c)); lia.
      + destruct (Z.geb_spec (n - lo L) (numData c)); [auto|lia].
      + destruct (Z.geb_spec (n - lo L) (numData c)); [lia|lia].
      + intros U. destruct (Ii U) as (a & b & e & e'). rewrite In in b, e'. cbn [si sd nextD sio fI]. split; [auto|split; [lia|split; [auto|]]].
        eapply idx_pages_mono; [exact e'|fold n; lia].
      + do 9 (split; [reflexivity || auto|]). split.
        * assert (IxU : useIndex c = true -> idx_pages c (fI (sio s)) (n + 1)) by (intros U; destruct (Ii U) as (_ & _ & _ & e'); rewrite In in e'; exact e').
          apply crash_intro. constructor; [|constructor; [|constructor]]; cbn [fst snd]; (split; [auto|]); intros U; specialize (IxU U); auto.
          rewrite Z1. eapply idx_pages_mono; [exact IxU|lia].
        * intros Co Hne id Hid' E. unfold seal in *. cbn [pages lo] in *. rewrite Z1 in Hid'.
          cbn [sd rbuf bufD] in *. assert (id <> n) by (intros ->; auto). fold n in Hid'.
          assert (lo L <= id < n) by (destruct (Z.geb_spec (n - lo L) (numData c)); lia).
          apply img_app; [fold n; lia|]. apply Co; auto. 
    - destruct (Z.geb_spec (n - lo L) (numData c)) as [|_]; [lia|].
      set (ph := n mod numData c) in *.
      assert (Dk2 : disk_ok c (file_write c (fD (sio s)) ph w) (pages L ++ [cur L]) (lo L)).
      { apply (disk_write (fD (sio s)) (pages L) (lo L) (cur L) w); auto; fold n; lia. }
      cbn [bind negb sio sd si sv wbuf rbuf availD minD nextD bufD nextRLC rlcStart spl].
      rewrite io_write_nf by auto.
      cbn [bind negb sio sd si sv wbuf rbuf availD minD nextD bufD nextRLC rlcStart spl getF putF fD fI fV trace faults].
      rewrite u32_id by lia.
      eexists _, [_]. split; [reflexivity|].
      cbn [sio sd si sv wbuf rbuf availD minD nextD bufD nextRLC rlcStart spl getF putF fD fI fV trace faults].
      split; [constructor|].
      all: cbn [sio sd si sv wbuf rbuf availD minD nextD bufD nextRLC rlcStart spl getF putF fD fI fV trace faults seal pages lo cur]; fold n; unfold store_ok, reserve; rewrite ?Z1, ?HC; auto; try lia.
      + destruct (Z.geb_spec (n - lo L) (numData c)); lia.
      + destruct (Z.geb_spec (n - lo L) (numData c)); lia.
      + destruct (Z.geb_spec (n - lo L) (numData c)); [lia|auto].
      + destruct (useBinary c); auto. destruct Is as (sp & E1 & E2 & E3). exists sp. split; auto. split; auto. apply Spl'; auto. lia.
      + destruct (Z.geb_spec (n - lo L) (numData c)); lia.
      + intros U. destruct (Ii U) as (a & b & e & e'). rewrite In in b, e'. cbn [si sd nextD sio fI]. split; [auto|split; [lia|split; [auto|]]].
        eapply idx_pages_mono; [exact e'|fold n; lia].
      + do 9 (split; [reflexivity || auto|]). split.
        * assert (IxU : useIndex c = true -> idx_pages c (fI (sio s)) (n + 1)) by (intros U; destruct (Ii U) as (_ & _ & _ & e'); rewrite In in e'; exact e').
          apply crash_intro. constructor; [|constructor]; cbn [fst snd]; (split; [auto|]); intros U; specialize (IxU U).
          rewrite Z1. eapply idx_pages_mono; [exact IxU|lia].
        * intros Co Hne id Hid' E. unfold seal in *. cbn [pages lo] in *. rewrite Z1 in Hid'.
          cbn [sd rbuf bufD] in *. assert (id <> n) by (intros ->; auto). fold n in Hid'.
          assert (lo L <= id < n) by (destruct (Z.geb_spec (n - lo L) (numData c)); lia).
          apply img_app; [fold n; lia|]. apply Co; auto. 
  Qed.
End Store.

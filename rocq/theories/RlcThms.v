(** Record-level consistency: lifetimes with crashes at any storage operation,
    including those of recovery itself. *)
From Verif Require Import Base BaseFacts Config Spline Storage DB Recovery Spec SpecSpline SplineFacts
  SpecPage SpecStore SpecIter Run SpecRun SpecReopen SpecRlc LogFacts PageFacts SearchFacts StoreFacts PutFacts
  GetFacts RunFacts IterFacts IterThms RecoverFacts ReopenThms RlcFacts RlcOps RlcRecFacts.
Open Scope Z_scope.
Ltac Zify.zify_post_hook ::= ZifyBool.elim_bool_cstr.
Ltac Zify.zify_convert_to_euclidean_division_equations_flag ::= constr:(false).

(** ** The stored data do not depend on the session *)
Lemma same_refl c : same_store c c.
Proof. constructor; reflexivity. Qed.

Section Same.
  Variables c c' : cfg.
  Hypothesis S : same_store c c'.

  Lemma same_img P id p : img c P id p -> img c' P id p.
  Proof. intros [H1 H2]. split; auto. apply (same_holds c c' S). auto. Qed.
  Lemma same_spare F P w a : spare c F P w a -> spare c' F P w a.
  Proof.
    unfold spare. cbv zeta. rewrite (ss_D _ _ S), (ss_B _ _ S). intros [H|[H|[H|H]]].
    - left. auto.
    - right. left. unfold blankp in *. rewrite (ss_fill _ _ S), (ss_hole _ _ S), (same_psz c c' S). auto.
    - right. right. left. destruct H as (rs & H1 & H2 & H3). exists rs. rewrite (ss_D _ _ S). split; auto.
      split; auto. apply (same_holds c c' S). auto.
    - right. right. right. destruct H as (H1 & H2 & H3). split; auto. split; auto. apply same_img. auto.
  Qed.
  Lemma same_rdisk F P l w : rdisk c F P l w -> rdisk c' F P l w.
  Proof.
    intros [H1 H2 H3 H4 H5 H6 H7]. constructor; rewrite ?(ss_D _ _ S), ?(ss_B _ _ S); auto.
    - intros id Hid. apply same_img. auto.
    - intros a Ha. apply same_spare. auto.
  Qed.
  Lemma same_rimg F P w : rimg c F P w -> rimg c' F P w.
  Proof.
    intros [(l & H1) H2]. split; [exists l; apply same_rdisk; auto|]. intros Hw. destruct (H2 Hw) as (k & Hk & N1 & N2 & N3).
    exists k. unfold newest. cbv zeta. rewrite ?(ss_D _ _ S), ?(ss_B _ _ S). split; auto. split; auto. split; auto.
    apply (same_holds c c' S). auto.
  Qed.
  Lemma same_wf KB L : wf_log c KB L -> wf_log c' KB L.
  Proof.
    intros [H1 H2 H3 H4 H5 H6 H7 H8]. constructor; rewrite ?(ss_D _ _ S), ?(ss_B _ _ S), ?(same_mr c c' S); auto.
    eapply Forall_impl; [|exact H8]. intros r. apply (same_rec c c' S).
  Qed.
  Lemma same_keep F F' n l : keep c F F' n l <-> keep c' F F' n l.
  Proof. unfold keep. now rewrite (ss_D _ _ S). Qed.
End Same.

(** ** A new database *)
Lemma rlc_exists c KB PB k : rlc_db c KB PB -> useVar c = false -> useReset c = true -> maxErr c < PB -> exists s, rlc_created c KB PB k s.
Proof.
  intros R HV HR HP. pose proof (rl_set _ _ _ R) as G. pose proof (L0 c KB PB G) as L0.
  pose proof (B_pos c KB PB R) as HB. pose proof (D_four c KB PB R) as HD. pose proof (g_DB _ _ _ G) as GDB.
  pose proof (l_ks _ L0) as Lk. pose proof (l_ds _ L0) as Ld. pose proof (l_rec _ L0) as Lr.
  pose proof (rl_rlc _ _ _ R) as HC. pose proof (rl_idx _ _ _ R) as HI. pose proof (rl_bin _ _ _ R) as Hb. rewrite HV in Lr.
  unfold rlc_created, embedDBInit. rewrite HV, HC, HI, Hb. cbn [andb].
  destruct (Z.gtb_spec (keySize c) 8); [clear - H Lk; lia|]. destruct (Z.eqb_spec (eraseSize c) 0) as [|_]; [clear - e HB; lia|].
  rewrite GDB. cbn [Z.eqb negb]. destruct (Z.ltb_spec (numData c) (4 * eraseSize c)); [clear - H0 HD; lia|].
  destruct (Z.eqb_spec (recordSize c) 0) as [|_]; [clear - e Lr Lk Ld; lia|].
  destruct (init_page_ok c L0) as (wb & Ew & Hw). rewrite Ew. cbn [bind].
  destruct (Z.ltb_spec (numData c) ((0 * 2 + 2) * eraseSize c)) as [X|X]; [clear - X HD HB; lia|].
  cbn [negb andb]. destruct (Z.ltb_spec (numSplinePts c) 4) as [X4|_]; [destruct (g_spl _ _ _ G Hb) as [g1 _]; clear - g1 X4; lia|].
  unfold initData. rewrite HR, HC. cbn [bind]. change (negb (0 =? 0)) with false. cbv iota. cbn [bind].
  change (negb (0 =? 0)) with false. cbv iota. eexists. auto.
Qed.
Lemma created_rlc c KB PB k s : rlc_created c KB PB k s ->
  RI c KB PB 0 s emptyLog /\ coh c s emptyLog /\ trace (sio s) = [].
Proof.
  intros (R & HV & HR & HP & E). pose proof (rl_set _ _ _ R) as G. pose proof (L0 c KB PB G) as L0.
  pose proof (B_pos c KB PB R) as HB. pose proof (D_four c KB PB R) as HD. pose proof (g_DB _ _ _ G) as GDB.
  pose proof (l_ks _ L0) as Lk. pose proof (l_ds _ L0) as Ld. pose proof (l_rec _ L0) as Lr. pose proof (g_D _ _ _ G) as GD.
  pose proof (rl_rlc _ _ _ R) as HC. pose proof (rl_idx _ _ _ R) as HI. pose proof (rl_bin _ _ _ R) as Hb. rewrite HV in Lr.
  unfold embedDBInit in E. rewrite HV, HC, HI, Hb in E. cbn [andb] in E.
  destruct (Z.gtb_spec (keySize c) 8); [clear - H Lk; lia|]. destruct (Z.eqb_spec (eraseSize c) 0) as [|_]; [clear - e HB; lia|].
  rewrite GDB in E. cbn [Z.eqb negb] in E. destruct (Z.ltb_spec (numData c) (4 * eraseSize c)); [clear - H0 HD; lia|].
  destruct (Z.eqb_spec (recordSize c) 0) as [|_]; [clear - e Lr Lk Ld; lia|].
  destruct (init_page_ok c L0) as (wb & Ew & Hw). rewrite Ew in E. cbn [bind] in E.
  destruct (Z.ltb_spec (numData c) ((0 * 2 + 2) * eraseSize c)) as [X|X]; [clear - X HD HB; lia|].
  cbn [negb andb] in E. destruct (Z.ltb_spec (numSplinePts c) 4) as [X4|_]; [destruct (g_spl _ _ _ G Hb) as [g1 _]; clear - g1 X4; lia|].
  unfold initData in E. rewrite HR, HC in E. cbn [bind] in E. change (negb (0 =? 0)) with false in E. cbv iota in E. cbn [bind] in E.
  change (negb (0 =? 0)) with false in E. cbv iota in E. injection E as <-.
  pose proof (g_err _ _ _ G) as GE. destruct (g_spl _ _ _ G Hb) as [S1 S2].
  assert (Z0 : zlen (@nil (list rcd)) = 0) by reflexivity.
  assert (R0 : rlc_lo (numData c) (eraseSize c) 0 = 0).
  { destruct (rlo_b c KB PB R 0 ltac:(lia)) as (b1 & _). clear - b1. lia. }
  pose proof (nb_at (eraseSize c) 0 HB ltac:(apply Z.mod_0_l; clear - HB; lia)) as Nb.
  split; [constructor|split].
  - constructor; scbn; cbn [emptyLog pages lo cur]; unfold store_ok, reserve; rewrite ?HC, ?Hb, ?Z0; auto; try lia.
    + rewrite u32_id by (clear - HB HD GD; lia). clear. lia.
    + intros id Hd. rewrite Z0 in Hd. clear - Hd. lia.
    + constructor; cbn [emptyLog pages lo cur]; unfold accepted; cbn [emptyLog pages lo cur concat app]; rewrite ?Z0; try (clear - HD HB; lia); auto.
      * pose proof (l_fit c L0) as Fit. unfold zlen. cbn [length]. clear - Fit. lia.
      * exact Logic.I.
    + left. reflexivity.
    + eexists. split; [reflexivity|]. split; [|cbn [spl_init s_maxErr]; apply u32_id; clear - GE; lia].
      apply init_SI; try (clear - S1 S2 GE HP; lia); try (apply (g_KB _ _ _ G)); try (apply (g_PB _ _ _ G)); try apply (g_prod _ _ _ G).
    + intros U. congruence.
  - cbn [emptyLog pages lo]. rewrite Z0, R0. reflexivity.
  - exists 0, 0. scbn. cbn [emptyLog pages cur]. constructor; rewrite ?Z0, ?Nb; try (clear - HB HD; lia).
    + constructor; rewrite ?Z0, ?Nb, ?R0; try (clear - HB HD; lia).
      * apply Z.mod_0_l. clear - HB. lia.
      * intros a Ha. left. unfold open_w; rewrite (rl_trunc _ _ _ R); cbn [flen emptyFile]. apply Z.mod_pos_bound. clear - HB HD. lia.
      * unfold open_w; rewrite (rl_trunc _ _ _ R); cbn [flen emptyFile]. clear - HB HD. lia.
      * unfold open_w; rewrite (rl_trunc _ _ _ R); cbn [flen emptyFile]. clear - HB HD. lia.
    + symmetry. apply Z.mod_small. clear - HB HD. lia.
    + f_equal. clear. lia.
    + congruence.
  - intros id Hd. cbn [emptyLog pages lo] in Hd. rewrite Z0 in Hd. clear - Hd. lia.
  - reflexivity.
Qed.

Lemma wf_nocur c KB P l w : wf_log c KB (mkLog P l w) -> wf_log c KB (mkLog P l []).
Proof.
  intros [H1 H2 H3 H4 H5 H6 H7 H8]. unfold accepted in *. cbn [pages lo cur] in *.
  apply asc_app in H7 as H7'. destruct H7' as (A1 & _). rewrite Forall_app in H8. destruct H8 as [B1 _].
  constructor; unfold accepted; cbn [pages lo cur]; rewrite ?app_nil_r; auto.
  pose proof (zlen_nonneg w) as Z. unfold zlen at 1. cbn [length]. lia.
Qed.

Section Life.
  Variables (KB PB : Z).

  Definition ralive (c : cfg) (s : state) (L : log) : Prop :=
    (rlc_db c KB PB /\ useVar c = false) /\ (exists f, RI c KB PB f s L) /\ coh c s L.

  (** Storage from which log [L] can be recovered. *)
  Definition stored (c : cfg) (F : file) (L : log) : Prop :=
    rimg c F (pages L) (cur L) /\ wf_log c KB L /\ lo L = rlc_lo (numData c) (eraseSize c) (zlen (pages L)).
  Lemma alive_stored c s L : ralive c s L -> stored c (fD (sio s)) L.
  Proof.
    intros ((R & _) & (f & H) & _). split; [apply (RI_img c KB PB f); auto|].
    split; [exact (i_wf _ _ _ _ _ _ _ _ (ri_inv _ _ _ _ _ _ H))|exact (ri_lo _ _ _ _ _ _ H)].
  Qed.

  Lemma step_rlc c s L o : ralive c s L -> op_plain c KB o ->
    (forall k d, o = HPut k d -> forall r, In r (accepted L) -> rkey r < k) ->
    zlen (pages L) + 1 + maxErr c < PB -> quiet_step c s o ->
    let L' := rlc_step (maxRec c) (numData c) (eraseSize c) L o in
    exists s' new, step c s o = Ok (s', rlc_out L o) /\ ralive c s' L' /\
      trace (sio s') = new ++ trace (sio s) /\ (new = [] -> L' = L) /\
      forall i im, nth_error new i = Some im -> exists L1,
        In L1 (rlc_crash (maxRec c) (numData c) (eraseSize c) L o) /\ (i = 0%nat -> L1 = L') /\
        stored c (fst (fst im)) L1 /\ keep c (fD (sio s)) (fst (fst im)) (zlen (pages L)) (lo L1).
  Proof.
    intros (RV & (f & H) & Co) Ho Ha Hp Hq L'. pose proof RV as [R HV]. pose proof (rl_set _ _ _ R) as G. pose proof (L0 c KB PB G) as L0.
    pose proof (ri_inv _ _ _ _ _ _ H) as I. pose proof (i_wf _ _ _ _ _ _ _ _ I) as W.
    pose proof (i_w _ _ _ _ _ _ _ _ I) as Iw. pose proof (i_nextD _ _ _ _ _ _ _ _ I) as In_.
    pose proof (ri_lo _ _ _ _ _ _ H) as Hlo.
    destruct o as [k d| |k]; cbn [op_plain] in Ho.
    - destruct Ho as [Hk Hd].
      destruct (put_rlc c KB PB R f s L k d 0 H Hk Hd (Ha k d eq_refl) Hp) as (s' & im & rest & E & H' & e1 & (x1 & x2 & x3 & x4) & e3 & e4 & e5 & e6).
      { intros Ge. rewrite <- In_. apply Hq. exists (zlen (cur L)). rewrite (get_count_ok c L0 _ _ Iw). split; [auto|]. clear - Ge. lia. }
      { congruence. }
      assert (Al : ralive c s' L') by (split; [auto|]; split; [exists f; exact H'|apply e6; auto]).
      exists s', (im :: rest). cbn [step]. rewrite E. split; [reflexivity|]. split; [exact Al|]. split; [exact x4|]. split; [discriminate|].
      intros [|i] im' Him; cbn [nth_error] in Him.
      + injection Him as <-. exists L'. split; [right; left; reflexivity|]. split; [auto|]. rewrite e3. split; [apply alive_stored; auto|exact e4].
      + apply nth_error_In in Him. unfold imgs in e5. rewrite Forall_forall in e5. destruct (e5 _ Him) as [i1 i2].
        pose proof (i_wf _ _ _ _ _ _ _ _ (ri_inv _ _ _ _ _ _ H')) as W'.
        unfold rlc_put in e5, i1, i2, W'. unfold rlc_crash. destruct (Z.geb_spec (zlen (cur L)) (maxRec c)) as [Ge|Lt].
        * exists (rlc_seal (numData c) (eraseSize c) L). split; [right; right; left; reflexivity|]. split; [discriminate|].
          cbv zeta in *. cbn [rlc_seal pages lo cur] in *. rewrite zlen_app in i2. change (zlen [cur L]) with 1 in i2. split; [|exact i2].
          split; [exact i1|]. split; [exact (wf_nocur _ _ _ _ _ W')|]. unfold rlc_seal. cbn [pages lo]. rewrite zlen_app. reflexivity.
        * exists L. split; [left; reflexivity|]. split; [discriminate|]. cbn [pages] in i1, i2. rewrite <- Hlo in i2. split; [|exact i2].
          split; [exact i1|]. auto.
    - unfold L'. cbn [rlc_step]. destruct (cur L) as [|r0 l0] eqn:Ec.
      + exists s, []. cbn [step]. rewrite (flush_empty c KB PB f G s L I Ec). split; [reflexivity|].
        split; [split; [auto|]; split; [exists f; exact H|auto]|]. split; [reflexivity|]. split; [reflexivity|].
        intros [|i] im Him; discriminate.
      + assert (Ne : cur L <> []) by congruence. rewrite <- Ec in *.
        assert (C1 : 1 <= zlen (cur L)) by (rewrite Ec; unfold zlen; cbn [length]; clear; lia).
        destruct Hq as [Q1 Q2]; [exists (zlen (cur L)); rewrite (get_count_ok c L0 _ _ Iw); auto|].
        rewrite In_ in Q1, Q2. specialize (Q1 eq_refl).
        destruct (flush_rlc c KB PB R f s L H Ne Hp Q2 Q1 ltac:(congruence)) as (s' & im & E & H' & e1 & (x1 & x2 & x3 & x4) & e3 & e4 & e6).
        set (L1 := rlc_seal (numData c) (eraseSize c) L) in *.
        assert (Al : ralive c s' L1) by (split; [auto|]; split; [exists f; exact H'|apply e6; auto]).
        exists s', [im]. cbn [step]. rewrite E. split; [reflexivity|]. split; [exact Al|]. split; [exact x4|]. split; [discriminate|].
        intros [|[|i]] im' Him; cbn [nth_error] in Him; try discriminate. injection Him as <-. exists L1.
        split; [right; left; cbn [rlc_step]; destruct (cur L); [congruence|reflexivity]|]. split; [auto|].
        rewrite e3. split; [apply alive_stored; auto|exact e4].
    - destruct (get_spline c KB PB f G s L k I (rl_bin _ _ _ R)) as (s' & r & dt & E & Sb & I' & o & Er & Ed & So & Cm); auto.
      { pose proof (rl_rec _ _ _ R) as Q. clear - Q. lia. }
      destruct (Cm Co) as (Co' & _ & Eo). specialize (Eo (rl_bin _ _ _ R)).
      exists s', []. cbn [step rlc_out rlc_step]. rewrite E. split.
      { cbn [bind]. f_equal. f_equal. unfold lookup. rewrite Er, Ed, Eo. destruct (find_key k (retained L)); reflexivity. }
      split; [split; [auto|]; split; [exists f; exact (RI_rbuf c KB PB f s s' L H Sb I')|auto]|].
      destruct Sb as (-> & _). split; [reflexivity|]. split; [reflexivity|]. intros [|i] im Him; discriminate.
  Qed.

  (** ** Opening, with attempts that are cut off *)
  Lemma boot_ok c0 T L t : forall k F c', kD k = Some F -> stored c0 F L -> zlen (pages L) <= T ->
    rlc_db c0 KB PB -> useVar c0 = false ->
    Forall (fun c1 => rlc_reopen c0 c1 KB PB T) (c' :: map fst t) ->
    exists s, boot k t c' = Ok (s, 0) /\ ralive c' s L /\ keep c0 F (fD (sio s)) (zlen (pages L)) (lo L) /\
      keeps c0 F (zlen (pages L)) (lo L) (trace (sio s)).
  Proof.
    induction t as [|[c1 i] t IH]; intros k F c' HF (S1 & S2 & S3) HT R0 V0 HC; cbn [boot map fst] in *.
    - apply Forall_inv in HC. destruct HC as (Ss & R & Rs & He & Hf).
      pose proof (zlen_nonneg (pages L)) as N0. pose proof (B_pos c0 KB PB R0) as HB.
      destruct (reopen_rlc c' KB PB F (pages L) (cur L) k R (eq_trans (ss_var _ _ Ss) V0) Rs HF (same_rimg c0 c' Ss _ _ _ S1)) as (s & E & H & Co & Im & Kp).
      { rewrite (ss_D _ _ Ss), (ss_B _ _ Ss), <- S3. destruct L. apply (same_wf c0 c' Ss). auto. }
      { clear - Hf HT. lia. }
      { destruct He as [He|He]; [auto|right]. rewrite (ss_D _ _ Ss), (ss_B _ _ Ss).
        unfold rlc_lo in *. pose proof (Z.div_le_mono (zlen (pages L)) T (eraseSize c0) HB HT) as Q.
        assert ((zlen (pages L) / eraseSize c0 + 3) * eraseSize c0 <= (T / eraseSize c0 + 3) * eraseSize c0)
          by (apply Z.mul_le_mono_nonneg_r; clear - Q HB; lia). clear - H He. lia. }
      rewrite (ss_D _ _ Ss), (ss_B _ _ Ss), <- S3 in H, Co, Kp. exists s. split; [exact E|].
      assert (El : mkLog (pages L) (lo L) (cur L) = L) by (destruct L; reflexivity). rewrite El in H, Co.
      split; [split; [split; [auto|exact (eq_trans (ss_var _ _ Ss) V0)]|]; split; [eauto|auto]|]. split; [apply (same_keep c0 c' Ss); auto|].
      unfold imgs in Im. rewrite (ss_D _ _ Ss), (ss_B _ _ Ss), <- S3 in Im. unfold keeps.
      eapply Forall_impl; [|exact Im]. intros im [_ Q]. apply (same_keep c0 c' Ss). auto.
    - inversion_clear HC as [|? ? C1 C2]. inversion_clear C2 as [|? ? C3 C4].
      destruct C3 as (Ss & R & Rs & He & Hf).
      pose proof (zlen_nonneg (pages L)) as N0. pose proof (B_pos c0 KB PB R0) as HB.
      destruct (reopen_rlc c1 KB PB F (pages L) (cur L) k R (eq_trans (ss_var _ _ Ss) V0) Rs HF (same_rimg c0 c1 Ss _ _ _ S1)) as (s & E & H & Co & Im & Kp).
      { rewrite (ss_D _ _ Ss), (ss_B _ _ Ss), <- S3. destruct L. apply (same_wf c0 c1 Ss). auto. }
      { clear - Hf HT. lia. }
      { destruct He as [He|He]; [auto|right]. rewrite (ss_D _ _ Ss), (ss_B _ _ Ss).
        unfold rlc_lo in *. pose proof (Z.div_le_mono (zlen (pages L)) T (eraseSize c0) HB HT) as Q.
        assert ((zlen (pages L) / eraseSize c0 + 3) * eraseSize c0 <= (T / eraseSize c0 + 3) * eraseSize c0)
          by (apply Z.mul_le_mono_nonneg_r; clear - Q HB; lia). clear - H He. lia. }
      rewrite E. cbn [bind].
      assert (K : exists F1, kD (match nth_error (trace (sio s)) i with Some im => disk_of_image im | None => k end) = Some F1 /\
                stored c0 F1 L /\ keep c0 F F1 (zlen (pages L)) (lo L)).
      { destruct (nth_error (trace (sio s)) i) as [im|] eqn:En.
        - unfold imgs in Im. rewrite Forall_forall in Im. destruct (Im im (nth_error_In _ _ En)) as [i1 i2].
          exists (fst (fst im)). split; [destruct im as [[? ?] ?]; reflexivity|].
          split; [split; [|auto]|]; [|rewrite (ss_D _ _ Ss), (ss_B _ _ Ss), <- S3 in i2; apply (same_keep c0 c1 Ss); auto].
          apply (same_rimg c1 c0); auto. clear - Ss. destruct Ss. constructor; auto.
        - exists F. split; [auto|]. split; [split; auto|apply keep_refl]. }
      destruct K as (F1 & K1 & K2 & K3).
      destruct (IH _ F1 c' K1 K2 HT R0 V0 ltac:(constructor; auto)) as (s' & E' & Al & K4 & K5).
      exists s'. split; [exact E'|]. split; [exact Al|]. split; [exact (keep_trans _ _ _ _ _ _ K3 K4)|].
      eapply Forall_impl; [|exact K5]. intros im Q. exact (keep_trans _ _ _ _ _ _ K3 Q).
  Qed.

  (** ** Lifetimes *)
  Lemma crash_accepted N D B L o L1 : In L1 (rlc_crash N D B L o) ->
    (forall x, In x (accepted L1) -> In x (accepted L) \/ exists k d, o = HPut k d /\ x = mkR k d 0) /\
    zlen (pages L1) <= zlen (pages L) + 1.
  Proof.
    intros H. assert (Sl : forall x, In x (accepted (rlc_seal D B L)) -> In x (accepted L)).
    { intros x. unfold accepted, rlc_seal. cbn [pages cur]. rewrite concat_app. cbn [concat]. rewrite !app_nil_r. auto. }
    assert (Zs : zlen (pages (rlc_seal D B L)) = zlen (pages L) + 1) by (unfold rlc_seal; cbn [pages]; rewrite zlen_app; reflexivity).
    assert (St : (forall x, In x (accepted (rlc_step N D B L o)) -> In x (accepted L) \/ exists k d, o = HPut k d /\ x = mkR k d 0) /\
       zlen (pages (rlc_step N D B L o)) <= zlen (pages L) + 1).
    { destruct o as [k d| |k]; cbn [rlc_step].
      - unfold rlc_put. cbv zeta. destruct (zlen (cur L) >=? N).
        + split; [|cbn [pages]; clear - Zs; unfold rlc_seal in *; cbn [pages] in *; lia].
          intros x. unfold accepted. cbn [pages cur]. intros Hx. apply in_app_or in Hx as [Hx|[<-|[]]]; [|right; eauto].
          left. apply Sl. unfold accepted. apply in_or_app. auto.
        + split; [|cbn [pages]; clear; lia]. intros x. unfold accepted. cbn [pages cur]. rewrite app_assoc. intros Hx.
          apply in_app_or in Hx as [Hx|[<-|[]]]; [auto|right; eauto].
      - destruct (cur L); [split; [auto|clear; lia]|]. split; [auto|clear - Zs; lia].
      - split; [auto|clear; lia]. }
    unfold rlc_crash in H. apply in_app_or in H as [[<-|[<-|[]]]|H]; [split; [auto|clear; lia]|exact St|].
    destruct o as [k d| |k]; [|destruct H|destruct H]. destruct (zlen (cur L) >=? N); [|destruct H].
    destruct H as [<-|[]]. split; [auto|clear - Zs; lia].
  Qed.

  Lemma asc_cons k l : zascending (k :: l) -> zascending l /\ forall x, In x l -> k < x.
  Proof.
    intros [H1 H2]. split; [auto|]. revert k H1 H2. induction l as [|a l IH]; intros k H1 H2 x []; [subst; auto|].
    destruct H2 as [H2 H3]. specialize (IH a H2 H3 x H). lia.
  Qed.

  Definition follows (L : log) (h : list hop) : Prop :=
    forall x k, In x (accepted L) -> In k (put_keys h) -> rkey x < k.
  Lemma follows_crash N D B L o h L1 : zascending (put_keys (o :: h)) -> follows L (o :: h) ->
    In L1 (rlc_crash N D B L o) -> zascending (put_keys h) /\ follows L1 h /\ zlen (pages L1) <= zlen (pages L) + 1.
  Proof.
    intros A F H. destruct (crash_accepted N D B L o L1 H) as [C1 C2].
    assert (As : zascending (put_keys h) /\ forall k d x, o = HPut k d -> In x (put_keys h) -> k < x).
    { destruct o as [k d| |k]; try (split; [exact A|discriminate]). unfold put_keys in A. cbn [flat_map app] in A.
      apply asc_cons in A as [A1 A2]. split; [exact A1|]. intros k' d' x E. injection E as <- <-. auto. }
    destruct As as [A1 A2]. split; [auto|]. split; [|auto]. intros x k Hx Hk.
    destruct (C1 x Hx) as [Q|(k' & d' & -> & ->)]; [|eapply A2; eauto].
    apply F; [auto|]. unfold put_keys in *. cbn [flat_map]. apply in_or_app. auto.
  Qed.
  Lemma follows_head L o h : follows L (o :: h) -> forall k d, o = HPut k d -> forall r, In r (accepted L) -> rkey r < k.
  Proof. intros F k d -> r Hr. apply F; [auto|]. left. reflexivity. Qed.

  Lemma new_images_eq s s' new : trace (sio s') = new ++ trace (sio s) -> new_images s s' = new.
  Proof.
    intros E. unfold new_images. rewrite E, app_length, Nat.add_sub. rewrite firstn_app, Nat.sub_diag, firstn_all. cbn [firstn]. apply app_nil_r.
  Qed.

  (** What holds all along a lifetime starting in configuration [c0], with [T]
      operations in all. *)
  Record along (c0 : cfg) (T : Z) (c : cfg) (s : state) (L : log) (es : list revent) : Prop := {
    al_same : same_store c0 c;
    al_alive : ralive c s L;
    al_ops : Forall (op_plain c0 KB) (ev_ops es);
    al_asc : zascending (put_keys (ev_ops es));
    al_follows : follows L (ev_ops es);
    al_cfgs : Forall (fun e => Forall (fun c' => rlc_reopen c0 c' KB PB T) (ev_cfgs e)) es;
    al_err : T + maxErr c < PB;
    al_len : zlen (pages L) + zlen (ev_ops es) <= T;
    al_quiet : rlc_quiet c s es
  }.

  Lemma same_plain c c' o : same_store c c' -> op_plain c KB o -> op_plain c' KB o.
  Proof. intros S. destruct o; cbn [op_plain]; auto. now rewrite (same_dsz c c' S). Qed.

  Section From.
    Variables (c0 : cfg) (T : Z).
    Hypothesis R0 : rlc_db c0 KB PB.
    Hypothesis V0 : useVar c0 = false.
    Notation N := (maxRec c0).
    Notation D := (numData c0).
    Notation B := (eraseSize c0).

    (** The operation of the next event. *)
    Lemma along_step c s L e es o : along c0 T c s L (e :: es) -> ev_op e = Some o ->
      exists s' new, step c s o = Ok (s', rlc_out L o) /\ ralive c s' (rlc_step N D B L o) /\
        trace (sio s') = new ++ trace (sio s) /\ (new = [] -> rlc_step N D B L o = L) /\
        forall i im, nth_error new i = Some im -> exists L1,
          In L1 (rlc_crash N D B L o) /\ (i = 0%nat -> L1 = rlc_step N D B L o) /\
          stored c (fst (fst im)) L1 /\ keep c (fD (sio s)) (fst (fst im)) (zlen (pages L)) (lo L1).
    Proof.
      intros [A1 A2 A3 A4 A5 A6 A7 A8 A9] Eo.
      assert (Ev : ev_ops (e :: es) = o :: ev_ops es) by (unfold ev_ops; cbn [flat_map]; rewrite Eo; reflexivity).
      rewrite Ev in *. rewrite <- (same_mr _ _ A1), <- (ss_D _ _ A1), <- (ss_B _ _ A1).
      apply step_rlc; auto.
      - apply (same_plain c0); auto. apply (Forall_inv A3).
      - apply (follows_head _ _ _ A5).
      - rewrite zlen_cons in A8. pose proof (zlen_nonneg (ev_ops es)) as Q. clear - A7 A8 Q. lia.
      - cbn [rlc_quiet] in A9. apply A9. auto.
    Qed.

    (** Opening what operation [o] left. *)
    Lemma cut_stored c s L o s' new i : same_store c0 c -> ralive c s L ->
      trace (sio s') = new ++ trace (sio s) -> (new = [] -> rlc_step N D B L o = L) ->
      (forall i im, nth_error new i = Some im -> exists L1,
          In L1 (rlc_crash N D B L o) /\ (i = 0%nat -> L1 = rlc_step N D B L o) /\
          stored c (fst (fst im)) L1 /\ keep c (fD (sio s)) (fst (fst im)) (zlen (pages L)) (lo L1)) ->
      exists F L1, kD (cut s s' i) = Some F /\ stored c0 F L1 /\ In L1 (rlc_crash N D B L o) /\
        (i = 0%nat -> L1 = rlc_step N D B L o) /\ keep c0 (fD (sio s)) F (zlen (pages L)) (lo L1).
    Proof.
      intros Ss Al Et En Im.
      assert (Sb : same_store c c0) by (destruct Ss; constructor; auto).
      assert (Sr : forall F L1, stored c F L1 -> stored c0 F L1).
      { intros F L1 (s1 & s2 & s3). split; [apply (same_rimg c c0 Sb); auto|]. split; [apply (same_wf c c0 Sb); auto|].
        now rewrite (ss_D _ _ Sb), (ss_B _ _ Sb). }
      unfold cut. rewrite (new_images_eq _ _ _ Et). destruct (nth_error new i) as [im|] eqn:Ei.
      - destruct (Im i im Ei) as (L1 & i1 & i2 & i3 & i4). exists (fst (fst im)), L1.
        split; [destruct im as [[? ?] ?]; reflexivity|]. split; [auto|]. split; [auto|]. split; [auto|]. apply (same_keep c c0 Sb). auto.
      - exists (fD (sio s)), L. split; [reflexivity|]. split; [apply Sr; apply (alive_stored c s L Al)|].
        split; [left; reflexivity|]. split; [|apply keep_refl]. intros ->. symmetry. apply En. destruct new; [auto|discriminate].
    Qed.

    (** One event: the state and log afterwards. *)
    Lemma along_next c s L e es : along c0 T c s L (e :: es) ->
      exists c1 s1 x L1, revent_step c s e = Ok (c1, s1, x) /\ along c0 T c1 s1 L1 es /\
        forall es' xs L2, rlc_life N D B L1 es' xs L2 -> rlc_life N D B L (e :: es') (x :: xs) L2.
    Proof.
      intros A. pose proof A as [A1 A2 A3 A4 A5 A6 A7 A8 A9]. destruct e as [o|t c'|o i t c'].
      - change (ev_ops (RvOp o :: es)) with (o :: ev_ops es) in *. rewrite zlen_cons in A8. cbn [rlc_quiet] in A9. destruct A9 as [_ A9].
        destruct (along_step c s L _ es o A eq_refl) as (s' & new & E & Al & _). cbn [revent_step] in *. rewrite E in *. cbn [bind] in *.
        destruct (follows_crash N D B L o _ (rlc_step N D B L o) A4 A5 ltac:(right; left; reflexivity)) as (f1 & f2 & f3).
        exists c, s', (Some (rlc_out L o)), (rlc_step N D B L o). split; [reflexivity|]. split.
        + constructor; auto; [apply (Forall_inv_tail A3)|apply (Forall_inv_tail A6)|clear - A8 f3; lia|apply (A9 c s' _ eq_refl)].
        + intros es' xs L2 Q. constructor. auto.
      - change (ev_ops (RvStop t c' :: es)) with (ev_ops es) in *. cbn [rlc_quiet] in A9. destruct A9 as [_ A9].
        pose proof (Forall_inv A6) as C1. cbn [ev_cfgs] in C1.
        assert (Sb : same_store c c0) by (clear - A1; destruct A1; constructor; auto).
        destruct (alive_stored c s L A2) as (s1 & s2 & s3).
        destruct (boot_ok c0 T L t (disk_of s) (fD (sio s)) c' eq_refl) as (s' & E & Al & _); auto.
        { split; [apply (same_rimg c c0 Sb); auto|]. split; [apply (same_wf c c0 Sb); auto|]. now rewrite (ss_D _ _ Sb), (ss_B _ _ Sb). }
        { pose proof (zlen_nonneg (ev_ops es)) as Q. clear - A8 Q. lia. }
        cbn [revent_step] in *. rewrite E in *. cbn [bind] in *. change (0 =? 0) with true in *. cbv iota in *.
        pose proof (Forall_inv C1) as (Ss & _ & _ & _ & Hf).
        exists c', s', None, L. split; [reflexivity|]. split.
        + constructor; auto; [apply (Forall_inv_tail A6)|apply (A9 c' s' _ eq_refl)].
        + intros es' xs L2 Q. constructor. auto.
      - change (ev_ops (RvCrash o i t c' :: es)) with (o :: ev_ops es) in *. rewrite zlen_cons in A8. cbn [rlc_quiet] in A9. destruct A9 as [_ A9].
        pose proof (Forall_inv A6) as C1. cbn [ev_cfgs] in C1.
        destruct (along_step c s L _ es o A eq_refl) as (s1 & new & E & _ & Et & En & Im).
        destruct (cut_stored c s L o s1 new i A1 A2 Et En Im) as (F & L1 & k1 & k2 & k3 & k4 & _).
        destruct (follows_crash N D B L o _ L1 A4 A5 k3) as (f1 & f2 & f3).
        destruct (boot_ok c0 T L1 t _ F c' k1 k2) as (s' & E' & Al & _); auto.
        { pose proof (zlen_nonneg (ev_ops es)) as Q. clear - A8 Q f3. lia. }
        cbn [revent_step] in *. rewrite E in *. cbn [bind] in *. rewrite E' in *. cbn [bind] in *. change (0 =? 0) with true in *. cbv iota in *.
        pose proof (Forall_inv C1) as (Ss & _ & _ & _ & Hf).
        exists c', s', None, L1. split; [reflexivity|]. split.
        + constructor; auto; [apply (Forall_inv_tail A3)|apply (Forall_inv_tail A6)|clear - A8 f3; lia|apply (A9 c' s' _ eq_refl)].
        + intros es' xs L2 Q. apply rlc_cut with (L1 := L1); auto.
    Qed.

    Lemma along_runs es2 es : forall c s L, along c0 T c s L (es ++ es2) ->
      exists c1 s1 xs L1, rlifetime c s es = Ok (c1, s1, xs) /\ rlc_life N D B L es xs L1 /\ along c0 T c1 s1 L1 es2.
    Proof.
      induction es as [|e es IH]; intros c s L A.
      { exists c, s, [], L. split; [reflexivity|]. split; [constructor|auto]. }
      cbn [app] in A. destruct (along_next c s L e (es ++ es2) A) as (c1 & s1 & x & L1 & E & A1 & Lf).
      destruct (IH c1 s1 L1 A1) as (c2 & s2 & xs & L2 & E2 & Lf2 & A2).
      exists c2, s2, (x :: xs), L2. cbn [rlifetime]. rewrite E. cbn [bind]. rewrite E2. cbn [bind]. auto.
    Qed.
  End From.
End Life.

(** ** The log of a lifetime *)
Lemma crash_keeps N D B L o L1 x : In L1 (rlc_crash N D B L o) -> In x (accepted L) -> In x (accepted L1).
Proof.
  intros H Hx. assert (Sl : In x (accepted (rlc_seal D B L))).
  { unfold accepted, rlc_seal in *. cbn [pages cur]. rewrite concat_app. cbn [concat]. rewrite !app_nil_r. auto. }
  assert (St : In x (accepted (rlc_step N D B L o))).
  { destruct o as [k d| |k]; cbn [rlc_step]; auto.
    - unfold rlc_put. cbv zeta. destruct (zlen (cur L) >=? N).
      + unfold accepted in *. cbn [pages cur rlc_seal] in *. rewrite app_nil_r in Sl. apply in_or_app. auto.
      + unfold accepted in *. cbn [pages cur]. rewrite app_assoc. apply in_or_app. auto.
    - destruct (cur L); auto. }
  unfold rlc_crash in H. apply in_app_or in H as [[<-|[<-|[]]]|H]; [auto|auto|].
  destruct o as [k d| |k]; [|destruct H|destruct H]. destruct (zlen (cur L) >=? N); [|destruct H].
  destruct H as [<-|[]]. auto.
Qed.
Lemma put_accepted N D B L r : In r (accepted (rlc_put N D B L r)).
Proof.
  unfold rlc_put. cbv zeta. destruct (zlen (cur L) >=? N); unfold accepted; cbn [pages cur]; apply in_or_app; right; auto.
  - left. auto.
  - apply in_or_app. right. left. auto.
Qed.
Lemma life_accepted N D B L es xs L' : rlc_life N D B L es xs L' ->
  (forall x, In x (accepted L) -> In x (accepted L')) /\
  (forall k d, In (RvOp (HPut k d)) es -> In (mkR k d 0) (accepted L')) /\
  (forall x, In x (accepted L') -> In x (accepted L) \/ In (HPut (rkey x) (rdata x)) (ev_ops es)).
Proof.
  induction 1 as [L|L o es xs L' H IH|L t c' es xs L' H IH|L o i t c' L1 es xs L' H1 H2 H IH].
  - split; [auto|]. split; [intros k d []|auto].
  - destruct IH as (I1 & I2 & I3). assert (C : In (rlc_step N D B L o) (rlc_crash N D B L o)) by (right; left; reflexivity).
    split; [|split].
    + intros x Hx. apply I1. apply (crash_keeps N D B L o _ x C Hx).
    + intros k d [E|E]; [|auto]. injection E as ->. apply I1. cbn [rlc_step]. apply put_accepted.
    + intros x Hx. change (ev_ops (RvOp o :: es)) with (o :: ev_ops es). destruct (I3 x Hx) as [Q|Q]; [|right; right; auto].
      destruct (crash_accepted N D B L o _ C) as [A _]. destruct (A x Q) as [Q1|(k & d & -> & ->)]; [auto|]. right. left. reflexivity.
  - destruct IH as (I1 & I2 & I3). split; [auto|]. split; [|auto]. intros k d [E|E]; [discriminate|auto].
  - destruct IH as (I1 & I2 & I3). split; [|split].
    + intros x Hx. apply I1. apply (crash_keeps N D B L o _ x H1 Hx).
    + intros k d [E|E]; [discriminate|auto].
    + intros x Hx. change (ev_ops (RvCrash o i t c' :: es)) with (o :: ev_ops es). destruct (I3 x Hx) as [Q|Q]; [|right; right; auto].
      destruct (crash_accepted N D B L o _ H1) as [A _]. destruct (A x Q) as [Q1|(k & d & -> & ->)]; [auto|]. right. left. reflexivity.
Qed.

(** ** The property theorems *)
Section Thms.
  Variables (KB PB : Z).

  Lemma along_start c k s es : rlc_created c KB PB k s -> rlc_ok c KB PB es -> rlc_quiet c s es ->
    along KB PB c (zlen (ev_ops es)) c s emptyLog es.
  Proof.
    intros C [O1 O2 O3 O4] Q. destruct (created_rlc c KB PB k s C) as (H & Co & _). constructor; auto.
    - apply same_refl.
    - split; [split; apply C|]. split; [eauto|auto].
    - intros x k0 [].
    - cbn [emptyLog pages]. change (zlen (@nil (list rcd))) with 0. lia.
  Qed.

  Lemma ralive_gets c L ks : forall s, ralive KB PB c s L -> Forall (fun k => 0 <= k < KB) ks ->
    exists s1, run c s (map HGet ks) = Ok (s1, map (lookup L) ks).
  Proof.
    induction ks as [|k ks IH]; intros s (RV & (f & H) & Co) Hk; [exists s; reflexivity|]. pose proof RV as [R HV].
    pose proof (rl_set _ _ _ R) as G. pose proof (ri_inv _ _ _ _ _ _ H) as I.
    destruct (get_spline c KB PB f G s L k I (rl_bin _ _ _ R)) as (s' & r & dt & E & Sb & I' & o & Er & Ed & So & Cm).
    { pose proof (rl_rec _ _ _ R) as Q. clear - Q. lia. }
    { exact (Forall_inv Hk). }
    destruct (Cm Co) as (Co' & _ & Eo). specialize (Eo (rl_bin _ _ _ R)).
    destruct (IH s') as (s1 & E1); [split; [auto|]; split; [exists f; exact (RI_rbuf c KB PB f s s' L H Sb I')|auto]|exact (Forall_inv_tail Hk)|].
    exists s1. cbn [map run step]. rewrite E. cbn [bind]. rewrite E1. cbn [bind]. f_equal. f_equal. f_equal.
    unfold lookup. rewrite Er, Ed, Eo. destruct (find_key k (retained L)); reflexivity.
  Qed.
  Lemma ralive_serves c s L : ralive KB PB c s L -> rlc_serves c KB s L.
  Proof.
    intros Al. split; [intros ks; apply ralive_gets; auto|]. destruct Al as ((R & _) & (f & H) & Co). intros q n Ub Hq Hn.
    destruct (scan_plain c KB PB f (rl_set _ _ _ R) s L q n (rl_bin _ _ _ R) (bm_none c q Ub) (ri_inv _ _ _ _ _ _ H) Co Hq Hn) as (it & s2 & it' & E1 & E2 & _).
    exists s2. unfold scan. rewrite E1. cbn [bind]. rewrite E2. reflexivity.
  Qed.

  Lemma c19_lifetime c k s es : rlc_created c KB PB k s -> rlc_ok c KB PB es -> rlc_quiet c s es ->
    exists c1 s1 xs L, rlifetime c s es = Ok (c1, s1, xs) /\
      rlc_life (maxRec c) (numData c) (eraseSize c) emptyLog es xs L /\ rlc_serves c1 KB s1 L.
  Proof.
    intros C O Q. pose proof (along_start c k s es C O Q) as A. rewrite <- (app_nil_r es) in A at 2.
    destruct (along_runs KB PB c (zlen (ev_ops es)) (proj1 C) (proj1 (proj2 C)) [] es c s emptyLog A) as (c1 & s1 & xs & L & E & Lf & A1).
    exists c1, s1, xs, L. split; [auto|]. split; [auto|]. apply ralive_serves. apply (al_alive _ _ _ _ _ _ _ _ A1).
  Qed.

  Lemma find_there c L x : wf_log c KB L -> In x (retained L) -> find_key (rkey x) (retained L) = Some x.
  Proof. intros W H. apply find_key_some; [exact (retained_asc c KB L W)|auto]. Qed.

  Lemma c19_acked c k s es : rlc_created c KB PB k s -> rlc_ok c KB PB es -> rlc_quiet c s es ->
    exists c1 s1 xs L, rlifetime c s es = Ok (c1, s1, xs) /\ rlc_serves c1 KB s1 L /\
      zlen (pages L) - lo L >= Z.min (zlen (pages L)) (numData c - 3 * eraseSize c) /\
      forall key d, In (RvOp (HPut key d)) es ->
        In (mkR key d 0) (accepted L) /\ (In (mkR key d 0) (retained L) -> lookup L key = OGet 0 (Some d)).
  Proof.
    intros C O Q. pose proof (along_start c k s es C O Q) as A. rewrite <- (app_nil_r es) in A at 2.
    destruct (along_runs KB PB c (zlen (ev_ops es)) (proj1 C) (proj1 (proj2 C)) [] es c s emptyLog A) as (c1 & s1 & xs & L & E & Lf & A1).
    pose proof (al_alive _ _ _ _ _ _ _ _ A1) as Al. destruct (alive_stored KB PB c1 s1 L Al) as (_ & W & El).
    exists c1, s1, xs, L. split; [auto|]. split; [apply ralive_serves; auto|]. split.
    - pose proof (al_same _ _ _ _ _ _ _ _ A1) as Ss. rewrite El, (ss_D _ _ Ss), (ss_B _ _ Ss).
      pose proof (zlen_nonneg (pages L)) as N0. pose proof (B_pos c KB PB (proj1 C)) as HB. pose proof (D_four c KB PB (proj1 C)) as HD.
      unfold rlc_lo. pose proof (Z.div_mod (zlen (pages L)) (eraseSize c) ltac:(clear - HB; lia)) as Dm.
      pose proof (Z.mod_pos_bound (zlen (pages L)) (eraseSize c) HB) as Mb. revert Dm Mb.
      generalize (zlen (pages L) / eraseSize c) (zlen (pages L) mod eraseSize c). intros a b Dm Mb.
      clear - Dm Mb HB HD N0. nia.
    - intros key d Hin. destruct (life_accepted _ _ _ _ _ _ _ Lf) as (_ & L2 & _). split; [apply L2; auto|].
      intros Hr. unfold lookup. pose proof (find_there c1 L (mkR key d 0) W Hr) as Q1. cbn [rkey] in Q1. rewrite Q1. reflexivity.
  Qed.

  Lemma along_last c k s es e : rlc_created c KB PB k s -> rlc_ok c KB PB (es ++ [e]) -> rlc_quiet c s (es ++ [e]) ->
    exists c1 s1 xs L, rlifetime c s es = Ok (c1, s1, xs) /\
      rlc_life (maxRec c) (numData c) (eraseSize c) emptyLog es xs L /\
      along KB PB c (zlen (ev_ops (es ++ [e]))) c1 s1 L [e].
  Proof.
    intros C O Q. pose proof (along_start c k s _ C O Q) as A.
    exact (along_runs KB PB c _ (proj1 C) (proj1 (proj2 C)) [e] es c s emptyLog A).
  Qed.

  Lemma c20_op c k s es o : rlc_created c KB PB k s -> rlc_ok c KB PB (es ++ [RvOp o]) -> rlc_quiet c s (es ++ [RvOp o]) ->
    exists c1 s1 xs L s2, let L' := rlc_step (maxRec c) (numData c) (eraseSize c) L o in
      rlifetime c s es = Ok (c1, s1, xs) /\ rlc_life (maxRec c) (numData c) (eraseSize c) emptyLog es xs L /\
      step c1 s1 o = Ok (s2, rlc_out L o) /\
      trace (sio s2) = new_images s1 s2 ++ trace (sio s1) /\
      keeps c (fD (sio s1)) (zlen (pages L)) (lo L') (new_images s1 s2).
  Proof.
    intros C O Q. destruct (along_last c k s es _ C O Q) as (c1 & s1 & xs & L & E & Lf & A).
    destruct (along_step KB PB c _ c1 s1 L _ [] o A eq_refl) as (s2 & new & E2 & Al & Et & En & Im).
    exists c1, s1, xs, L, s2. intros L'. split; [auto|]. split; [auto|]. split; [auto|]. rewrite (new_images_eq _ _ _ Et). split; [auto|].
    unfold keeps. rewrite Forall_forall. intros im Him. apply In_nth_error in Him as (i & Hi).
    destruct (Im i im Hi) as (L1 & i1 & i2 & i3 & i4).
    pose proof (al_same _ _ _ _ _ _ _ _ A) as Ss. apply (same_keep c c1 Ss). eapply keep_le; [exact i4| |lia].
    pose proof (alive_stored KB PB _ _ _ (al_alive _ _ _ _ _ _ _ _ A)) as (_ & _ & l0).
    destruct i3 as (_ & _ & l1). destruct (alive_stored KB PB _ _ _ Al) as (_ & _ & l2). fold L' in l2.
    rewrite l1, l2, (ss_D _ _ Ss), (ss_B _ _ Ss). rewrite (ss_D _ _ Ss), (ss_B _ _ Ss) in l0.
    assert (Le : zlen (pages L1) <= zlen (pages L')).
    { clear - i1. unfold L'. unfold rlc_crash in i1. apply in_app_or in i1 as [[<-|[<-|[]]]|i1]; [|lia|].
      - destruct o as [k d| |k]; cbn [rlc_step]; [unfold rlc_put; cbv zeta; destruct (_ >=? _)|destruct (cur L)|]; unfold rlc_seal; cbn [pages]; rewrite ?zlen_app; try lia;
        pose proof (zlen_nonneg [cur L]); try lia. 
      - destruct o as [k d| |k]; [|destruct i1|destruct i1]. cbn [rlc_step]. unfold rlc_put. cbv zeta.
        destruct (_ >=? _); [|destruct i1]. destruct i1 as [<-|[]]. cbn [pages]. lia. }
    pose proof (B_pos c KB PB (proj1 C)) as HB. unfold rlc_lo. pose proof (Z.div_le_mono _ _ (eraseSize c) HB Le) as Q1.
    assert ((zlen (pages L1) / eraseSize c + 3) * eraseSize c <= (zlen (pages L') / eraseSize c + 3) * eraseSize c)
      by (apply Z.mul_le_mono_nonneg_r; clear - Q1 HB; lia). clear - H. lia.
  Qed.

  Lemma c20_recovery c k s es o i t c' : let e := RvCrash o i t c' in
    rlc_created c KB PB k s -> rlc_ok c KB PB (es ++ [e]) -> rlc_quiet c s (es ++ [e]) ->
    exists c1 s1 xs L s2 F L1 s3,
      rlifetime c s es = Ok (c1, s1, xs) /\ rlc_life (maxRec c) (numData c) (eraseSize c) emptyLog es xs L /\
      step c1 s1 o = Ok (s2, rlc_out L o) /\
      kD (cut s1 s2 i) = Some F /\ In L1 (rlc_crash (maxRec c) (numData c) (eraseSize c) L o) /\
      keep c (fD (sio s1)) F (zlen (pages L)) (lo L1) /\
      boot (cut s1 s2 i) t c' = Ok (s3, 0) /\ keeps c F (zlen (pages L1)) (lo L1) (trace (sio s3)).
  Proof.
    intros e C O Q. destruct (along_last c k s es _ C O Q) as (c1 & s1 & xs & L & E & Lf & A).
    destruct (along_step KB PB c _ c1 s1 L _ [] o A eq_refl) as (s2 & new & E2 & Al & Et & En & Im).
    destruct (cut_stored KB PB c c1 s1 L o s2 new i (al_same _ _ _ _ _ _ _ _ A) (al_alive _ _ _ _ _ _ _ _ A) Et En Im) as (F & L1 & k1 & k2 & k3 & k4 & k5).
    pose proof (al_len _ _ _ _ _ _ _ _ A) as Hl. change (ev_ops [e]) with [o] in Hl. change (zlen [o]) with 1 in Hl.
    destruct (crash_accepted _ _ _ _ _ _ k3) as [_ Hz].
    destruct (boot_ok KB PB c _ L1 t _ F c' k1 k2 (Z.le_trans _ _ _ Hz Hl) (proj1 C) (proj1 (proj2 C)) (Forall_inv (al_cfgs _ _ _ _ _ _ _ _ A))) as (s3 & E3 & Al3 & Kp & Ks).
    exists c1, s1, xs, L, s2, F, L1, s3. auto 12.
  Qed.
End Thms.

(** Record-level consistency together with variable data: lifetimes with stops and
    crashes. *)
From Verif Require Import Base BaseFacts Config Spline Storage DB VarData Recovery Spec SpecSpline SplineFacts
  SpecPage SpecStore SpecIter Run SpecRun SpecReopen SpecVar SpecRlc SpecRlcVar LogFacts PageFacts SearchFacts StoreFacts PutFacts
  GetFacts BinFacts RunFacts RecoverFacts ReopenThms RlcFacts RlcOps RlcRecFacts RlcThms SpecFlash FlashFacts
  TapeFacts VarFacts VarPutFacts VarReadFacts ImageFacts VarRunFacts VarGetFacts VarRecFacts RlcVarFacts.
Open Scope Z_scope.
Ltac Zify.zify_post_hook ::= ZifyBool.elim_bool_cstr.
Ltac Zify.zify_convert_to_euclidean_division_equations_flag ::= constr:(false).

Lemma wside_same c c' L U VR VP : same_store c c' -> wside c L U VR VP -> wside c' L U VR VP.
Proof.
  intros S (A1 & A2 & A3 & A4). assert (Hk : forall p, hkey c' p = hkey c p) by (intros p; unfold hkey, ksz; now rewrite (ss_ks _ _ S)).
  split; [auto|]. split; [auto|]. split; [|auto]. intros v Hv. rewrite Hk. auto.
Qed.
Lemma wstored_same c c' KB F FV U VR VP : same_store c c' -> numVar c' = numVar c ->
  wstored c KB F FV U VR VP -> wstored c' KB F FV U VR VP.
Proof.
  intros S Nv (L & (s1 & s2 & s3) & Q & T & Sd). exists L. split; [|split; [|split]].
  - split; [apply (same_rimg c c' S); auto|]. split; [apply (same_wf c c' S); auto|]. now rewrite (ss_D _ _ S), (ss_B _ _ S).
  - apply (VDisk_same c c'); auto.
  - apply (VStored_same c c'); auto.
  - apply (wside_same c c'); auto.
Qed.

Lemma retained_low c KB L r : wf_log c KB L -> In r (retained L) -> 0 <= rkey r.
Proof.
  intros W Hr. pose proof (w_recs _ _ _ W) as Wr. rewrite Forall_forall in Wr. apply (Wr r). apply retained_accepted. auto.
Qed.

(** ** Opening *)
Lemma wopen_ok c KB PB VB k F FV U VR VP : wdb c KB PB VB -> useReset c = false -> kD k = Some F -> kV k = Some FV ->
  wstored c KB F FV U VR VP -> zlen (pages (wlog U)) + maxErr c < PB ->
  maxErr c <= 1 \/ rlc_lo (numData c) (eraseSize c) (zlen (pages (wlog U))) = 0 ->
  exists s, embedDBInit c k [] = Ok (s, 0) /\ walive c KB PB s U VR VP /\
    forall im, In im (trace (sio s)) -> wstored c KB (fst (fst im)) FV U VR VP.
Proof.
  intros W HR HD' HV' (L & (s1 & s2 & s3) & Q & T & Sd) HP He. pose proof Sd as (B1 & B2 & B3 & B4 & B5).
  assert (Zp : zlen (pages (wlog U)) = zlen (pages L)) by (rewrite <- B1; cbn [bareL pages]; apply zlen_map). rewrite Zp in *.
  pose proof (wd_rlc _ _ _ _ W) as R. pose proof (rl_set _ _ _ R) as G. pose proof (wdb_area _ _ _ _ W) as V.
  pose proof (vP c KB PB G) as Pd. pose proof (vB c KB PB VB G V) as Bd. destruct (area_u32 c KB PB VB G V) as [_ Ar].
  assert (El : mkLog (pages L) (lo L) (cur L) = L) by (destruct L; reflexivity).
  destruct (reopen_rlc_data c KB PB F (pages L) (cur L) k R (fun _ => wd_mod _ _ _ _ W) HR HD' s1) as (s & E & H & Co & Ig & _ & Es).
  { rewrite <- s3, El. exact s2. }
  { exact HP. }
  { exact He. }
  rewrite <- s3, El in H, Co.
  rewrite (wd_use _ _ _ _ W) in E. destruct (Z.ltb_spec (bufBlocks c) 4) as [Lt|_]; [pose proof (wd_buf _ _ _ _ W) as Q4; clear - Lt Q4; lia|].
  pose proof (ri_inv _ _ _ _ _ _ H) as I. pose proof (i_faults _ _ _ _ _ _ _ _ I) as Fs.
  unfold initVarData in E. rewrite HR, HV' in E. cbn [negb andb] in E.
  set (v0 := mkV _ _ _ _ _ _ _ _) in E. cbn [set_v sd] in E. rewrite (rl_rlc _ _ _ R), Bool.orb_true_r in E. cbn [open_r] in E.
  assert (Ev : v0 = mkV (init_var_page c) (gpage c) (numVar c) 0 (2 ^ 64 - 1) (varHdr c) NOPAGE (ghasvar c)) by (unfold v0; rewrite Es; reflexivity).
  set (t := set_io (set_v s v0) _) in E.
  assert (I1 : Inv c KB PB (lo L) t L) by (apply (Inv_same c KB PB _ s); auto; exact Fs).
  assert (Co1 : coh c t L) by (apply (coh_same c s); auto).
  assert (H1 : RI c KB PB (lo L) t L) by (apply (RI_same c KB PB (lo L) s t L H I1); reflexivity).
  assert (R1 : vrc FV t) by (split; [exact Fs|split; [reflexivity|left; cbn [t set_io set_v sv]; rewrite Ev; reflexivity]]).
  pose proof (concat_pages L) as Ac. pose proof (zlen_nonneg VP) as V0.
  assert (Ims : forall im, In im (trace (sio s)) -> wstored c KB (fst (fst im)) FV U VR VP).
  { intros im Him. unfold imgs in Ig. rewrite Forall_forall in Ig. destruct (Ig im Him) as [i1 _].
    exists L. split; [split; [exact i1|auto]|]. split; [exact Q|]. split; [exact T|exact Sd]. }
  destruct (Z.eq_dec (zlen VP) 0) as [Vz|Vn].
  - assert (VP = []) as -> by (destruct VP; [auto|rewrite zlen_cons in Vz; pose proof (zlen_nonneg VP) as Qz; clear - Vz Qz; lia]).
    assert (VR = []) as ->.
    { destruct VR as [|[k0 [a bs]] VR]; [auto|exfalso]. destruct (t_laid _ _ _ _ _ _ _ T k0 a bs ltac:(now left)) as (l1 & l2 & _ & _ & l5).
      change (zlen (@nil page)) with 0 in l5. destruct (vskip_inside (pageSize c) (keySize c + 4) (vPH c KB PB G) (4 + length bs) a ltac:(split; lia)).
      pose proof (Z.mod_le a (pageSize c) ltac:(lia) ltac:(lia)). lia. }
    assert (Ei : initVarDataFromFile c t = Ok (t, 0)).
    { unfold initVarDataFromFile. rewrite (vrc_end FV t 0 R1); [reflexivity|].
      rewrite (q_flen _ _ _ Q). change (zlen (@nil page)) with 0. unfold NOPAGE. clear - Bd. lia. }
    rewrite Ei in E. exists t. split; [exact E|]. split; [|exact Ims]. exists (lo L), 0, 1, 0, 0, L.
    split; [lia|]. split; [split; [lia|apply Z.mod_0_l; clear - Bd Pd Ar; lia]|]. split.
    { apply (empty_VInv c KB PB VB G V _ _ L _ (keys L) (gpage c) (ghasvar c)); auto.
      - cbn [t set_io sio fV]. rewrite (q_flen _ _ _ Q). change (zlen (@nil page)) with 0. clear - Bd. lia.
      - intros r Hr Ht. destruct (t_rec _ _ _ _ _ _ _ T r ltac:(rewrite Ac; auto) Ht) as [[A _]|(a & bs & [] & _)]. exact A.
      - intros r Hr Ht. apply (t_torn _ _ _ _ _ _ _ T r ltac:(rewrite Ac; auto) Ht).
      - apply incl_refl.
      - apply (t_keys _ _ _ _ _ _ _ T). }
    split; [exact H1|]. split; [exact Co1|]. split; [intros r Hr; apply (retained_low c KB L); auto|]. split; [left; lia|exact Sd].
  - assert (Ace : accepted L <> []) by (intros A0; rewrite (B5 A0) in Vn; apply Vn; reflexivity).
    assert (Ne : 0 < zlen (pages L) \/ (useRLC c = true /\ cur L <> [])).
    { destruct (pages L) as [|p0 ps] eqn:Ep; [right|left; rewrite zlen_cons; pose proof (zlen_nonneg ps) as Qz; clear - Qz; lia].
      split; [apply (rl_rlc _ _ _ R)|]. intros E0. apply Ace. unfold accepted. rewrite Ep, E0. reflexivity. }
    assert (H0 : zlen VP = 1 -> hkey c (vpg VP 0) <> 0) by (intros Z1; specialize (B3 0 ltac:(lia)); lia).
    destruct (initVarDataFromFile_ok c KB PB VB G V FV VP Q _ L Ne t ltac:(lia) H0 R1 I1 Co1) as (t2 & Ei & Rv).
    rewrite Ei in E. exists t2. split; [exact E|]. pose proof Rv as (r1 & _ & r3 & Co2 & _ & _ & _ & _ & _ & _ & _ & p & q & r12).
    split; [|rewrite r1; exact Ims].
    exists (lo L), (rec_kl L), 1, (wrapped_off c VP), (rec_lv c VP), L.
    split; [lia|]. split; [apply (off_ok c KB PB VB G V VP)|]. split.
    { apply (recv_VInv c KB PB VB G V _ _ (pages L ++ [cur L]) L FV VP VR (keys L) t); auto; lia. }
    split. { destruct H1 as [A1 A2 A3]. constructor; auto. rewrite r1, r12. exact A3. }
    split; [exact Co2|]. split; [intros r Hr; apply (retained_from c KB L); auto|]. split; [|exact Sd].
    right. apply (kl_in c KB L s2 Ace).
Qed.

Lemma wcreated_ok c KB PB VB k s : wcreated c KB PB VB k s -> walive c KB PB s emptyW [] [].
Proof.
  intros (W & HR & HP & E). pose proof (wd_rlc _ _ _ _ W) as R. pose proof (wdb_area _ _ _ _ W) as V.
  pose proof (rl_set _ _ _ R) as G. pose proof (L0 c KB PB G) as L0.
  pose proof (B_pos c KB PB R) as HB. pose proof (D_four c KB PB R) as HD. pose proof (g_DB _ _ _ G) as GDB.
  pose proof (l_ks _ L0) as Lk. pose proof (l_ds _ L0) as Ld. pose proof (l_rec _ L0) as Lr. pose proof (g_D _ _ _ G) as GD.
  pose proof (rl_rlc _ _ _ R) as HC. pose proof (rl_idx _ _ _ R) as HI. pose proof (rl_bin _ _ _ R) as Hb.
  pose proof (wd_use _ _ _ _ W) as HV. rewrite HV in Lr.
  unfold embedDBInit in E. rewrite HV, HC, HI, Hb, (wd_mod _ _ _ _ W) in E. cbn [andb Z.eqb negb] in E.
  destruct (Z.gtb_spec (keySize c) 8); [clear - H Lk; lia|]. destruct (Z.eqb_spec (eraseSize c) 0) as [|_]; [clear - e HB; lia|].
  rewrite GDB in E. cbn [Z.eqb negb] in E. destruct (Z.ltb_spec (numData c) (4 * eraseSize c)); [clear - H0 HD; lia|].
  destruct (Z.eqb_spec (recordSize c) 0) as [|_]; [clear - e Lr Lk Ld; lia|].
  destruct (init_page_ok c L0) as (wb & Ew & Hw). rewrite Ew in E. cbn [bind] in E.
  destruct (Z.ltb_spec (numData c) ((0 * 2 + 2) * eraseSize c)) as [X|X]; [clear - X HD HB; lia|].
  cbn [negb andb] in E. destruct (Z.ltb_spec (numSplinePts c) 4) as [X4|_]; [destruct (g_spl _ _ _ G Hb) as [g1 _]; clear - g1 X4; lia|].
  unfold initData in E. rewrite HR, HC in E. cbn [bind] in E. change (negb (0 =? 0)) with false in E. cbv iota in E. cbn [bind] in E.
  change (negb (0 =? 0)) with false in E. cbv iota in E.
  destruct (Z.ltb_spec (bufBlocks c) (4 + 0)) as [Lt|_]; [pose proof (wd_buf _ _ _ _ W) as Q4; clear - Lt Q4; lia|].
  unfold initVarData in E. rewrite HR in E. cbn [negb andb] in E. injection E as <-.
  pose proof (g_err _ _ _ G) as GE. destruct (g_spl _ _ _ G Hb) as [S1 S2].
  assert (Z0 : zlen (@nil (list rcd)) = 0) by reflexivity.
  assert (R0 : rlc_lo (numData c) (eraseSize c) 0 = 0).
  { destruct (rlo_b c KB PB R 0 ltac:(lia)) as (b1 & _). clear - b1. lia. }
  pose proof (nb_at (eraseSize c) 0 HB ltac:(apply Z.mod_0_l; clear - HB; lia)) as Nb.
  pose proof (vP c KB PB G) as Pd. pose proof (vB c KB PB VB G V) as Bd. destruct (area_u32 c KB PB VB G V) as [_ Ar].
  match goal with |- walive _ _ _ ?x _ _ _ => set (t := x) end.
  assert (I : Inv c KB PB 0 t emptyLog).
  { constructor; unfold t, set_io, set_v; scbn; cbn [sio sd si sv]; cbn [emptyLog pages lo cur]; unfold StoreFacts.store_ok, reserve; rewrite ?HC, ?Hb, ?Z0; auto; try lia.
    + rewrite u32_id by (clear - HB HD GD; lia). clear. lia.
    + intros id Hd. rewrite Z0 in Hd. clear - Hd. lia.
    + constructor; cbn [emptyLog pages lo cur]; unfold accepted; cbn [emptyLog pages lo cur concat app]; rewrite ?Z0; try (clear - HD HB; lia); auto.
      * pose proof (l_fit c L0) as Fit. unfold zlen. cbn [length]. clear - Fit. lia.
      * exact Logic.I.
    + left. reflexivity.
    + eexists. split; [reflexivity|]. split; [|cbn [spl_init s_maxErr]; apply u32_id; clear - GE; lia].
      apply init_SI; try (clear - S1 S2 GE HP; lia); try (apply (g_KB _ _ _ G)); try (apply (g_PB _ _ _ G)); try apply (g_prod _ _ _ G).
    + intros U. congruence. }
  exists 0, 0, 1, 0, 0, emptyLog. split; [lia|]. split; [split; [lia|apply Z.mod_0_l; clear - Bd Pd Ar; lia]|].
  split; [|split; [|split; [|split; [|split]]]].
  - apply (empty_VInv c KB PB VB G V _ _ emptyLog _ (keys emptyLog) (gpage c) (ghasvar c)); auto; try (intros r []); try reflexivity.
    cbn [t set_io sio fV]. unfold open_w. rewrite (rl_trunc _ _ _ R). reflexivity.
  - constructor; [exact I| |].
    + cbn [emptyLog pages lo]. rewrite Z0, R0. reflexivity.
    + exists 0, 0. unfold t, set_io, set_v. scbn. cbn [sio sd si sv]. cbn [emptyLog pages cur]. constructor; rewrite ?Z0, ?Nb; try (clear - HB HD; lia).
      * constructor; rewrite ?Z0, ?Nb, ?R0; try (clear - HB HD; lia).
        -- apply Z.mod_0_l. clear - HB. lia.
        -- intros a Ha. left. unfold open_w; rewrite (rl_trunc _ _ _ R); cbn [flen emptyFile]. apply Z.mod_pos_bound. clear - HB HD. lia.
        -- unfold open_w; rewrite (rl_trunc _ _ _ R); cbn [flen emptyFile]. clear - HB HD. lia.
        -- unfold open_w; rewrite (rl_trunc _ _ _ R); cbn [flen emptyFile]. clear - HB HD. lia.
      * symmetry. apply Z.mod_small. clear - HB HD. lia.
      * f_equal. clear. lia.
      * congruence.
  - intros id Hd. cbn [emptyLog pages lo] in Hd. rewrite Z0 in Hd. clear - Hd. lia.
  - intros r [].
  - left. lia.
  - split; [reflexivity|]. split; [reflexivity|]. split; [intros v Hv; change (zlen (@nil page)) with 0 in Hv; clear - Hv; lia|].
    split; [intros x []|auto].
Qed.

(** ** Lifetimes *)
Lemma wcrash_accepted N D B U o U1 : In U1 (wcrash N D B U o) ->
  (forall x, In x (accepted (wlog U1)) -> In x (accepted (wlog U)) \/ exists k d v, o = VPut k d v /\ rkey x = k) /\
  zlen (pages (wlog U1)) <= zlen (pages (wlog U)) + 1.
Proof.
  intros H. assert (Zs : zlen (pages (rlc_seal D B (wlog U))) = zlen (pages (wlog U)) + 1) by (unfold rlc_seal; cbn [pages]; rewrite zlen_app; reflexivity).
  assert (Pt : forall r, (forall x, In x (accepted (rlc_put N D B (wlog U) r)) -> In x (accepted (wlog U)) \/ x = r) /\
     zlen (pages (rlc_put N D B (wlog U) r)) <= zlen (pages (wlog U)) + 1).
  { intros r. split; [|apply rput_pages]. intros x. rewrite rput_accepted. intros Hx. apply in_app_or in Hx as [Hx|[<-|[]]]; auto. }
  unfold wcrash in H. apply in_app_or in H as [[<-|[<-|[]]]|H].
  - split; [auto|clear; lia].
  - destruct o as [k d v| |k|k ns]; cbn [wstep wlog]; try (split; [auto|clear; lia]).
    + destruct (Pt (mkR k d 0)) as [P1 P2]. split; [|exact P2]. intros x Hx. destruct (P1 x Hx) as [Q| ->]; [auto|]. right. exists k, d, v. auto.
    + destruct (cur (wlog U)) as [|r l]; [split; [auto|clear; lia]|]. cbn [wlog]. rewrite rseal_accepted. split; [auto|clear - Zs; lia].
  - destruct o as [k d v| |k|k ns]; try (destruct H; fail). apply in_app_or in H as [H|H].
    + destruct (zlen (cur (wlog U)) >=? N); [|destruct H]. destruct H as [<-|[]]. cbn [wlog]. rewrite rseal_accepted. split; [auto|clear - Zs; lia].
    + destruct v as [b|]; [|destruct H]. destruct H as [<-|[]]. cbn [wlog].
      destruct (Pt (mkR k d 0)) as [P1 P2]. split; [|exact P2]. intros x Hx. destruct (P1 x Hx) as [Q| ->]; [auto|]. right. exists k, d, (Some b). auto.
Qed.
Definition wfollows (U : wstore) (h : list vop) : Prop := forall x k, In x (accepted (wlog U)) -> In k (vput_keys h) -> rkey x < k.
Lemma wfollows_crash N D B U o h U1 : zascending (vput_keys (o :: h)) -> wfollows U (o :: h) -> In U1 (wcrash N D B U o) ->
  zascending (vput_keys h) /\ wfollows U1 h /\ zlen (pages (wlog U1)) <= zlen (pages (wlog U)) + 1.
Proof.
  intros A F H. destruct (wcrash_accepted N D B U o U1 H) as [C1 C2].
  assert (As : zascending (vput_keys h) /\ forall k d v x, o = VPut k d v -> In x (vput_keys h) -> k < x).
  { destruct o as [k d v| |k|k ns]; try (split; [exact A|discriminate]). unfold vput_keys in A. cbn [flat_map app] in A.
    apply asc_cons in A as [A1 A2]. split; [exact A1|]. intros k' d' v' x E. injection E as <- <- <-. auto. }
  destruct As as [A1 A2]. split; [auto|]. split; [|auto]. intros x k Hx Hk.
  destruct (C1 x Hx) as [Q|(k' & d' & v' & -> & <-)]; [|eapply A2; eauto].
  apply F; [auto|]. unfold vput_keys in *. cbn [flat_map]. apply in_or_app. auto.
Qed.
Lemma wplain_same c c' KB o : same_store c c' -> wop_plain c KB o -> wop_plain c' KB o.
Proof. intros S. destruct o; cbn [wop_plain]; auto. now rewrite (same_dsz c c' S). Qed.
Lemma vcost_same c c' o : same_store c c' -> vcost c' o = vcost c o.
Proof. intros S. unfold vcost. now rewrite (ss_ps _ _ S). Qed.
Lemma later_same c c' VR VP VR' VP' : same_store c c' -> later c VR VP VR' VP' -> later c' VR VP VR' VP'.
Proof. intros S. unfold later. now rewrite (ss_ps _ _ S). Qed.

Section Life.
  Variables (KB PB VB : Z) (c0 : cfg) (T : Z).
  Hypothesis W0 : wdb c0 KB PB VB.
  Notation N := (maxRec c0).
  Notation D := (numData c0).
  Notation B := (eraseSize c0).
  Notation P := (pageSize c0).
  Notation HD := (keySize c0 + 4).

  Record walong (c : cfg) (s : state) (U : wstore) (VR : list entry) (VP : list page) (es : list wevent) : Prop := {
    wa_same : same_store c0 c;
    wa_nv : numVar c = numVar c0;
    wa_db : wdb c KB PB VB;
    wa_alive : walive c KB PB s U VR VP;
    wa_ops : Forall (wop_plain c0 KB) (wev_ops es);
    wa_asc : zascending (vput_keys (wev_ops es));
    wa_follows : wfollows U (wev_ops es);
    wa_cfgs : Forall (fun e => Forall (fun c' => wreopen c0 c' KB PB VB T) (wev_cfgs e)) es;
    wa_err : T + maxErr c < PB;
    wa_len : zlen (pages (wlog U)) + zlen (wev_ops es) <= T;
    wa_cost : zlen VP * P + HD + P + vcosts c0 (wev_ops es) < VB;
    wa_quiet : wquiet c s es
  }.

  Lemma costs_pos h : 0 <= vcosts c0 h.
  Proof.
    pose proof (vP c0 KB PB (rl_set _ _ _ (wd_rlc _ _ _ _ W0))) as Pd. induction h as [|o h IH]; [cbn; lia|].
    change (vcosts c0 (o :: h)) with (vcost c0 o + vcosts c0 h). assert (0 <= vcost c0 o); [|lia].
    unfold vcost. destruct o as [k d v| |k|k ns]; try lia. destruct v as [b|]; [pose proof (zlen_nonneg b)|]; lia.
  Qed.

  Lemma wopen_next k F FV c' U VR VP : kD k = Some F -> kV k = Some FV -> wstored c0 KB F FV U VR VP -> zlen (pages (wlog U)) <= T ->
    wreopen c0 c' KB PB VB T -> exists s, embedDBInit c' k [] = Ok (s, 0) /\ walive c' KB PB s U VR VP /\
      forall im, In im (trace (sio s)) -> wstored c0 KB (fst (fst im)) FV U VR VP.
  Proof.
    intros k1 k2 St HT ((Ss & R & Rs & He & Hf) & Nv & W).
    assert (Sb : same_store c' c0) by (clear - Ss; destruct Ss; constructor; auto).
    destruct (wopen_ok c' KB PB VB k F FV U VR VP) as (s & E & Al & Im); auto.
    - apply (wstored_same c0 c'); auto.
    - clear - Hf HT. lia.
    - destruct He as [He|He]; [auto|right]. rewrite (ss_D _ _ Ss), (ss_B _ _ Ss).
      pose proof (B_pos c0 KB PB (wd_rlc _ _ _ _ W0)) as HB. pose proof (zlen_nonneg (pages (wlog U))) as N0.
      unfold rlc_lo in *. pose proof (Z.div_le_mono (zlen (pages (wlog U))) T B HB HT) as Q.
      assert ((zlen (pages (wlog U)) / B + 3) * B <= (T / B + 3) * B) by (apply Z.mul_le_mono_nonneg_r; clear - Q HB; lia). clear - H He. lia.
    - exists s. split; [auto|]. split; [auto|]. intros im Him. apply (wstored_same c' c0); auto.
  Qed.
  Lemma wboot_ok c' U VR VP FV t : forall k F, kD k = Some F -> kV k = Some FV -> wstored c0 KB F FV U VR VP -> zlen (pages (wlog U)) <= T ->
    Forall (fun c1 => wreopen c0 c1 KB PB VB T) (c' :: map fst t) -> exists s, wboot k t c' = Ok (s, 0) /\ walive c' KB PB s U VR VP.
  Proof.
    induction t as [|[c1 i] t IH]; intros k F k1 k2 St HT HC; cbn [wboot map fst] in *.
    - destruct (wopen_next k F FV c' U VR VP k1 k2 St HT (Forall_inv HC)) as (s & E & Al & _). eauto.
    - inversion_clear HC as [|? ? C1 C2]. inversion_clear C2 as [|? ? C3 C4].
      destruct (wopen_next k F FV c1 U VR VP k1 k2 St HT C3) as (s & E & _ & Im). rewrite E. cbn [bind].
      destruct (nth_error (trace (sio s)) i) as [im|] eqn:En; [|apply (IH k F); auto].
      apply (IH _ (fst (fst im))); auto; [destruct im as [[? ?] ?]; reflexivity|]. apply Im. apply (nth_error_In _ _ En).
  Qed.

  Lemma walong_step c s U VR VP e es o : walong c s U VR VP (e :: es) -> wev_op e = Some o ->
    exists s' x VR' VP' new, vstep c s o = Ok (s', x) /\ wout_ok U o x /\ walive c KB PB s' (wstep N D B U o) VR' VP' /\
      later c0 VR VP VR' VP' /\ zlen VP' * P <= zlen VP * P + vcost c0 o /\ trace (sio s') = new ++ trace (sio s) /\
      forall im, In im new -> exists U1 VR1 VP1, In U1 (wcrash N D B U o) /\ wstored c KB (fst (fst im)) (snd im) U1 VR1 VP1 /\
        later c0 VR VP VR1 VP1 /\ zlen VP1 * P <= zlen VP * P + vcost c0 o.
  Proof.
    intros [A1 A1' A1'' A2 A3 A4 A5 A6 A7 A8 A9 A10] Eo.
    assert (Ev : wev_ops (e :: es) = o :: wev_ops es) by (unfold wev_ops; cbn [flat_map]; rewrite Eo; reflexivity).
    rewrite Ev in *. assert (Sb : same_store c c0) by (clear - A1; destruct A1; constructor; auto).
    change (vcosts c0 (o :: wev_ops es)) with (vcost c0 o + vcosts c0 (wev_ops es)) in A9. pose proof (costs_pos (wev_ops es)) as Cp.
    pose proof (vP c0 KB PB (rl_set _ _ _ (wd_rlc _ _ _ _ W0))) as Pd.
    destruct (wstep_ok c KB PB VB A1'' s U VR VP o A2) as (s' & x & VR' & VP' & new & E & O & Al & Lt & Cs & Tr & Im).
    - apply (wplain_same c0); auto. apply (Forall_inv A3).
    - intros k d v -> r Hr. apply A5; [auto|]. left. reflexivity.
    - rewrite zlen_cons in A8. pose proof (zlen_nonneg (wev_ops es)) as Q. clear - A7 A8 Q. lia.
    - rewrite (vcost_same c0 c o A1), (ss_ps _ _ A1), (ss_ks _ _ A1). clear - A9 Cp Pd. lia.
    - cbn [wquiet] in A10. apply A10. auto.
    - rewrite (vcost_same c0 c o A1), (ss_ps _ _ A1) in Cs. rewrite (same_mr _ _ A1), (ss_D _ _ A1), (ss_B _ _ A1) in *.
      exists s', x, VR', VP', new. split; [auto|]. split; [auto|]. split; [auto|]. split; [apply (later_same c c0 _ _ _ _ Sb Lt)|]. split; [auto|]. split; [auto|].
      intros im Him. destruct (Im im Him) as (U1 & VR1 & VP1 & i1 & i2 & i3 & i4). exists U1, VR1, VP1.
      rewrite (vcost_same c0 c o A1), (ss_ps _ _ A1) in i4. split; [auto|]. split; [auto|]. split; [apply (later_same c c0 _ _ _ _ Sb i3)|auto].
  Qed.

  Lemma walong_next c s U VR VP e es : walong c s U VR VP (e :: es) ->
    exists c1 s1 x U1 VR1 VP1, wevent_step c s e = Ok (c1, s1, x) /\ walong c1 s1 U1 VR1 VP1 es /\ later c0 VR VP VR1 VP1 /\
      forall es' xs U2, wlife N D B U1 es' xs U2 -> wlife N D B U (e :: es') (x :: xs) U2.
  Proof.
    intros A. pose proof A as [A1 A1' A1'' A2 A3 A4 A5 A6 A7 A8 A9 A10].
    assert (Sb : same_store c c0) by (clear - A1; destruct A1; constructor; auto).
    pose proof (vP c0 KB PB (rl_set _ _ _ (wd_rlc _ _ _ _ W0))) as Pd. pose proof (zlen_nonneg (wev_ops es)) as Qn. pose proof (costs_pos (wev_ops es)) as Cp.
    pose proof (l_ks _ (L0 c0 KB PB (rl_set _ _ _ (wd_rlc _ _ _ _ W0)))) as Lk.
    assert (Old : wstored c0 KB (fD (sio s)) (fV (sio s)) U VR VP).
    { apply (wstored_same c c0); auto. apply (alive_wstored c KB PB VB A1''); auto. rewrite (ss_ps _ _ A1).
      pose proof (costs_pos (wev_ops (e :: es))) as Q. clear - A9 Pd Q Lk. lia. }
    destruct e as [o|t c'|o i t c'].
    - change (wev_ops (WOp o :: es)) with (o :: wev_ops es) in *. rewrite zlen_cons in A8. cbn [wquiet] in A10. destruct A10 as [_ A10].
      change (vcosts c0 (o :: wev_ops es)) with (vcost c0 o + vcosts c0 (wev_ops es)) in A9.
      destruct (walong_step c s U VR VP _ es o A eq_refl) as (s' & x & VR' & VP' & new & E & O & Al & Lt & Cs & _).
      cbn [wevent_step] in *. rewrite E in *. cbn [bind] in *.
      destruct (wfollows_crash N D B U o _ (wstep N D B U o) A4 A5 ltac:(right; left; reflexivity)) as (f1 & f2 & f3).
      exists c, s', (Some x), (wstep N D B U o), VR', VP'. split; [reflexivity|]. split; [|split; [auto|]].
      + constructor; auto; [apply (Forall_inv_tail A3)|apply (Forall_inv_tail A6)|clear - A8 f3; lia|clear - A9 Cs; lia|apply (A10 c s' _ eq_refl)].
      + intros es' xs U2 Q. constructor; auto.
    - change (wev_ops (WStop t c' :: es)) with (wev_ops es) in *. cbn [wquiet] in A10. destruct A10 as [_ A10].
      pose proof (Forall_inv A6) as C1. cbn [wev_cfgs] in C1.
      destruct (wboot_ok c' U VR VP _ t (disk_of s) _ eq_refl eq_refl Old ltac:(clear - A8 Qn; lia) C1) as (s' & E & Al).
      cbn [wevent_step] in *. rewrite E in *. cbn [bind] in *. change (0 =? 0) with true in *. cbv iota in *.
      destruct (Forall_inv C1) as ((Ss & _ & _ & _ & Hf) & Nv & W).
      exists c', s', None, U, VR, VP. split; [reflexivity|]. split; [|split; [apply later_refl|]].
      + constructor; auto; [apply (Forall_inv_tail A6)|apply (A10 c' s' _ eq_refl)].
      + intros es' xs U2 Q. constructor. auto.
    - change (wev_ops (WCrash o i t c' :: es)) with (o :: wev_ops es) in *. rewrite zlen_cons in A8. cbn [wquiet] in A10. destruct A10 as [_ A10].
      change (vcosts c0 (o :: wev_ops es)) with (vcost c0 o + vcosts c0 (wev_ops es)) in A9.
      pose proof (Forall_inv A6) as C1. cbn [wev_cfgs] in C1.
      destruct (walong_step c s U VR VP _ es o A eq_refl) as (s1 & x & VR' & VP' & new & E & _ & _ & Lt & Cs & Tr & Im).
      assert (Vc : 0 <= vcost c0 o).
      { clear - Pd. unfold vcost. destruct o as [k d v| |k|k ns]; try lia. destruct v as [b|]; [pose proof (zlen_nonneg b)|]; lia. }
      assert (K : exists F FV U1 VR1 VP1, kD (cut s s1 i) = Some F /\ kV (cut s s1 i) = Some FV /\ In U1 (wcrash N D B U o) /\
                wstored c0 KB F FV U1 VR1 VP1 /\ later c0 VR VP VR1 VP1 /\ zlen VP1 * P <= zlen VP * P + vcost c0 o).
      { unfold cut. rewrite (new_images_eq _ _ _ Tr). destruct (nth_error new i) as [im|] eqn:Ei.
        - destruct (Im im (nth_error_In _ _ Ei)) as (U1 & VR1 & VP1 & i1 & i2 & i3 & i4). exists (fst (fst im)), (snd im), U1, VR1, VP1.
          split; [destruct im as [[? ?] ?]; reflexivity|]. split; [destruct im as [[? ?] ?]; reflexivity|]. split; [auto|]. split; [|auto].
          apply (wstored_same c c0); auto.
        - exists (fD (sio s)), (fV (sio s)), U, VR, VP. split; [reflexivity|]. split; [reflexivity|]. split; [left; reflexivity|].
          split; [auto|]. split; [apply later_refl|clear - Vc; lia]. }
      destruct K as (F & FV & U1 & VR1 & VP1 & k1 & k2 & k3 & k4 & k5 & k6).
      destruct (wfollows_crash N D B U o _ U1 A4 A5 k3) as (f1 & f2 & f3).
      destruct (wboot_ok c' U1 VR1 VP1 FV t _ F k1 k2 k4 ltac:(clear - A8 Qn f3; lia) C1) as (s' & E' & Al).
      cbn [wevent_step] in *. rewrite E in *. cbn [bind] in *. rewrite E' in *. cbn [bind] in *. change (0 =? 0) with true in *. cbv iota in *.
      destruct (Forall_inv C1) as ((Ss & _ & _ & _ & Hf) & Nv & W).
      exists c', s', None, U1, VR1, VP1. split; [reflexivity|]. split; [|split; [auto|]].
      + constructor; auto; [apply (Forall_inv_tail A3)|apply (Forall_inv_tail A6)|clear - A8 f3; lia|clear - A9 k6; lia|apply (A10 c' s' _ eq_refl)].
      + intros es' xs U2 Q. apply wl_cut with (W1 := U1); auto.
  Qed.

  (** The whole lifetime; the states on the way come before the last one. *)
  Lemma walong_runs es : forall c s U VR VP, walong c s U VR VP es ->
    exists c1 s1 xs U1 VR1 VP1, wlifetime c s es = Ok (c1, s1, xs) /\ wlife N D B U es xs U1 /\ walong c1 s1 U1 VR1 VP1 [] /\ later c0 VR VP VR1 VP1 /\
      forall es1 es2, es = es1 ++ es2 -> exists c2 s2 xs2 U2 VR2 VP2, wlifetime c s es1 = Ok (c2, s2, xs2) /\
        walong c2 s2 U2 VR2 VP2 es2 /\ later c0 VR2 VP2 VR1 VP1.
  Proof.
    induction es as [|e es IH]; intros c s U VR VP A.
    { exists c, s, [], U, VR, VP. split; [reflexivity|]. split; [constructor|]. split; [auto|]. split; [apply later_refl|].
      intros es1 es2 E. symmetry in E. apply app_eq_nil in E as [-> ->]. exists c, s, [], U, VR, VP. split; [reflexivity|]. split; [auto|apply later_refl]. }
    destruct (walong_next c s U VR VP e es A) as (c1 & s1 & x & U1 & VR1 & VP1 & E & A1 & Lt & Lf).
    destruct (IH c1 s1 U1 VR1 VP1 A1) as (c2 & s2 & xs & U2 & VR2 & VP2 & E2 & Lf2 & A2 & Lt2 & Sp).
    exists c2, s2, (x :: xs), U2, VR2, VP2. cbn [wlifetime]. rewrite E. cbn [bind]. rewrite E2. cbn [bind].
    split; [reflexivity|]. split; [auto|]. split; [auto|]. split; [eapply later_trans; eauto|]. intros es1 es2 Es. destruct es1 as [|e1 es1]; cbn [app] in Es.
    - subst es2. exists c, s, [], U, VR, VP. split; [reflexivity|]. split; [auto|].
      eapply later_trans; eauto.
    - assert (e1 = e /\ es = es1 ++ es2) as [-> Es'] by (split; congruence).
      destruct (Sp es1 es2 Es') as (c3 & s3 & xs3 & U3 & VR3 & VP3 & E3 & A3 & L3).
      exists c3, s3, (x :: xs3), U3, VR3, VP3. cbn [wlifetime]. rewrite E. cbn [bind]. rewrite E3. cbn [bind]. auto.
  Qed.

  Lemma wentry_accepted c s U VR VP k a bs : walive c KB PB s U VR VP -> In (k, (a, bs)) VR -> exists r, In r (accepted (wlog U)) /\ rkey r = k.
  Proof.
    intros (f & kl & sl & off & lv & L & _ & _ & Y & _ & _ & _ & _ & (B1 & _)) Hi.
    assert (Q : In k (keys L)) by (apply (y_in _ _ _ _ _ _ _ _ _ _ _ _ _ _ _ Y); apply in_map_iff; exists (k, (a, bs)); auto).
    apply in_map_iff in Q as (r & <- & Hr). exists (bare r). split; [|reflexivity]. rewrite <- B1, bare_accepted. apply in_map. auto.
  Qed.
End Life.

Theorem wlifetime_ok c KB PB VB k s es : wcreated c KB PB VB k s -> wok c KB PB VB es -> wquiet c s es ->
  exists c1 s1 xs U, wlifetime c s es = Ok (c1, s1, xs) /\ wlife (maxRec c) (numData c) (eraseSize c) emptyW es xs U /\
    forall j ns, 0 <= j < KB -> ~ In j (wtorn U) -> var_fresh s1 -> lookup_inside c1 s1 j ns ->
      (payload j (wpay U) <> None -> wintact VB c s es s1 j) ->
      exists s2, getvar_read c1 s1 j ns = Ok (s2, vlookup (mkVS (wlog U) (wpay U)) j ns).
Proof.
  intros C [O1 O2 O3 O4 O5] Q. pose proof (wcreated_ok c KB PB VB k s C) as Al. destruct C as (W & HR & HP & E).
  pose proof (vPH c KB PB (rl_set _ _ _ (wd_rlc _ _ _ _ W))) as Ph.
  assert (A : walong KB PB VB c (zlen (wev_ops es)) c s emptyW [] [] es).
  { constructor; auto; try (apply same_refl); try (intros x j []).
    - cbn [emptyW wlog emptyLog pages]. change (zlen (@nil (list rcd))) with 0. clear. lia.
    - change (zlen (@nil page)) with 0. clear - O5 Ph. lia. }
  destruct (walong_runs KB PB VB c _ W es c s emptyW [] [] A) as (c1 & s1 & xs & U & VR & VP & E1 & Lf & A1 & _ & Sp).
  exists c1, s1, xs, U. split; [exact E1|]. split; [exact Lf|]. intros j ns Hj Ht Fr Li Hw.
  destruct A1 as [a1 a1' a1'' a2 a3 a4 a5 a6 a7 a8 a9 a10].
  apply (wlookup c1 KB PB VB a1'' s1 U VR VP j ns a2); auto.
  { rewrite (ss_ps _ _ a1), (ss_ks _ _ a1). cbn in a9. clear - a9. lia. }
  intros a bs Hi. rewrite a1', (ss_B _ _ a1), (ss_ps _ _ a1).
  assert (Pj : payload j (wpay U) <> None).
  { destruct a2 as (f & kl & sl & off & lv & L & _ & _ & _ & _ & _ & _ & _ & (B1 & B2 & _)). rewrite <- B2. intros Np.
    clear - Hi Np. induction VR as [|[k0 [a0 b0]] VR IH]; [destruct Hi|]. unfold payload in *. cbn in *.
    destruct (Z.eqb_spec k0 j); [discriminate|]. destruct Hi as [He|Hi]; [injection He as ? _ _; congruence|]. auto. }
  destruct (Hw Pj) as [Hs|(es1 & e & es2 & d & v & c' & s' & xs' & Es & Eo & E' & Hn)]; [auto|]. left.
  destruct (Sp es1 (e :: es2) Es) as (c3 & s3 & xs3 & U3 & VR3 & VP3 & E3 & A3 & (_ & Lt)).
  assert (s' = s3) as -> by congruence.
  rewrite (alive_next _ _ _ _ _ _ _ (wa_alive _ _ _ _ _ _ _ _ _ _ _ A3)), (alive_next _ _ _ _ _ _ _ a2) in Hn.
  destruct (Lt j a bs Hi) as [Hi3|Hi3]; [exfalso|clear - Hn Hi3; lia].
  destruct (wentry_accepted KB PB c3 s3 U3 VR3 VP3 j a bs (wa_alive _ _ _ _ _ _ _ _ _ _ _ A3) Hi3) as (r & Hr & Er).
  pose proof (wa_follows _ _ _ _ _ _ _ _ _ _ _ A3 r j Hr) as Fo. rewrite Er in Fo. apply (Z.lt_irrefl j). apply Fo.
  unfold wev_ops, vput_keys. cbn [flat_map]. rewrite Eo. cbn [app flat_map]. now left.
Qed.

(** ** What the specification keeps *)
Lemma wcrash_keeps N D B U o U1 : In U1 (wcrash N D B U o) ->
  (forall x, In x (accepted (wlog U)) -> In x (accepted (wlog U1))) /\
  forall k, ~ In k (vput_keys [o]) -> payload k (wpay U1) = payload k (wpay U) /\ (In k (wtorn U1) <-> In k (wtorn U)).
Proof.
  assert (Pt : forall r x, In x (accepted (wlog U)) -> In x (accepted (rlc_put N D B (wlog U) r))).
  { intros r x Hx. rewrite rput_accepted. apply in_or_app. auto. }
  assert (Sl : forall x, In x (accepted (wlog U)) -> In x (accepted (rlc_seal D B (wlog U)))).
  { intros x Hx. rewrite rseal_accepted. auto. }
  intros H. unfold wcrash in H. apply in_app_or in H as [[<-|[<-|[]]]|H].
  - split; [auto|]. intros; tauto.
  - destruct o as [k d v| |k|k ns]; cbn [wstep]; try (split; [auto|intros; tauto]).
    + cbn [wlog wpay wtorn]. split; [auto|]. intros j Hj. split; [|tauto]. destruct v as [b|]; [|reflexivity].
      unfold payload. cbn. destruct (Z.eqb_spec k j); [|reflexivity]. exfalso. apply Hj. left. auto.
    + destruct (cur (wlog U)); cbn [wlog wpay wtorn]; (split; [auto|intros; tauto]).
  - destruct o as [k d v| |k|k ns]; try (destruct H; fail). apply in_app_or in H as [H|H].
    + destruct (zlen (cur (wlog U)) >=? N); [|destruct H]. destruct H as [<-|[]]. cbn [wlog wpay wtorn]. split; [auto|intros; tauto].
    + destruct v as [b|]; [|destruct H]. destruct H as [<-|[]]. cbn [wlog wpay wtorn]. split; [auto|]. intros j Hj. split; [auto|].
      split; [|intros; now right]. intros [->|Hi]; [|auto]. exfalso. apply Hj. now left.
Qed.
Lemma wstep_crash N D B U o : In (wstep N D B U o) (wcrash N D B U o).
Proof. right. left. reflexivity. Qed.
Lemma vkeys_cons o h k : In k (vput_keys (o :: h)) <-> In k (vput_keys [o]) \/ In k (vput_keys h).
Proof. unfold vput_keys. cbn [flat_map]. rewrite app_nil_r, in_app_iff. tauto. Qed.

Lemma wlife_frame N D B U es xs U' : wlife N D B U es xs U' ->
  (forall x, In x (accepted (wlog U)) -> In x (accepted (wlog U'))) /\
  forall k, ~ In k (vput_keys (wev_ops es)) -> payload k (wpay U') = payload k (wpay U) /\ (In k (wtorn U') <-> In k (wtorn U)).
Proof.
  assert (S : forall U o U1 es U', In U1 (wcrash N D B U o) ->
    ((forall x, In x (accepted (wlog U1)) -> In x (accepted (wlog U'))) /\
     forall k, ~ In k (vput_keys (wev_ops es)) -> payload k (wpay U') = payload k (wpay U1) /\ (In k (wtorn U') <-> In k (wtorn U1))) ->
    (forall x, In x (accepted (wlog U)) -> In x (accepted (wlog U'))) /\
    forall k, ~ In k (vput_keys (o :: wev_ops es)) -> payload k (wpay U') = payload k (wpay U) /\ (In k (wtorn U') <-> In k (wtorn U))).
  { intros U0 o U1 es0 U0' Hi [A1 A2]. destruct (wcrash_keeps N D B U0 o U1 Hi) as [B1 B2]. split; [auto|]. intros k Hk.
    rewrite vkeys_cons in Hk. destruct (A2 k ltac:(tauto)) as [-> ->]. apply B2. tauto. }
  induction 1 as [U|U o x es xs U' Ho Hl IH|U t c' es xs U' Hl IH|U o i t c' U1 es xs U' Hi Hl IH].
  - split; [auto|]. intros; tauto.
  - apply (S U o (wstep N D B U o) es U'); [apply wstep_crash|exact IH].
  - exact IH.
  - apply (S U o U1 es U' Hi IH).
Qed.

Lemma wlife_put N D B U es xs U' : wlife N D B U es xs U' -> zascending (vput_keys (wev_ops es)) ->
  (forall k, In k (vput_keys (wev_ops es)) -> ~ In k (wtorn U) /\ payload k (wpay U) = None) ->
  forall k d v, In (WOp (VPut k d v)) es ->
  In (mkR k d 0) (accepted (wlog U')) /\ payload k (wpay U') = v /\ ~ In k (wtorn U').
Proof.
  assert (S : forall o U U1 h, In U1 (wcrash N D B U o) -> zascending (vput_keys (o :: h)) ->
    (forall k, In k (vput_keys (o :: h)) -> ~ In k (wtorn U) /\ payload k (wpay U) = None) ->
    zascending (vput_keys h) /\ forall k, In k (vput_keys h) -> ~ In k (vput_keys [o]) /\ ~ In k (wtorn U1) /\ payload k (wpay U1) = None).
  { intros o U0 U1 h Hi As Fr.
    assert (A : zascending (vput_keys h) /\ forall k, In k (vput_keys h) -> ~ In k (vput_keys [o])).
    { destruct o as [k d v| |k|k ns]; try (split; [exact As|intros ? ? []]). unfold vput_keys in As. cbn [flat_map app] in As.
      apply asc_cons in As as [A1 A2]. split; [exact A1|]. intros j Hj [->|[]]. specialize (A2 _ Hj). lia. }
    destruct A as [A1 A2]. split; [exact A1|]. intros k Hk. split; [auto|].
    destruct (wcrash_keeps N D B U0 o U1 Hi) as [_ B2]. destruct (B2 k (A2 k Hk)) as [-> ->]. apply Fr. apply vkeys_cons. auto. }
  induction 1 as [U|U o x es xs U' Ho Hl IH|U t c' es xs U' Hl IH|U o i t c' U1 es xs U' Hi Hl IH]; intros As Fr k d v Hin.
  - destruct Hin.
  - change (wev_ops (WOp o :: es)) with (o :: wev_ops es) in *.
    destruct (S o U (wstep N D B U o) (wev_ops es) (wstep_crash _ _ _ _ _) As Fr) as [S1 S2].
    destruct Hin as [E|Hin]; [|apply IH; auto; intros j Hj; apply S2; auto].
    assert (o = VPut k d v) as -> by congruence. destruct (wlife_frame N D B _ _ _ _ Hl) as [F1 F2].
    destruct (F2 k) as [-> ->].
    { intros Hk. apply (proj1 (S2 k Hk)). now left. }
    cbn [wstep wlog wpay wtorn] in *. destruct (Fr k ltac:(now left)) as [Fr1 Fr2]. split; [|split; [|auto]].
    + apply F1. rewrite rput_accepted. apply in_or_app. right. now left.
    + destruct v as [b|]; [|exact Fr2]. unfold payload. cbn. now rewrite Z.eqb_refl.
  - destruct Hin as [E|Hin]; [discriminate E|]. apply IH; auto.
  - change (wev_ops (WCrash o i t c' :: es)) with (o :: wev_ops es) in *. destruct Hin as [E|Hin]; [discriminate E|].
    destruct (S o U U1 (wev_ops es) Hi As Fr) as [S1 S2]. apply IH; auto. intros j Hj. apply S2; auto.
Qed.

(** Only the payload of a put that was cut off can be missing. *)
Lemma wlife_torn N D B U es xs U' k : wlife N D B U es xs U' -> In k (wtorn U') ->
  In k (wtorn U) \/ exists d b i t c', In (WCrash (VPut k d (Some b)) i t c') es.
Proof.
  intros H. revert k. induction H as [U|U o x es xs U' Ho Hl IH|U t c' es xs U' Hl IH|U o i t c' U1 es xs U' Hi Hl IH]; intros k Hk.
  - auto.
  - destruct (IH k Hk) as [Q|(d & b & i & t & c' & Q)]; [left|right; exists d, b, i, t, c'; now right].
    destruct o as [j d v| |j|j ns]; cbn [wstep wtorn] in Q; auto. destruct (cur (wlog U)); auto.
  - destruct (IH k Hk) as [Q|(d & b & j & t1 & c1 & Q)]; [auto|right; exists d, b, j, t1, c1; now right].
  - destruct (IH k Hk) as [Q|(d & b & j & t1 & c1 & Q)]; [|right; exists d, b, j, t1, c1; now right].
    unfold wcrash in Hi. apply in_app_or in Hi as [[<-|[<-|[]]]|Hi]; [auto| |].
    + left. destruct o as [j d v| |j|j ns]; cbn [wstep wtorn] in Q; auto. destruct (cur (wlog U)); auto.
    + destruct o as [j d v| |j|j ns]; try (destruct Hi; fail). apply in_app_or in Hi as [Hi|Hi].
      * destruct (zlen (cur (wlog U)) >=? N); [|destruct Hi]. destruct Hi as [<-|[]]. auto.
      * destruct v as [b|]; [|destruct Hi]. destruct Hi as [<-|[]]. cbn [wtorn] in Q. destruct Q as [->|Q]; [|auto].
        right. exists d, b, i, t, c'. now left.
Qed.

Lemma wcrash_acc N D B U o U1 : In U1 (wcrash N D B U o) ->
  accepted (wlog U1) = accepted (wlog U) \/ exists k d v, o = VPut k d v /\ accepted (wlog U1) = accepted (wlog U) ++ [mkR k d 0].
Proof.
  intros H. unfold wcrash in H. apply in_app_or in H as [[<-|[<-|[]]]|H]; [auto| |].
  - destruct o as [k d v| |k|k ns]; cbn [wstep]; auto.
    + right. exists k, d, v. cbn [wlog]. now rewrite rput_accepted.
    + left. destruct (cur (wlog U)); [auto|]. cbn [wlog]. apply rseal_accepted.
  - destruct o as [k d v| |k|k ns]; try (destruct H; fail). apply in_app_or in H as [H|H].
    + destruct (zlen (cur (wlog U)) >=? N); [|destruct H]. destruct H as [<-|[]]. left. cbn [wlog]. apply rseal_accepted.
    + destruct v as [b|]; [|destruct H]. destruct H as [<-|[]]. right. exists k, d, (Some b). cbn [wlog]. now rewrite rput_accepted.
Qed.
Lemma wlife_nodup N D B U es xs U' : wlife N D B U es xs U' -> zascending (vput_keys (wev_ops es)) -> wfollows U (wev_ops es) ->
  NoDup (map rkey (accepted (wlog U))) -> NoDup (map rkey (accepted (wlog U'))).
Proof.
  assert (S : forall U o h U1, In U1 (wcrash N D B U o) -> zascending (vput_keys (o :: h)) -> wfollows U (o :: h) ->
    NoDup (map rkey (accepted (wlog U))) -> zascending (vput_keys h) /\ wfollows U1 h /\ NoDup (map rkey (accepted (wlog U1)))).
  { intros U0 o h U1 Hi As Fo Nd. destruct (wfollows_crash N D B U0 o h U1 As Fo Hi) as (f1 & f2 & _). split; [auto|]. split; [auto|].
    destruct (wcrash_acc N D B U0 o U1 Hi) as [->|(k & d & v & -> & ->)]; [auto|]. rewrite map_app. cbn [map rkey].
    apply (NoDup_Add (Add_app k (map rkey (accepted (wlog U0))) [])). rewrite app_nil_r. split; [auto|].
    intros Hx. apply in_map_iff in Hx as (r & Er & Hr). specialize (Fo r k Hr ltac:(now left)). lia. }
  induction 1 as [U|U o x es xs U' Ho Hl IH|U t c' es xs U' Hl IH|U o i t c' U1 es xs U' Hi Hl IH]; intros As Fo Nd; auto.
  - destruct (S U o (wev_ops es) (wstep N D B U o) (wstep_crash _ _ _ _ _) As Fo Nd) as (a & b & d). auto.
  - destruct (S U o (wev_ops es) U1 Hi As Fo Nd) as (a & b & d). auto.
Qed.

(** Records whose put returned keep their payload through every stop and crash. *)
Theorem wlifetime_payload c KB PB VB k s es : wcreated c KB PB VB k s -> wok c KB PB VB es -> wquiet c s es ->
  exists c1 s1 xs U, wlifetime c s es = Ok (c1, s1, xs) /\ wlife (maxRec c) (numData c) (eraseSize c) emptyW es xs U /\
    forall j d v, In (WOp (VPut j d v)) es ->
      In (mkR j d 0) (accepted (wlog U)) /\
      forall ns, var_fresh s1 -> lookup_inside c1 s1 j ns -> (v <> None -> wintact VB c s es s1 j) ->
        exists s2 x, getvar_read c1 s1 j ns = Ok (s2, x) /\
          (x = OVGetVar 0 (Some d) (option_map (fun b => pieces b ns) v) \/
           x = OVGetVar (-1) None None /\ find_key j (retained (wlog U)) = None).
Proof.
  intros C O Q. destruct (wlifetime_ok c KB PB VB k s es C O Q) as (c1 & s1 & xs & U & E & Lf & Lk).
  exists c1, s1, xs, U. split; [auto|]. split; [auto|]. intros j d v Hin. destruct O as [O1 O2 O3 O4 O5].
  destruct (wlife_put _ _ _ _ _ _ _ Lf O2 ltac:(cbn; auto) j d v Hin) as (A1 & A2 & A3). split; [auto|].
  intros ns Fr Li Hw.
  assert (Hj : 0 <= j < KB).
  { rewrite Forall_forall in O1. apply (O1 (VPut j d v)). unfold wev_ops. apply in_flat_map. exists (WOp (VPut j d v)). split; [auto|now left]. }
  destruct (Lk j ns Hj A3 Fr Li) as (s2 & E2); [rewrite A2; auto|]. exists s2. eexists. split; [exact E2|]. unfold vlookup. cbn [vlog vpay].
  destruct (find_key j (retained (wlog U))) as [r|] eqn:Ef; [left|right; auto]. rewrite A2. f_equal. f_equal.
  pose proof (wlife_nodup _ _ _ _ _ _ _ Lf O2 ltac:(intros x y []) ltac:(constructor)) as Nd.
  unfold find_key in Ef. apply find_some in Ef as [E1 E3]. apply Z.eqb_eq in E3.
  assert (r = mkR j d 0) as ->; [|reflexivity]. apply retained_accepted in E1.
  clear - Nd E1 E3 A1. induction (accepted (wlog U)) as [|x l IH]; [destruct E1|]. cbn [map] in Nd. apply NoDup_cons_iff in Nd as [N1 N2].
  destruct E1 as [->|E1], A1 as [E4|A1]; auto.
  - exfalso. apply N1. rewrite E3. apply in_map_iff. exists (mkR j d 0). auto.
  - exfalso. apply N1. rewrite E4. cbn [rkey]. apply in_map_iff. exists r. auto.
Qed.

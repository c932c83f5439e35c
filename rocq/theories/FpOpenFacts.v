(** Opening with floating-point statistics: pages that are full cause no trouble. *)
From Verif Require Import Base BaseFacts Config Spline Storage DB Recovery Spec SpecSpline SplineFacts
  SpecPage SpecStore Run SpecRun LogFacts PageFacts SearchFacts StoreFacts PutFacts GetFacts BinFacts RunFacts
  ReachFacts SpecReopen RecoverFacts ReopenThms StoreThms Fp SpecFp FpFacts FpRunFacts.
From Coq Require Import QArith.
Open Scope Z_scope.
Ltac Zify.zify_post_hook ::= ZifyBool.elim_bool_cstr.
Ltac Zify.zify_convert_to_euclidean_division_equations_flag ::= constr:(false).

(** Only the slope of the page itself is used for small keys. *)
Lemma maxerr_small fl c w p : keySize c <= 4 -> getMaxError fl c w p = getMaxError fl c p p.
Proof. intros K. unfold getMaxError. destruct (Z.leb_spec (keySize c) 4); [reflexivity|lia]. Qed.

Section Open.
  Variables (c : cfg) (KB PB pf : Z) (fl : Q -> Q).
  Hypothesis G : setting c KB PB.
  Hypothesis Rf : rounds pf fl.
  Hypothesis Pf : 16 <= pf.
  Hypothesis K4 : keySize c <= 4.
  Variables (F : file) (P : list (list rcd)) (l : Z).
  Hypothesis Dk : disk_ok c F P l.
  Hypothesis W : wf_log c KB (recovered c P).
  Hypothesis N127 : maxRec c <= 127.
  Hypothesis Bl : blank c.
  Hypothesis Hl : eraseFill c = None \/ l <= rec_lo (numData c) (eraseSize c) (zlen P).
  Hypothesis HP : zlen P + maxErr c < PB.
  Hypothesis Full : Forall (fun p => zlen p = maxRec c) P.
  Notation n := (zlen P).
  Notation D := (numData c).

  Lemma img_stat w id pg : 0 <= id < n -> img c P id pg -> exists e, getMaxError fl c w pg = Ok e.
  Proof using G Rf Pf K4 W N127 Full.
    clear - G Rf Pf K4 W N127 Full. intros Hi (H & _). rewrite maxerr_small by auto.
    set (rs := nth (Z.to_nat id) P []) in *.
    assert (Ir : In rs P) by (apply nth_In; unfold zlen in Hi; lia).
    assert (Fu : zlen rs = maxRec c) by (rewrite Forall_forall in Full; auto).
    pose proof (w_asc _ _ _ W) as A2. pose proof (w_recs _ _ _ W) as A3.
    unfold accepted, recovered in A2, A3. cbn [pages cur] in A2, A3. rewrite app_nil_r in A2, A3.
    destruct (fp_maxerr c KB PB pf fl pg rs) as ((e & E & _) & _); eauto; try lia.
    - apply asc_page; auto.
    - rewrite Forall_forall in *. intros r Hr. apply A3. apply in_concat. eauto.
  Qed.

  Lemma scan_stats_ok w i m : split_at D n i m -> forall fuel j, 1 <= j <= m -> (Z.to_nat (m - j) < fuel)%nat ->
    scan_stats fl c w F fuel j (i + j - 1) = Ok tt.
  Proof.
    intros Sp. pose proof (n_small c KB PB G P HP) as Hn. pose proof (g_D _ _ _ G) as GD.
    pose proof (len_split c F P l Dk Bl i m Sp) as FL.
    pose proof Sp as (E & Hm & Hi & Hid & Hc).
    induction fuel as [|fuel IH]; intros j Hj Hf; [lia|]. cbn [scan_stats].
    destruct (Z.eq_dec j m) as [->|Nj].
    - destruct (Z.ltb_spec m (flen F)) as [Lt|Ge]; cbn [andb]; [|reflexivity].
      destruct (Z.eqb_spec i 0) as [|Ni]; [lia|]. destruct (Z.ltb_spec m D); [|lia].
      destruct (id_old c KB PB G F P l Dk Bl HP i m Sp Ni ltac:(lia)) as (x & -> & Nx). cbn [bind].
      rewrite u32_id by lia. destruct (Z.eqb_spec x (i + m - 1 + 1)); [lia|]. now rewrite andb_false_r.
    - assert (FLm : m <= flen F) by (rewrite FL; destruct (i =? 0); lia).
      destruct (Z.ltb_spec j (flen F)); [|lia]. destruct (Z.ltb_spec j D); [|lia]. cbn [andb].
      pose proof (img_new c KB PB G F P l Dk Hl i m Sp j ltac:(lia)) as Im.
      rewrite (pid_img c KB PB G (recovered c P) (i + j) _ Im). cbn [bind].
      rewrite mod_at, Z.eqb_refl by lia. rewrite u32_id by lia. replace (i + j - 1 + 1) with (i + j) by lia.
      rewrite Z.eqb_refl. cbn [andb].
      destruct (img_stat w (i + j) _ ltac:(lia) Im) as (e & ->). cbn [bind].
      replace (i + j) with (i + (j + 1) - 1) by lia. apply IH; lia.
  Qed.

  Lemma open_stats_ok w : open_stats fl c w F = Ok tt.
  Proof.
    pose proof (n_small c KB PB G P HP) as Hn. pose proof (g_D _ _ _ G) as GD. pose proof (g_B _ _ _ G) as GB. unfold open_stats.
    destruct (Z.eq_dec n 0) as [Z0|NZ].
    - assert (FL : flen F = 0) by (rewrite (dk_end _ _ _ _ Dk (proj1 Bl)); lia).
      cbn [first_stats]. rewrite FL. reflexivity.
    - destruct (split_ex D n ltac:(lia) ltac:(lia)) as (i & m & Sp). pose proof Sp as (E & Hm & Hi & Hid & Hc).
      pose proof (len_split c F P l Dk Bl i m Sp) as FL.
      assert (FLm : m <= flen F) by (rewrite FL; destruct (i =? 0); lia).
      cbn [first_stats]. destruct (Z.ltb_spec 0 (flen F)); [|lia].
      pose proof (img_new c KB PB G F P l Dk Hl i m Sp 0 ltac:(lia)) as Im0. rewrite Z.add_0_r in Im0.
      rewrite (hdr_img c KB PB G (recovered c P) W i _ 0 N127 Im0) by (auto; cbn [recovered pages]; lia). cbn [bind].
      destruct (img_stat w i _ ltac:(lia) Im0) as (e & ->). cbn [bind].
      replace i with (i + 1 - 1) at 1 by lia. apply (scan_stats_ok w i m Sp); lia.
  Qed.
End Open.

Lemma fp_reopen KB PB pf fl c k s es c' c0 s0 xs :
  created c KB PB k s -> lifetime_ok c KB PB emptyLog (es ++ [EvReopen c']) ->
  lifetime c s es = Ok (c0, s0, xs) ->
  rounds pf fl -> 16 <= pf -> keySize c' <= 4 ->
  Forall (fun p => zlen p = maxRec c') (pages (snd (lifetime_spec c emptyLog es))) ->
  exists s1, embedDBInit c' (disk_of s0) [] = Ok (s1, 0) /\ embedDBInit_fp fl c' (disk_of s0) = Ok (s1, 0).
Proof.
  intros C H E0 R Pf K4 Full.
  destruct (life_last KB PB c k s es _ C H) as (s0' & s1 & ys & y & E & Al & He & _).
  rewrite E0 in E. assert (X : c0 = fst (lifetime_spec c emptyLog es) /\ s0 = s0') by (split; congruence).
  destruct X as [Xc <-]. rewrite <- Xc in Al, He. clear E E0 Xc. set (L := snd (lifetime_spec c emptyLog es)) in *. clearbody L.
  destruct Al as (Db & (f & I) & Hlo). cbn [event_ok] in He.
  pose proof (pd_set _ _ _ Db) as G. pose proof (i_wf _ _ _ _ _ _ _ _ I) as W.
  pose proof (ro_same _ _ _ _ _ He) as S. pose proof (w_asc _ _ _ W) as A2. pose proof (w_recs _ _ _ W) as A3.
  unfold accepted in A2, A3. rewrite asc_app in A2. rewrite Forall_app in A3.
  pose proof (plain_disk _ _ _ _ _ _ _ _ (m_rlc _ (pd_modes _ _ _ Db)) I) as Dk.
  destruct (reopened KB PB c0 c' (fD (sio s0)) (pages L) (lo L) (disk_of s0) S Db He Dk
                  (w_pages _ _ _ W)) as (s' & E & _); [tauto|tauto|auto|reflexivity|].
  exists s'. split; [exact E|]. unfold embedDBInit_fp. rewrite E. cbn [bind].
  pose proof He as [_ Db' Hr He' Hl']. pose proof (pd_set _ _ _ Db') as G'.
  rewrite Hr, (m_rlc _ (pd_modes _ _ _ Db')). cbn [Z.eqb negb andb]. cbn [disk_of kD].
  destruct (init_page_ok c' (L0 c' KB PB G')) as (w & -> & _). cbn [bind].
  rewrite (open_stats_ok c' KB PB pf fl G' R Pf K4 (fD (sio s0)) (pages L) (lo L)); [reflexivity|..]; auto.
  - apply (same_disk c0 c' S); auto.
  - apply (recovered_wf c' KB PB G').
    + rewrite (same_mr c0 c' S). apply (w_pages _ _ _ W).
    + tauto.
    + eapply Forall_impl; [|exact (proj1 A3)]. intros r. apply (same_rec c0 c' S).
  - apply Db'.
  - apply Db'.
  - right. rewrite (ss_D _ _ S), (ss_B _ _ S). exact Hlo.
Qed.

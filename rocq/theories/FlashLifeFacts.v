(** The data area keeps the rules of flash storage over lifetimes. *)
From Coq Require Import Lia.
From Verif Require Import Base Config Spline Storage DB VarData Recovery BaseFacts Spec SpecPage SpecStore Run SpecRun SpecIter SpecReopen
  SpecInit InitFacts LogFacts PageFacts StoreFacts PutFacts GetFacts RunFacts RecoverFacts ReopenThms SpecFlash FlashFacts FlashThms SpecFlashLife.
Open Scope Z_scope.
Ltac Zify.zify_post_hook ::= ZifyBool.elim_bool_cstr.
Ltac Zify.zify_convert_to_euclidean_division_equations_flag ::= constr:(false).

(** * Storage operations of a put and a flush *)
Definition new_files (c : cfg) (F : file) (n a : Z) (w : page) : list file :=
  let ph := n mod numData c in
  if a <=? 0 then [file_write c (file_erase c F ph (ph + eraseSize c)) ph w; file_erase c F ph (ph + eraseSize c)]
  else [file_write c F ph w].

Lemma writePage_files c s s' r : faults (sio s) = [] -> writePage c s = Ok (s', r) ->
  exists w, files s' = new_files c (fD (sio s)) (nextD (sd s)) (availD (sd s)) w ++ files s /\
    fD (sio s') = hd (fD (sio s)) (new_files c (fD (sio s)) (nextD (sd s)) (availD (sd s)) w).
Proof.
  intros Hf. unfold writePage. cbv zeta. intros H. destruct (set_pid _ _) as [w| |]; cbn [bind] in H; try discriminate.
  match type of H with bind ?y _ = _ => destruct y as [[s1 ok]| |] eqn:E1; cbn [bind] in H; try discriminate end.
  cbn [set_d sd d_wbuf d_next availD sio] in E1. unfold new_files. cbv zeta.
  destruct (Z.leb_spec (availD (sd s)) 0) as [Ha|Ha].
  - rewrite (io_erase_run c _ _ _ _ Hf) in E1.
    assert (T : sio s1 = putF WD (sio s) (file_erase c (fD (sio s)) (nextD (sd s) mod numData c) (nextD (sd s) mod numData c + eraseSize c)) /\ ok = true).
    { brk E1; auto. }
    destruct T as [T ->]. cbn [negb] in H.
    destruct (io_write c WD _ _ (sio s1)) as [o okw] eqn:Ew. rewrite io_write_run in Ew by (now rewrite T).
    injection Ew as <- <-. injection H as <- <-. exists (wbuf (sd s1)). unfold files. cbn [set_d set_io sio]. rewrite T. cbn. auto.
  - assert (T : sio s1 = sio s /\ ok = true) by (brk E1; auto). destruct T as [T ->]. cbn [negb] in H.
    destruct (io_write c WD _ _ (sio s1)) as [o okw] eqn:Ew. rewrite io_write_run in Ew by (now rewrite T).
    injection Ew as <- <-. injection H as <- <-. exists (wbuf (sd s1)). unfold files. cbn [set_d set_io sio]. rewrite T. cbn. auto.
Qed.

Lemma ro_files s s' : read_only s s' -> faults (sio s) = [] -> files s' = files s /\ fD (sio s') = fD (sio s) /\ faults (sio s') = [] /\
  nextD (sd s') = nextD (sd s) /\ availD (sd s') = availD (sd s).
Proof.
  intros ((H1 & H2 & H3 & H4) & (fs & H5) & (p1 & n1 & H6) & _) E. unfold files. rewrite H1, H4, H6. cbn.
  repeat split; auto. rewrite E in H5. symmetry in H5. now apply app_eq_nil in H5.
Qed.

Lemma put_files c s k d s' r n : useRLC c = false -> useIndex c = false -> faults (sio s) = [] -> get_count (wbuf (sd s)) = Ok n ->
  embedDBPut c s k d = Ok (s', r) -> r = 0 ->
  if n >=? maxRec c then exists w, files s' = new_files c (fD (sio s)) (nextD (sd s)) (availD (sd s)) w ++ files s /\
    fD (sio s') = hd (fD (sio s)) (new_files c (fD (sio s)) (nextD (sd s)) (availD (sd s)) w)
  else files s' = files s /\ fD (sio s') = fD (sio s).
Proof.
  intros HR HI Hf Hn. unfold embedDBPut. rewrite HR, Hn. cbn [bind]. intros H Hr.
  match type of H with bind ?y _ = _ => destruct y as [[s1 rej]| |] eqn:E1; cbn [bind] in H; try discriminate end.
  assert (R1 : read_only s s1).
  { destruct (_ || _); [|brk E1; apply ro_refl].
    match type of E1 with bind ?y _ = _ => destruct y as [[s2 pv]| |] eqn:E2; cbn [bind] in E1; try discriminate end.
    brk E1. brk E2; ro; auto using ro_refl. }
  destruct (ro_files _ _ R1 Hf) as (A1 & A2 & A3 & A4 & A5). clear E1 R1. rewrite <- A1, <- A2, <- A4, <- A5.
  destruct rej; [injection H as <- <-; discriminate|].
  match type of H with bind ?y _ = _ => destruct y as [[[s2 n2] wr]| |] eqn:E1; cbn [bind] in H; try discriminate end.
  assert (T : sio s' = sio s2) by (brk H; reflexivity). unfold files. rewrite T. fold (files s2).
  destruct (n >=? maxRec c).
  - destruct (writePage c s1) as [[s3 r3]| |] eqn:E3; cbn [bind] in E1; try discriminate.
    destruct (writePage_files _ _ _ _ A3 E3) as (w & B1 & B2). exists w.
    destruct (indexPage c s3 r3) as [s4| |] eqn:E4; cbn [bind] in E1; try discriminate.
    assert (T4 : sio s4 = sio s3) by (unfold indexPage in E4; brk E4; reflexivity).
    unfold put_index in E1. rewrite HI in E1. cbn [negb bind] in E1.
    assert (T2 : sio s2 = sio s3) by (brk E1; exact T4). unfold files at 1. rewrite T2. fold (files s3). auto.
  - injection E1 as <- <- <-. auto.
Qed.
Lemma flush_files c s s' r n : useIndex c = false -> useVar c = false -> faults (sio s) = [] -> get_count (wbuf (sd s)) = Ok n ->
  embedDBFlush c s = Ok (s', r) ->
  if n <? 1 then files s' = files s /\ fD (sio s') = fD (sio s)
  else exists w, files s' = new_files c (fD (sio s)) (nextD (sd s)) (availD (sd s)) w ++ files s /\
    fD (sio s') = hd (fD (sio s)) (new_files c (fD (sio s)) (nextD (sd s)) (availD (sd s)) w).
Proof.
  intros HI HV Hf Hn. unfold embedDBFlush. rewrite Hn, HI, HV. cbn [bind]. intros H. destruct (n <? 1); [injection H as <- <-; auto|].
  destruct (writePage c s) as [[s3 r3]| |] eqn:E3; cbn [bind] in H; try discriminate.
  destruct (writePage_files _ _ _ _ Hf E3) as (w & B1 & B2). exists w.
  assert (T : sio s' = sio s3).
  { destruct (r3 =? NOPAGE); [now injection H as <- <-|]. destruct (indexPage c s3 r3) as [s4| |] eqn:E4; cbn [bind] in H; try discriminate.
    assert (T4 : sio s4 = sio s3) by (unfold indexPage in E4; brk E4; reflexivity).
    cbn [negb] in H. destruct (init_page c); cbn [bind] in H; try discriminate. injection H as <- <-. exact T4. }
  unfold files at 1. rewrite T. fold (files s3). auto.
Qed.

(** * The rules at the level of logs *)
(** Pages [P] are written, those from [l] on are not erased, and the pages in front
    of the write position up to there are vacant. *)
Definition vac (c : cfg) (fs : list file) (F : file) (P : list (list rcd)) (l : Z) : Prop :=
  exists D, area_run c (numData c) fs D F /\ area c D (zlen P) (numData c - (zlen P - l)) (numData c).
Definition vac_log c fs F (L : log) := vac c fs F (pages L) (lo L).

Lemma sizes_of c KB PB : setting c KB PB -> truncates c = true -> useIndex c = false -> useVar c = false -> sizes c.
Proof.
  intros G T I V. pose proof (g_B _ _ _ G). pose proof (g_D _ _ _ G). constructor; auto; try lia; congruence.
Qed.

Section Vac.
  Variable c : cfg.
  Hypothesis Sz : sizes c.
  Hypothesis HD : numData c mod eraseSize c = 0.
  Hypothesis HB : eraseSize c <= numData c.
  Notation D := (numData c).
  Notation B := (eraseSize c).

  Lemma seal_vac fs F L w i P l : vac_log c fs F L ->
    nth_error (seal_points D B L) i = Some (P, l) ->
    let new := new_files c F (zlen (pages L)) (D - (zlen (pages L) - lo L)) w in
    exists F1, nth_error new i = Some F1 /\ vac c (skipn i new ++ fs) F1 P l.
  Proof.
    intros (A & R & Ar) Hn new. pose proof (sz_data _ Sz) as SD. pose proof (sz_erase _ Sz) as SB.
    unfold new, new_files, seal_points, seal in *. cbv zeta in *. cbn [pages lo] in *. clear new.
    set (n := zlen (pages L)) in *. assert (Z1 : zlen (pages L ++ [cur L]) = n + 1) by (rewrite zlen_app; reflexivity).
    pose proof (ar_a _ _ _ _ _ Ar) as Ra.
    destruct (Z.geb_spec (n - lo L) D) as [Ge|Lt]; destruct (Z.leb_spec (D - (n - lo L)) 0) as [Le|Gt]; try lia.
    - assert (E0 : D - (n - lo L) = 0) by lia. rewrite E0 in Ar.
      destruct (area_erase c Sz A F n D (proj1 SD) HD HB Ar) as (A1 & Op1 & Ar1).
      pose proof (area_op _ _ _ _ _ _ _ R Op1) as R1.
      destruct (area_write c A1 (file_erase c F (n mod D) (n mod D + B)) n B D w (proj1 SD) Ar1 SB) as (A2 & Op2 & Ar2).
      pose proof (area_op _ _ _ _ _ _ _ R1 Op2) as R2.
      destruct i as [|[|i]]; cbn [nth_error] in Hn |- *; [| |destruct i; discriminate].
      + injection Hn as <- <-. eexists. split; [reflexivity|]. cbn [skipn app]. exists A2. split; [exact R2|].
        rewrite Z1. replace (D - (n + 1 - (lo L + B))) with (B - 1) by lia. exact Ar2.
      + injection Hn as <- <-. eexists. split; [reflexivity|]. cbn [skipn app]. exists A1. split; [exact R1|]. fold n.
        replace (D - (n - (lo L + B))) with B by lia. exact Ar1.
    - destruct (area_write c A F n _ D w (proj1 SD) Ar Gt) as (A2 & Op2 & Ar2).
      pose proof (area_op _ _ _ _ _ _ _ R Op2) as R2.
      destruct i as [|i]; cbn [nth_error] in Hn |- *; [|destruct i; discriminate].
      injection Hn as <- <-. eexists. split; [reflexivity|]. cbn [skipn app]. exists A2. split; [exact R2|].
      rewrite Z1. replace (D - (n + 1 - lo L)) with (D - (n - lo L) - 1) by lia. exact Ar2.
  Qed.

  (** Recovery does not take more pages for vacant than there are. *)
  Lemma recovered_vac fs F P l : 2 * B <= D -> vac c fs F P l -> 0 <= l -> l mod B = 0 -> ~ at_boundary c P l ->
    vac c fs F P (rec_lo D B (zlen P)).
  Proof.
    intros H2 (A & R & Ar) Hl Hm Hb. exists A. split; [exact R|]. pose proof (sz_erase _ Sz) as SB.
    pose proof (zlen_nonneg P) as Z0. destruct (rec_lo_bounds D B (zlen P)) as (B1 & B2 & B3 & B4); try lia; auto.
    destruct Ar as [a1 a2 a4 a6].
    assert (Le : rec_lo D B (zlen P) <= l).
    { unfold rec_lo in *. destruct (Z.leb_spec (zlen P) D); [lia|]. destruct (Z.eqb_spec (zlen P mod D) 0) as [E|N]; [lia|].
      destruct (Z.eq_dec (zlen P mod B) 0) as [Eb|Nb].
      - rewrite Eb, Z.sub_0_r. destruct (Z.eq_dec l (zlen P - D)) as [El|Nl]; [exfalso; apply Hb; unfold at_boundary; auto|].
        apply mult_le with B; auto; [|lia]. rewrite Eb, Z.sub_0_r in B4. exact B4.
      - apply mult_le with B; auto. pose proof (Z.mod_pos_bound (zlen P) B SB). lia. }
    constructor; [lia|lia| |].
    - replace (zlen P + (D - (zlen P - rec_lo D B (zlen P)))) with (D + rec_lo D B (zlen P)) by lia.
      rewrite Z.add_mod, HD, B4 by lia. now rewrite Z.mod_0_l by lia.
    - intros j Hj. apply a6. lia.
  Qed.
End Vac.

(** * Lifetimes *)
Definition same_flash (c c' : cfg) : Prop :=
  numData c' = numData c /\ eraseSize c' = eraseSize c /\ eraseFill c' = eraseFill c /\ holeFill c' = holeFill c /\ psz c' = psz c.
Lemma same_flash_store c c' : same_store c c' -> same_flash c c'.
Proof. intros S. unfold same_flash. rewrite (same_psz _ _ S). destruct S. auto. Qed.
Lemma same_flash_trans a b c : same_flash a b -> same_flash b c -> same_flash a c.
Proof. intros (A1 & A2 & A3 & A4 & A5) (B1 & B2 & B3 & B4 & B5). unfold same_flash. rewrite B1, B2, B3, B4, B5. auto. Qed.
Lemma op_same c c' num P f P' f' : same_flash c c' -> flash_op c num P f P' f' -> flash_op c' num P f P' f'.
Proof.
  intros (A1 & A2 & A3 & A4 & A5).
  assert (RK : forall R g g', rest_kept c R g g' -> rest_kept c' R g g') by (intros R g g' H; unfold rest_kept, hole in *; rewrite A4, A5; exact H).
  intros [p w f1 H1 H2 H3 H4|b f1 H1 H2 H3 H4 H5].
  - eapply op_write; eauto.
  - rewrite <- A2. apply op_erase; rewrite ?A2, ?A3, ?A5; auto.
Qed.
Lemma run_same c c' num t P f : same_flash c c' -> area_run c num t P f -> area_run c' num t P f.
Proof. intros S H. induction H; [constructor|]. econstructor; [eassumption|]. eapply op_same; eauto. Qed.
Lemma vac_same c c' fs F P l : same_flash c c' -> vac c fs F P l -> vac c' fs F P l.
Proof.
  intros S (D & R & A). pose proof S as (A1 & A2 & _). exists D. rewrite A1. split; [eapply run_same; eauto|].
  destruct A as [a1 a2 a3 a4]. constructor; rewrite ?A2; auto.
Qed.

Lemma seal_vac_log c (Sz : sizes c) fs F L w : numData c mod eraseSize c = 0 -> eraseSize c <= numData c -> vac_log c fs F L ->
  let new := new_files c F (zlen (pages L)) (numData c - (zlen (pages L) - lo L)) w in
  vac_log c (new ++ fs) (hd F new) (seal (numData c) (eraseSize c) L).
Proof.
  intros HD HB H new. destruct (seal_vac c Sz HD HB fs F L w 0 _ _ H eq_refl) as (F1 & E & V). fold new in E, V.
  unfold vac_log. destruct new; [discriminate|]. injection E as ->. exact V.
Qed.

Section FlashLife.
  Variables (KB PB : Z).

  Lemma step_vac c f s L o h : plain_db c KB PB -> Inv c KB PB f s L -> new_op c KB PB L o -> vac_log c (files s ++ h) (fD (sio s)) L ->
    exists s' x, step c s o = Ok (s', x) /\
      vac_log c (files s' ++ h) (fD (sio s')) (log_step (maxRec c) (numData c) (eraseSize c) L o) /\
      forall i P l, nth_error (op_points c L o) i = Some (P, l) ->
        exists im, nth_error (trace (sio s')) i = Some im /\ vac c (skipn i (files s') ++ h) (fst (fst im)) P l.
  Proof.
    intros Db I Ho V. destruct (step_points KB PB c f s L o Db I Ho) as (s' & x & new & E & I' & So & Et & F2).
    exists s', x. split; [exact E|].
    destruct Db as [G M U N127 [Tr Bl]]. pose proof (sizes_of _ _ _ G Tr U (m_var _ M)) as Sz.
    pose proof (g_B _ _ _ G) as GB. pose proof (g_D _ _ _ G) as GD. pose proof (g_DB _ _ _ G) as GDB.
    pose proof (i_faults _ _ _ _ _ _ _ _ I) as Hf. pose proof (i_nextD _ _ _ _ _ _ _ _ I) as Hn. pose proof (i_availD _ _ _ _ _ _ _ _ I) as Ha.
    unfold reserve in Ha. rewrite (m_rlc _ M), Z.sub_0_r in Ha.
    pose proof (get_count_ok c (g_lay _ _ _ G) _ _ (i_w _ _ _ _ _ _ _ _ I)) as Hc.
    assert (Sealed : forall w, op_points c L o = seal_points (numData c) (eraseSize c) L ->
        files s' = new_files c (fD (sio s)) (nextD (sd s)) (availD (sd s)) w ++ files s ->
        forall i P l, nth_error (op_points c L o) i = Some (P, l) ->
        exists im, nth_error (trace (sio s')) i = Some im /\ vac c (skipn i (files s') ++ h) (fst (fst im)) P l).
    { intros w Ep Ef i P l Hi. destruct (Forall2_nth _ _ _ i (P, l) F2 Hi) as (im & Him & _).
      assert (Ht : nth_error (trace (sio s')) i = Some im) by (rewrite Et, nth_error_app1; [auto|apply nth_error_Some; congruence]).
      exists im. split; [exact Ht|]. rewrite Ep in Hi.
      destruct (seal_vac c Sz GDB ltac:(lia) _ _ L w i P l V Hi) as (F1 & E1 & V1). rewrite Hn, Ha in Ef. rewrite Ef.
      set (nf := new_files c _ _ _ w) in *. assert (Li : (i < length nf)%nat) by (apply nth_error_Some; congruence).
      rewrite skipn_app. replace (i - length nf)%nat with 0%nat by lia. cbn [skipn]. rewrite <- app_assoc.
      assert (E2 : nth_error (files s') i = Some (fst (fst im))) by (unfold files; exact (map_nth_error (fun im : image => fst (fst im)) _ _ Ht)).
      rewrite Ef in E2. rewrite nth_error_app1 in E2 by auto.
      assert (F1 = fst (fst im)) as -> by congruence. exact V1. }
    destruct o as [k d| |k]; cbn [step log_step op_points] in *.
    - destruct (embedDBPut c s k d) as [[s1 r]| |] eqn:Ep; cbn [bind] in E; try discriminate. injection E as <- <-.
      cbn [sound_out] in So. subst r.
      pose proof (put_files c s k d s1 0 _ (m_rlc _ M) U Hf Hc Ep eq_refl) as PF.
      unfold put_points, log_put in *. destruct (zlen (cur L) >=? maxRec c).
      + destruct PF as (w & P1 & P2). split; [|eauto]. unfold vac_log. cbn [pages lo].
        pose proof (seal_vac_log c Sz _ _ L w GDB ltac:(lia) V) as SV. cbv zeta in SV. rewrite <- Ha, <- Hn in SV.
        rewrite P1, P2, <- app_assoc. exact SV.
      + destruct PF as [P1 P2]. split; [rewrite P1, P2; exact V|]. intros i P l Hi. destruct i; discriminate.
    - destruct (embedDBFlush c s) as [[s1 r]| |] eqn:Ep; cbn [bind] in E; try discriminate. injection E as <- <-.
      pose proof (flush_files c s s1 r _ U (m_var _ M) Hf Hc Ep) as PF. unfold flush_points, log_flush in *.
      destruct (cur L) as [|r0 rs].
      + change (zlen (@nil rcd)) with 0 in PF. change (0 <? 1) with true in PF. cbv iota in PF. destruct PF as [P1 P2].
        split; [rewrite P1, P2; exact V|]. intros i P l Hi. destruct i; discriminate.
      + destruct (Z.ltb_spec (zlen (r0 :: rs)) 1) as [Lt|_]; [rewrite zlen_cons in Lt; pose proof (zlen_nonneg rs); lia|].
        destruct PF as (w & P1 & P2). split; [|eauto].
        pose proof (seal_vac_log c Sz _ _ L w GDB ltac:(lia) V) as SV. cbv zeta in SV. rewrite <- Ha, <- Hn in SV.
        rewrite P1, P2, <- app_assoc. exact SV.
    - destruct (embedDBGet c s k) as [[[s1 r] dt]| |] eqn:Ep; cbn [bind] in E; try discriminate. injection E as <- <-.
      destruct (ro_files _ _ (embedDBGet_ro _ _ _ _ _ _ Ep) Hf) as (P1 & P2 & _).
      split; [rewrite P1, P2; exact V|]. intros i P l Hi. destruct i; discriminate.
  Qed.

  Lemma story_vac es : forall c s L h, alive KB PB c s L -> vac_log c (files s ++ h) (fD (sio s)) L -> lifetime_ok c KB PB L es -> clean_stops c L es ->
    exists t f P, story c s es = Ok (t, f) /\ area_run c (numData c) (t ++ h) P f.
  Proof.
    induction es as [|e es IH]; intros c s L h Al V H Cl.
    { destruct V as (P & R & _). exists (files s), (fD (sio s)), P. auto. }
    cbn [lifetime_ok clean_stops] in H, Cl. destruct H as [He H]. destruct Cl as [Ce Cl].
    pose proof Al as (Db & (f & I) & Hlo). pose proof (pd_set _ _ _ Db) as G. pose proof (i_wf _ _ _ _ _ _ _ _ I) as W.
    pose proof (g_B _ _ _ G) as GB. pose proof (g_D _ _ _ G) as GD. pose proof (g_DB _ _ _ G) as GDB.
    pose proof (sizes_of _ _ _ G (proj1 (pd_blank _ _ _ Db)) (pd_idx _ _ _ Db) (m_var _ (pd_modes _ _ _ Db))) as Sz.
    destruct (event_ok_step KB PB c s L e Al He) as (s1 & x & Ev & Al1 & _).
    destruct e as [o|c'|o i c']; cbn [event_ok event_spec event_step clean_stop fst snd story] in *.
    - destruct (step_vac c f s L o h Db I He V) as (s' & y & E & V' & _). rewrite E in Ev |- *. cbn [bind] in Ev |- *. injection Ev as <- <-.
      exact (IH c s' _ h Al1 V' H Cl).
    - pose proof (ro_same _ _ _ _ _ He) as S. pose proof (w_asc _ _ _ W) as A2. pose proof (w_recs _ _ _ W) as A3.
      unfold accepted in A2, A3. rewrite asc_app in A2. rewrite Forall_app in A3.
      destruct (reopened KB PB c c' (fD (sio s)) (pages L) (lo L) (disk_of s) S Db He (plain_disk _ _ _ _ _ _ _ _ (m_rlc _ (pd_modes _ _ _ Db)) I)
                  (w_pages _ _ _ W)) as (s' & E & _ & _ & E1 & E2); [tauto|tauto|auto|reflexivity|].
      rewrite E in Ev |- *. cbn [bind] in Ev |- *. change (0 =? 0) with true in Ev |- *. cbv iota in Ev |- *. injection Ev as <- _.
      pose proof (same_flash_store _ _ S) as SF.
      assert (V' : vac_log c' (files s' ++ files s ++ h) (fD (sio s')) (recovered c (pages L))).
      { unfold files at 1. rewrite E1, E2. cbn [map app]. unfold vac_log, recovered. cbn [pages lo]. apply (vac_same c c'); [exact SF|].
        eapply recovered_vac; [exact Sz|exact GDB|lia|exact V|apply (w_lo _ _ _ W)|apply (w_mod _ _ _ W)|exact Ce]. }
      destruct (IH c' s' _ (files s ++ h) Al1 V' H Cl) as (t & g & P & Es & R). rewrite Es. cbn [bind].
      exists (t ++ files s), g, P. split; [reflexivity|]. rewrite <- app_assoc. rewrite (proj1 SF) in R.
      eapply run_same; [|exact R]. destruct SF as (F1 & F2 & F3 & F4 & F5). unfold same_flash. auto.
    - destruct He as (Ho & P & l & Hn & Hb & Hr). pose proof (ro_same _ _ _ _ _ Hr) as S.
      destruct (step_points KB PB c f s L o Db I Ho) as (sx & xx & new & Ex & _ & _ & Et & F2).
      destruct (points_ok KB PB c L o P l G W Hlo (nth_error_In _ _ Hn) Hb) as (A1 & A2 & A3 & A4).
      destruct (Forall2_nth _ _ _ i (P, l) F2 Hn) as (im & Him & Dk). cbn [fst snd] in Dk.
      destruct (step_vac c f s L o h Db I Ho V) as (s2 & y & E & _ & VP). assert (s2 = sx) as -> by congruence.
      destruct (VP i P l Hn) as (im2 & Him2 & V2). rewrite Ex in Ev |- *. cbn [bind] in Ev |- *. rewrite Him2 in Ev |- *.
      assert (im2 = im) as ->. { rewrite Et, nth_error_app1 in Him2 by (apply nth_error_Some; congruence). congruence. }
      destruct im as [[FD FI] FV]. cbn [fst snd] in Dk, V2.
      destruct (reopened KB PB c c' FD P l (disk_of_image (FD, FI, FV)) S Db Hr Dk A1 A2 A3 A4 eq_refl) as (s' & E' & _ & _ & E1 & E2).
      rewrite E' in Ev |- *. cbn [bind] in Ev |- *. change (0 =? 0) with true in Ev |- *. cbv iota in Ev |- *. injection Ev as <- _.
      rewrite (nth_error_nth _ _ ([], 0) Hn) in *. cbn [fst] in *.
      pose proof (same_flash_store _ _ S) as SF.
      assert (Hl : 0 <= l /\ l mod eraseSize c = 0).
      { clear - Hn W GB GD GDB. pose proof (w_lo _ _ _ W) as W1. pose proof (w_mod _ _ _ W) as W2.
        assert (A : forall j, nth_error (seal_points (numData c) (eraseSize c) L) j = Some (P, l) -> l = lo L \/ l = lo L + eraseSize c).
        { intros j Hj. apply nth_error_In in Hj. unfold seal_points in Hj. cbv zeta in Hj. destruct Hj as [Hj|Hj].
          - injection Hj as _ <-. unfold seal. cbn [lo]. destruct (_ >=? _); auto.
          - destruct (_ >=? _); [|destruct Hj]. destruct Hj as [Hj|[]]. injection Hj as _ <-. auto. }
        assert (Q : l = lo L \/ l = lo L + eraseSize c).
        { destruct o; cbn [op_points] in Hn; unfold put_points, flush_points in Hn; [| |destruct i; discriminate].
          - destruct (_ >=? _); [eauto|destruct i; discriminate].
          - destruct (cur L); [destruct i; discriminate|eauto]. }
        destruct Q as [->| ->]; [lia|]. split; [lia|]. rewrite Z.add_mod, W2, Z.mod_same by lia. now rewrite Z.mod_0_l by lia. }
      assert (V' : vac_log c' (files s' ++ skipn i (files sx) ++ h) (fD (sio s')) (recovered c P)).
      { unfold files at 1. rewrite E1, E2. cbn [map app]. unfold vac_log, recovered. cbn [pages lo]. apply (vac_same c c'); [exact SF|].
        eapply recovered_vac; [exact Sz|exact GDB|lia|exact V2|apply Hl|apply Hl|exact (Ce P l Hn)]. }
      destruct (IH c' s' _ (skipn i (files sx) ++ h) Al1 V' H Cl) as (t & g & Q & Es & R). rewrite Es. cbn [bind].
      exists (t ++ skipn i (files sx)), g, Q. split; [reflexivity|]. rewrite <- app_assoc. rewrite (proj1 SF) in R.
      eapply run_same; [|exact R]. destruct SF as (F1 & F2' & F3 & F4 & F5). unfold same_flash. auto.
  Qed.

  Lemma flash_life c k s es : created c KB PB k s -> lifetime_ok c KB PB emptyLog es -> clean_stops c emptyLog es ->
    exists t f P, story c s es = Ok (t, f) /\ area_run c (numData c) t P f.
  Proof.
    intros Cr H Cl. pose proof (created_alive KB PB c k s Cr) as Al. pose proof Cr as (Db & Hr & _ & E).
    pose proof (pd_set _ _ _ Db) as G. pose proof (proj1 (pd_blank _ _ _ Db)) as Tr.
    destruct (init_reset c k s Tr Hr E) as (_ & [T Im] & _).
    destruct (story_vac es c s emptyLog [] Al) as (t & f & P & Es & R); auto.
    - unfold vac_log, files. rewrite T. cbn [map app]. injection Im as -> _ _. exists (fun _ => False). split; [constructor|].
      unfold emptyLog. cbn [pages lo]. change (zlen (@nil (list rcd))) with 0. replace (numData c - (0 - 0)) with (numData c) by lia.
      pose proof (g_B _ _ _ G). pose proof (g_D _ _ _ G). apply area_init; [lia|apply (g_DB _ _ _ G)].
    - exists t, f, P. rewrite app_nil_r in R. auto.
  Qed.

  Lemma run_hd_file c num t P f : area_run c num t P f -> hd emptyFile t = f.
  Proof. now intros []. Qed.
  Lemma run_kept_along c num x t P f : eraseFill c = Some x -> area_run c num t P f ->
    kept_along c x t /\ forall q v, ~ P q -> file_read f q = Some v -> v = repeat x (psz c) \/ v = hole c.
  Proof.
    intros Ex R. induction R as [|t P f P' f' R (IH & Inv0) Op].
    - split; [exact I|]. intros q v _ Hv. rewrite empty_none in Hv. discriminate.
    - cbn [kept_along]. rewrite (run_hd_file _ _ _ _ _ R). destruct (op_kept _ _ _ _ _ _ _ Ex Inv0 Op) as [O1 O2]. auto.
  Qed.
  Lemma kept_life c k s es x : created c KB PB k s -> lifetime_ok c KB PB emptyLog es -> clean_stops c emptyLog es -> eraseFill c = Some x ->
    exists t f, story c s es = Ok (t, f) /\ kept_along c x t.
  Proof.
    intros Cr H Cl Ex. destruct (flash_life c k s es Cr H Cl) as (t & f & P & Es & R). exists t, f. split; [exact Es|].
    now apply (run_kept_along c (numData c) x t P f Ex).
  Qed.
End FlashLife.

(** Lifetimes of several sessions with variable data. *)
From Verif Require Import Base BaseFacts Config Spline Storage DB VarData Recovery Spec SpecSpline SplineFacts
  SpecPage SpecStore Run SpecRun SpecReopen SpecReopenIdx SpecVar SpecVarReopen LogFacts PageFacts SearchFacts StoreFacts PutFacts GetFacts BinFacts RunFacts
  TapeFacts VarFacts VarPutFacts VarReadFacts VarRunFacts VarGetFacts VarThms RecoverFacts ReopenThms VarRecFacts.
Open Scope Z_scope.
Ltac Zify.zify_post_hook ::= ZifyBool.elim_bool_cstr.
Ltac Zify.zify_convert_to_euclidean_division_equations_flag ::= constr:(false).

(** ** The store under operations *)
Lemma in_concat_skipn {A} n j (l : list (list A)) r : (n <= j)%nat -> In r (concat (skipn j l)) -> In r (concat (skipn n l)).
Proof.
  intros Hn Hr. rewrite <- (firstn_skipn (j - n) (skipn n l)), concat_app. apply in_or_app. right.
  assert (E : forall a b (m : list (list A)), skipn a (skipn b m) = skipn (a + b) m).
  { clear. intros a b. revert a. induction b as [|b IH]; intros a m; [now rewrite Nat.add_0_r|].
    rewrite Nat.add_succ_r. destruct m; [now rewrite !skipn_nil|]. cbn [skipn]. apply IH. }
  rewrite E. now replace (j - n + n)%nat with j by lia.
Qed.
Lemma retained_seal D B L : 0 <= B -> 0 <= lo L <= zlen (pages L) -> incl (retained (seal D B L)) (retained L).
Proof.
  intros HB Hl r Hr. unfold retained, livePages, seal in *. cbn [pages cur lo] in Hr. rewrite app_nil_r in Hr.
  apply (in_concat_skipn (Z.to_nat (lo L))) in Hr; [|destruct (zlen (pages L) - lo L >=? D); lia].
  rewrite skipn_app, concat_app in Hr. apply in_app_or in Hr. apply in_or_app. destruct Hr as [Hr|Hr]; [auto|right].
  unfold zlen in Hl. replace (Z.to_nat (lo L) - length (pages L))%nat with 0%nat in Hr by lia. cbn [skipn concat] in Hr.
  now rewrite app_nil_r in Hr.
Qed.

Lemma zlen_0 {A} (l : list A) : zlen l = 0 -> l = [].
Proof. destruct l; [auto|]. rewrite zlen_cons. pose proof (zlen_nonneg l). lia. Qed.

Section Spec.
  Variables (c : cfg) (KB PB : Z).
  Hypothesis G : setting c KB PB.
  Notation N := (maxRec c).
  Notation D := (numData c).
  Notation B := (eraseSize c).
  Notation step := (vspec_step N D B).

  (** The part of the log that recovery relies on. *)
  Definition lo_ok (L : log) : Prop :=
    0 <= lo L <= zlen (pages L) /\ lo L mod B = 0 /\ lo L <= rec_lo D B (zlen (pages L)).
  Lemma seal_ok L : lo_ok L -> (0 < zlen (pages L) -> lo L < zlen (pages L)) -> lo_ok (seal D B L).
  Proof.
    intros (A1 & A2 & A3) A4. pose proof (g_B _ _ _ G) as GB. pose proof (g_D _ _ _ G) as GD. pose proof (g_DB _ _ _ G) as GM.
    assert (H := rec_lo_seal D B (zlen (pages L)) (lo L) ltac:(lia) ltac:(lia) GM (zlen_nonneg _) A2 A3).
    pose proof (rec_lo_bounds D B (zlen (pages L) + 1) ltac:(lia) ltac:(lia) GM ltac:(lia)) as (R1 & _).
    unfold lo_ok, seal. cbn [pages lo]. rewrite zlen_app. change (zlen [cur L]) with 1.
    split; [destruct (zlen (pages L) - lo L >=? D); lia|]. split; [|exact H].
    destruct (zlen (pages L) - lo L >=? D); [|auto]. rewrite Z.add_mod, A2, Z.mod_same by lia. apply Z.mod_0_l. lia.
  Qed.

  Definition above (kl : Z) (V : vstore) : Prop := forall x, In x (retained (vlog V)) -> kl <= rkey x.
  Lemma step_lo V o : lo_ok (vlog V) -> (0 < zlen (pages (vlog V)) -> lo (vlog V) < zlen (pages (vlog V))) -> lo_ok (vlog (step V o)).
  Proof.
    intros H H4. destruct o as [k d v| |k|k ns]; cbn [vspec_step]; auto.
    - destruct (refused (vlog V) k); [auto|]. cbn [vlog]. unfold log_put. destruct (zlen (cur (vlog V)) >=? N); [|exact H].
      exact (seal_ok _ H H4).
    - cbn [vlog]. unfold log_flush. destruct (cur (vlog V)); [auto|]. now apply seal_ok.
  Qed.
  Lemma step_above kl V o : lo_ok (vlog V) -> above kl V ->
    (forall k d v, o = VPut k d v -> refused (vlog V) k = false -> kl <= k) -> above kl (step V o).
  Proof.
    intros (A1 & _) H Hk. pose proof (g_B _ _ _ G) as GB. unfold above in *.
    destruct o as [k d v| |k|k ns]; cbn [vspec_step]; auto.
    - destruct (refused (vlog V) k) eqn:R; [auto|]. cbn [vlog]. specialize (Hk k d v eq_refl R).
      intros x Hx. unfold log_put in Hx. destruct (zlen (cur (vlog V)) >=? N).
      + unfold retained, livePages in Hx. cbn [pages lo cur] in Hx. apply in_app_or in Hx as [Hx|[<-|[]]]; [|exact Hk].
        apply H, (retained_seal D B); [lia|auto|]. unfold retained, livePages. apply in_or_app. now left.
      + unfold retained, livePages in Hx. cbn [pages lo cur] in Hx. rewrite app_assoc in Hx.
        apply in_app_or in Hx as [Hx|[<-|[]]]; [|exact Hk]. now apply H.
    - cbn [vlog]. unfold log_flush. destruct (cur (vlog V)); [auto|]. intros x Hx. apply H, (retained_seal D B); auto. lia.
  Qed.
End Spec.

Lemma reopen_upto c V : upto V -> upto (mkVS (recovered c (pages (vlog V))) (survivors V)).
Proof.
  intros [U1 U2]. split; cbn [vlog vpay].
  - unfold accepted in *. unfold recovered. cbn [pages cur]. rewrite app_nil_r. apply asc_app in U1. tauto.
  - intros k Hk. apply in_map_iff in Hk as ([k1 bs] & <- & Hk). unfold survivors in Hk. apply filter_In in Hk as [Hk Hc]. cbn [fst] in *.
    specialize (U2 k1). unfold accepted in U2. rewrite map_app in U2.
    assert (Hi : In k1 (map fst (vpay V))) by (apply in_map_iff; exists (k1, bs); auto).
    apply U2 in Hi. apply in_app_or in Hi as [Hi|Hi].
    + unfold accepted, recovered. cbn [pages cur]. rewrite app_nil_r. exact Hi.
    + exfalso. apply (keep_iff (map rkey (cur (vlog V))) k1) in Hi; auto.
Qed.

(** ** One event *)
Section Life.
  Variables (KB PB VB : Z).

  (** The states of a lifetime: the entries and pages of the variable area, and a
      bound on the position reached in it.  [full]: all puts carried data. *)
  Definition live (c : cfg) (s : state) (V : vstore) (seen : list Z) (VR : list entry) (VP : list page) (b : Z) (full : Prop) : Prop :=
    setting c KB PB /\ var_setting c VB /\
    exists f kl sl off L lv o, 0 <= sl <= 1 /\ (0 <= off /\ off mod (numVar c * pageSize c) = 0) /\
      VInv c KB PB f kl sl off notorn s L VR VP lv o seen /\ coh c s L /\ store_is L VR = V /\
      above kl V /\ (kl <= 0 \/ In kl seen) /\ curVarLoc (sv s) + off <= b /\ lo_ok c (vlog V) /\ upto V /\
      (full -> VD c L VR VP (vwbuf (sv s)) o).

  Definition ev_cost (c : cfg) (e : vevent) : Z := match e with VEvOp o | VEvCrash o _ _ _ => vcost c o | VEvReopen _ => 0 end.
  Definition ev_full (V : vstore) (e : vevent) : Prop := match e with VEvOp o | VEvCrash o _ _ _ => full_op V o | VEvReopen _ => True end.
  (** Where the payloads stored by an event lie. *)
  Definition ev_addr (c : cfg) (seen : list Z) (VR : list entry) (VP : list page) (VR' : list entry) : Prop :=
    forall k a bs, In (k, (a, bs)) VR' -> In (k, (a, bs)) VR \/
      ~ In k seen /\ zlen VP <= a / pageSize c <= zlen VP + 1.

  Lemma op_live c s V seen VR VP b full o : live c s V seen VR VP b full -> vevent_ok KB PB VB (c, V, seen) (VEvOp o) ->
    vcalm c s [o] -> b + vcost c o < VB ->
    exists s' x VR' VP', vstep c s o = Ok (s', x) /\ vout_ok c V o x /\
      live c s' (snd (fst (vevent_spec (c, V, seen) (VEvOp o)))) (snd (vevent_spec (c, V, seen) (VEvOp o))) VR' VP'
        (b + vcost c o) (full /\ full_op V o) /\
      ev_addr c seen VR VP VR'.
  Proof.
    intros (G & Vs & f & kl & sl & off & L & lv & o1 & Hsl & Hoff & Y & Co & St & Ab & Kl & Cu & Lo & Up & Fd) (Ho & Hn & Hp) Cm Hb.
    pose proof (vP c KB PB G) as Pd.
    assert (El : vlog V = bareL L) by (rewrite <- St; reflexivity).
    assert (Ezp : zlen (pages (vlog V)) = zlen (pages L)) by (rewrite El; unfold bareL; cbn [pages]; apply zlen_map).
    assert (Er : forall k, refused (vlog V) k = refused L k) by (intros k; rewrite El; apply refused_bare).
    pose proof (wf_of c KB PB f s L (y_inv _ _ _ _ _ _ _ _ _ _ _ _ _ _ _ Y)) as W.
    destruct (vstep_calm c KB PB VB G Vs kl sl off Hsl Hoff f s L VR VP lv o1 seen o [] Y Co) as
      (s' & x & L' & X & VP' & lv' & o' & E & Y' & Co' & St' & Ox & _ & Zp & Cu' & _ & Ent & Hvd & _); auto; try lia.
    { intros k d v Eo Rf. apply (Hn k d v Eo). now rewrite Er. }
    { now rewrite <- El. }
    rewrite St in *. exists s', x, (X ++ VR), VP'. split; [exact E|]. split; [exact Ox|].
    cbn [vevent_spec fst snd].
    assert (Es : acc_step L seen o = seen_after V seen o).
    { destruct o; cbn [acc_step seen_after]; try reflexivity. now rewrite Er. }
    rewrite <- Es. split.
    - split; [auto|]. split; [auto|]. exists f, kl, sl, off, L', lv', o'. do 4 (split; [solve [auto]|]). split; [exact St'|].
      split.
      { apply (step_above c KB PB G); auto. intros k d v Eo Rf. destruct Kl as [Kl|Kl].
        - subst o. cbn [vop_ok] in Ho. lia.
        - specialize (Hn k d v Eo Rf kl Kl). lia. }
      split.
      { destruct Kl as [Kl|Kl]; [auto|right]. destruct o; cbn [acc_step]; auto. destruct (refused L k); auto. apply in_or_app. auto. }
      split; [lia|]. split.
      { apply (step_lo c KB PB G); auto. rewrite Ezp, El. apply (w_ne _ _ _ W). }
      split; [apply step_upto; auto|]. intros [F1 F2]. auto.
    - intros k a bs Hi. apply in_app_or in Hi as [Hi|Hi]; [right|auto].
      assert (Hx : exists k1 d1 b1, o = VPut k1 d1 (Some b1) /\ refused (bareL L) k1 = false).
      { pose proof (f_equal (fun v => length (vpay v)) St') as Len. rewrite <- St in Len. unfold store_is in Len. cbn [vpay] in Len.
        rewrite map_length, app_length in Len.
        assert (length X <> 0%nat) by (destruct X; [destruct Hi|cbn [length]; lia]).
        destruct o as [k1 d1 [b1|]| |k1|k1 n1]; cbn [vspec_step] in Len.
        - cbn [vlog] in Len. destruct (refused (bareL L) k1) eqn:R; [cbn [vpay] in Len; rewrite map_length in Len; lia|]. eauto.
        - cbn [vlog] in Len; destruct (refused (bareL L) k1); cbn [vpay] in Len; rewrite map_length in Len; lia.
        - cbn [vpay] in Len; rewrite map_length in Len; lia.
        - cbn [vpay] in Len; rewrite map_length in Len; lia.
        - cbn [vpay] in Len; rewrite map_length in Len; lia. }
      destruct Hx as (k1 & d1 & b1 & -> & Rf). destruct (Ent k1 d1 b1 eq_refl Rf) as (a1 & EX & Ha). subst X.
      destruct Hi as [Hi|[]]. injection Hi as <- <- <-. split.
      { intros Hin. rewrite <- El in Rf. specialize (Hn k1 d1 (Some b1) eq_refl Rf k1 Hin). lia. }
      pose proof (a_cur _ _ _ _ _ _ _ _ _ _ (y_A _ _ _ _ _ _ _ _ _ _ _ _ _ _ _ Y)) as [Hc1 _].
      pose proof (a_o _ _ _ _ _ _ _ _ _ _ (y_A _ _ _ _ _ _ _ _ _ _ _ _ _ _ _ Y)) as Ho1.
      split; [apply Z.div_le_lower_bound; lia|]. assert (a1 / pageSize c < zlen VP + 2); [|lia]. apply Z.div_lt_upper_bound; lia.
  Qed.

  Lemma kept_pay L VR : map what_is (keptVR L VR) = survivors (store_is L VR).
  Proof.
    unfold survivors, store_is, keptVR. cbn [vlog vpay]. unfold bareL. cbn [cur].
    assert (E : map rkey (map bare (cur L)) = map rkey (cur L)) by (rewrite map_map; reflexivity).
    rewrite E. induction VR as [|[k [a bs]] VR IH]; [reflexivity|]. cbn [map filter fst what_is]. unfold keep at 1.
    destruct (existsb (Z.eqb k) (map rkey (cur L))); cbn [negb map what_is]; [exact IH|]. f_equal. exact IH.
  Qed.

  Lemma live_small c s V seen VR VP b full : live c s V seen VR VP b full -> b < VB -> zlen VP + 1 < 2 ^ 32.
  Proof.
    intros (G & Vs & f & kl & sl & off & L & lv & o1 & Hsl & Hoff & Y & _ & _ & _ & _ & Cu & _) Hb.
    pose proof (vP c KB PB G) as Pd. pose proof (y_A _ _ _ _ _ _ _ _ _ _ _ _ _ _ _ Y) as A.
    pose proof (a_cur _ _ _ _ _ _ _ _ _ _ A) as [Hc1 _]. pose proof (a_o _ _ _ _ _ _ _ _ _ _ A) as Ho1.
    pose proof (vs_VB _ _ Vs) as HVB. pose proof (zlen_nonneg VP) as Zv.
    assert (zlen VP * 4 <= zlen VP * pageSize c) by (apply Z.mul_le_mono_nonneg_l; lia). lia.
  Qed.
  (** Recovery from storage that holds the pages of a log and the payloads of its
      records. *)
  Lemma snap_live c c' L VR VP seen im l b (full : Prop) : setting c KB PB -> var_setting c VB ->
    vreopen_ok c c' KB PB VB (zlen (pages L)) -> wf_log c KB L -> at_point c im (pages L, l) ->
    eraseFill c = None \/ l <= rec_lo (numData c) (eraseSize c) (zlen (pages L)) ->
    VDisk c (snd im) VP -> VStored c KB notorn (pages L) (keptVR L VR) VP seen ->
    (zlen VP = 1 -> hkey c (vpg VP 0) <> 0) -> zlen VP * pageSize c + (keySize c + 4) <= b ->
    upto (store_is L VR) -> (full -> dense c VP (map where_is VR)) ->
    exists s' VR' VP', embedDBInit c' (disk_of_image im) [] = Ok (s', 0) /\
      live c' s' (mkVS (recovered c (pages (vlog (store_is L VR)))) (survivors (store_is L VR))) seen VR' VP' b full /\
      nextD (sd s') = zlen (pages L) /\ var_fresh s' /\ trace (sio s') = [] /\ incl VR' VR.
  Proof.
    intros G Vs [S Nv G' Vs' U' Hb' Bl' HR' He' Hl'] W [Dk Ip] Lo Q T An Hz Up Fd. cbn [fst snd] in Dk, Ip.
    pose proof (vP c KB PB G) as Pd. pose proof (zlen_nonneg VP) as Zv.
    pose proof (w_asc _ _ _ W) as A2. pose proof (w_recs _ _ _ W) as A3.
    unfold accepted in A2, A3. rewrite asc_app in A2. rewrite Forall_app in A3.
    pose proof (g_B _ _ _ G') as GB. pose proof (g_D _ _ _ G') as GD.
    destruct (reopen_var c' KB PB VB G' Vs' (fst (fst im)) (snd im) (pages L) (keptVR L VR) VP seen l (disk_of_image im)) as
      (s' & f' & kl' & off' & lv' & E & Y' & Co' & Ho' & Ab' & Kl' & Fr & Tr); auto.
    { intros U. destruct (U' U) as (B1 & B3 & B4 & B5). rewrite U in Hb'.
      do 5 (split; [first [assumption|lia]|]). intros F HF. destruct im as [[FD FI] FV]. injection HF as <-. rewrite (ss_idx _ _ S) in U.
      intros (T1 & T2 & T3) i Hi. rewrite (ss_ps _ _ S). apply (Ip U); auto. unfold idx_blank.
      rewrite <- (ss_trunc _ _ S), <- (ss_fill _ _ S), <- (ss_hole _ _ S). auto. }
    { now destruct im as [[FD FI] FV]. }
    { now destruct im as [[FD FI] FV]. }
    { apply (same_disk c c' S). exact Dk. }
    { apply (recovered_wf c' KB PB G'); try tauto.
      - rewrite (same_mr c c' S). apply (w_pages _ _ _ W).
      - eapply Forall_impl; [|apply A3]. intros r. apply (same_rec c c' S). }
    { rewrite (ss_fill _ _ S), (ss_D _ _ S), (ss_B _ _ S). exact Lo. }
    { destruct He' as [He'|He']; [auto|right]. unfold rec_lo. destruct (Z.leb_spec (zlen (pages L)) (numData c')); [auto|lia]. }
    { apply (VDisk_same c c'); auto. }
    { apply (VStored_same c c'); auto. }
    { intros N1. unfold hkey, ksz. rewrite (ss_ks _ _ S). exact (An N1). }
    set (VR' := if zlen (pages L) =? 0 then [] else keptVR L VR) in *.
    set (VP' := if zlen (pages L) =? 0 then [] else VP) in *.
    exists s', VR', VP'. split; [exact E|]. split; [|split; [|split; [auto|split; [auto|]]]].
    2:{ rewrite (i_nextD _ _ _ _ _ _ _ _ (y_inv _ _ _ _ _ _ _ _ _ _ _ _ _ _ _ Y')). reflexivity. }
    2:{ unfold VR'. destruct (zlen (pages L) =? 0); [intros x []|]. intros x Hx. apply kept_in in Hx. tauto. }
    assert (Ev : store_is (recovered c' (pages L)) VR' = mkVS (recovered c (pages (vlog (store_is L VR)))) (survivors (store_is L VR))).
    { unfold store_is at 1. f_equal.
      - unfold store_is, bareL, recovered. cbn [vlog pages lo cur map]. rewrite zlen_map, (ss_D _ _ S), (ss_B _ _ S). reflexivity.
      - rewrite <- kept_pay. unfold VR'. destruct (Z.eqb_spec (zlen (pages L)) 0) as [Z0|]; [|reflexivity].
        destruct (map what_is (keptVR L VR)) as [|[k bs] ll] eqn:Em; [reflexivity|exfalso].
        assert (Hk : In (k, bs) (map what_is (keptVR L VR))) by (rewrite Em; now left).
        apply in_map_iff in Hk as ([k1 [a1 b1]] & Ek & Hk). injection Ek as -> ->.
        apply kept_in in Hk as [Hk Hc]. cbn [fst] in Hc. apply Hc. destruct Up as [_ Up].
        unfold store_is in Up. cbn [vpay vlog] in Up. specialize (Up k).
        rewrite bare_accepted, bare_keys in Up. unfold accepted in Up.
        rewrite (zlen_0 _ Z0) in Up. cbn [concat app] in Up.
        apply Up. rewrite map_map. apply in_map_iff. exists (k, (a1, bs)). auto. }
    split; [auto|]. split; [auto|].
    exists f', kl', 1, off', (recovered c' (pages L)), lv', (keySize c' + 4).
    split; [lia|]. split; [auto|]. split; [exact Y'|]. split; [auto|]. split; [exact Ev|]. split.
    { intros x Hx. rewrite <- Ev in Hx. unfold store_is in Hx. cbn [vlog] in Hx. rewrite bare_retained in Hx.
      apply in_map_iff in Hx as (y & <- & Hy). exact (Ab' y Hy). }
    split; [destruct Kl' as [->|]; [left; lia|auto]|]. split.
    { pose proof (a_cur _ _ _ _ _ _ _ _ _ _ (y_A _ _ _ _ _ _ _ _ _ _ _ _ _ _ _ Y')) as [Hc2 _]. rewrite (ss_ps _ _ S), (ss_ks _ _ S) in Hc2.
      assert (zlen VP' * pageSize c <= zlen VP * pageSize c); [|lia]. apply Z.mul_le_mono_nonneg_r; [lia|].
      unfold VP'. destruct (zlen (pages L) =? 0); [change (zlen (@nil page)) with 0|]; lia. }
    split.
    { unfold lo_ok, store_is, recovered, bareL. cbn [vlog]. cbn [pages lo]. rewrite zlen_map, (ss_D _ _ S), (ss_B _ _ S).
      destruct (rec_lo_bounds (numData c) (eraseSize c) (zlen (pages L))) as (R1 & _ & _ & R4); try apply zlen_nonneg;
        try (rewrite <- (ss_B _ _ S), <- ?(ss_D _ _ S)); try lia; [apply (g_DB _ _ _ G')|].
      rewrite (ss_B _ _ S), (ss_D _ _ S) in *. split; [lia|]. split; [auto|lia]. }
    split.
    { apply reopen_upto. exact Up. }
    intros Fu. specialize (Fd Fu). split; [|right; split; [reflexivity|auto]].
    unfold VP', VR'. destruct (zlen (pages L) =? 0).
    - intros v k a Hv. change (zlen (@nil page)) with 0 in Hv. lia.
    - intros v k a Hv Hi Ha. unfold hkey, ksz. rewrite (ss_ks _ _ S). apply (Fd v k a Hv); [|rewrite <- (ss_ps _ _ S); exact Ha].
      apply where_in in Hi as (bs & Hi). apply kept_in in Hi as [Hi _]. apply where_in. eauto.
  Qed.

  Lemma reopen_live c s V seen VR VP b full c' : live c s V seen VR VP b full -> vevent_ok KB PB VB (c, V, seen) (VEvReopen c') ->
    var_anchored c s -> b < VB ->
    exists s' VR' VP', embedDBInit c' (disk_of s) [] = Ok (s', 0) /\
      live c' s' (mkVS (recovered c (pages (vlog V))) (survivors V)) seen VR' VP' b full /\ var_fresh s' /\ trace (sio s') = [] /\
      incl VR' VR.
  Proof.
    intros Li0 Rk An Hb. cbn [vevent_ok] in Rk.
    pose proof Li0 as (G & Vs & f & kl & sl & off & L & lv & o1 & Hsl & Hoff & Y & Co & St & Ab & Kl & Cu & Lo & Up & Fd).
    pose proof (vP c KB PB G) as Pd.
    assert (El : vlog V = bareL L) by (rewrite <- St; reflexivity).
    assert (Ezp : zlen (pages (vlog V)) = zlen (pages L)) by (rewrite El; unfold bareL; cbn [pages]; apply zlen_map).
    pose proof (y_inv _ _ _ _ _ _ _ _ _ _ _ _ _ _ _ Y) as I. pose proof (wf_of c KB PB f s L I) as W.
    pose proof (y_A _ _ _ _ _ _ _ _ _ _ _ _ _ _ _ Y) as A. pose proof (a_S _ _ _ _ _ _ _ _ _ _ A) as X.
    pose proof (a_cur _ _ _ _ _ _ _ _ _ _ A) as [Hc1 _]. pose proof (a_o _ _ _ _ _ _ _ _ _ _ A) as Ho1.
    assert (Q : VDisk c (fV (sio s)) VP) by (apply (VS_disk c s VP lv X); apply (live_small c s V seen VR VP b full); auto).
    pose proof (stored_of c KB PB VB f kl sl off s L VR VP lv o1 seen G Vs Y) as T.
    rewrite Ezp in Rk. destruct Lo as (_ & _ & Lo). rewrite Ezp, El in Lo.
    destruct (snap_live c c' L VR VP seen (fD (sio s), fI (sio s), fV (sio s)) (lo L) b full) as
      (s' & VR' & VP' & E & Li & _ & Fr & Tr & Hi); auto.
    - exact (at_inv c KB PB f (vs_rlc _ _ Vs) s L _ I).
    - intros N1. unfold var_anchored in An. rewrite (x_next _ _ _ _ X) in An. specialize (An N1).
      pose proof (vB c KB PB VB G Vs) as Bd.
      rewrite <- (q_fpg _ _ _ Q 0) by lia. rewrite Z.mod_0_l by lia. exact An.
    - lia.
    - rewrite St. exact Up.
    - intros Fu. apply (Fd Fu).
    - rewrite St in Li. exists s', VR', VP'. auto.
  Qed.

  (** Power failing inside a put. *)
  Lemma step_pages c V o : zlen (pages (vlog V)) <= zlen (pages (vlog (vspec_step (maxRec c) (numData c) (eraseSize c) V o))).
  Proof.
    destruct o as [k d v| |k|k ns]; cbn [vspec_step]; try lia.
    - destruct (refused (vlog V) k); [lia|]. cbn [vlog]. unfold log_put, seal. destruct (zlen (cur (vlog V)) >=? maxRec c); cbn [pages]; [|lia].
      rewrite zlen_app. pose proof (zlen_nonneg [cur (vlog V)]). lia.
    - cbn [vlog]. unfold log_flush, seal. destruct (cur (vlog V)); [lia|]. cbn [pages]. rewrite zlen_app.
      match goal with |- context [zlen [?q]] => change (zlen [q]) with 1 end. lia.
  Qed.
  Lemma crash_same c V k d v : upto V ->
    zlen (pages (vlog (vspec_step (maxRec c) (numData c) (eraseSize c) V (VPut k d v)))) = zlen (pages (vlog V)) ->
    forall b b', pages (vlog (vcrash_store c V (VPut k d v) b)) = pages (vlog (vcrash_store c V (VPut k d v) b')) /\
      survivors (vcrash_store c V (VPut k d v) b) = survivors (vcrash_store c V (VPut k d v) b').
  Proof.
    intros [U1 U2] Hz.
    assert (Q : pages (vlog (vspec_step (maxRec c) (numData c) (eraseSize c) V (VPut k d v))) = pages (vlog V) /\
      survivors (vspec_step (maxRec c) (numData c) (eraseSize c) V (VPut k d v)) = survivors V).
    2:{ destruct Q as [Q1 Q2]. intros [] []; cbn [vcrash_store]; auto. }
    cbn [vspec_step] in *. destruct (refused (vlog V) k) eqn:R; [auto|]. cbn [vlog] in *.
    pose proof (not_refused _ _ U1 R) as Lt. unfold log_put in *. destruct (zlen (cur (vlog V)) >=? maxRec c).
    { exfalso. unfold seal in Hz. cbn [pages] in Hz. rewrite zlen_app in Hz. change (zlen [cur (vlog V)]) with 1 in Hz. lia. }
    cbn [pages] in *. split; [reflexivity|].
    unfold survivors. cbn [vlog vpay cur]. rewrite map_app. cbn [map rkey].
    assert (Ek : forall j, existsb (Z.eqb j) (map rkey (cur (vlog V)) ++ [k]) = existsb (Z.eqb j) (map rkey (cur (vlog V))) || (j =? k)).
    { intros j. rewrite existsb_app. cbn [existsb]. now rewrite Bool.orb_false_r. }
    assert (Ef : filter (fun e => negb (existsb (Z.eqb (fst e)) (map rkey (cur (vlog V)) ++ [k]))) (vpay V) =
                 filter (fun e => negb (existsb (Z.eqb (fst e)) (map rkey (cur (vlog V))))) (vpay V)).
    { assert (Hn : forall e, In e (vpay V) -> fst e <> k).
      { intros e He. specialize (U2 (fst e) (in_map fst _ _ He)). apply in_map_iff in U2 as (r & Er & Hr). specialize (Lt r Hr). lia. }
      clear - Ek Hn. induction (vpay V) as [|e l IH]; [reflexivity|]. cbn [filter]. rewrite Ek, IH by (intros; apply Hn; now right).
      specialize (Hn e (or_introl eq_refl)). destruct (Z.eqb_spec (fst e) k); [lia|]. now rewrite Bool.orb_false_r. }
    destruct v as [bs|]; [|exact Ef]. cbn [filter fst]. rewrite (Ek k), Z.eqb_refl, Bool.orb_true_r. exact Ef.
  Qed.
  Lemma crash_some c s V seen VR VP b full k d v i c' : live c s V seen VR VP b full ->
    vput_ok KB PB (c, V, seen) (VPut k d v) -> block0_safe c (zlen (pages (vlog V))) ->
    vreopen_ok c c' KB PB VB (zlen (pages (vlog V)) + 1) -> vcalm c s [VPut k d v] -> b + vcost c (VPut k d v) < VB ->
    exists s1 x, vstep c s (VPut k d v) = Ok (s1, x) /\
      nextD (sd s) = zlen (pages (vlog V)) /\
      nextD (sd s1) = zlen (pages (vlog (vspec_step (maxRec c) (numData c) (eraseSize c) V (VPut k d v)))) /\
      (image_anchored c (crash_image s s1 i) -> exists (bb : bool) s2 VR' VP',
        embedDBInit c' (disk_of_image (crash_image s s1 i)) [] = Ok (s2, 0) /\ nextD (sd s2) = (if bb then nextD (sd s1) else nextD (sd s)) /\
        live c' s2 (mkVS (recovered c (pages (vlog (vcrash_store c V (VPut k d v) bb)))) (survivors (vcrash_store c V (VPut k d v) bb)))
          (seen_after V seen (VPut k d v)) VR' VP' (b + vcost c (VPut k d v)) (full /\ full_op V (VPut k d v)) /\
        var_fresh s2 /\ trace (sio s2) = [] /\
        forall j a bs, In j seen -> In (j, (a, bs)) VR' -> In (j, (a, bs)) VR).
  Proof.
    intros Li Po Bs Rk Cm Hb. pose proof Li as
      (G & Vs & f & kl & sl & off & L & lv & o1 & Hsl & Hoff & Y & Co & St & Ab & Kl & Cu & Lo & Up & Fd). destruct Po as (Ho & Hn & Hp).
    pose proof (vP c KB PB G) as Pd.
    assert (El : vlog V = bareL L) by (rewrite <- St; reflexivity).
    assert (Ezp : zlen (pages (vlog V)) = zlen (pages L)) by (rewrite El; unfold bareL; cbn [pages]; apply zlen_map).
    assert (Er : forall k, refused (vlog V) k = refused L k) by (intros j; rewrite El; apply refused_bare).
    pose proof (wf_of c KB PB f s L (y_inv _ _ _ _ _ _ _ _ _ _ _ _ _ _ _ Y)) as W.
    set (op := VPut k d v) in *.
    destruct (vstep_calm c KB PB VB G Vs kl sl off Hsl Hoff f s L VR VP lv o1 seen op [] Y Co) as
      (s1 & x & L' & X & VP' & lv' & o' & E & Y' & Co' & St' & Ox & _ & Zp & Cu' & Ext & Ent & Hvd & Ht & _); auto; try lia.
    { intros k1 d1 v1 Eo Rf. apply (Hn k1 d1 v1 Eo). now rewrite Er. }
    { now rewrite <- El. }
    rewrite St in *. destruct (Ht k d v eq_refl) as (new & Tn & Fn & _).
    assert (Es : acc_step L seen op = seen_after V seen op) by (unfold op; cbn [acc_step seen_after]; now rewrite Er).
    rewrite Es in Y'.
    assert (El' : vlog (vspec_step (maxRec c) (numData c) (eraseSize c) V op) = bareL L') by (rewrite <- St'; reflexivity).
    assert (Ezp' : zlen (pages (vlog (vspec_step (maxRec c) (numData c) (eraseSize c) V op))) = zlen (pages L'))
      by (rewrite El'; unfold bareL; cbn [pages]; apply zlen_map).
    pose proof (y_inv _ _ _ _ _ _ _ _ _ _ _ _ _ _ _ Y) as I. pose proof (y_inv _ _ _ _ _ _ _ _ _ _ _ _ _ _ _ Y') as I'.
    exists s1, x. split; [exact E|]. rewrite Ezp, Ezp'. split; [apply (i_nextD _ _ _ _ _ _ _ _ I)|]. split; [apply (i_nextD _ _ _ _ _ _ _ _ I')|].
    rewrite (i_nextD _ _ _ _ _ _ _ _ I), (i_nextD _ _ _ _ _ _ _ _ I'). intros An.
    pose proof (wf_of c KB PB f s1 L' I') as W'.
    pose proof (y_A _ _ _ _ _ _ _ _ _ _ _ _ _ _ _ Y') as A'. pose proof (a_S _ _ _ _ _ _ _ _ _ _ A') as XS.
    pose proof (a_cur _ _ _ _ _ _ _ _ _ _ A') as [Hc1 _]. pose proof (a_o _ _ _ _ _ _ _ _ _ _ A') as Ho1.
    pose proof (vs_VB _ _ Vs) as HVB. pose proof (zlen_nonneg VP') as Zv.
    assert (M : mid_image c L L' VR (X ++ VR) VP VP' (crash_image s s1 i)).
    { unfold crash_image. rewrite Tn, app_length, Nat.add_sub, firstn_app, firstn_all, Nat.sub_diag. cbn [firstn]. rewrite app_nil_r.
      destruct (Nat.lt_ge_cases i (length (rev new))) as [Lt|Ge].
      - rewrite Forall_forall in Fn. apply Fn, in_rev, nth_In, Lt.
      - rewrite nth_overflow by exact Ge. destruct Ext as [X1 EX]. exists true, (lo L'), X1, []. rewrite app_nil_r, <- EX. cbn [snd].
        split; [auto|]. split; [apply (VS_disk c s1 VP' lv' XS); assert (zlen VP' * 4 <= zlen VP' * pageSize c) by (apply Z.mul_le_mono_nonneg_l; lia); lia|].
        split; [apply (at_inv c KB PB f (vs_rlc _ _ Vs) s1 L' _ I')|]. split; [reflexivity|]. apply (y_sealed _ _ _ _ _ _ _ _ _ _ _ _ _ _ _ Y'). }
    destruct M as (bb & l & X1 & Y1 & EV & Qd & Ap & Hl & Se). set (im := crash_image s s1 i) in *.
    set (Lb := if bb then L' else L) in *. set (VRb := if bb then X ++ VR else VR) in *.
    assert (Eb : store_is Lb VRb = vcrash_store c V op bb) by (unfold Lb, VRb, vcrash_store; destruct bb; auto).
    assert (Zb : zlen (pages Lb) <= zlen (pages L) + 1) by (unfold Lb; destruct bb; lia).
    assert (Sub : incl seen (seen_after V seen op)).
    { unfold op. cbn [seen_after]. destruct (refused (vlog V) k); [apply incl_refl|apply incl_appl, incl_refl]. }
    assert (Wb : wf_log c KB Lb) by (unfold Lb; destruct bb; auto).
    assert (In1 : incl VRb (X ++ VR)) by (unfold VRb; destruct bb; [apply incl_refl|apply incl_appr, incl_refl]).
    assert (Zx : zlen (VP ++ X1) * pageSize c <= zlen VP' * pageSize c).
    { apply Z.mul_le_mono_nonneg_r; [lia|]. rewrite EV, (zlen_app (VP ++ X1)). pose proof (zlen_nonneg Y1). lia. }
    destruct (snap_live c c' Lb VRb (VP ++ X1) (seen_after V seen op) im l (b + vcost c op) (full /\ full_op V op)) as
      (s2 & VR2 & VP2 & E2 & Li2 & N2 & Fr & Tr & Hi); auto.
    - destruct Rk as [r1 r2 r3 r4 r5 r6 r7 r8 r9 r10]. constructor; auto; [destruct r9; [auto|right; lia]|lia].
    - pose proof (g_B _ _ _ G) as GB. pose proof (g_D _ _ _ G) as GD. unfold Lb. destruct bb.
      + right. subst l. assert (Lo' : lo_ok c (vlog (vspec_step (maxRec c) (numData c) (eraseSize c) V op))).
        { apply (step_lo c KB PB G); auto. rewrite Ezp, El. apply (w_ne _ _ _ W). }
        destruct Lo' as (_ & _ & Lo'). rewrite Ezp', El' in Lo'. exact Lo'.
      + pose proof Lo as (Lo1 & Lo2 & Lo3). rewrite Ezp in Lo3. rewrite El in Lo1, Lo2, Lo3. unfold bareL in Lo1, Lo2, Lo3. cbn [lo] in Lo1, Lo2, Lo3.
        destruct Hl as [->|(_ & Hd & ->)]; [auto|]. destruct Bs as [Bs|Bs]; [auto|right]. rewrite Ezp in Bs.
        pose proof (w_live _ _ _ W). apply rec_lo_erased; try lia; try apply (g_DB _ _ _ G); auto; destruct Bs; auto; lia.
    - apply (stored_mid c KB PB VB f kl sl off s1 L' (X ++ VR) VP' lv' o' (seen_after V seen op) Lb VRb (VP ++ X1) Y1); auto.
      + unfold VRb. destruct bb; [apply (y_nodup _ _ _ _ _ _ _ _ _ _ _ _ _ _ _ Y')|apply (y_nodup _ _ _ _ _ _ _ _ _ _ _ _ _ _ _ Y)].
      + unfold VRb, Lb. destruct bb; [intros r Hr; apply (y_rec _ _ _ _ _ _ _ _ _ _ _ _ _ _ _ Y' r Hr (notorn_no _))|intros r Hr; apply (y_rec _ _ _ _ _ _ _ _ _ _ _ _ _ _ _ Y r Hr (notorn_no _))].
      + unfold Lb. destruct bb; [apply (y_acc _ _ _ _ _ _ _ _ _ _ _ _ _ _ _ Y')|].
        eapply incl_tran; [apply (y_acc _ _ _ _ _ _ _ _ _ _ _ _ _ _ _ Y)|exact Sub].
    - intros N1. unfold image_anchored in An. rewrite (q_flen _ _ _ Qd) in An. pose proof (vB c KB PB VB G Vs) as Bd.
      rewrite N1 in An. rewrite <- (q_fpg _ _ _ Qd 0) by lia. rewrite Z.mod_0_l by lia. apply An. lia.
    - lia.
    - rewrite Eb. unfold vcrash_store. destruct bb; [apply step_upto|]; auto.
    - intros [F1 F2]. destruct (Hvd F2 (Fd F1)) as [Dn _]. intros w j a Hw Hj Ha.
      rewrite <- (vpg_app1 (VP ++ X1) Y1 w) by lia. rewrite <- EV. apply (Dn w j a); auto.
      + rewrite EV, zlen_app. pose proof (zlen_nonneg Y1). lia.
      + apply in_map_iff in Hj as (e & Ee & He). apply in_map_iff. exists e. split; auto.
    - exists bb, s2, VR2, VP2. split; [exact E2|]. split; [rewrite N2; unfold Lb; now destruct bb|]. rewrite Eb in Li2.
      split; [exact Li2|]. split; [auto|]. split; [auto|]. intros j a bs Hj Hjn. apply Hi, In1, in_app_or in Hjn as [Hjn|]; [|auto]. exfalso.
      destruct v as [b1|].
      + destruct (refused (bareL L) k) eqn:Rf.
        * pose proof (f_equal (fun v => length (vpay v)) St') as Len. rewrite <- St in Len. unfold store_is in Len. cbn [vpay] in Len.
          unfold op in Len. cbn [vspec_step vlog] in Len. rewrite Rf in Len. cbn [vpay] in Len. rewrite !map_length, app_length in Len.
          destruct X; [destruct Hjn|cbn [length] in Len; lia].
        * destruct (Ent k d b1 eq_refl Rf) as (a1 & EX & _). subst X. destruct Hjn as [Hjn|[]]. injection Hjn as <- <- <-.
          rewrite <- El in Rf. specialize (Hn k d (Some b1) eq_refl Rf k Hj). lia.
      + pose proof (f_equal (fun v => length (vpay v)) St') as Len. rewrite <- St in Len. unfold store_is in Len. cbn [vpay] in Len.
        unfold op in Len. cbn [vspec_step vlog] in Len. destruct (refused (bareL L) k); cbn [vpay] in Len; rewrite !map_length, app_length in Len;
          (destruct X; [destruct Hjn|cbn [length] in Len; lia]).
  Qed.
  Lemma crash_live c s V seen VR VP b full o i c' bb : live c s V seen VR VP b full ->
    vevent_ok KB PB VB (c, V, seen) (VEvCrash o i c' bb) -> crash_calm c s o i c' bb -> b + vcost c o < VB ->
    exists s1 x s2 VR' VP', vstep c s o = Ok (s1, x) /\ embedDBInit c' (disk_of_image (crash_image s s1 i)) [] = Ok (s2, 0) /\
      live c' s2 (mkVS (recovered c (pages (vlog (vcrash_store c V o bb)))) (survivors (vcrash_store c V o bb)))
        (seen_after V seen o) VR' VP' (b + vcost c o) (full /\ full_op V o) /\
      var_fresh s2 /\ trace (sio s2) = [] /\
      forall j a bs, In j seen -> In (j, (a, bs)) VR' -> In (j, (a, bs)) VR.
  Proof.
    intros Li ((k & d & v & ->) & Po & Bs & Rk) [Cm Ca] Hb.
    destruct (crash_some c s V seen VR VP b full k d v i c' Li Po Bs Rk Cm Hb) as (s1 & x & E & N0 & N1 & H).
    destruct (Ca s1 x E) as [An Nb]. destruct (H An) as (b1 & s2 & VR' & VP' & E2 & N2 & Li2 & Fr & Tr & Hi).
    exists s1, x, s2, VR', VP'. split; [exact E|]. split; [exact E2|]. split; [|auto].
    specialize (Nb s2 0 E2). rewrite N2 in Nb.
    destruct (Bool.bool_dec b1 bb) as [->|Ne]; [exact Li2|].
    assert (Hz : zlen (pages (vlog (vspec_step (maxRec c) (numData c) (eraseSize c) V (VPut k d v)))) = zlen (pages (vlog V)))
      by (destruct b1, bb; try congruence; lia).
    assert (Up : upto V) by (destruct Li as (_ & _ & f & kl & sl & off & L & lv & o1 & Q); apply Q).
    destruct (crash_same c V k d v Up Hz bb b1) as [P1 P2]. rewrite P1, P2. exact Li2.
  Qed.

  Lemma life_cost_same c c' es : pageSize c' = pageSize c -> vlife_cost c' es = vlife_cost c es.
  Proof.
    intros E. induction es as [|e es IH]; [reflexivity|]. cbn [vlife_cost fold_right]. fold (vlife_cost c es). fold (vlife_cost c' es).
    rewrite IH. destruct e; try reflexivity; unfold vcost; now rewrite E.
  Qed.
  Lemma life_cost_nonneg c es : setting c KB PB -> 0 <= vlife_cost c es.
  Proof.
    intros G. induction es as [|e es IH]; [cbn; lia|]. cbn [vlife_cost fold_right]. fold (vlife_cost c es).
    destruct e as [o|c'|o i c' bb]; [pose proof (vcost_nonneg c KB PB G o)| |pose proof (vcost_nonneg c KB PB G o)]; lia.
  Qed.

  (** Configurations of one lifetime. *)
  Definition alike (c c' : cfg) : Prop :=
    pageSize c' = pageSize c /\ numVar c' = numVar c /\ eraseSize c' = eraseSize c /\ keySize c' = keySize c.

  Theorem life_runs es : forall c s V seen VR VP b full, live c s V seen VR VP b full ->
    vlife_ok KB PB VB (c, V, seen) es -> vlife_calm c s es -> b + vlife_cost c es + pageSize c < VB ->
    exists c1 V1 seen1 s1 xs VR1 VP1, fold_left vevent_spec es (c, V, seen) = (c1, V1, seen1) /\
      vlifetime c s es = Ok (c1, s1, xs) /\ vlife_outs (c, V, seen) es xs /\
      live c1 s1 V1 seen1 VR1 VP1 (b + vlife_cost c es) (full /\ vlife_full (c, V, seen) es) /\
      alike c c1 /\ incl seen seen1 /\
      forall k a bs, In k seen -> In (k, (a, bs)) VR1 -> In (k, (a, bs)) VR.
  Proof.
    induction es as [|e es IH]; intros c s V seen VR VP b full Li Ho Cm Hb.
    { exists c, V, seen, s, [], VR, VP. cbn [vlife_cost fold_right vlife_full vlife_outs vlifetime fold_left] in *.
      split; [auto|]. split; [auto|]. split; [exact I|]. split.
      { rewrite Z.add_0_r. destruct Li as (G & Vs & f & kl & sl & off & L & lv & o1 & H). split; [auto|]. split; [auto|].
        exists f, kl, sl, off, L, lv, o1. tauto. }
      split; [repeat split|]. split; [apply incl_refl|auto]. }
    destruct Ho as [He Ho]. destruct Cm as [Ce Cm]. cbn [fold_left vlifetime vlife_outs vlife_full].
    change (vlife_cost c (e :: es)) with (ev_cost c e + vlife_cost c es) in *.
    pose proof (proj1 Li) as G. pose proof (vP c KB PB G) as Pd. pose proof (life_cost_nonneg c es G) as Cn.
    assert (Q : exists c1 V1 seen1 s1 x VR1 VP1, vevent_spec (c, V, seen) e = (c1, V1, seen1) /\ vevent_step c s e = Ok (c1, s1, x) /\
              match e, x with VEvOp o, Some z => vout_ok c V o z | VEvReopen _, None | VEvCrash _ _ _ _, None => True | _, _ => False end /\
              live c1 s1 V1 seen1 VR1 VP1 (b + ev_cost c e) (full /\ ev_full V e) /\ alike c c1 /\ incl seen seen1 /\
              forall k a bs, In k seen -> In (k, (a, bs)) VR1 -> In (k, (a, bs)) VR).
    { destruct e as [o|c'|o i c' bb]; cbn [ev_cost ev_full] in *.
      - destruct (op_live c s V seen VR VP b full o Li He Ce ltac:(lia)) as (s1 & x & VR1 & VP1 & E & Ox & Li1 & Ad).
        cbn [vevent_spec fst snd] in Li1. do 2 eexists. eexists _, s1, (Some x), VR1, VP1. cbn [vevent_spec vevent_step]. split; [reflexivity|].
        rewrite E. cbn [bind]. split; [reflexivity|]. split; [auto|]. split; [exact Li1|]. split; [repeat split|]. split.
        + destruct o; try apply incl_refl. cbn [seen_after]. destruct (refused _ k); [apply incl_refl|apply incl_appl, incl_refl].
        + intros k a bs Hk Hi. destruct (Ad k a bs Hi) as [|[Hn _]]; [auto|]. contradiction.
      - destruct (reopen_live c s V seen VR VP b full c' Li He Ce ltac:(lia)) as (s1 & VR1 & VP1 & E & Li1 & _ & _ & In1).
        eexists _, _, _, s1, None, VR1, VP1. cbn [vevent_spec vevent_step]. split; [reflexivity|]. rewrite E. cbn [bind].
        change (0 =? 0) with true. cbv iota. split; [reflexivity|]. split; [exact I|]. rewrite Z.add_0_r. split.
        { destruct Li1 as (G1 & Vs1 & f & kl & sl & off & L & lv & o1 & H). split; [auto|]. split; [auto|].
          exists f, kl, sl, off, L, lv, o1. tauto. }
        destruct He as [S Nv _ _ _ _ _ _ _ _]. split; [repeat split; auto; apply S|]. split; [apply incl_refl|]. intros k a bs _. apply In1.
      - destruct (crash_live c s V seen VR VP b full o i c' bb Li He Ce ltac:(lia)) as (s1 & x & s2 & VR1 & VP1 & E & E2 & Li1 & _ & _ & In1).
        eexists _, _, _, s2, None, VR1, VP1. cbn [vevent_spec vevent_step]. split; [reflexivity|]. rewrite E. cbn [bind]. rewrite E2. cbn [bind].
        change (0 =? 0) with true. cbv iota. split; [reflexivity|]. split; [exact I|]. split; [exact Li1|].
        destruct He as (_ & _ & _ & [S Nv _ _ _ _ _ _ _ _]). split; [repeat split; auto; apply S|]. split; [|exact In1].
        destruct o; try apply incl_refl. cbn [seen_after]. destruct (refused _ k); [apply incl_refl|apply incl_appl, incl_refl]. }
    destruct Q as (c1 & V1 & seen1 & s1 & x & VR1 & VP1 & Es & Ee & Hx & Li1 & Al & In1 & Ad1). rewrite Es in *. rewrite Ee. cbn [bind].
    specialize (Cm _ _ _ Ee). pose proof Al as (al1 & al2 & al3 & al4).
    destruct (IH c1 s1 V1 seen1 VR1 VP1 _ _ Li1 Ho Cm) as (c2 & V2 & seen2 & s2 & xs & VR2 & VP2 & Es2 & Ee2 & Hxs & Li2 & Al2 & In2 & Ad2).
    { rewrite (life_cost_same c c1), al1 by auto. lia. }
    rewrite Ee2. cbn [bind]. exists c2, V2, seen2, s2, (x :: xs), VR2, VP2. split; [auto|]. split; [auto|].
    split; [split; [exact Hx|exact Hxs]|]. split.
    { rewrite (life_cost_same c c1) in Li2 by auto. rewrite Z.add_assoc.
      destruct Li2 as (G2 & Vs2 & f & kl & sl & off & L & lv & o1 & H). split; [auto|]. split; [auto|].
      exists f, kl, sl, off, L, lv, o1. cbn [fst snd] in *. unfold ev_full in H. tauto. }
    destruct Al2 as (b1 & b2 & b3 & b4). split; [repeat split; congruence|]. split; [eapply incl_tran; eauto|].
    intros k a bs Hk Hi. apply Ad1; auto.
  Qed.
End Life.

(** ** Sequences of events *)
Lemma vlife_ok_app KB PB VB es1 : forall x es2, vlife_ok KB PB VB x (es1 ++ es2) ->
  vlife_ok KB PB VB x es1 /\ vlife_ok KB PB VB (fold_left vevent_spec es1 x) es2.
Proof. induction es1 as [|e es1 IH]; intros x es2; cbn [app vlife_ok fold_left]; [auto|]. intros [H1 H2]. destruct (IH _ _ H2). auto. Qed.
Lemma vlifetime_app es1 : forall c s es2, vlifetime c s (es1 ++ es2) =
  ('(c1, s1, xs) <- vlifetime c s es1 ;; '(c2, s2, ys) <- vlifetime c1 s1 es2 ;; Ok (c2, s2, xs ++ ys)).
Proof.
  induction es1 as [|e es1 IH]; intros c s es2; cbn [app vlifetime bind].
  { destruct (vlifetime c s es2) as [[[? ?] ?]| |]; reflexivity. }
  destruct (vevent_step c s e) as [[[c1 s1] x]| |]; cbn [bind]; auto. rewrite IH.
  destruct (vlifetime c1 s1 es1) as [[[c2 s2] xs]| |]; cbn [bind]; auto.
  destruct (vlifetime c2 s2 es2) as [[[c3 s3] ys]| |]; cbn [bind]; auto.
Qed.
Lemma vlife_calm_app es1 : forall c s es2 c1 s1 xs, vlife_calm c s (es1 ++ es2) -> vlifetime c s es1 = Ok (c1, s1, xs) ->
  vlife_calm c s es1 /\ vlife_calm c1 s1 es2.
Proof.
  induction es1 as [|e es1 IH]; intros c s es2 c1 s1 xs; cbn [app vlifetime].
  - intros Hc E. injection E as -> -> _. split; [exact I|auto].
  - intros [H0 Hc] E. destruct (vevent_step c s e) as [[[c2 s2] x]| |] eqn:Es; try discriminate. cbn [bind] in E.
    destruct (vlifetime c2 s2 es1) as [[[c3 s3] ys]| |] eqn:Er; try discriminate. cbn [bind] in E. injection E as -> -> _.
    destruct (IH _ _ es2 _ _ _ (Hc _ _ _ eq_refl) Er) as [A1 A2]. split; [|auto]. split; [auto|].
    intros c' s' x' E'. rewrite Es in E'. injection E' as <- <- <-. exact A1.
Qed.
Lemma vlife_ok_join KB PB VB es1 : forall x es2, vlife_ok KB PB VB x es1 -> vlife_ok KB PB VB (fold_left vevent_spec es1 x) es2 ->
  vlife_ok KB PB VB x (es1 ++ es2).
Proof. induction es1 as [|e es1 IH]; intros x es2; cbn [app vlife_ok fold_left]; [auto|]. intros [H1 H2] H. auto. Qed.
Lemma vlife_calm_join es1 : forall c s es2 c1 s1 xs, vlife_calm c s es1 -> vlifetime c s es1 = Ok (c1, s1, xs) -> vlife_calm c1 s1 es2 ->
  vlife_calm c s (es1 ++ es2).
Proof.
  induction es1 as [|e es1 IH]; intros c s es2 c1 s1 xs H E H2; cbn [app vlifetime] in *.
  - injection E as -> -> _. auto.
  - destruct H as [H0 Hc]. split; [auto|]. intros c2 s2 x Es. rewrite Es in E. cbn [bind] in E.
    destruct (vlifetime c2 s2 es1) as [[[c3 s3] ys]| |] eqn:Er; try discriminate. cbn [bind] in E. injection E as -> -> _.
    apply (IH c2 s2 es2 c1 s1 ys); auto. exact (Hc _ _ _ Es).
Qed.
Lemma vlife_cost_app c es1 es2 : vlife_cost c (es1 ++ es2) = vlife_cost c es1 + vlife_cost c es2.
Proof. induction es1 as [|e es1 IH]; [reflexivity|]. cbn [app]. unfold vlife_cost in *. cbn [fold_right]. lia. Qed.
Lemma vlife_full_app es1 : forall x es2, vlife_full x (es1 ++ es2) <-> vlife_full x es1 /\ vlife_full (fold_left vevent_spec es1 x) es2.
Proof. induction es1 as [|e es1 IH]; intros x es2; cbn [app vlife_full fold_left]; [tauto|]. rewrite IH. tauto. Qed.

(** ** What a lifetime stores *)
Definition stays (k : Z) (d : list Z) (v : option (list Z)) (V : vstore) : Prop :=
  In k (map rkey (accepted (vlog V))) -> In (mkR k d 0) (accepted (vlog V)) /\ payload k (vpay V) = v.

Lemma op_stays KB PB k d v c V seen o : In k seen -> stays k d v V -> vput_ok KB PB (c, V, seen) o ->
  In k (seen_after V seen o) /\ stays k d v (vspec_step (maxRec c) (numData c) (eraseSize c) V o).
Proof.
  intros Hs T (_ & Hn & _). unfold stays in *.
  destruct o as [k1 d1 v1| |k1|k1 ns]; cbn [vspec_step seen_after]; auto.
  - destruct (refused (vlog V) k1) eqn:R; [auto|]. specialize (Hn k1 d1 v1 eq_refl R k Hs).
    split; [apply in_or_app; auto|]. cbn [vlog vpay]. rewrite log_put_accepted, map_app. intros Hi. apply in_app_or in Hi as [Hi|[Hi|[]]].
    + destruct (T Hi) as [T1 T2]. split; [apply in_or_app; auto|]. destruct v1; [|auto]. unfold payload in *. cbn [find fst].
      destruct (Z.eqb_spec k1 k); [lia|auto].
    + cbn [rkey] in Hi. lia.
  - cbn [vlog vpay]. rewrite log_flush_accepted. auto.
Qed.
Lemma reopen_stays k d v c V : upto V -> stays k d v V -> stays k d v (mkVS (recovered c (pages (vlog V))) (survivors V)).
Proof.
  intros U T. unfold stays in *. cbn [vlog vpay]. intros Hi.
  assert (Ea : accepted (recovered c (pages (vlog V))) = concat (pages (vlog V))) by (unfold accepted, recovered; cbn [pages cur]; apply app_nil_r).
  rewrite Ea in *. destruct U as [U1 U2]. unfold accepted in T, U1. rewrite map_app in T. destruct (T ltac:(apply in_or_app; auto)) as [T1 T2].
  pose proof U1 as U1'. apply asc_app in U1' as (_ & _ & U3). apply in_map_iff in Hi as (r & Er & Hr).
  assert (Hc : ~ In k (map rkey (cur (vlog V)))).
  { intros Hc. apply in_map_iff in Hc as (q & Eq & Hq). specialize (U3 r q Hr Hq). lia. }
  split.
  + rewrite <- (asc_key_inj _ r (mkR k d 0) U1); auto. apply in_or_app. auto.
  + rewrite <- T2. unfold payload, survivors. f_equal. clear - Hc. induction (vpay V) as [|[k1 b1] t IH]; [reflexivity|].
    cbn [filter fst find]. destruct (Z.eqb_spec k1 k) as [->|Ne].
    * destruct (existsb (Z.eqb k) (map rkey (cur (vlog V)))) eqn:Ex.
      -- exfalso. apply existsb_exists in Ex as (y & Hy & Ey). apply Z.eqb_eq in Ey. subst. auto.
      -- cbn [negb find fst]. now rewrite Z.eqb_refl.
    * destruct (negb (existsb (Z.eqb k1) (map rkey (cur (vlog V))))); [|exact IH]. cbn [find fst]. destruct (Z.eqb_spec k1 k); [lia|exact IH].
Qed.
Lemma crash_upto c V o b : upto V -> upto (vcrash_store c V o b).
Proof. destruct b; cbn [vcrash_store]; [apply step_upto|auto]. Qed.

Lemma event_stays KB PB VB k d v c V seen e : upto V -> In k seen -> stays k d v V -> vevent_ok KB PB VB (c, V, seen) e ->
  let '(_, V', seen') := vevent_spec (c, V, seen) e in upto V' /\ In k seen' /\ stays k d v V'.
Proof.
  intros U Hs T He. destruct e as [o|c'|o i c' b]; cbn [vevent_spec].
  - split; [now apply step_upto|]. exact (op_stays KB PB k d v c V seen o Hs T He).
  - split; [now apply reopen_upto|]. split; [auto|]. now apply reopen_stays.
  - destruct He as (_ & Po & _). destruct (op_stays KB PB k d v c V seen o Hs T Po) as [Q1 Q2].
    pose proof (crash_upto c V o b U) as U'. split; [now apply reopen_upto|]. split; [auto|]. apply reopen_stays; [auto|]. destruct b; auto.
Qed.
Lemma life_stays KB PB VB k d v es : forall c V seen, upto V -> In k seen -> stays k d v V -> vlife_ok KB PB VB (c, V, seen) es ->
  let '(_, V', _) := fold_left vevent_spec es (c, V, seen) in upto V' /\ stays k d v V'.
Proof.
  induction es as [|e es IH]; intros c V seen U Hs T Ho; cbn [fold_left]; [auto|]. destruct Ho as [He Ho].
  pose proof (event_stays KB PB VB k d v c V seen e U Hs T He) as Q. destruct (vevent_spec (c, V, seen) e) as [[c1 V1] seen1].
  destruct Q as (Q1 & Q2 & Q3). apply IH; auto.
Qed.
Lemma life_upto KB PB VB es : forall c V seen, upto V -> (forall x, In x (accepted (vlog V)) -> In (rkey x) seen) -> vlife_ok KB PB VB (c, V, seen) es ->
  let '(_, V', seen') := fold_left vevent_spec es (c, V, seen) in upto V' /\ forall x, In x (accepted (vlog V')) -> In (rkey x) seen'.
Proof.
  induction es as [|e es IH]; intros c V seen U Hs Ho; cbn [fold_left]; [auto|]. destruct Ho as [He Ho].
  assert (So : forall o, forall x, In x (accepted (vlog (vspec_step (maxRec c) (numData c) (eraseSize c) V o))) -> In (rkey x) (seen_after V seen o)).
  { intros o. destruct o as [k1 d1 v1| |k1|k1 ns]; cbn [vspec_step seen_after]; auto.
    - destruct (refused (vlog V) k1); [auto|]. cbn [vlog]. rewrite log_put_accepted. intros x Hx. apply in_app_or in Hx. apply in_or_app.
      destruct Hx as [Hx|[<-|[]]]; [auto|right; now left].
    - cbn [vlog]. rewrite log_flush_accepted. auto. }
  assert (Sr : forall W x, In x (accepted (recovered c (pages (vlog W)))) -> In x (accepted (vlog W))).
  { intros W x Hx. unfold accepted in *. unfold recovered in Hx. cbn [pages cur] in Hx. rewrite app_nil_r in Hx. apply in_or_app. auto. }
  assert (Sk : forall o x, In x seen -> In x (seen_after V seen o)).
  { intros o x Hx. destruct o as [k1 d1 v1| |k1|k1 ns]; cbn [seen_after]; auto. destruct (refused (vlog V) k1); [auto|]. apply in_or_app. auto. }
  destruct (vevent_spec (c, V, seen) e) as [[c1 V1] seen1] eqn:E. apply IH; auto; destruct e as [o|c'|o i c' b]; cbn [vevent_spec] in E; injection E as <- <- <-.
  - now apply step_upto.
  - now apply reopen_upto.
  - apply reopen_upto. now apply crash_upto.
  - apply So.
  - cbn [vlog]. auto.
  - cbn [vlog]. intros x Hx. apply Sr in Hx. destruct b; cbn [vcrash_store] in Hx; auto.
Qed.

(** ** The theorems *)
Section Thms.
  Variables (KB PB VB : Z) (c : cfg) (dk : disk) (s : state).
  Notation P := (pageSize c).
  Notation NV := (numVar c).
  Notation B := (eraseSize c).

  Lemma new_live es : vlife c KB PB VB dk s es -> live KB PB VB c s emptyVS [] [] [] (keySize c + 4) True.
  Proof.
    intros [G V HR He E Ho Cm Hc]. pose proof (vP c KB PB G) as Pd.
    destruct (fresh_VInv c KB PB VB G V dk s HR He E) as [Y Co].
    destruct (fresh_var c dk s (vs_use _ _ V) HR (vs_rlc _ _ V) E) as (_ & _ & _ & _ & _ & e6 & _). rewrite (vHdr c KB PB G) in e6.
    split; [auto|]. split; [auto|]. exists 0, 0, 0, 0, emptyLog, 0, (keySize c + 4).
    split; [lia|]. split; [split; [lia|apply Z.mod_0_l; pose proof (area_u32 c KB PB VB G V); lia]|].
    split; [exact Y|]. split; [auto|]. split; [reflexivity|]. split; [intros x []|]. split; [lia|]. split; [lia|].
    pose proof (g_B _ _ _ G). pose proof (g_D _ _ _ G).
    split. { unfold lo_ok. cbn [emptyVS vlog emptyLog lo pages]. change (zlen (@nil (list rcd))) with 0. split; [lia|].
      split; [apply Z.mod_0_l; lia|]. unfold rec_lo. destruct (Z.leb_spec 0 (numData c)); lia. }
    split; [split; [exact I|intros k0 []]|]. intros _. split; [intros v k0 a Hv []|]. right. auto.
  Qed.

  Lemma life_end es : vlife c KB PB VB dk s es ->
    exists c1 V1 seen1 s1 xs VR1 VP1, vlife_spec c es = (c1, V1, seen1) /\ vlifetime c s es = Ok (c1, s1, xs) /\
      vlife_outs (c, emptyVS, []) es xs /\
      live KB PB VB c1 s1 V1 seen1 VR1 VP1 (keySize c + 4 + vlife_cost c es) (True /\ vlife_full (c, emptyVS, []) es) /\ alike c c1.
  Proof.
    intros H. pose proof (new_live es H) as Li. destruct H as [G V HR He E Ho Cm Hc]. pose proof (vP c KB PB G) as Pd.
    destruct (life_runs KB PB VB es c s emptyVS [] [] [] _ _ Li Ho Cm) as (c1 & V1 & seen1 & s1 & xs & VR1 & VP1 & A1 & A2 & A3 & A4 & A5 & _); [lia|].
    exists c1, V1, seen1, s1, xs, VR1, VP1. auto.
  Qed.

  Theorem life_run_ok es : vlife c KB PB VB dk s es ->
    exists s1 xs, vlifetime c s es = Ok (fst (fst (vlife_spec c es)), s1, xs) /\ vlife_outs (c, emptyVS, []) es xs.
  Proof. intros H. destruct (life_end es H) as (c1 & V1 & seen1 & s1 & xs & VR1 & VP1 & A1 & A2 & A3 & _). rewrite A1. cbn [fst]. eauto. Qed.

  (** Where the payload of a put lies at the end. *)
  Lemma life_addr es1 k d b es2 c1 s1 xs1 : let es := es1 ++ VEvOp (VPut k d (Some b)) :: es2 in
    vlife c KB PB VB dk s es -> vlifetime c s es1 = Ok (c1, s1, xs1) ->
    refused (vlog (snd (fst (vlife_spec c es1)))) k = false ->
    exists c2 V2 seen2 s2 xs2 VR2 VP2, vlife_spec c es = (c2, V2, seen2) /\ vlifetime c s es = Ok (c2, s2, xs2) /\
      live KB PB VB c2 s2 V2 seen2 VR2 VP2 (keySize c + 4 + vlife_cost c es) (True /\ vlife_full (c, emptyVS, []) es) /\ alike c c2 /\
      (forall a bs, In (k, (a, bs)) VR2 -> nextV (sv s1) <= a / P <= nextV (sv s1) + 1) /\
      (In k (map rkey (retained (vlog V2))) -> find_key k (retained (vlog V2)) = Some (mkR k d 0) /\ payload k (vpay V2) = Some b) /\
      0 <= k < KB.
  Proof.
    intros es H E1 Rf. pose proof (new_live es H) as Li. pose proof H as [G V HR He E Ho Cm Hc]. pose proof (vP c KB PB G) as Pd.
    unfold es in Ho, Cm, Hc. apply vlife_ok_app in Ho as [Ho1 Ho2]. rewrite vlife_cost_app in Hc.
    destruct (vlife_calm_app _ _ _ _ _ _ _ Cm E1) as [Cm1 Cm2].
    change (vlife_cost c (VEvOp (VPut k d (Some b)) :: es2)) with (vcost c (VPut k d (Some b)) + vlife_cost c es2) in Hc.
    pose proof (vcost_nonneg c KB PB G (VPut k d (Some b))) as Cn. pose proof (life_cost_nonneg KB PB c es2 G) as Cn2.
    destruct (life_runs KB PB VB es1 c s emptyVS [] [] [] _ _ Li Ho1 Cm1) as (c1' & V1 & seen1 & s1' & xs & VR1 & VP1 & A1 & A2 & A3 & A4 & A5 & _); [lia|].
    rewrite E1 in A2. injection A2 as <- <- <-.
    pose proof (life_upto KB PB VB es1 c emptyVS [] ltac:(split; [exact I|intros k0 []]) ltac:(intros x []) Ho1) as U1. 
    unfold vlife_spec in Rf. rewrite A1 in Ho2, U1, Rf. cbn [fst snd] in Rf. destruct U1 as [U1 U1'].
    pose proof A5 as (al1 & al2 & al3 & al4).
    destruct Ho2 as [Hop Ho2]. destruct Cm2 as [Cop Cm2].
    assert (Ec : vcost c1 (VPut k d (Some b)) = vcost c (VPut k d (Some b))) by (unfold vcost; now rewrite al1).
    destruct (op_live KB PB VB c1 s1 V1 seen1 VR1 VP1 _ _ _ A4 Hop Cop ltac:(lia)) as (s3 & x3 & VR3 & VP3 & E3 & Ox3 & Li3 & Ad3).
    assert (Ev3 : vevent_step c1 s1 (VEvOp (VPut k d (Some b))) = Ok (c1, s3, Some x3)) by (cbn [vevent_step]; rewrite E3; reflexivity).
    specialize (Cm2 _ _ _ Ev3).
    set (x4 := vevent_spec (c1, V1, seen1) (VEvOp (VPut k d (Some b)))) in *.
    assert (Ex4 : x4 = (c1, mkVS (log_put (maxRec c1) (numData c1) (eraseSize c1) (vlog V1) (mkR k d 0)) ((k, b) :: vpay V1), seen1 ++ [k])).
    { unfold x4. cbn [vevent_spec vspec_step seen_after]. rewrite Rf. reflexivity. }
    assert (Ks : ~ In k (map rkey (accepted (vlog V1)))).
    { intros Hk. apply in_map_iff in Hk as (r & Er & Hr). specialize (U1' r Hr). destruct Hop as (_ & Hn & _).
      specialize (Hn k d (Some b) eq_refl Rf (rkey r) U1'). lia. }
    pose proof (step_upto c1 V1 (VPut k d (Some b)) U1) as U4. cbn [vspec_step] in U4. rewrite Rf in U4.
    set (V4 := mkVS _ ((k, b) :: vpay V1)) in *.
    assert (T4 : stays k d (Some b) V4).
    { intros _. unfold V4. cbn [vlog vpay]. rewrite log_put_accepted. split; [apply in_or_app; right; now left|].
      unfold payload. cbn [find fst]. now rewrite Z.eqb_refl. }
    rewrite Ex4 in Ho2, Li3. cbn [fst snd] in Li3.
    destruct (life_runs KB PB VB es2 c1 s3 V4 (seen1 ++ [k]) VR3 VP3 _ _ Li3 Ho2 Cm2) as
      (c2 & V2 & seen2 & s2 & xs2 & VR2 & VP2 & B1 & B2 & B3 & B4 & B5 & _ & B7).
    { rewrite Ec, (life_cost_same c c1), al1 by auto. lia. }
    pose proof (life_stays KB PB VB k d (Some b) es2 c1 V4 (seen1 ++ [k]) U4 ltac:(apply in_or_app; right; now left) T4 Ho2) as T2.
    rewrite B1 in T2. destruct T2 as [U2 T2].
    exists c2, V2, seen2, s2, (xs1 ++ Some x3 :: xs2), VR2, VP2.
    split. { unfold vlife_spec, es. rewrite fold_left_app, A1. cbn [fold_left]. fold x4. rewrite Ex4. exact B1. }
    split. { unfold es. rewrite vlifetime_app, E1. cbn [bind vlifetime]. rewrite Ev3. cbn [bind]. rewrite B2. reflexivity. }
    split. { destruct B4 as (G2 & Vs2 & f & kl & sl & off & L & lv & o1 & Q). split; [auto|]. split; [auto|].
      exists f, kl, sl, off, L, lv, o1. destruct Q as (q1 & q2 & q3 & q4 & q5 & q6 & q7 & q8 & q9 & q10 & q11).
      do 7 (split; [solve [auto]|]). split.
      { unfold es. rewrite vlife_cost_app. change (vlife_cost c (VEvOp (VPut k d (Some b)) :: es2)) with (vcost c (VPut k d (Some b)) + vlife_cost c es2).
        rewrite Ec, (life_cost_same c c1) in q8 by auto. lia. }
      split; [auto|]. split; [auto|]. intros [_ Fu]. apply q11. unfold es in Fu. apply vlife_full_app in Fu as [Fu1 Fu2]. rewrite A1 in Fu2.
      destruct Fu2 as [Fu2 Fu3]. fold x4 in Fu3. rewrite Ex4 in Fu3. tauto. }
    destruct B5 as (bl1 & bl2 & bl3 & bl4). split; [repeat split; congruence|]. split.
    { intros a bs Hi. specialize (B7 k a bs ltac:(apply in_or_app; right; now left) Hi).
      assert (Nx : nextV (sv s1) = zlen VP1).
      { destruct A4 as (_ & _ & f & kl & sl & off & L & lv & o1 & _ & _ & Y & _).
        apply (x_next _ _ _ _ (a_S _ _ _ _ _ _ _ _ _ _ (y_A _ _ _ _ _ _ _ _ _ _ _ _ _ _ _ Y))). }
      destruct (Ad3 k a bs B7) as [Old|[_ New]]; [exfalso|rewrite Nx, <- al1; exact New].
      destruct A4 as (_ & _ & f & kl & sl & off & L & lv & o1 & _ & _ & Y & _).
      assert (Hk : In k seen1).
      { apply (y_in _ _ _ _ _ _ _ _ _ _ _ _ _ _ _ Y). apply in_map_iff. exists (k, (a, bs)). auto. }
      destruct Hop as (_ & Hn & _). specialize (Hn k d (Some b) eq_refl Rf k Hk). lia. }
    split; [|destruct Hop as ((Hk & _) & _); auto].
    intros Hr. destruct U2 as [U2 _].
    assert (Ra : ascending (retained (vlog V2))).
    { unfold accepted in U2. unfold retained.
      assert (Es : concat (pages (vlog V2)) = concat (firstn (Z.to_nat (lo (vlog V2))) (pages (vlog V2))) ++ concat (livePages (vlog V2))).
      { unfold livePages. rewrite <- concat_app, firstn_skipn. auto. }
      rewrite Es, <- app_assoc, asc_app in U2. tauto. }
    apply in_map_iff in Hr as (r & Er & Hr). pose proof (retained_accepted _ _ Hr) as Ha.
    destruct T2 as [T2 T2']. { apply in_map_iff. eauto. }
    split; [|auto]. apply find_key_some; auto. split; [|reflexivity].
    rewrite <- (asc_key_inj _ r (mkR k d 0) U2); auto.
  Qed.

  Theorem life_lookup es c1 s1 xs k ns : vlife c KB PB VB dk s es -> vlifetime c s es = Ok (c1, s1, xs) -> 0 <= k < KB ->
    let V1 := snd (fst (vlife_spec c es)) in
    var_ready c1 s1 V1 k -> lookup_inside c1 s1 k ns ->
    (useBinary c1 = true -> In k (map rkey (accepted (vlog V1))) -> In k (map rkey (retained (vlog V1)))) ->
    (payload k (vpay V1) <> None -> vlife_intact VB c s es s1 k) ->
    exists s', getvar_read c1 s1 k ns = Ok (s', vlookup V1 k ns).
  Proof.
    intros H E Hk V1 Hcl Hin Hbin Hint. pose proof (vl_cost _ _ _ _ _ _ _ H) as Hc.
    assert (Q : exists seen1 VR1 VP1, live KB PB VB c1 s1 V1 seen1 VR1 VP1 (keySize c + 4 + vlife_cost c es) (True /\ vlife_full (c, emptyVS, []) es) /\ alike c c1 /\
      (forall a bs, In (k, (a, bs)) VR1 -> zlen VP1 + 2 - a / P <= NV - B \/ VB <= NV * P)).
    { destruct (life_end es H) as (c2 & V2 & seen2 & s2 & xs2 & VR2 & VP2 & A1 & A2 & _ & Li & Al).
      rewrite E in A2. injection A2 as <- <- <-. unfold V1 in *. rewrite A1 in *. cbn [fst snd] in *.
      destruct (payload k (vpay V2)) as [bs0|] eqn:Ep.
      - destruct (Hint ltac:(discriminate)) as [Fit|(es1 & d & b & es2 & c3 & s3 & xs3 & Ee & E3 & Rf & Cap)].
        + exists seen2, VR2, VP2. auto.
        + subst es. destruct (life_addr es1 k d b es2 c3 s3 xs3 H E3 Rf) as (c4 & V4 & seen4 & s4 & xs4 & VR4 & VP4 & B1 & B2 & B3 & B4 & B5 & _).
          rewrite E in B2. injection B2 as <- <- <-. rewrite A1 in B1. injection B1 as <- <-. exists seen2, VR4, VP4.
          split; [auto|]. split; [auto|]. intros a bs Hi. specialize (B5 a bs Hi). left.
          destruct B3 as (_ & _ & f & kl & sl & off & L & lv & o1 & _ & _ & Y & _).
          pose proof (x_next _ _ _ _ (a_S _ _ _ _ _ _ _ _ _ _ (y_A _ _ _ _ _ _ _ _ _ _ _ _ _ _ _ Y))). lia.
      - exists seen2, VR2, VP2. split; [auto|]. split; [auto|]. intros a bs Hi. exfalso.
        destruct Li as (_ & _ & f & kl & sl & off & L & lv & o1 & _ & _ & Y & _ & St & _). rewrite <- St in Ep. unfold store_is in Ep. cbn [vpay] in Ep.
        rewrite (pay_in VR2 k a bs (y_nodup _ _ _ _ _ _ _ _ _ _ _ _ _ _ _ Y) Hi) in Ep. discriminate. }
    destruct Q as (seen1 & VR1 & VP1 & Li & (al1 & al2 & al3 & al4) & Hs).
    destruct Li as (G & Vs & f & kl & sl & off & L & lv & o1 & Hsl & Hoff & Y & Co & St & Ab & Kl & Cu & Lo & Up & _).
    pose proof (vP c1 KB PB G) as Pd. rewrite <- St in *. unfold store_is in *. cbn [vlog] in *.
    apply (lookup_ok c1 KB PB f VB G Vs kl sl off notorn Hsl Hoff notorn_dec s1 L VR1 VP1 lv o1 seen1 k ns); auto.
    - exact (proj1 Hcl).
    - intros Hc1. apply (proj2 Hcl). unfold bareL. cbn [vlog cur]. rewrite map_map. exact Hc1.
    - intros Hr. apply in_map_iff in Hr as (r & <- & Hr). unfold above in Ab. cbn [vlog] in Ab. rewrite bare_retained in Ab.
      apply (Ab (bare r)). now apply in_map.
    - rewrite al1 in *. lia.
    - rewrite bare_accepted, bare_retained, !bare_keys in Hbin. exact Hbin.
    - intros a bs Hi. rewrite al1, al2, al3. specialize (Hs a bs Hi). lia.
  Qed.

  (** A payload stored in an earlier session. *)
  Theorem life_stored es1 k d b es2 c2 s2 xs2 ns : let es := es1 ++ VEvOp (VPut k d (Some b)) :: es2 in
    vlife c KB PB VB dk s es -> refused (vlog (snd (fst (vlife_spec c es1)))) k = false ->
    vlifetime c s es = Ok (c2, s2, xs2) -> var_ready c2 s2 (snd (fst (vlife_spec c es))) k -> lookup_inside c2 s2 k ns ->
    In k (map rkey (retained (vlog (snd (fst (vlife_spec c es)))))) -> vlife_intact VB c s es s2 k ->
    exists s', getvar_read c2 s2 k ns = Ok (s', OVGetVar 0 (Some d) (Some (pieces b ns))).
  Proof.
    intros es H Rf E Hcl Hin Hr Hi.
    assert (E1 : exists c1 s1 xs1, vlifetime c s es1 = Ok (c1, s1, xs1)).
    { unfold es in E. rewrite vlifetime_app in E. destruct (vlifetime c s es1) as [[[c1 s1] xs1]| |]; try discriminate. eauto. }
    destruct E1 as (c1 & s1 & xs1 & E1).
    destruct (life_addr es1 k d b es2 c1 s1 xs1 H E1 Rf) as (c3 & V3 & seen3 & s3 & xs3 & VR3 & VP3 & A1 & A2 & _ & _ & _ & A6 & Hk).
    fold es in A1, A2. rewrite E in A2. injection A2 as <- <- <-.
    assert (Ev : snd (fst (vlife_spec c es)) = V3) by (rewrite A1; reflexivity). rewrite Ev in Hr. destruct (A6 Hr) as [F1 F2].
    destruct (life_lookup es c2 s2 xs2 k ns H E Hk Hcl Hin) as (s' & E2).
    - rewrite Ev. auto.
    - auto.
    - exists s'. rewrite E2, Ev. unfold vlookup. rewrite F1, F2. reflexivity.
  Qed.

  (** When every put carries data: whole, or reported as overwritten. *)
  Theorem life_report es1 k d b es2 c1 s1 xs1 c2 s2 xs2 ns : let es := es1 ++ VEvOp (VPut k d (Some b)) :: es2 in
    vlife c KB PB VB dk s es -> vlifetime c s es1 = Ok (c1, s1, xs1) -> vlifetime c s es = Ok (c2, s2, xs2) ->
    var_ready c2 s2 (snd (fst (vlife_spec c es))) k -> lookup_inside c2 s2 k ns -> vlife_full (c, emptyVS, []) es ->
    (forall x, In x (snd (vlife_spec c es)) -> x + 1 < KB) ->
    refused (vlog (snd (fst (vlife_spec c es1)))) k = false ->
    In k (map rkey (retained (vlog (snd (fst (vlife_spec c es)))))) ->
    exists s' x, getvar_read c2 s2 k ns = Ok (s', x) /\
      (x = OVGetVar 0 (Some d) (Some (pieces b ns)) \/ x = OVGetVar 1 (Some d) None) /\
      (nextV (sv s1) + 1 + numVar c < nextV (sv s2) -> x = OVGetVar 1 (Some d) None) /\
      (vlife_intact VB c s es s2 k -> x = OVGetVar 0 (Some d) (Some (pieces b ns))).
  Proof.
    intros es H E1 E Hcl Hin Hf Hlt Rf Hr. pose proof (vl_cost _ _ _ _ _ _ _ H) as Hc.
    assert (Inv' : vlife_intact VB c s es s2 k -> exists s', getvar_read c2 s2 k ns = Ok (s', OVGetVar 0 (Some d) (Some (pieces b ns))))
      by (intros Hi; exact (life_stored es1 k d b es2 c2 s2 xs2 ns H Rf E Hcl Hin Hr Hi)).
    destruct (life_addr es1 k d b es2 c1 s1 xs1 H E1 Rf) as (c3 & V3 & seen3 & s3 & xs3 & VR & VP & A1 & A2 & Li & Al & Ad & A6 & Hk).
    fold es in A1, A2, Li. rewrite E in A2. injection A2 as <- <- <-.
    rewrite A1 in Hr, Hlt. cbn [fst snd] in Hr, Hlt. destruct (A6 Hr) as [F1 F2].
    destruct Al as (al1 & al2 & al3 & al4).
    destruct Li as (G & Vs & f & kl & sl & off & L & lv & o1 & Hsl & Hoff & Y & Co & St & Ab & Kl & Cu & Lo & Up & Fd).
    specialize (Fd (conj Logic.I Hf)). pose proof (vP c2 KB PB G) as Pd. rewrite <- St in Hr, F1, F2, Ab.
    unfold store_is in Hr, F1, F2, Ab. unfold above in Ab. cbn [vlog vpay] in Hr, F1, F2, Ab.
    rewrite bare_retained in Ab. rewrite bare_retained, bare_keys in Hr. rewrite bare_retained, find_bare in F1.
    assert (Hkl : In k (map rkey (retained L)) -> kl <= k).
    { intros Hr'. apply in_map_iff in Hr' as (r & <- & Hr'). apply (Ab (bare r)). now apply in_map. }
    assert (Hcl' : In k (map rkey (cur L)) -> var_clean c2 s2).
    { intros Hc1. apply (proj2 Hcl). rewrite A1. cbn [fst snd]. rewrite <- St. unfold store_is, bareL. cbn [vlog cur]. rewrite map_map. exact Hc1. }
    destruct (lookup_any c2 KB PB f VB G Vs kl sl off notorn Hsl Hoff notorn_dec s2 L VR VP lv o1 seen3 k ns Y Co Hk (proj1 Hcl) Hcl' Hin Hkl ltac:(lia) (fun _ _ => Hr))
      as (lv2 & Z2 & _ & T2 & T3).
    destruct (find_key k (retained L)) as [r|] eqn:Fr; [|discriminate]. cbn [option_map] in F1.
    assert (Ed : rdata r = d) by (injection F1; auto).
    assert (Hi : exists a, In (k, (a, b)) VR).
    { unfold payload in F2. destruct (find _ (map what_is VR)) as [[k0 b0]|] eqn:Ef; [|discriminate]. cbn [option_map snd] in F2. injection F2 as ->.
      apply find_some in Ef as [Ef Ek]. cbn [fst] in Ek. apply Z.eqb_eq in Ek. subst k0.
      apply in_map_iff in Ef as ([k0 [a0 b0]] & Eq & Hi). injection Eq as -> ->. eauto. }
    destruct Hi as (a & Hi).
    assert (Res : exists s' x, getvar_read c2 s2 k ns = Ok (s', x) /\
      (x = OVGetVar 0 (Some d) (Some (pieces b ns)) \/ x = OVGetVar 1 (Some d) None) /\
      (nextV (sv s1) + 1 + numVar c < nextV (sv s2) -> x = OVGetVar 1 (Some d) None)).
    { destruct (Z.lt_ge_cases (a / pageSize c2) lv2) as [Lt|Ge].
      - destruct (T3 Fd Hlt r a b eq_refl Hi Lt) as (s' & E'). rewrite Ed in E'. exists s'. eexists. split; [exact E'|]. auto.
      - destruct (T2 (notorn_no _)) as (s' & E').
        { intros a1 b1 Hi1. pose proof (nodup_fun _ k _ _ (y_nodup _ _ _ _ _ _ _ _ _ _ _ _ _ _ _ Y) Hi Hi1) as Eq. injection Eq as <- <-. lia. }
        exists s'. eexists. split; [exact E'|]. unfold vlookup. cbn [vlog vpay]. rewrite bare_retained, find_bare, Fr, F2.
        cbn [option_map bare rdata]. rewrite Ed. split; [auto|]. intros Far. exfalso. specialize (Ad a b Hi). rewrite al1 in *.
        pose proof (x_next _ _ _ _ (a_S _ _ _ _ _ _ _ _ _ _ (y_A _ _ _ _ _ _ _ _ _ _ _ _ _ _ _ Y))) as Nx. lia. }
    destruct Res as (s' & x & Ex & R1 & R2). exists s', x. split; [auto|]. split; [auto|]. split; [auto|].
    intros Hit. destruct (Inv' Hit) as (s'' & E2). rewrite Ex in E2. injection E2 as _ E2. exact E2.
  Qed.

  (** Lookups right after reopening. *)
  Lemma life_reopened es c' : vlife c KB PB VB dk s (es ++ [VEvReopen c']) ->
    exists c0 V s0 s1 xs0 xs seen VR VP, vlife_spec c es = (c0, V, seen) /\ vlifetime c s es = Ok (c0, s0, xs0) /\
      live KB PB VB c0 s0 V seen VR VP (keySize c + 4 + vlife_cost c es) (True /\ vlife_full (c, emptyVS, []) es) /\
      vreopen_ok c0 c' KB PB VB (zlen (pages (vlog V))) /\
      vlifetime c s (es ++ [VEvReopen c']) = Ok (c', s1, xs) /\ var_fresh s1 /\
      vlife_spec c (es ++ [VEvReopen c']) = (c', mkVS (recovered c0 (pages (vlog V))) (survivors V), seen).
  Proof.
    intros H. pose proof (new_live _ H) as Li. pose proof H as [G V HR He E Ho Cm Hc]. pose proof (vP c KB PB G) as Pd.
    apply vlife_ok_app in Ho as [Ho1 Ho2]. rewrite vlife_cost_app in Hc. change (vlife_cost c [VEvReopen c']) with 0 in Hc.
    assert (Cm1 : vlife_calm c s es).
    { clear - Cm. revert c s Cm. induction es as [|e es IH]; intros c s Cm; [exact I|]. destruct Cm as [C1 C2]. split; [auto|]. intros. eauto. }
    destruct (life_runs KB PB VB es c s emptyVS [] [] [] _ _ Li Ho1 Cm1) as (c0 & V0 & seen & s0 & xs0 & VR & VP & A1 & A2 & A3 & A4 & A5 & _); [lia|].
    rewrite A1 in Ho2. destruct Ho2 as [Hop _]. destruct (vlife_calm_app _ _ _ _ _ _ _ Cm A2) as [_ [Cm2 _]].
    destruct (reopen_live KB PB VB c0 s0 V0 seen VR VP _ _ c' A4 Hop Cm2 ltac:(lia)) as (s1 & VR1 & VP1 & E1 & _ & Fr & _).
    exists c0, V0, s0, s1, xs0, (xs0 ++ [None]), seen, VR, VP. split; [exact A1|]. split; [auto|]. split; [auto|]. split; [exact Hop|].
    split. { rewrite vlifetime_app, A2. cbn [bind vlifetime vevent_step]. rewrite E1. reflexivity. }
    split; [auto|]. unfold vlife_spec. rewrite fold_left_app, A1. reflexivity.
  Qed.

  Theorem life_reopen_lookup es c' : vlife c KB PB VB dk s (es ++ [VEvReopen c']) ->
    let V := snd (fst (vlife_spec c es)) in let V1 := mkVS (recovered c' (pages (vlog V))) (survivors V) in
    exists s1 xs, vlifetime c s (es ++ [VEvReopen c']) = Ok (c', s1, xs) /\
      forall k ns, 0 <= k < KB -> lookup_inside c' s1 k ns ->
        (useBinary c' = true -> In k (map rkey (accepted (vlog V1))) -> In k (map rkey (retained (vlog V1)))) ->
        (payload k (vpay V1) <> None -> vlife_intact VB c s (es ++ [VEvReopen c']) s1 k) ->
        exists s', getvar_read c' s1 k ns = Ok (s', vlookup V1 k ns).
  Proof.
    intros H V V1. destruct (life_reopened es c' H) as (c0 & V0 & s0 & s1 & xs0 & xs & seen & VR & VP & A1 & A2 & A3 & A4 & A5 & A6 & A7).
    exists s1, xs. split; [auto|]. intros k ns Hk Hin Hbin Hint.
    assert (Ev : V1 = snd (fst (vlife_spec c (es ++ [VEvReopen c'])))).
    { rewrite A7. unfold V1, V. rewrite A1. cbn [fst snd]. now rewrite (same_recovered _ _ (vr_same _ _ _ _ _ _ A4)). }
    rewrite Ev in *. apply (life_lookup _ c' s1 xs); auto.
    split; [auto|]. intros Hc. exfalso. rewrite A7 in Hc. exact Hc.
  Qed.

  (** Power failing inside a put. *)
  Theorem life_crash es k d v i c' c1 s1 xs : vlife c KB PB VB dk s es -> vlifetime c s es = Ok (c1, s1, xs) ->
    let V := snd (fst (vlife_spec c es)) in let o := VPut k d v in
    vput_ok KB PB (vlife_spec c es) o -> block0_safe c1 (zlen (pages (vlog V))) ->
    vreopen_ok c1 c' KB PB VB (zlen (pages (vlog V)) + 1) -> vcalm c1 s1 [o] -> vlife_cost c es + vcost c o + 2 * P < VB ->
    exists s2 y, vstep c1 s1 o = Ok (s2, y) /\
      (image_anchored c1 (crash_image s1 s2 i) ->
       exists b s3, let es1 := es ++ [VEvCrash o i c' b] in
         let W := vcrash_store c1 V o b in let V1 := mkVS (recovered c' (pages (vlog W))) (survivors W) in
         embedDBInit c' (disk_of_image (crash_image s1 s2 i)) [] = Ok (s3, 0) /\ vlife c KB PB VB dk s es1 /\
         forall j ns, 0 <= j < KB -> lookup_inside c' s3 j ns ->
           (useBinary c' = true -> In j (map rkey (accepted (vlog V1))) -> In j (map rkey (retained (vlog V1)))) ->
           (payload j (vpay V1) <> None -> vlife_intact VB c s es1 s3 j) ->
           exists s', getvar_read c' s3 j ns = Ok (s', vlookup V1 j ns)).
  Proof.
    intros H E V o Po Bs Rk Cm Hc. pose proof H as [G Vs HR He Ei Ho Ca _]. pose proof (vP c KB PB G) as Pd.
    destruct (life_end es H) as (c2 & V2 & seen2 & s2 & xs2 & VR2 & VP2 & A1 & A2 & _ & Li & Al).
    rewrite E in A2. injection A2 as <- <- <-. unfold V in *. rewrite A1 in *. cbn [fst snd] in *. clear V.
    destruct Al as (al1 & al2 & al3 & al4).
    assert (Ec : vcost c1 o = vcost c o) by (unfold vcost; now rewrite al1).
    destruct (crash_some KB PB VB c1 s1 V2 seen2 VR2 VP2 _ _ k d v i c' Li Po Bs Rk Cm) as (s2 & y & E2 & _ & _ & Hx); [fold o; lia|].
    exists s2, y. split; [exact E2|]. intros An. destruct (Hx An) as (b & s3 & VR3 & VP3 & E3 & N3 & _ & Fr & _).
    exists b, s3. fold o in E2, E3. set (es1 := es ++ [VEvCrash o i c' b]).
    assert (L1 : vlife c KB PB VB dk s es1).
    { constructor; auto.
      - apply vlife_ok_join; [auto|]. unfold vlife_spec in A1. rewrite A1. split; [|exact I].
        split; [exists k, d, v; reflexivity|]. auto.
      - apply (vlife_calm_join es c s _ c1 s1 xs Ca E). split; [|intros; exact I]. split; [auto|].
        intros s4 y4 E4. rewrite E2 in E4. injection E4 as <- <-. split; [auto|]. intros s5 r E5. rewrite E3 in E5. injection E5 as <- _. exact N3.
      - unfold es1. rewrite vlife_cost_app. cbn [vlife_cost fold_right]. lia. }
    assert (Sp : vlife_spec c es1 = (c', mkVS (recovered c1 (pages (vlog (vcrash_store c1 V2 o b)))) (survivors (vcrash_store c1 V2 o b)), seen_after V2 seen2 o)).
    { unfold vlife_spec, es1 in *. rewrite fold_left_app, A1. reflexivity. }
    assert (Lt : vlifetime c s es1 = Ok (c', s3, xs ++ [None])).
    { unfold es1. rewrite vlifetime_app, E. cbn [bind vlifetime vevent_step]. rewrite E2. cbn [bind]. rewrite E3. reflexivity. }
    rewrite (same_recovered _ _ (vr_same _ _ _ _ _ _ Rk)). split; [auto|]. split; [auto|]. intros j ns Hj Hin Hbin Hint.
    pose proof (life_lookup es1 c' s3 (xs ++ [None]) j ns L1 Lt Hj) as Q. rewrite Sp in Q. cbn [fst snd] in Q. apply Q; auto.
    split; [auto|]. intros Hcu. destruct Hcu.
  Qed.

  Lemma rec_lo_eq D B0 n l : 0 < B0 -> 2 * B0 <= D -> D mod B0 = 0 -> 0 <= n -> l mod B0 = 0 -> l <= rec_lo D B0 n -> n - l <= D ->
    n <= D \/ n mod B0 <> 0 \/ n mod D = 0 -> 0 <= l -> rec_lo D B0 n = l.
  Proof.
    intros HB HD HDB Hn Hm Hl Hv Hc H0. enough (rec_lo D B0 n <= l) by lia.
    destruct (rec_lo_bounds D B0 n HB HD HDB Hn) as (R1 & R2 & R3 & R4). unfold rec_lo in *. destruct (Z.leb_spec n D); [lia|].
    destruct (Z.eqb_spec (n mod D) 0); [lia|].
    apply (mult_le _ _ B0); auto. pose proof (Z.mod_pos_bound n B0 HB). destruct Hc as [Hc|[Hc|Hc]]; lia.
  Qed.

  (** After a flush closing and reopening changes nothing. *)
  Theorem life_flush_reopen es c' : let es1 := es ++ [VEvOp VFlush] in
    vlife c KB PB VB dk s (es1 ++ [VEvReopen c']) ->
    let V := snd (fst (vlife_spec c es1)) in let n := zlen (pages (vlog V)) in
    n <= numData c' \/ n mod eraseSize c' <> 0 \/ n mod numData c' = 0 ->
    exists s1 xs, vlifetime c s (es1 ++ [VEvReopen c']) = Ok (c', s1, xs) /\
      forall k ns, 0 <= k < KB -> lookup_inside c' s1 k ns ->
        (useBinary c' = true -> In k (map rkey (accepted (vlog V))) -> In k (map rkey (retained (vlog V)))) ->
        (payload k (vpay V) <> None -> vlife_intact VB c s (es1 ++ [VEvReopen c']) s1 k) ->
        exists s', getvar_read c' s1 k ns = Ok (s', vlookup V k ns).
  Proof.
    intros es1 H V n Hn. destruct (life_reopen_lookup es1 c' H) as (s1 & xs & E & Q). exists s1, xs. split; [exact E|].
    enough (Ev : mkVS (recovered c' (pages (vlog V))) (survivors V) = V) by (fold V in Q; rewrite Ev in Q; exact Q).
    destruct (life_reopened es1 c' H) as (c0 & V0 & s0 & s2 & xs0 & xs2 & seen & VR & VP & A1 & A2 & A3 & A4 & _).
    assert (Ev0 : V = V0) by (unfold V; rewrite A1; reflexivity). rewrite Ev0 in *.
    assert (Ec : cur (vlog V0) = []).
    { unfold vlife_spec, es1 in A1. rewrite fold_left_app in A1. destruct (fold_left vevent_spec es (c, emptyVS, [])) as [[c9 V9] seen9].
      cbn [fold_left vevent_spec vspec_step] in A1. injection A1 as _ <- _. cbn [vlog]. unfold log_flush. destruct (cur (vlog V9)) eqn:Ec; [auto|reflexivity]. }
    destruct A4 as [S Nv _ _ _ _ _ _ _ _].
    destruct A3 as (G & Vs & f & kl & sl & off & L & lv & o1 & Hsl & Hoff & Y & Co & St & Ab & Kl & Cu & (Lo1 & Lo2 & Lo3) & Up & _).
    pose proof (wf_of c0 KB PB f s0 L (y_inv _ _ _ _ _ _ _ _ _ _ _ _ _ _ _ Y)) as W. pose proof (w_live _ _ _ W) as Wl.
    pose proof (g_B _ _ _ G) as GB. pose proof (g_D _ _ _ G) as GD.
    assert (El : vlog V0 = bareL L) by (rewrite <- St; reflexivity).
    assert (Ep : zlen (pages (vlog V0)) = zlen (pages L)) by (rewrite El; unfold bareL; cbn [pages]; apply zlen_map).
    assert (Elo : lo (vlog V0) = lo L) by (rewrite El; reflexivity).
    unfold n in Hn. rewrite Ev0, (ss_D _ _ S), (ss_B _ _ S) in Hn.
    assert (Er : rec_lo (numData c0) (eraseSize c0) (zlen (pages (vlog V0))) = lo (vlog V0)).
    { apply rec_lo_eq; auto; try lia. apply (g_DB _ _ _ G). }
    unfold recovered. rewrite (ss_D _ _ S), (ss_B _ _ S), Er.
    assert (Es : survivors V0 = vpay V0).
    { unfold survivors. rewrite Ec. cbn [map existsb negb]. clear. induction (vpay V0) as [|e t IH]; [reflexivity|]. cbn [filter]. now rewrite IH. }
    rewrite Es. destruct V0 as [[pg lo0 cu] py]. cbn in *. now subst.
  Qed.
End Thms.

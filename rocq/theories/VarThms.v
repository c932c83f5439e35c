(** Whole histories with variable data. *)
From Verif Require Import Base BaseFacts Config Spline Storage DB VarData Recovery Spec SpecSpline SplineFacts
  SpecPage SpecStore Run SpecRun SpecVar LogFacts PageFacts SearchFacts StoreFacts PutFacts GetFacts BinFacts RunFacts
  TapeFacts VarFacts VarPutFacts VarReadFacts VarRunFacts VarGetFacts.
Open Scope Z_scope.
Ltac Zify.zify_post_hook ::= ZifyBool.elim_bool_cstr.
Ltac Zify.zify_convert_to_euclidean_division_equations_flag ::= constr:(false).

Lemma fresh_var c k s : useVar c = true -> useReset c = true -> useRLC c = false -> embedDBInit c k [] = Ok (s, 0) ->
  fV (sio s) = open_w c (kV k) /\ vwbuf (sv s) = init_var_page c /\ availV (sv s) = numVar c /\ nextV (sv s) = 0 /\
  minVarRec (sv s) = 2 ^ 64 - 1 /\ curVarLoc (sv s) = varHdr c /\ bufV (sv s) = NOPAGE.
Proof.
  intros HV HR HC H. unfold embedDBInit in H.
  destruct (keySize c >? 8); [discriminate|]. destruct (eraseSize c =? 0); [discriminate|].
  destruct (negb (numData c mod eraseSize c =? 0)); [discriminate|].
  destruct (numData c <? _); [discriminate|].
  destruct (useVar c && _); [discriminate|]. destruct (useIndex c && _) eqn:Ui; [discriminate|].
  destruct (recordSize c =? 0); [discriminate|].
  destruct (init_page c) as [w| |] eqn:Ew; try discriminate. cbn [bind] in H.
  destruct (numData c <? _); [discriminate|].
  destruct (negb (useBinary c) && _) eqn:Us; [discriminate|].
  set (s0 := if useBinary c then _ else _) in H.
  assert (B0 : bufV (sv s0) = NOPAGE) by (unfold s0; destruct (useBinary c); reflexivity). clearbody s0.
  unfold initData in H. rewrite HR, HC in H. cbn [bind] in H. change (negb (0 =? 0)) with false in H. cbv iota in H.
  set (s1 := set_io _ _) in H. assert (B1 : bufV (sv s1) = NOPAGE) by exact B0. clearbody s1.
  assert (Ix : exists s2, bufV (sv s2) = NOPAGE /\
         (if useVar c then if bufBlocks c <? 4 + (if useIndex c then 2 else 0) then Ok (s2, -1)
            else initVarData c s2 (kV k) else Ok (s2, 0)) = Ok (s, 0)).
  { destruct (useIndex c) eqn:U.
    - destruct (bufBlocks c <? 4); [discriminate|].
      unfold initIndex in *. destruct (bitmapSize c =? 0); [discriminate|]. rewrite Ew in *. cbn [bind] in *.
      destruct (st w 8 _) as [b| |]; try discriminate. cbn [bind] in H.
      destruct (numIndex c <? _); [discriminate|]. destruct (negb (numIndex c mod _ =? 0)); [discriminate|].
      rewrite HR in *. cbn [bind] in *. change (negb (0 =? 0)) with false in H. cbv iota in H.
      eexists. split; [|exact H]. exact B1.
    - cbn [bind] in H. change (negb (0 =? 0)) with false in H. cbv iota in H. exists s1. auto. }
  clear H. destruct Ix as (s2 & B2 & H2). rewrite HV in H2. destruct (bufBlocks c <? _); [discriminate|].
  unfold initVarData in H2. rewrite HR in H2. cbn [negb andb] in H2. injection H2 as <-.
  cbn [set_io set_v sv sio fV vwbuf availV nextV minVarRec curVarLoc bufV]. rewrite B2. auto 10.
Qed.

Section VarThms.
  Variables (c : cfg) (KB PB VB : Z).
  Hypothesis G : setting c KB PB.
  Hypothesis V : var_setting c VB.
  Notation P := (pageSize c).
  Notation HD := (keySize c + 4).
  Notation NV := (numVar c).
  Notation N := (maxRec c).
  Notation D := (numData c).
  Notation B := (eraseSize c).

  Lemma fresh_VInv k s : useReset c = true -> maxErr c < PB -> embedDBInit c k [] = Ok (s, 0) ->
    VInv c KB PB 0 0 0 0 notorn s emptyLog [] [] 0 HD [] /\ coh c s emptyLog.
  Proof.
    intros HR Hp E. destruct (fresh_ok c KB PB k s G HR (vs_rlc _ _ V) Hp E) as (I & Hb & _).
    destruct (fresh_var c k s (vs_use _ _ V) HR (vs_rlc _ _ V) E) as (e1 & e2 & e3 & e4 & e5 & e6 & e7).
    unfold open_w in e1. rewrite (vs_trunc _ _ V) in e1. pose proof (vP c KB PB G) as Pd. pose proof (vB c KB PB VB G V) as Bd.
    split; [|intros id Hid; change (zlen (pages emptyLog)) with 0 in Hid; cbn [emptyLog lo] in Hid; lia]. constructor.
    - exact I.
    - constructor.
      + exists 0. split; [|change (zlen (@nil page)) with 0; lia].
        constructor; rewrite ?e1, ?e2, ?e3, ?e4, ?e7; change (zlen (@nil page)) with 0; try lia; try (cbn; lia); auto.
        * apply (i_faults _ _ _ _ _ _ _ _ I).
        * apply (init_len c KB PB G).
      + rewrite e2, e5. constructor; change (zlen (@nil page)) with 0; cbn [map]; try (intros; lia); auto.
        * rewrite (hkey_init c KB PB G). split; [lia|]. left. auto.
        * intros k0 a [].
        * intros k0 a [].
        * intros _ _ k0 a [].
      + unfold at_cur. rewrite e6, (vHdr c KB PB G). change (zlen (@nil page)) with 0. lia.
      + lia.
    - intros k0 a bs [].
    - constructor.
    - intros r [].
    - intros k0 [].
    - intros k0 a bs [].
    - auto.
    - intros x [].
    - intros x [].
    - intros r [].
  Qed.

  (** The invariant and the abstract store. *)
  Definition store_is (L : log) (VR : list entry) : vstore := mkVS (bareL L) (map what_is VR).

  (** The keys put. *)
  Definition acc_step (L : log) (acc : list Z) (op : vop) : list Z :=
    match op with VPut k _ _ => if refused L k then acc else acc ++ [k] | _ => acc end.

  Lemma vcost_nonneg op : 0 <= vcost c op.
  Proof.
    pose proof (vP c KB PB G). unfold vcost. destruct op as [k d [b|]| |k|k ns]; try lia. pose proof (zlen_nonneg b). lia.
  Qed.
  Lemma vcosts_nonneg h : 0 <= vcosts c h.
  Proof. induction h as [|op h IH]; cbn [vcosts fold_right]; [lia|]. pose proof (vcost_nonneg op). fold (vcosts c h) in *. lia. Qed.

  Variables (kl sl off : Z).
  Hypothesis Hsl : 0 <= sl <= 1.
  Hypothesis Hoff : 0 <= off /\ off mod (NV * P) = 0.
  Notation VInv f := (VInv c KB PB f kl sl off notorn).

  (** The log with the locations stored in the records. *)
  Definition log_step (L L' : log) (op : vop) : Prop :=
    match op with
    | VPut k d _ => if refused L k then L' = L else exists w, L' = log_put N D B L (mkR k d w)
    | _ => True
    end.

  Lemma vstep_calm f s L VR VP lv o acc op h : VInv f s L VR VP lv o acc -> coh c s L ->
    (forall k d v, op = VPut k d v -> refused L k = false -> forall x, In x acc -> x < k) ->
    vop_ok c KB (bareL L) op -> vcalm c s (op :: h) -> zlen (pages L) + 1 + maxErr c < PB ->
    curVarLoc (sv s) + off + vcost c op < VB ->
    exists s' x L' X VP' lv' o', vstep c s op = Ok (s', x) /\ VInv f s' L' (X ++ VR) VP' lv' o' (acc_step L acc op) /\ coh c s' L' /\
      store_is L' (X ++ VR) = vspec_step N D B (store_is L VR) op /\ vout_ok c (store_is L VR) op x /\
      vcalm c s' h /\ zlen (pages L') <= zlen (pages L) + 1 /\ curVarLoc (sv s') <= curVarLoc (sv s) + vcost c op /\
      (exists Y, VP' = VP ++ Y) /\
      (forall k d b, op = VPut k d (Some b) -> refused (bareL L) k = false ->
         exists a, X = [(k, (a, b))] /\ zlen VP * P <= a <= curVarLoc (sv s) + off + P) /\
      (full_op (store_is L VR) op -> VD c L VR VP (vwbuf (sv s)) o -> VD c L' (X ++ VR) VP' (vwbuf (sv s')) o') /\
      (forall k d v, op = VPut k d v -> exists new, trace (sio s') = new ++ trace (sio s) /\
         Forall (mid_image c L L' VR (X ++ VR) VP VP') new /\ log_step L L' op) /\
      data_step c L L' (fD (sio s)) (fD (sio s')).
  Proof.
    intros Y Co Hnew Ho [Hroom Hcalm] Hp Hb. pose proof (y_inv _ _ _ _ _ _ _ _ _ _ _ _ _ _ _ Y) as I.
    pose proof (wf_of c KB PB f s L I) as W. unfold store_is, vspec_step, vout_ok. cbn [vlog vpay].
    assert (Zn : forall s1 L1, Inv c KB PB f s1 L1 -> nextD (sd s1) = zlen (pages L1)) by (intros s1 L1 I1; apply (i_nextD _ _ _ _ _ _ _ _ I1)).
    pose proof (vP c KB PB G) as Pd.
    destruct op as [k d v| |k|k ns]; cbn [vop_ok] in Ho; unfold vcost in Hb |- *; cbn [acc_step].
    - destruct Ho as (Hk & Hd & Hf). rewrite refused_bare in *. specialize (Hnew k d v eq_refl). destruct (refused L k) eqn:R.
      + assert (exists k0, last_key (accepted L) = Some k0 /\ k <= k0) as (k0 & E0 & E1).
        { unfold refused in R. destruct (last_key (accepted L)) as [k0|]; [|discriminate]. exists k0. split; [auto|lia]. }
        assert (Cst : curVarLoc (sv s) + off + P < VB).
        { destruct v as [b|]; [pose proof (zlen_nonneg b)|]; lia. }
        destruct (putvar_refused c KB PB f VB G V kl sl off notorn Hsl Hoff (vs_rlc _ _ V) s L VR VP lv o acc k d v k0 Y Hk E0 E1) as (s' & VP' & lv' & o' & E & Y' & Ex & Cu & Co' & Fd & new & Tn & Fn); [|auto|].
        { intros Ec. split; [auto|]. specialize (Hf eq_refl). unfold bareL in Hf. cbn [pages cur] in Hf. rewrite Ec in Hf.
          specialize (Hf eq_refl). rewrite zlen_map in Hf.
          change (@nil rcd) with (map bare []) in Hf at 1. rewrite map_nth, zlen_map in Hf. exact Hf. }
        assert (St : vstep c s (VPut k d v) = Ok (s', OVPut 1)) by (cbn [vstep]; rewrite E; reflexivity).
        exists s', (OVPut 1), L, [], VP', lv', o'. cbn [app]. destruct (Hcalm _ _ St) as [_ Hc].
        split; [exact St|]. split; [exact Y'|]. split; [auto|]. split; [reflexivity|]. split; [reflexivity|]. split; [auto|].
        split; [lia|]. split; [destruct v as [b|]; [pose proof (zlen_nonneg b)|]; lia|]. split; [auto|].
        split; [|split; [cbn [full_op vlog]; rewrite refused_bare; intros [F _]; congruence|]].
        2:{ split; [|left; auto]. intros k1 d1 v1 _. exists new. split; [auto|]. split; [auto|]. cbn [log_step]. now rewrite R. }
        intros k1 d1 b1 He. injection He as <- _ _. rewrite refused_bare. congruence.
      + assert (Cst : curVarLoc (sv s) + off + P + bytes_cost v < VB) by (unfold bytes_cost; destruct v; lia).
        destruct (putvar_ok c KB PB f VB G V kl sl off notorn Hsl Hoff (vs_rlc _ _ V) notorn_no s L VR VP lv o acc k d v Y Hk Hd (Hnew eq_refl) Hp Cst) as
          (s' & w & a & VP' & lv' & o' & E & Y' & Ha & Ex & Cu & Hvd & Co' & Ds & new & Tn & Fn).
        assert (St : vstep c s (VPut k d v) = Ok (s', OVPut 0)) by (cbn [vstep]; rewrite E; reflexivity).
        exists s', (OVPut 0), (log_put N D B L (mkR k d w)), (new_entry k a v), VP', lv', o'. destruct (Hcalm _ _ St) as [Hz Hc].
        split; [exact St|]. split; [exact Y'|]. split.
        { apply Co'; auto. intros Ge. rewrite <- (Zn s L I). apply Hz.
          rewrite (Zn s L I), (Zn s' _ (y_inv _ _ _ _ _ _ _ _ _ _ _ _ _ _ _ Y')), (log_put_pages c).
          destruct (Z.geb_spec (zlen (cur L)) N); lia. }
        split; [rewrite (put_bare N D B L k d w); destruct v; reflexivity|]. split; [reflexivity|]. split; [auto|].
        split; [rewrite (log_put_pages c); destruct (zlen (cur L) >=? N); lia|].
        split; [unfold bytes_cost in Cu; destruct v; lia|]. split; [auto|].
        split; [|split; [intros [_ Hv]; apply Hvd; exact Hv|]].
        2:{ split; [|exact Ds]. intros k1 d1 v1 _. exists new. split; [auto|]. split; [auto|]. cbn [log_step]. rewrite R. eauto. }
        intros k1 d1 b1 He _. injection He as -> -> ->. exists a. auto.
    - assert (Rm : cur L <> [] -> index_room c s) by (intros _; exact (Hroom eq_refl)).
      destruct (flushv_ok c KB PB f VB G V kl sl off notorn Hsl Hoff (vs_rlc _ _ V) s L VR VP lv o acc Y Hp Rm ltac:(lia)) as (s' & VP' & lv' & o' & E & Y' & Ex & Cu & Hvd & Co' & Ds).
      assert (St : vstep c s VFlush = Ok (s', OVFlush 0)) by (cbn [vstep]; rewrite E; reflexivity).
      destruct (Hcalm _ _ St) as [Hz Hc]. exists s', (OVFlush 0), (log_flush D B L), [], VP', lv', o'. cbn [app].
      assert (Zf : zlen (pages (log_flush D B L)) = zlen (pages L) + (match cur L with [] => 0 | _ => 1 end)).
      { unfold log_flush. destruct (cur L); [lia|]. rewrite zlen_seal. lia. }
      split; [exact St|]. split; [exact Y'|]. split.
      { apply Co'; auto. intros Ne. rewrite <- (Zn s L I). apply Hz.
        rewrite (Zn s L I), (Zn s' _ (y_inv _ _ _ _ _ _ _ _ _ _ _ _ _ _ _ Y')), Zf. destruct (cur L); [congruence|lia]. }
      split; [now rewrite flush_bare|]. split; [reflexivity|]. split; [auto|].
      split; [rewrite Zf; destruct (cur L); lia|]. split; [lia|]. split; [auto|]. split; [intros k1 d1 b1 He; discriminate|].
      split; [auto|]. split; [intros k1 d1 v1 He; discriminate|exact Ds].
    - destruct (get_var c KB PB f VB G V s L k I Ho) as (s' & r & dt & E & Gt).
      pose proof Gt as (S & I' & oo & Er & Ed & So & Cm). destruct (Cm Co) as (Co' & Rt & Sp).
      assert (St : vstep c s (VGet k) = Ok (s', OVGet r dt)) by (cbn [vstep]; rewrite E; reflexivity).
      destruct (Hcalm _ _ St) as [Hz Hc]. exists s', (OVGet r dt), L, [], VP, lv, o. cbn [app].
      split; [exact St|]. split; [apply (VInv_rbuf c KB PB f kl sl off notorn s); auto|]. split; [auto|]. split; [reflexivity|].
      split.
      { intros U. rewrite bare_retained, find_bare, <- (Sp U), Er, Ed. destruct oo; cbn [option_map bare rdata]; auto. }
      split; [auto|]. split; [lia|]. split; [destruct S as (_ & _ & -> & _); lia|].
      split; [exists []; now rewrite app_nil_r|]. split; [intros k1 d1 b1 He; discriminate|].
      split; [|split; [intros k1 d1 v1 He; discriminate|left; destruct S as (-> & _); auto]]. intros _ Vd. destruct S as (_ & _ & -> & _). exact Vd.
    - destruct Ho as (Hk & Hns & Hc0).
      assert (Hc1 : forall r, In r (cur L) -> rkey r <> k).
      { intros r Hr. apply (Hc0 (bare r)). unfold bareL. cbn [cur]. now apply in_map. }
      destruct (getvar_page c KB PB f VB G V kl sl off notorn Hsl Hoff notorn_dec s L VR VP lv o acc k ns Y Hk Hc1) as (s1 & r & dt & st & s1' & E & Gt & Y1 & S1 & _).
      destruct Gt as (S & I' & oo & Er & Ed & So & Cm). destruct (Cm Co) as (Co' & _).
      pose proof (a_S _ _ _ _ _ _ _ _ _ _ (y_A _ _ _ _ _ _ _ _ _ _ _ _ _ _ _ Y1)) as X1.
      assert (Co1 : coh c s1 L).
      { apply (coh_same c s1'); auto. destruct (same_var_sd s1' s1 S1) as [-> _]. auto. }
      assert (Q : exists s' x, getvar_read c s k ns = Ok (s', OVGetVar r dt x) /\ VInv f s' L VR VP lv o acc /\ coh c s' L /\
                 curVarLoc (sv s') = curVarLoc (sv s) /\ vwbuf (sv s') = vwbuf (sv s) /\ fD (sio s') = fD (sio s)).
      { assert (C1 : curVarLoc (sv s1) = curVarLoc (sv s) /\ vwbuf (sv s1) = vwbuf (sv s) /\ fD (sio s1) = fD (sio s)).
        { destruct S1 as (F1 & _ & _ & p & q & ->). destruct S as (Fs & _ & -> & _). rewrite F1, Fs. auto. }
        unfold getvar_read. rewrite E. cbn [bind]. destruct st as [st|].
        - destruct (reads_safe c KB PB VB G V ns s1 VP lv st X1 Hns) as (s2 & st2 & xs & -> & X2 & S2). cbn [bind].
          do 2 eexists. split; [reflexivity|]. split; [apply (VInv_cache c KB PB f kl sl off notorn s1); auto|].
          split; [apply (coh_same c s1); auto; apply (same_var_sd s1 s2 S2)|].
          destruct S2 as (F2 & _ & _ & p & q & ->). rewrite F2. exact C1.
        - do 2 eexists. split; [reflexivity|]. auto. }
      destruct Q as (s' & x & E' & Y' & Co2 & C2 & C3 & C4).
      assert (St : vstep c s (VGetVar k ns) = Ok (s', OVGetVar r dt x)) by exact E'.
      destruct (Hcalm _ _ St) as [Hz Hc]. exists s', (OVGetVar r dt x), L, [], VP, lv, o. cbn [app].
      split; [exact St|]. split; [exact Y'|]. split; [exact Co2|]. split; [reflexivity|]. split; [exact Logic.I|].
      split; [auto|]. split; [lia|]. split; [lia|]. split; [exists []; now rewrite app_nil_r|].
      split; [intros k1 d1 b1 He; discriminate|]. split; [|split; [intros k1 d1 v1 He; discriminate|left; auto]]. intros _ Vd. rewrite C3. exact Vd.
  Qed.

  Lemma new_of f s L VR VP lv o op : VInv f s L VR VP lv o (map rkey (accepted L)) ->
    forall k d v, op = VPut k d v -> refused L k = false -> forall x, In x (map rkey (accepted L)) -> x < k.
  Proof.
    intros Y k d v _ R x Hx. apply in_map_iff in Hx as (r & <- & Hr).
    apply (refused_spec c KB PB f s L k (y_inv _ _ _ _ _ _ _ _ _ _ _ _ _ _ _ Y) R r Hr).
  Qed.
  Lemma acc_of L VR op L1 VR1 : store_is L1 VR1 = vspec_step N D B (store_is L VR) op ->
    acc_step L (map rkey (accepted L)) op = map rkey (accepted L1).
  Proof.
    intros E. assert (Eb : vlog (vspec_step N D B (store_is L VR) op) = bareL L1) by (rewrite <- E; reflexivity).
    assert (Ek : map rkey (accepted (bareL L1)) = map rkey (accepted L1)) by (rewrite bare_accepted, bare_keys; auto).
    rewrite <- Ek, <- Eb. unfold store_is.
    destruct op as [k d v| |k|k ns]; cbn [acc_step vspec_step vlog]; rewrite ?refused_bare.
    - destruct (refused L k); cbn [vlog]; [now rewrite bare_accepted, bare_keys|].
      rewrite log_put_accepted, map_app, bare_accepted, bare_keys. reflexivity.
    - unfold log_flush. destruct (cur (bareL L)) eqn:Ec; [now rewrite bare_accepted, bare_keys|].
      unfold accepted at 2, seal. cbn [pages cur]. rewrite concat_app. cbn [concat]. rewrite !app_nil_r.
      change (map rkey (accepted L) = map rkey (accepted (bareL L))). now rewrite bare_accepted, bare_keys.
    - now rewrite bare_accepted, bare_keys.
    - now rewrite bare_accepted, bare_keys.
  Qed.

  Theorem vrun_calm f h : forall s L VR VP lv o, VInv f s L VR VP lv o (map rkey (accepted L)) -> coh c s L ->
    vhist_ok c KB (store_is L VR) h -> vcalm c s h -> zlen (pages L) + zlen h + maxErr c < PB ->
    curVarLoc (sv s) + off + vcosts c h < VB ->
    exists s' xs L' X VP' lv' o', vrun c s h = Ok (s', xs) /\ VInv f s' L' (X ++ VR) VP' lv' o' (map rkey (accepted L')) /\ coh c s' L' /\
      store_is L' (X ++ VR) = fold_left (vspec_step N D B) h (store_is L VR) /\ vouts_ok c (store_is L VR) h xs /\
      zlen (pages L') <= zlen (pages L) + zlen h /\
      curVarLoc (sv s') <= curVarLoc (sv s) + vcosts c h /\
      (all_data c (store_is L VR) h -> VD c L VR VP (vwbuf (sv s)) o -> VD c L' (X ++ VR) VP' (vwbuf (sv s')) o').
  Proof.
    induction h as [|op h IH]; intros s L VR VP lv o Y Co Hh Hc Hp Hb.
    { exists s, [], L, [], VP, lv, o. cbn [app vrun fold_left vouts_ok vcosts fold_right]. cbn in Hp.
      repeat (split; [solve [auto]|]). split; [change (zlen (@nil vop)) with 0; lia|]. split; [lia|auto]. }
    destruct Hh as [Ho Hh]. rewrite zlen_cons in Hp. pose proof (zlen_nonneg h) as Zh. pose proof (vcosts_nonneg h) as Ch.
    change (vcosts c (op :: h)) with (vcost c op + vcosts c h) in *.
    destruct (vstep_calm f s L VR VP lv o _ op h Y Co (new_of f s L VR VP lv o op Y) Ho Hc ltac:(lia) ltac:(lia)) as
      (s1 & x & L1 & X1 & VP1 & lv1 & o1 & E1 & Y1 & Co1 & St1 & Ox & Hc1 & Zp & Cu & _ & _ & Hvd & _).
    rewrite (acc_of L VR op L1 (X1 ++ VR) St1) in Y1. rewrite <- St1 in Hh.
    destruct (IH s1 L1 (X1 ++ VR) VP1 lv1 o1 Y1 Co1 Hh Hc1 ltac:(lia) ltac:(lia)) as
      (s2 & xs & L2 & X2 & VP2 & lv2 & o2 & E2 & Y2 & Co2 & St2 & Oxs & Zp2 & Cu2 & Hvd2).
    exists s2, (x :: xs), L2, (X2 ++ X1), VP2, lv2, o2. cbn [vrun]. rewrite E1. cbn [bind]. rewrite E2. cbn [bind].
    rewrite <- app_assoc. split; [reflexivity|]. split; [exact Y2|]. split; [auto|].
    split; [cbn [fold_left]; rewrite <- St1; exact St2|]. split; [cbn [vouts_ok]; rewrite <- St1; auto|].
    rewrite zlen_cons. split; [lia|]. split; [lia|]. cbn [all_data]. rewrite <- St1. intros [F1 F2] Vd. auto.
  Qed.
End VarThms.

(** ** Reached states *)

Lemma vrun_app c h1 h2 : forall s, vrun c s (h1 ++ h2) =
  ('(s, xs) <- vrun c s h1 ;; '(s, ys) <- vrun c s h2 ;; Ok (s, xs ++ ys)).
Proof.
  induction h1 as [|o h1 IH]; intros s; cbn [vrun app].
  - cbn [bind]. destruct (vrun c s h2) as [[s1 ys]| |]; reflexivity.
  - destruct (vstep c s o) as [[s1 x]| |]; cbn [bind]; auto. rewrite IH.
    destruct (vrun c s1 h1) as [[s2 xs]| |]; cbn [bind]; auto. destruct (vrun c s2 h2) as [[s3 ys]| |]; reflexivity.
Qed.
Lemma vcalm_app c h1 h2 : forall s s1 xs, vcalm c s (h1 ++ h2) -> vrun c s h1 = Ok (s1, xs) -> vcalm c s1 h2.
Proof.
  induction h1 as [|o h1 IH]; intros s s1 xs; cbn [vrun app].
  - intros Hc E. injection E as -> _. auto.
  - intros [_ Hc] E. destruct (vstep c s o) as [[s2 x]| |] eqn:Es; try discriminate. cbn [bind] in E.
    destruct (vrun c s2 h1) as [[s3 ys]| |] eqn:Er; try discriminate. cbn [bind] in E. injection E as -> _.
    eapply IH; eauto. apply (Hc _ _ eq_refl).
Qed.
Lemma vhist_app c KB h1 h2 : forall S, vhist_ok c KB S (h1 ++ h2) ->
  vhist_ok c KB S h1 /\ vhist_ok c KB (fold_left (vspec_step (maxRec c) (numData c) (eraseSize c)) h1 S) h2.
Proof.
  induction h1 as [|o h1 IH]; intros S; cbn [app vhist_ok fold_left]; [auto|]. intros [H1 H2]. destruct (IH _ H2). auto.
Qed.
Lemma vcosts_app c h1 h2 : vcosts c (h1 ++ h2) = vcosts c h1 + vcosts c h2.
Proof. induction h1 as [|o h1 IH]; [reflexivity|]. cbn [app]. unfold vcosts in *. cbn [fold_right]. lia. Qed.

Lemma nodup_fun {A} (l : list (Z * A)) k x y : NoDup (map fst l) -> In (k, x) l -> In (k, y) l -> x = y.
Proof.
  induction l as [|[k0 e0] l IH]; intros Nd Hi I2; [destruct Hi|].
  cbn [map fst] in Nd. inversion Nd as [|? ? Hn Nd']; subst. destruct Hi as [Hi|Hi], I2 as [I2|I2].
  - congruence.
  - exfalso. apply Hn. injection Hi as -> _. apply in_map_iff. exists (k, y). auto.
  - exfalso. apply Hn. injection I2 as -> _. apply in_map_iff. exists (k, x). auto.
  - auto.
Qed.

(** ** What a history stores *)
Section Stored.
  Variable c : cfg.
  Notation N := (maxRec c).
  Notation D := (numData c).
  Notation B := (eraseSize c).
  Notation step := (vspec_step N D B).

  Lemma seal_accepted L : accepted (seal D B L) = accepted L.
  Proof. unfold accepted, seal. cbn [pages cur]. rewrite concat_app. cbn [concat]. now rewrite !app_nil_r. Qed.
  Lemma log_flush_accepted L : accepted (log_flush D B L) = accepted L.
  Proof. unfold log_flush. destruct (cur L); auto. apply seal_accepted. Qed.

  Definition upto (V : vstore) : Prop :=
    ascending (accepted (vlog V)) /\ forall k, In k (map fst (vpay V)) -> In k (map rkey (accepted (vlog V))).
  Lemma not_refused L k : ascending (accepted L) -> refused L k = false -> forall x, In x (accepted L) -> rkey x < k.
  Proof.
    intros A H x Hx. unfold refused in H. destruct (last_key (accepted L)) as [k0|] eqn:E.
    - pose proof (last_key_max _ _ _ A E Hx). lia.
    - unfold last_key in E. destruct (rev (accepted L)) eqn:R; [|discriminate]. apply in_rev in Hx. rewrite R in Hx. destruct Hx.
  Qed.
  Lemma step_upto V o : upto V -> upto (step V o).
  Proof.
    intros [A1 A2]. destruct o as [k d v| |k|k ns]; cbn [vspec_step]; try (split; assumption).
    - destruct (refused (vlog V) k) eqn:R; [split; assumption|]. pose proof (not_refused _ _ A1 R) as Lt. split; cbn [vlog vpay].
      + rewrite log_put_accepted. apply asc_app. split; [auto|]. split; [split; exact I|]. intros x y Hx [<-|[]]. cbn [rkey]. auto.
      + rewrite log_put_accepted, map_app. intros k0 Hi. apply in_or_app.
        destruct v as [b|]; [|auto]. destruct Hi as [<-|Hi]; [right; now left|auto].
    - split; cbn [vlog vpay]; rewrite log_flush_accepted; auto.
  Qed.
  Lemma run_upto h : forall V, upto V -> upto (fold_left step h V).
  Proof. induction h as [|o h IH]; intros V U; cbn [fold_left]; auto. apply IH. now apply step_upto. Qed.

  (** An accepted record and its payload are what was passed. *)
  Definition there (k : Z) (d : list Z) (v : option (list Z)) (V : vstore) : Prop :=
    In (mkR k d 0) (accepted (vlog V)) /\ payload k (vpay V) = v.
  Lemma step_there k d v V o : upto V -> there k d v V -> there k d v (step V o).
  Proof.
    intros [A1 A2] [T1 T2]. destruct o as [k1 d1 v1| |k1|k1 ns]; cbn [vspec_step]; try (split; assumption).
    - destruct (refused (vlog V) k1) eqn:R; [split; assumption|]. split; cbn [vlog vpay].
      + rewrite log_put_accepted. apply in_or_app. auto.
      + destruct v1 as [b|]; [|auto]. pose proof (not_refused _ _ A1 R _ T1) as Lt. cbn [rkey] in Lt.
        unfold payload in *. cbn [find fst]. destruct (Z.eqb_spec k1 k); [lia|auto].
    - split; cbn [vlog vpay]; [rewrite log_flush_accepted|]; auto.
  Qed.
  Lemma run_there k d v h : forall V, upto V -> there k d v V -> there k d v (fold_left step h V).
  Proof. induction h as [|o h IH]; intros V U T; cbn [fold_left]; auto. apply IH; [now apply step_upto|now apply step_there]. Qed.
  Lemma payload_out k t : ~ In k (map fst t) -> payload k t = None.
  Proof.
    unfold payload. induction t as [|[k0 b] t IH]; intros Hn; [reflexivity|]. cbn [find fst map] in *.
    destruct (Z.eqb_spec k0 k) as [E|E]; [exfalso; apply Hn; now left|]. apply IH. intros Hi. apply Hn. now right.
  Qed.

  Lemma stored_spec h1 k d v h2 : refused (vlog (vstore_of c h1)) k = false ->
    In k (map rkey (retained (vlog (vstore_of c (h1 ++ VPut k d v :: h2))))) ->
    find_key k (retained (vlog (vstore_of c (h1 ++ VPut k d v :: h2)))) = Some (mkR k d 0) /\
    payload k (vpay (vstore_of c (h1 ++ VPut k d v :: h2))) = v.
  Proof.
    intros Rf. unfold vstore_of. rewrite fold_left_app. cbn [fold_left]. fold (vstore_of c h1). intros Hr.
    assert (U0 : upto emptyVS) by (split; [exact I|intros k0 []]).
    pose proof (run_upto h1 _ U0) as U1. fold (vstore_of c h1) in U1. pose proof (step_upto _ (VPut k d v) U1) as U2.
    assert (T2 : there k d v (step (vstore_of c h1) (VPut k d v))).
    { cbn [vspec_step]. rewrite Rf. split; cbn [vlog vpay].
      - rewrite log_put_accepted. apply in_or_app. right. now left.
      - destruct U1 as [A1 A2]. pose proof (not_refused _ _ A1 Rf) as Lt.
        destruct v as [b|]; [unfold payload; cbn [find fst]; now rewrite Z.eqb_refl|].
        apply payload_out. intros Hi. apply A2 in Hi. apply in_map_iff in Hi as (x & X1 & X2). specialize (Lt x X2). lia. }
    pose proof (run_upto h2 _ U2) as [A3 _]. destruct (run_there k d v h2 _ U2 T2) as [T3 T4]. split; [|exact T4].
    set (V := fold_left step h2 _) in *.
    assert (Ra : ascending (retained (vlog V))).
    { unfold accepted in A3. unfold retained.
      assert (E : concat (pages (vlog V)) = concat (firstn (Z.to_nat (lo (vlog V))) (pages (vlog V))) ++ concat (livePages (vlog V))).
      { unfold livePages. rewrite <- concat_app, firstn_skipn. auto. }
      rewrite E, <- app_assoc, asc_app in A3. tauto. }
    apply find_key_some; auto. split; [|reflexivity]. apply in_map_iff in Hr as (x & X1 & X2).
    rewrite <- (asc_key_inj _ x (mkR k d 0) A3); auto. now apply retained_accepted.
  Qed.
End Stored.

Section Reached.
  Variables (c : cfg) (KB PB VB : Z).
  Notation N := (maxRec c).
  Notation D := (numData c).
  Notation B := (eraseSize c).
  Notation P := (pageSize c).
  Notation NV := (numVar c).

  Theorem var_run_ok h k s0 : vscenario c KB PB VB h -> embedDBInit c k [] = Ok (s0, 0) -> vcalm c s0 h ->
    exists s xs, vrun c s0 h = Ok (s, xs) /\ vouts_ok c emptyVS h xs.
  Proof.
    intros [G V HR Ho Hl Hc] E Cm. pose proof (zlen_nonneg h) as Zh.
    destruct (fresh_VInv c KB PB VB G V k s0 HR ltac:(lia) E) as [Y Co].
    destruct (fresh_var c k s0 (vs_use _ _ V) HR (vs_rlc _ _ V) E) as (_ & _ & _ & _ & _ & e6 & _).
    pose proof (vP c KB PB G). rewrite (vHdr c KB PB G) in e6.
    destruct (vrun_calm c KB PB VB G V 0 0 0 ltac:(lia) ltac:(split; [lia|apply Z.mod_0_l; pose proof (area_u32 c KB PB VB G V); lia]) 0 h s0 emptyLog [] [] 0 _ Y Co Ho Cm) as (s & xs & L & X & VP & lv & o & E1 & _ & _ & _ & Ox & _).
    { change (zlen (pages emptyLog)) with 0. lia. }
    { lia. }
    eauto.
  Qed.

  Lemma reached_VInv h k s : vscenario c KB PB VB h -> vreached c k h s ->
    exists L VR VP lv o, VInv c KB PB 0 0 0 0 notorn s L VR VP lv o (map rkey (accepted L)) /\ coh c s L /\ store_is L VR = vstore_of c h /\
      curVarLoc (sv s) <= keySize c + 4 + vcosts c h /\ zlen (pages L) <= zlen h /\
      (all_data c emptyVS h -> VD c L VR VP (vwbuf (sv s)) o).
  Proof.
    intros [G V HR Ho Hl Hc] (s0 & xs & E & Cm & Er). pose proof (zlen_nonneg h) as Zh.
    destruct (fresh_VInv c KB PB VB G V k s0 HR ltac:(lia) E) as [Y Co].
    destruct (fresh_var c k s0 (vs_use _ _ V) HR (vs_rlc _ _ V) E) as (_ & _ & _ & _ & _ & e6 & _).
    pose proof (vP c KB PB G). rewrite (vHdr c KB PB G) in e6.
    destruct (vrun_calm c KB PB VB G V 0 0 0 ltac:(lia) ltac:(split; [lia|apply Z.mod_0_l; pose proof (area_u32 c KB PB VB G V); lia]) 0 h s0 emptyLog [] [] 0 _ Y Co Ho Cm) as (s1 & xs1 & L & X & VP & lv & o & E1 & Y1 & Co1 & St & _ & Zp & Cu & Hvd).
    { change (zlen (pages emptyLog)) with 0. lia. }
    { lia. }
    rewrite E1 in Er. injection Er as -> _. rewrite app_nil_r in *. exists L, X, VP, lv, o.
    split; [auto|]. split; [auto|]. split; [exact St|]. split; [lia|]. change (zlen (pages emptyLog)) with 0 in Zp. split; [lia|].
    intros Ad. apply Hvd; [exact Ad|]. split; [intros v k0 a Hv []|]. right. auto.
  Qed.

  (** Where the payload of a record stored in a known state starts. *)
  Lemma stored_addr h dk s k d b h1 h2 s1 : vscenario c KB PB VB h -> vreached c dk h s ->
    h = h1 ++ VPut k d (Some b) :: h2 -> vreached c dk h1 s1 -> refused (vlog (vstore_of c h1)) k = false ->
    exists L VR VP lv o, VInv c KB PB 0 0 0 0 notorn s L VR VP lv o (map rkey (accepted L)) /\ coh c s L /\ store_is L VR = vstore_of c h /\
      curVarLoc (sv s) <= keySize c + 4 + vcosts c h /\ (all_data c emptyVS h -> VD c L VR VP (vwbuf (sv s)) o) /\
      (forall a bs, In (k, (a, bs)) VR -> nextV (sv s1) <= a / P <= nextV (sv s1) + 1) /\ exists a, In (k, (a, b)) VR.
  Proof.
    intros Sc Re Eh Re1 Rf.
    pose proof Sc as [G V HR Ho Hl Hc]. subst h. destruct (vhist_app _ _ _ _ _ Ho) as [Ho1 Ho2].
    rewrite vcosts_app in Hc. rewrite zlen_app, zlen_cons in Hl. pose proof (zlen_nonneg h1). pose proof (zlen_nonneg h2).
    pose proof (vcosts_nonneg c KB PB G (VPut k d (Some b) :: h2)) as Cn. pose proof (vcosts_nonneg c KB PB G h1) as Cn1.
    pose proof (vP c KB PB G) as Pd.
    assert (Sc1 : vscenario c KB PB VB h1) by (constructor; auto; lia).
    assert (Hz0 : 0 <= 0 /\ 0 mod (NV * P) = 0) by (split; [lia|apply Z.mod_0_l; pose proof (area_u32 c KB PB VB G V); lia]).
    destruct (reached_VInv h1 dk s1 Sc1 Re1) as (L1 & VR1 & VP1 & lv1 & o1 & Y1 & Co1 & St1 & Cu1 & Zp1 & Hd1).
    destruct Re as (s0 & xs & E & Cm & Er). destruct Re1 as (s0' & xs1 & E' & _ & Er1). rewrite E in E'. injection E' as <-.
    pose proof (vcalm_app _ _ _ _ _ _ Cm Er1) as Cm2. rewrite vrun_app, Er1 in Er. cbn [bind] in Er.
    change (fold_left (vspec_step N D B) h1 emptyVS) with (vstore_of c h1) in Ho2. rewrite <- St1 in Ho2. destruct Ho2 as [Hop Ho2].
    change (vcosts c (VPut k d (Some b) :: h2)) with (vcost c (VPut k d (Some b)) + vcosts c h2) in *.
    pose proof (vcosts_nonneg c KB PB G h2) as Cn2.
    destruct (vstep_calm c KB PB VB G V 0 0 0 ltac:(lia) Hz0 0 s1 L1 VR1 VP1 lv1 o1 _ (VPut k d (Some b)) h2 Y1 Co1 (new_of c KB PB 0 0 0 0 s1 L1 VR1 VP1 lv1 o1 _ Y1) Hop Cm2 ltac:(lia) ltac:(lia)) as
      (s2 & x & L2 & X2 & VP2 & lv2 & o2 & E2 & Y2 & Co2 & St2 & _ & Cm3 & Zp2 & Cu2 & _ & Ent & Hd2 & _).
    rewrite (acc_of c L1 VR1 _ L2 (X2 ++ VR1) St2) in Y2. rewrite <- St2 in Ho2.
    destruct (Ent k d b eq_refl) as (a & EX & Ha).
    { rewrite <- St1 in Rf. exact Rf. }
    destruct (vrun_calm c KB PB VB G V 0 0 0 ltac:(lia) Hz0 0 h2 s2 L2 (X2 ++ VR1) VP2 lv2 o2 Y2 Co2 Ho2 Cm3 ltac:(lia) ltac:(lia)) as
      (s3 & xs3 & L3 & X3 & VP3 & lv3 & o3 & E3 & Y3 & Co3 & St3 & _ & _ & Cu3 & Hd3).
    cbn [vrun] in Er. rewrite E2 in Er. cbn [bind] in Er. rewrite E3 in Er. cbn [bind] in Er. injection Er as -> _.
    assert (I2 : In (k, (a, b)) (X3 ++ X2 ++ VR1)).
    { subst X2. apply in_or_app. right. now left. }
    exists L3, (X3 ++ X2 ++ VR1), VP3, lv3, o3. split; [auto|]. split; [auto|]. split.
    { rewrite St3. unfold vstore_of. rewrite fold_left_app. cbn [fold_left].
      change (fold_left (vspec_step N D B) h1 emptyVS) with (vstore_of c h1). rewrite <- St1. f_equal. exact St2. }
    split; [rewrite vcosts_app; cbn [vcosts fold_right]; fold (vcosts c h2); lia|]. split.
    { intros Ad. assert (Ad' : all_data c emptyVS h1 /\ all_data c (vstore_of c h1) (VPut k d (Some b) :: h2)).
      { clear - Ad. unfold vstore_of. revert Ad. generalize emptyVS. induction h1 as [|op h1 IH]; intros S; cbn [app all_data fold_left]; [auto|].
        intros [F1 F2]. destruct (IH _ F2). auto. }
      destruct Ad' as [A1 [A2 A3]]. apply Hd3; [rewrite St2; rewrite <- St1 in A3; exact A3|].
      apply Hd2; [rewrite <- St1 in A2; exact A2|]. auto. }
    split; [|exists a; exact I2].
    intros a' bs' Hi.
    assert (Ea : a' = a).
    { pose proof (y_nodup _ _ _ _ _ _ _ _ _ _ _ _ _ _ _ Y3) as Nd. pose proof (nodup_fun _ k _ _ Nd Hi I2) as Eq. now injection Eq. }
    subst a'. assert (zlen VP1 <= a / P) by (apply Z.div_le_lower_bound; lia).
    pose proof (y_A _ _ _ _ _ _ _ _ _ _ _ _ _ _ _ Y1) as A1. pose proof (x_next _ _ _ _ (a_S _ _ _ _ _ _ _ _ _ _ A1)).
    pose proof (a_cur _ _ _ _ _ _ _ _ _ _ A1) as [Hc1 _]. pose proof (a_o _ _ _ _ _ _ _ _ _ _ A1) as Ho3.
    assert (a / P < zlen VP1 + 2) by (apply Z.div_lt_upper_bound; lia). lia.
  Qed.

  (** Where an intact payload lies. *)
  Lemma intact_addr h dk s k : vscenario c KB PB VB h -> vreached c dk h s -> var_intact c VB dk h s k ->
    exists L VR VP lv o, VInv c KB PB 0 0 0 0 notorn s L VR VP lv o (map rkey (accepted L)) /\ coh c s L /\ store_is L VR = vstore_of c h /\
      curVarLoc (sv s) <= keySize c + 4 + vcosts c h /\
      (forall a bs, In (k, (a, bs)) VR -> zlen VP + 1 - a / P <= NV - B \/ VB <= NV * P).
  Proof.
    intros Sc Re Hint. destruct (reached_VInv h dk s Sc Re) as (L & VR & VP & lv & o & Y & Co & St & Cu & _ & Hd).
    destruct Hint as [Fit|(h1 & d & b & h2 & s1 & Eh & Re1 & Rf & Cap)].
    { exists L, VR, VP, lv, o. auto 10. }
    destruct (stored_addr h dk s k d b h1 h2 s1 Sc Re Eh Re1 Rf) as (L3 & VR3 & VP3 & lv3 & o3 & Y3 & Co3 & St3 & Cu3 & _ & Ha & _).
    exists L3, VR3, VP3, lv3, o3. repeat (split; [solve [auto]|]). intros a bs Hi. specialize (Ha a bs Hi). left.
    pose proof (x_next _ _ _ _ (a_S _ _ _ _ _ _ _ _ _ _ (y_A _ _ _ _ _ _ _ _ _ _ _ _ _ _ _ Y3))). lia.
  Qed.

  Theorem var_lookup h dk s k ns : vscenario c KB PB VB h -> vreached c dk h s -> 0 <= k < KB ->
    var_clean c s -> lookup_inside c s k ns ->
    (useBinary c = true -> In k (map rkey (accepted (vlog (vstore_of c h)))) ->
       In k (map rkey (retained (vlog (vstore_of c h))))) ->
    (payload k (vpay (vstore_of c h)) <> None -> var_intact c VB dk h s k) ->
    exists s', getvar_read c s k ns = Ok (s', vlookup (vstore_of c h) k ns).
  Proof.
    intros Sc Re Hk Hcl Hin Hbin Hint. pose proof Sc as [G V HR Ho Hl Hc]. pose proof (vP c KB PB G) as Pd.
    assert (Q : exists L VR VP lv o, VInv c KB PB 0 0 0 0 notorn s L VR VP lv o (map rkey (accepted L)) /\ coh c s L /\ store_is L VR = vstore_of c h /\
      curVarLoc (sv s) <= keySize c + 4 + vcosts c h /\
      (forall a bs, In (k, (a, bs)) VR -> zlen VP + 1 - a / P <= NV - B \/ VB <= NV * P)).
    { destruct (payload k (vpay (vstore_of c h))) as [bs0|] eqn:Ep.
      - apply (intact_addr h dk s k Sc Re). apply Hint. discriminate.
      - destruct (reached_VInv h dk s Sc Re) as (L & VR & VP & lv & o & Y & Co & St & Cu & _). exists L, VR, VP, lv, o.
        repeat (split; [solve [auto]|]). intros a bs Hi. exfalso. rewrite <- St in Ep. unfold store_is in Ep. cbn [vpay] in Ep.
        rewrite (pay_in VR k a bs (y_nodup _ _ _ _ _ _ _ _ _ _ _ _ _ _ _ Y) Hi) in Ep. discriminate. }
    destruct Q as (L & VR & VP & lv & o & Y & Co & St & Cu & Hs). rewrite <- St in *. unfold store_is in *. cbn [vlog] in Hbin.
    assert (Hz0 : 0 <= 0 /\ 0 mod (NV * P) = 0) by (split; [lia|apply Z.mod_0_l; pose proof (area_u32 c KB PB VB G V); lia]).
    apply (lookup_ok c KB PB 0 VB G V 0 0 0 notorn ltac:(lia) Hz0 notorn_dec s L VR VP lv o (map rkey (accepted L)) k ns); auto; [apply Hcl|lia|lia| |].
    2:{ intros a bs Hi. specialize (Hs a bs Hi). lia. }
    rewrite bare_accepted, bare_retained, !bare_keys in Hbin. exact Hbin.
  Qed.

  (** When every put carries data, a payload is delivered in full or reported as
      overwritten, and it is reported once it is overwritten. *)
  Theorem var_report h1 k d b h2 dk s1 s ns : let h := h1 ++ VPut k d (Some b) :: h2 in
    vscenario c KB PB VB h -> vreached c dk h1 s1 -> vreached c dk h s -> 0 <= k < KB ->
    var_clean c s -> lookup_inside c s k ns -> all_data c emptyVS h ->
    (forall r, In r (accepted (vlog (vstore_of c h))) -> rkey r + 1 < KB) ->
    refused (vlog (vstore_of c h1)) k = false -> In k (map rkey (retained (vlog (vstore_of c h)))) ->
    exists s' x, getvar_read c s k ns = Ok (s', x) /\
      (x = OVGetVar 0 (Some d) (Some (pieces b ns)) \/ x = OVGetVar 1 (Some d) None) /\
      (nextV (sv s1) + 1 + numVar c < nextV (sv s) -> x = OVGetVar 1 (Some d) None).
  Proof.
    intros h Sc Re1 Re Hk Hcl Hin Had Hlt Rf Hret. pose proof Sc as [G V HR Ho Hl Hc]. pose proof (vP c KB PB G) as Pd.
    destruct (stored_addr h dk s k d b h1 h2 s1 Sc Re eq_refl Re1 Rf) as (L & VR & VP & lv & o & Y & Co & St & Cu & Hd & Ha & a & Hi).
    pose proof (y_inv _ _ _ _ _ _ _ _ _ _ _ _ _ _ _ Y) as I. pose proof (wf_of c KB PB 0 s L I) as W.
    pose proof (retained_asc c KB L W) as Ra.
    destruct (stored_spec c h1 k d (Some b) h2 Rf Hret) as [F1 F2]. fold h in F1, F2. rewrite <- St in Hret, Hlt, F1, F2.
    unfold store_is in Hret, Hlt, F1, F2. cbn [vlog vpay] in Hret, Hlt, F1, F2. rewrite bare_retained, bare_keys in Hret.
    rewrite bare_retained, find_bare in F1. rewrite bare_accepted in Hlt.
    assert (Hlt' : forall x, In x (map rkey (accepted L)) -> x + 1 < KB).
    { intros x Hx. apply in_map_iff in Hx as (r & <- & Hr). specialize (Hlt (bare r) (in_map bare _ _ Hr)). exact Hlt. }
    assert (Hz0 : 0 <= 0 /\ 0 mod (NV * P) = 0) by (split; [lia|apply Z.mod_0_l; pose proof (area_u32 c KB PB VB G V); lia]).
    destruct (lookup_any c KB PB 0 VB G V 0 0 0 notorn ltac:(lia) Hz0 notorn_dec s L VR VP lv o _ k ns Y Co Hk (proj1 Hcl) (fun _ => Hcl) Hin ltac:(lia) ltac:(lia) (fun _ _ => Hret)) as (lv2 & Z2 & _ & T2 & T3).
    destruct (find_key k (retained L)) as [r|] eqn:Fr; [|discriminate]. cbn [option_map] in F1.
    assert (Ed : rdata r = d) by (injection F1; auto).
    destruct (Z.lt_ge_cases (a / P) lv2) as [Lt|Ge].
    - destruct (T3 (Hd Had) Hlt' r a b eq_refl Hi Lt) as (s' & E). rewrite Ed in E. exists s'. eexists. split; [exact E|]. auto.
    - destruct (T2 (notorn_no _)) as (s' & E).
      { intros a1 b1 Hi1. pose proof (nodup_fun _ k _ _ (y_nodup _ _ _ _ _ _ _ _ _ _ _ _ _ _ _ Y) Hi Hi1) as Eq. injection Eq as <- <-. lia. }
      exists s'. eexists. split; [exact E|]. unfold vlookup. cbn [vlog vpay]. rewrite bare_retained, find_bare, Fr, F2.
      cbn [option_map bare rdata]. rewrite Ed. split; [auto|]. intros Far. exfalso. specialize (Ha a b Hi).
      pose proof (x_next _ _ _ _ (a_S _ _ _ _ _ _ _ _ _ _ (y_A _ _ _ _ _ _ _ _ _ _ _ _ _ _ _ Y))) as Nx. lia.
  Qed.
End Reached.

(** The pieces of a payload are consecutive, cover it, and then nothing comes. *)
Lemma pieces_concat b ns : Forall (fun n => 0 <= n) ns ->
  concat (pieces b ns) = firstn (Z.to_nat (fold_right Z.add 0 ns)) b.
Proof.
  revert b. induction ns as [|n ns IH]; intros b Hn; cbn [pieces concat fold_right]; [reflexivity|].
  rewrite IH by (inversion Hn; auto). pose proof (Forall_inv Hn) as H0. cbn beta in H0.
  assert (0 <= fold_right Z.add 0 ns).
  { apply Forall_inv_tail in Hn. clear - Hn. induction Hn; cbn [fold_right]; lia. }
  rewrite Z2Nat.inj_add by lia. generalize (Z.to_nat (fold_right Z.add 0 ns)). intros m.
  set (q := Z.to_nat n). clearbody q.
  transitivity (firstn (q + m) (firstn q b ++ skipn q b)); [|now rewrite firstn_skipn].
  rewrite firstn_app, firstn_firstn, firstn_length. replace (Nat.min (q + m) q) with q by lia.
  destruct (Nat.le_gt_cases (length b) q) as [Le|Gt].
  - rewrite skipn_all2 by auto. now rewrite !firstn_nil.
  - replace (q + m - Nat.min q (length b))%nat with m by lia. reflexivity.
Qed.

(** ** The property theorems *)
Lemma pieces_bounded b ns : Forall (fun n => 0 <= n) ns -> Forall2 (fun x n => zlen x <= n) (pieces b ns) ns.
Proof.
  intros H. revert b. induction H as [|n ns Hn _ IH]; intros b; cbn [pieces]; constructor; auto.
  unfold zlen. rewrite firstn_length. lia.
Qed.

Section Thms.
  Variables (KB PB VB : Z) (c : cfg) (dk : disk).

  Lemma key_range h1 k d v h2 : vscenario c KB PB VB (h1 ++ VPut k d v :: h2) -> 0 <= k < KB.
  Proof.
    intros [_ _ _ Ho _ _]. apply vhist_app in Ho as [_ Ho]. cbn [vhist_ok vop_ok] in Ho. tauto.
  Qed.

  Lemma c15_stored h1 k d v h2 s ns : let h := h1 ++ VPut k d v :: h2 in
    vscenario c KB PB VB h -> vreached c dk h s -> var_clean c s -> lookup_inside c s k ns ->
    refused (vlog (vstore_of c h1)) k = false -> In k (map rkey (retained (vlog (vstore_of c h)))) ->
    (v <> None -> var_intact c VB dk h s k) ->
    exists s', getvar_read c s k ns = Ok (s', OVGetVar 0 (Some d) (option_map (fun b => pieces b ns) v)).
  Proof.
    intros h Sc Re Cl In' Rf Hr Hi. destruct (stored_spec c h1 k d v h2 Rf Hr) as [F1 F2]. fold h in F1, F2.
    destruct (var_lookup c KB PB VB h dk s k ns Sc Re (key_range _ _ _ _ _ Sc) Cl In' (fun _ _ => Hr)) as (s' & E).
    { rewrite F2. auto. }
    exists s'. rewrite E. unfold vlookup. rewrite F1, F2. reflexivity.
  Qed.

  Lemma c17_reads h1 k d b h2 s ns : let h := h1 ++ VPut k d (Some b) :: h2 in
    vscenario c KB PB VB h -> vreached c dk h s -> var_clean c s -> lookup_inside c s k ns ->
    refused (vlog (vstore_of c h1)) k = false -> In k (map rkey (retained (vlog (vstore_of c h)))) ->
    var_intact c VB dk h s k -> Forall (fun n => 0 <= n) ns ->
    exists s' xs, getvar_read c s k ns = Ok (s', OVGetVar 0 (Some d) (Some xs)) /\
      Forall2 (fun x n => zlen x <= n) xs ns /\
      concat xs = firstn (Z.to_nat (fold_right Z.add 0 ns)) b /\
      (zlen b <= fold_right Z.add 0 ns -> concat xs = b).
  Proof.
    intros h Sc Re Cl In' Rf Hr Hi Hn. destruct (c15_stored h1 k d (Some b) h2 s ns Sc Re Cl In' Rf Hr (fun _ => Hi)) as (s' & E).
    exists s', (pieces b ns). split; [exact E|]. split; [now apply pieces_bounded|]. split; [now apply pieces_concat|].
    intros Hb. rewrite pieces_concat by auto. apply firstn_all2. unfold zlen in Hb. lia.
  Qed.

  Lemma c16_report h1 k d b h2 s1 s ns : let h := h1 ++ VPut k d (Some b) :: h2 in
    vscenario c KB PB VB h -> vreached c dk h1 s1 -> vreached c dk h s ->
    var_clean c s -> lookup_inside c s k ns -> all_data c emptyVS h ->
    (forall r, In r (accepted (vlog (vstore_of c h))) -> rkey r + 1 < KB) ->
    refused (vlog (vstore_of c h1)) k = false -> In k (map rkey (retained (vlog (vstore_of c h)))) ->
    exists s' x, getvar_read c s k ns = Ok (s', x) /\
      (x = OVGetVar 0 (Some d) (Some (pieces b ns)) \/ x = OVGetVar 1 (Some d) None) /\
      (nextV (sv s1) + 1 + numVar c < nextV (sv s) -> x = OVGetVar 1 (Some d) None) /\
      (var_intact c VB dk h s k -> x = OVGetVar 0 (Some d) (Some (pieces b ns))).
  Proof.
    intros h Sc Re1 Re Cl In' Ad Hlt Rf Hr.
    destruct (var_report c KB PB VB h1 k d b h2 dk s1 s ns Sc Re1 Re (key_range _ _ _ _ _ Sc) Cl In' Ad Hlt Rf Hr) as (s' & x & E & A1 & A2).
    exists s', x. split; [exact E|]. split; [exact A1|]. split; [exact A2|]. intros Hi.
    destruct (c15_stored h1 k d (Some b) h2 s ns Sc Re Cl In' Rf Hr (fun _ => Hi)) as (s2 & E2). fold h in E. rewrite E in E2. injection E2 as _ ->. reflexivity.
  Qed.
End Thms.

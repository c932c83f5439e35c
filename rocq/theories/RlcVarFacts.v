(** Record-level consistency together with variable data: one operation, and
    opening storage. *)
From Verif Require Import Base BaseFacts Config Spline Storage DB VarData Recovery Spec SpecSpline SplineFacts
  SpecPage SpecStore SpecIter Run SpecRun SpecReopen SpecVar SpecRlc SpecRlcVar LogFacts PageFacts SearchFacts StoreFacts PutFacts
  GetFacts BinFacts RunFacts RecoverFacts ReopenThms RlcFacts RlcOps RlcRecFacts RlcThms SpecFlash FlashFacts
  TapeFacts VarFacts VarPutFacts VarReadFacts ImageFacts VarRunFacts VarGetFacts VarRecFacts.
Open Scope Z_scope.
Ltac Zify.zify_post_hook ::= ZifyBool.elim_bool_cstr.
Ltac Zify.zify_convert_to_euclidean_division_equations_flag ::= constr:(false).

Lemma writePage_sv c s t q : writePage c s = Ok (t, q) -> sv t = sv s.
Proof.
  unfold writePage. cbv zeta. intros H. destruct (set_pid _ _) as [w| |]; cbn [bind] in H; try discriminate H.
  match type of H with bind ?x _ = _ => destruct x as [[s1 ok]| |] eqn:E1; cbn [bind] in H; try discriminate H end.
  assert (S1 : sv s1 = sv s).
  { cbn [set_d sio sd d_wbuf d_next availD] in E1. destruct (availD (sd s) <=? 0); [|injection E1 as <- <-; reflexivity].
    destruct (io_erase c WD _ _ (sio s)) as [o oke].
    destruct oke; [|now injection E1 as <- <-]. destruct (noClean c); [now injection E1 as <- <-|].
    match type of E1 with match ?x with _ => _ end = _ => destruct x end; [now injection E1 as <- <-|discriminate E1]. }
  destruct ok; cbn [negb] in H; [|injection H as <- <-; exact S1].
  destruct (io_write c WD _ _ (sio s1)) as [o okw]. rewrite <- S1.
  destruct okw; injection H as <- <-; reflexivity.
Qed.
(** So does a flush, as long as there is no variable data to write. *)
Lemma flush_still c s s' r : useIndex c = false ->
  (forall t t' r', curVarLoc (sv t) = curVarLoc (sv s) -> embedDBFlushVar c t = Ok (t', r') -> sio t' = sio t) ->
  (forall t q, writePage c s = Ok (t, q) -> sv t = sv s) ->
  embedDBFlush c s = Ok (s', r) -> still (sio s) (sio s').
Proof.
  intros HI HV HW H. unfold embedDBFlush in H. rewrite HI in H. destruct (get_count _) as [n| |]; cbn [bind] in H; try discriminate H.
  destruct (n <? 1); [injection H as <- _; apply still_refl|].
  destruct (writePage c s) as [[s1 q]| |] eqn:E1; cbn [bind] in H; try discriminate H.
  pose proof (HW _ _ eq_refl) as Sv. apply writePage_still in E1.
  destruct (q =? NOPAGE); [injection H as <- _; exact E1|].
  destruct (indexPage c s1 q) as [s2| |] eqn:E2; cbn [bind] in H; try discriminate H.
  assert (S2 : sv s2 = sv s1 /\ sio s2 = sio s1).
  { split; [|exact (indexPage_still _ _ _ _ E2)]. unfold indexPage in E2. brk E2; reflexivity. }
  destruct S2 as [V2 I2]. cbn [negb] in H.
  destruct (init_page c) as [b| |]; cbn [bind] in H; try discriminate H.
  assert (K : sio s' = sio s2); [|rewrite K, I2; exact E1].
  destruct (useVar c); [|injection H as <- _; reflexivity].
  match type of H with bind ?x _ = _ => destruct x as [[s3 r3]| |] eqn:E3; cbn [bind] in H; try discriminate H end.
  apply HV in E3; [|cbn [set_d sv]; congruence]. destruct (r3 =? 0); injection H as <- _; exact E3.
Qed.

(** ** Logs *)
Definition keys (L : log) : list Z := map rkey (accepted L).
Lemma rput_accepted N D B L r : accepted (rlc_put N D B L r) = accepted L ++ [r].
Proof.
  unfold rlc_put. cbv zeta. destruct (zlen (cur L) >=? N); unfold accepted; cbn [rlc_seal pages cur].
  - rewrite concat_app. cbn [concat]. now rewrite app_nil_r.
  - now rewrite app_assoc.
Qed.
Lemma rseal_accepted D B L : accepted (rlc_seal D B L) = accepted L.
Proof. unfold accepted, rlc_seal. cbn [pages cur]. rewrite concat_app. cbn [concat]. now rewrite !app_nil_r. Qed.
Lemma rput_pages N D B L r : zlen (pages (rlc_put N D B L r)) <= zlen (pages L) + 1.
Proof. unfold rlc_put. cbv zeta. destruct (zlen (cur L) >=? N); cbn [rlc_seal pages]; rewrite ?zlen_app; change (zlen [cur L]) with 1; lia. Qed.
Lemma rseal_bare D B L : rlc_seal D B (bareL L) = bareL (rlc_seal D B L).
Proof. unfold rlc_seal, bareL. cbn [pages cur lo]. rewrite zlen_map, map_app. reflexivity. Qed.
Lemma rput_bare N D B L k d v : rlc_put N D B (bareL L) (mkR k d 0) = bareL (rlc_put N D B L (mkR k d v)).
Proof.
  unfold rlc_put. cbv zeta. cbn [bareL cur]. rewrite zlen_map. destruct (zlen (cur L) >=? N).
  - change (mkLog (map (map bare) (pages L)) (lo L) (map bare (cur L))) with (bareL L). rewrite rseal_bare. reflexivity.
  - unfold bareL. cbn [pages cur lo]. rewrite map_app. reflexivity.
Qed.
Lemma skip_more {A} (l : list A) n m x : (n <= m)%nat -> In x (skipn m l) -> In x (skipn n l).
Proof.
  revert n m. induction l as [|y l IH]; intros n m H; [now rewrite !skipn_nil|].
  destruct m as [|m]; [assert (n = 0)%nat as -> by lia; auto|]. cbn [skipn]. destruct n as [|n].
  - cbn [skipn]. intros Hx. right. specialize (IH 0%nat m ltac:(lia) Hx). exact IH.
  - cbn [skipn]. apply IH. lia.
Qed.
Lemma retained_accepted L x : In x (retained L) -> In x (accepted L).
Proof.
  unfold retained, livePages, accepted. intros H. apply in_app_or in H as [H|H]; apply in_or_app; [left|auto].
  apply in_concat in H as (p & H1 & H2). apply in_concat. exists p. split; [|auto].
  rewrite <- (firstn_skipn (Z.to_nat (lo L)) (pages L)). apply in_or_app. auto.
Qed.
Lemma rseal_retained D B L x : lo L <= rlc_lo D B (zlen (pages L) + 1) -> In x (retained (rlc_seal D B L)) -> In x (retained L).
Proof.
  intros Hlo. unfold retained, livePages, rlc_seal. cbn [pages lo cur]. rewrite app_nil_r. intros H.
  apply in_concat in H as (p & H1 & H2). apply skip_more with (n := Z.to_nat (lo L)) in H1; [|lia].
  rewrite skipn_app in H1. apply in_app_or in H1 as [H1|H1].
  - apply in_or_app. left. apply in_concat. eauto.
  - assert (In p [cur L]) as [<-|[]].
    { rewrite <- (firstn_skipn (Z.to_nat (lo L) - length (pages L)) [cur L]). apply in_or_app. auto. }
    apply in_or_app. auto.
Qed.
Lemma rput_retained N D B L r x : lo L <= rlc_lo D B (zlen (pages L) + 1) -> In x (retained (rlc_put N D B L r)) -> In x (retained L) \/ x = r.
Proof.
  intros Hlo. unfold rlc_put. cbv zeta. destruct (zlen (cur L) >=? N).
  - intros H. unfold retained, livePages in H. cbn [pages lo cur] in H. apply in_app_or in H as [H|[<-|[]]]; [left|auto].
    apply (rseal_retained D B); [auto|]. unfold retained, livePages. apply in_or_app. auto.
  - unfold retained, livePages. cbn [pages lo cur]. rewrite app_assoc. intros H. apply in_app_or in H as [H|[<-|[]]]; auto.
Qed.

(** The two halves of embedDBPutVar, with record-level consistency. *)
Definition put_rest_rlc (c : cfg) (s : state) (key : Z) (data : list Z) (vd : option (list Z)) : res (state * Z) :=
  match vd with
  | None => embedDBPut c (set_v s (v_has (sv s) false)) key data
  | Some bs =>
      '(s, r) <- embedDBPut c (set_v s (v_has (sv s) true)) key data ;;
      if negb (r =? 0) then Ok (s, r)
      else s <- store_bytes c s key bs ;; '(s, _) <- embedDBFlushVar c s ;; Ok (s, 0)
  end.
Lemma putvar_split_rlc c s key data vd : useVar c = true -> useRLC c = true ->
  embedDBPutVar c s key data vd = (n <- get_count (wbuf (sd s)) ;; s <- pre_write c s n ;; put_rest_rlc c s key data vd).
Proof.
  intros Hu Hr. unfold embedDBPutVar. rewrite Hu. apply bind_ext. intros n. apply bind_ext. intros s1.
  destruct vd as [bs|]; [|reflexivity]. apply bind_ext. intros [s2 r]. destruct (negb (r =? 0)); [reflexivity|].
  unfold store_bytes, minrec_set. rewrite Hr. rewrite bind_assoc. apply bind_ext. intros s3.
  rewrite bind_assoc. apply bind_ext. intros w. cbv zeta. now rewrite bind_assoc.
Qed.

Lemma wdb_area c KB PB VB : wdb c KB PB VB -> var_area c VB.
Proof.
  intros [R ? ? ? ? ? ? ?]. constructor; auto; [apply (rl_rec _ _ _ R)|].
  intros U. rewrite (rl_bin _ _ _ R) in U. discriminate.
Qed.

Section WVar.
  Variables (c : cfg) (KB PB VB : Z).
  Hypothesis W : wdb c KB PB VB.
  Notation P := (pageSize c).
  Notation HD := (keySize c + 4).
  Notation NV := (numVar c).
  Notation N := (maxRec c).
  Notation D := (numData c).
  Notation B := (eraseSize c).
  Let R := wd_rlc _ _ _ _ W.
  Let G := rl_set _ _ _ R.
  Let V := wdb_area _ _ _ _ W.
  Let L0 := L0 c KB PB G.
  Let HP := vPH c KB PB G.

  Section Fix.
  Variables (f kl sl off : Z) (T : Z -> Prop).
  Notation VInv := (VInv c KB PB f kl sl off).
  Notation Inv := (Inv c KB PB f).

  (** Between two operations every payload is on storage. *)
  Lemma all_sealed s L VR VP lv acc k a bs : VInv T s L VR VP lv HD acc -> In (k, (a, bs)) VR ->
    vskip P HD a (4 + length bs) <= zlen VP * P + HD.
  Proof.
    intros Y Hi. destruct (y_laid _ _ _ _ _ _ _ _ _ _ _ _ _ _ _ Y k a bs Hi) as (_ & _ & _ & _ & Sk).
    pose proof (a_cur _ _ _ _ _ _ _ _ _ _ (y_A _ _ _ _ _ _ _ _ _ _ _ _ _ _ _ Y)) as [Hc _]. lia.
  Qed.

  Lemma VInv_data s L VR VP lv acc s' L' acc' b : VInv T s L VR VP lv HD acc -> Inv s' L' ->
    sv s' = v_has (sv s) b -> fV (sio s') = fV (sio s) ->
    (forall r, In r (accepted L') -> In r (accepted L) \/ (rvar r = NOVAR /\ ~ In (rkey r) (map fst VR) /\ ~ T (rkey r))) ->
    incl acc acc' -> incl (keys L') acc' -> (forall x, In x acc' -> 0 <= x < KB) ->
    VInv T s' L' VR VP lv HD acc'.
  Proof.
    intros Y I' Es Ev Hr Hi Hk Hb. pose proof Y as [J1 J2 J3 J4 J5 J6 J7 J8 J9 J10 J11].
    constructor; auto.
    - apply (VA_has c kl sl off _ _ _ _ _ _ b) in J2. destruct J2 as [X1 X2 X3 X4]. constructor; auto.
      + apply (VS_other c (set_v s (v_has (sv s) b))); auto. apply (i_faults _ _ _ _ _ _ _ _ I').
      + rewrite Es. eapply (VH_more c kl sl); [exact X2|auto|]. intros _ x Hx. apply Hb. auto.
      + unfold at_cur in *. rewrite Es. exact X3.
    - rewrite Es. exact J3.
    - intros r H1 H2. destruct (Hr r H1) as [H|(H & H' & _)]; auto.
    - intros k a bs H _. eapply all_sealed; eauto.
    - intros r H1 H2. destruct (Hr r H1) as [H|(_ & _ & H)]; [auto|contradiction].
  Qed.

  (** What storage holds of the variable data. *)
  Lemma stored_w s L VR VP lv acc (T' : Z -> Prop) VR0 VPm Z PD : VInv T s L VR VP lv HD acc -> VP = VPm ++ Z ->
    incl VR0 VR -> NoDup (map fst VR0) ->
    (forall k a bs, In (k, (a, bs)) VR0 -> vskip P HD a (4 + length bs) <= zlen VPm * P + HD) ->
    (forall r, In r (concat PD) -> ~ T' (rkey r) -> (rvar r = NOVAR /\ ~ In (rkey r) (map fst VR0)) \/
       exists a bs, In (rkey r, (a, bs)) VR0 /\ rvar r = a mod (NV * P)) ->
    (forall r, In r (concat PD) -> T' (rkey r) -> rvar r mod P <= P - 4 /\ ~ In (rkey r) (map fst VR0)) ->
    incl (map rkey (concat PD)) acc ->
    VStored c KB T' PD VR0 VPm acc.
  Proof.
    intros [I A La _ _ Ri _ St _ Ky _] -> Hin Nd Se Re To Ic. pose proof (vP c KB PB G) as Pd.
    destruct A as [_ [h1 h2 _ _ _ _ _ _] _ _]. rewrite zlen_app in h1, h2. pose proof (zlen_nonneg Z) as Zn.
    constructor; auto.
    - intros k a bs Hi. destruct (La k a bs (Hin _ Hi)) as (l1 & l2 & l3 & l4 & l5).
      do 3 (split; [auto|]). specialize (Se k a bs Hi). split; [|auto].
      rewrite <- app_assoc, (sealed_reads c KB PB G) in l4; auto. split; lia.
    - intros k Hi. apply Ri. apply in_map_iff in Hi as (e & Ee & Hi). apply in_map_iff. eauto.
    - intros v k a Hv Hi Ha. rewrite <- (vpg_app1 VPm Z) by lia. apply (h1 v k a); [lia| |auto].
      apply where_in in Hi as (bs & Hi). apply where_in. eauto.
    - intros v Hv. rewrite <- (vpg_app1 VPm Z) by lia. apply h2. lia.
  Qed.

  Lemma RI_same s s' L : RI c KB PB f s L -> Inv s' L -> sd s' = sd s -> fD (sio s') = fD (sio s) -> RI c KB PB f s' L.
  Proof. intros [A1 A2 A3] I E1 E2. constructor; auto. now rewrite E1, E2. Qed.
  Lemma RI_stored s L : RI c KB PB f s L -> stored KB c (fD (sio s)) L.
  Proof.
    intros H. split; [apply (RI_img c KB PB f); auto|].
    split; [exact (i_wf _ _ _ _ _ _ _ _ (ri_inv _ _ _ _ _ _ H))|exact (ri_lo _ _ _ _ _ _ H)].
  Qed.

  Hypothesis Hsl : 0 <= sl <= 1.
  Hypothesis Hoff : 0 <= off /\ off mod (NV * P) = 0.
  Let offp := off_page c KB PB VB G V off Hoff.

  Lemma page_of_loc a : a mod (NV * P) mod P = a mod P.
  Proof.
    pose proof (vP c KB PB G). pose proof (vB c KB PB VB G V). symmetry. apply Znumtheory.Zmod_div_mod; try lia; [nia|].
    exists NV. reflexivity.
  Qed.
  Lemma P_HD : HD <= P - 4.
  Proof. pose proof (vP c KB PB G). pose proof (l_ks c L0). pose proof (l_ds c L0). pose proof (l_init c L0). lia. Qed.

  Lemma wput s L VR VP lv key data v :
    (forall k, T k -> In k (keys L)) ->
    VInv T s L VR VP lv HD (keys L) -> RI c KB PB f s L -> coh c s L ->
    0 <= key < KB -> length data = dsz c -> (forall x, In x (keys L) -> x < key) ->
    zlen (pages L) + 1 + maxErr c < PB -> zlen VP * P + HD + P + bytes_cost v < VB ->
    (zlen (cur L) >= N -> zlen (pages L) mod D <> bufD (sd s)) ->
    exists s' w VP' lv' new, let L' := rlc_put N D B L (mkR key data w) in
      embedDBPutVar c s key data v = Ok (s', 0) /\
      VInv T s' L' (new_entry key (zlen VP * P + HD) v ++ VR) VP' lv' HD (keys L') /\
      RI c KB PB f s' L' /\ coh c s' L' /\ (exists X, VP' = VP ++ X) /\
      zlen VP' * P <= zlen VP * P + P + bytes_cost v /\
      (forall u, zlen VP <= u < zlen VP' -> hkey c (vpg VP' u) = key) /\ (v = None -> VP' = VP) /\
      (v <> None -> w mod P <= P - 4) /\
      trace (sio s') = new ++ trace (sio s) /\
      forall im, In im new ->
        (exists Lb, (Lb = L /\ zlen (cur L) < N \/ Lb = rlc_seal D B L /\ zlen (cur L) >= N) /\
           stored KB c (fst (fst im)) Lb /\ snd im = fV (sio s)) \/
        (stored KB c (fst (fst im)) L' /\ exists X Y, VP' = (VP ++ X) ++ Y /\ VDisk c (snd im) (VP ++ X)).
  Proof.
    intros HT Y H Co Hk Hd Hkey Hp Hb Hz. pose proof (vP c KB PB G) as Pd. pose proof (va_VB _ _ V) as HVB.
    pose proof (KB_M c KB PB G) as KM. destruct (area_u32 c KB PB VB G V) as [Au Ap]. pose proof P_HD as PHD.
    pose proof (ri_inv _ _ _ _ _ _ H) as I. pose proof (i_wf _ _ _ _ _ _ _ _ I) as Wf.
    assert (Ha : forall x, In x (accepted L) -> rkey x < key) by (intros x Hx; apply Hkey; unfold keys; now apply in_map).
    assert (Bc : 0 <= bytes_cost v) by (unfold bytes_cost; destruct v as [b|]; [pose proof (zlen_nonneg b); lia|lia]).
    pose proof (y_A _ _ _ _ _ _ _ _ _ _ _ _ _ _ _ Y) as A. pose proof (a_cur _ _ _ _ _ _ _ _ _ _ A) as Hc.
    pose proof (cur_mod c KB PB G off offp s VP HD Hc) as Hm. rewrite (Z.mod_small HD) in Hm by (clear - PHD Pd; lia).
    destruct Hc as [Hc Hc2]. assert (Z0 : 0 <= zlen VP) by apply zlen_nonneg.
    assert (Z0P : zlen VP * 4 <= zlen VP * P) by (apply Z.mul_le_mono_nonneg_l; clear - Z0 Pd; lia).
    assert (Zs : zlen VP + 1 < 2 ^ 32) by (clear - Z0P Z0 Hb HVB Bc Pd PHD; lia).
    set (a := zlen VP * P + HD) in *.
    rewrite (putvar_split_rlc _ _ _ _ _ (wd_use _ _ _ _ W) (rl_rlc _ _ _ R)).
    rewrite (get_count_ok c L0 _ _ (i_w _ _ _ _ _ _ _ _ I)). cbn [bind].
    assert (Pw : pre_write c s (zlen (cur L)) = Ok s).
    { unfold pre_write. rewrite (rl_rlc _ _ _ R), Hm. cbn [negb andb]. destruct (Z.gtb_spec HD (P - 4)); [clear - H0 PHD; lia|reflexivity]. }
    rewrite Pw. cbn [bind]. unfold put_rest_rlc.
    assert (Put : forall b : bool, let w := if b then curVarLoc (sv s) mod (NV * P) else NOVAR in
        let L' := rlc_put N D B L (mkR key data w) in
        exists s3 im rest, embedDBPut c (set_v s (v_has (sv s) b)) key data = Ok (s3, 0) /\
        RI c KB PB f s3 L' /\ sv s3 = v_has (sv s) b /\ fV (sio s3) = fV (sio s) /\ coh c s3 L' /\
        trace (sio s3) = (im :: rest) ++ trace (sio s) /\ fst (fst im) = fD (sio s3) /\ snd im = fV (sio s) /\
        forall im', In im' rest -> exists Lb, (Lb = L /\ zlen (cur L) < N \/ Lb = rlc_seal D B L /\ zlen (cur L) >= N) /\
           stored KB c (fst (fst im')) Lb /\ snd im' = fV (sio s)).
    { intros b w L'. set (sb := set_v s (v_has (sv s) b)).
      assert (Ib : RI c KB PB f sb L).
      { apply (RI_same s); auto. apply (Inv_same c KB PB f s); auto. apply (i_faults _ _ _ _ _ _ _ _ I). }
      assert (Vl : var_loc c sb = w).
      { unfold var_loc. rewrite Au. unfold sb. cbn [set_v sv v_has hasVar curVarLoc]. reflexivity. }
      destruct (put_rlc c KB PB R f sb L key data w Ib Hk Hd Ha Hp Hz) as (s3 & im & rest & E & H3 & e1 & (x1 & x2 & x3 & x4) & e3 & e4 & e5 & e6).
      { intros _. split; [auto|]. unfold w. destruct b; [|unfold NOVAR; clear; lia].
        pose proof (Z.mod_pos_bound (curVarLoc (sv s)) (NV * P) ltac:(clear - Ap; lia)) as Q. clear - Q Ap. lia. }
      destruct (put_still_any c sb key data s3 0 E) as (_ & new2 & T2 & F2). rewrite x4 in T2. apply app_inv_tail in T2. subst new2.
      apply Forall_cons_iff in F2 as [F1 F2].
      exists s3, im, rest. split; [exact E|]. split; [exact H3|]. split; [exact e1|]. split; [exact x3|].
      split; [apply e6; apply (coh_same c s); auto|]. split; [exact x4|]. split; [exact e3|]. split; [exact F1|].
      intros im' Him. rewrite Forall_forall in F2. specialize (F2 im' Him). unfold imgs in e5. rewrite Forall_forall in e5.
      destruct (e5 im' Him) as [i1 i2]. pose proof (i_wf _ _ _ _ _ _ _ _ (ri_inv _ _ _ _ _ _ H3)) as W'.
      unfold rlc_put in i1, i2, W'. cbv zeta in i1, i2, W'. destruct (Z.geb_spec (zlen (cur L)) N) as [Ge|Lt].
      - exists (rlc_seal D B L). split; [right; split; [auto|clear - Ge; lia]|]. split; [|exact F2].
        cbn [rlc_seal pages lo cur] in *. split; [exact i1|]. split; [exact (wf_nocur _ _ _ _ _ W')|].
        unfold rlc_seal. cbn [pages lo]. rewrite zlen_app. reflexivity.
      - exists L. split; [left; auto|]. split; [|exact F2]. cbn [pages] in i1. split; [exact i1|]. split; [auto|].
        exact (ri_lo _ _ _ _ _ _ H). }
    assert (Kn : ~ In key (map fst VR)).
    { intros Hi. specialize (Hkey key (y_in _ _ _ _ _ _ _ _ _ _ _ _ _ _ _ Y key Hi)). clear - Hkey. lia. }
    assert (Tk : ~ T key) by (intros Hi; specialize (Hkey key (HT _ Hi)); clear - Hkey; lia).
    assert (Kacc : forall w, keys (rlc_put N D B L (mkR key data w)) = keys L ++ [key]).
    { intros w. unfold keys. rewrite rput_accepted, map_app. reflexivity. }
    assert (Kr : forall x, In x (keys L ++ [key]) -> 0 <= x < KB).
    { intros x Hx. apply in_app_or in Hx as [Hx|[<-|[]]]; [|clear - Hk; lia]. apply (y_keys _ _ _ _ _ _ _ _ _ _ _ _ _ _ _ Y x Hx). }
    destruct v as [bs|]; cbn [new_entry bytes_cost] in *.
    - (* with data *)
      destruct (Put true) as (s3 & im & rest & E & H3 & q1 & q2 & Co3 & Tn & Ei & Ev & Rs). rewrite E. cbn [bind Z.eqb negb].
      set (w := curVarLoc (sv s) mod (NV * P)) in *. set (L' := rlc_put N D B L (mkR key data w)) in *.
      pose proof (ri_inv _ _ _ _ _ _ H3) as I3.
      assert (A3 : VA c kl sl off s3 VP lv HD (map where_is VR) (keys L)).
      { apply (VA_has c kl sl off _ _ _ _ _ _ true) in A. destruct A as [X1 X2 X3 X4]. constructor; auto.
        - apply (VS_other c (set_v s (v_has (sv s) true))); auto. apply (i_faults _ _ _ _ _ _ _ _ I3).
        - rewrite q1. exact X2.
        - unfold at_cur in *. rewrite q1. exact X3. }
      assert (Ia : inside P HD a) by (apply (inside_addr P HD HP); clear - Z0 PHD Pd; lia).
      assert (Vb : vskip P HD a (4 + length bs) <= a + (4 * zlen bs + 16)).
      { pose proof (vskip_bound P HD HP ltac:(clear - L0; pose proof (l_ks c L0); lia) (4 + length bs) (4 + length bs) (zlen VP) HD ltac:(clear - PHD Pd; lia) ltac:(clear; lia)) as Bo.
        fold a in Bo. rewrite Z.eqb_refl in Bo. unfold zlen in *. clear - Bo. lia. }
      destruct (store_ok c KB PB VB G V kl sl Hsl off offp s3 VP lv HD (map where_is VR) (keys L) (keys L ++ [key]) key bs A3)
        as (s4 & VP4 & lv4 & o4 & El & A4 & Gr4 & Cv4 & Rd4 & Hh4 & Hy4); auto.
      { intros k a0 Hi. apply in_map_iff in Hi as ([k1 [a1 b1]] & He & Hi). cbn in He. injection He as -> ->.
        apply (y_in _ _ _ _ _ _ _ _ _ _ _ _ _ _ _ Y). apply in_map_iff. exists (k, (a0, b1)). auto. }
      { apply incl_appl, incl_refl. }
      { apply in_or_app. right. now left. }
      { clear - Hk KM. lia. }
      { fold a. clear - Vb Hb Pd. lia. }
      fold a in A4, Cv4, Rd4. change (store_bytes c s3 key bs = Ok s4) in El. rewrite El. cbn [bind].
      pose proof (a_cur _ _ _ _ _ _ _ _ _ _ A4) as [Hc4 _]. pose proof (a_o _ _ _ _ _ _ _ _ _ _ A4) as Ho4.
      destruct (flushVar_ok c KB PB VB G V kl sl Hsl off offp s4 VP4 lv4 o4 _ _ A4) as (s5 & VP5 & lv5 & Ef & A5 & Gr5 & Hd5 & Cu5 & Hx5).
      { intros Hq. apply app_eq_nil in Hq as [_ Hq]. discriminate Hq. }
      { intros x Hx. apply (Kr x Hx). }
      { clear - Hc4 Cv4 Vb Hb Ho4 Pd. unfold a in *. lia. }
      rewrite Ef. cbn [bind].
      pose proof (a_cur _ _ _ _ _ _ _ _ _ _ A5) as [Hc5 _].
      pose proof (grows_trans c KB PB G off offp _ _ _ _ _ _ Gr4 Gr5) as Gr.
      destruct (gr_data _ _ _ _ _ _ Gr) as (g1 & g2 & g3 & g4 & g5 & (X5 & EX5) & newq & Tq & Fq).
      assert (I5 : Inv s5 L').
      { apply (Inv_same c KB PB f s3); auto. apply (x_faults _ _ _ _ (a_S _ _ _ _ _ _ _ _ _ _ A5)). }
      exists s5, w, VP5, lv5, (newq ++ im :: rest). cbv zeta. fold L'. split; [reflexivity|].
      split; [|split; [apply (RI_same s3); auto|split; [apply (coh_same c s3); auto|split; [eauto|split; [|split; [|split; [congruence|split; [|split]]]]]]]].
      + pose proof (Kacc w) as Kw. fold L' in Kw. rewrite Kw. destruct Y as [J1 J2 J3 J4 J5 J6 J7 J8 J9 J10 J11].
        assert (Ew : vwbuf (sv s3) = vwbuf (sv s)) by (rewrite q1; reflexivity).
        assert (Ec : curVarLoc (sv s3) = curVarLoc (sv s)) by (rewrite q1; reflexivity).
        assert (La : forall k a0 bs0, In (k, (a0, bs0)) ((key, (a, bs)) :: VR) ->
           0 <= a0 /\ HD <= a0 mod P <= P - 4 /\ zlen bs0 < 2 ^ 32 /\
           vread P HD (VP5 ++ [vwbuf (sv s5)]) a0 (4 + length bs0) = le_enc 4 (zlen bs0) ++ bs0 /\
           vskip P HD a0 (4 + length bs0) <= curVarLoc (sv s5) + off).
        { intros k a0 bs0 [He|Hi].
          - injection He as <- <- <-. split; [apply Ia|].
            split; [unfold a; rewrite (amod P) by (clear - PHD Pd; lia); clear - PHD Pd; lia|].
            destruct (vskip_inside P HD HP (4 + length bs) a Ia) as [_ Sk].
            pose proof (gr_cur _ _ _ _ _ _ Gr5) as Gc.
            split; [unfold zlen in *; pose proof (proj1 Ia) as i1; clear - i1 Sk Vb Hb HVB Pd; unfold a in *; lia|].
            split; [|clear - Cv4 Gc; lia].
            rewrite <- Rd4. symmetry. apply (keeps_vread c KB PB G _ _ _ _ _ (gr_keep _ _ _ _ _ _ Gr5)); [auto|clear - Cv4; lia].
          - destruct (J3 k a0 bs0 Hi) as (j1 & j2 & j3 & j4 & j5). do 3 (split; [solve [auto]|]).
            pose proof (gr_cur _ _ _ _ _ _ Gr) as Gc. split; [|clear - j5 Gc Ec; lia].
            rewrite <- j4, <- Ew. symmetry. apply (keeps_vread c KB PB G _ _ _ _ _ (gr_keep _ _ _ _ _ _ Gr)); [split; clear - j1 j2 Pd; lia|clear - j5 Ec; lia]. }
        constructor.
        * exact I5.
        * exact A5.
        * exact La.
        * cbn [app map fst]. constructor; auto.
        * intros r Hr Tr. unfold L' in Hr. rewrite rput_accepted in Hr. apply in_app_or in Hr as [Hr|[<-|[]]].
          { destruct (J5 r Hr Tr) as [[n1 n2]|(a0 & b0 & n1 & n2)].
            - left. split; [auto|]. cbn [app map fst]. intros [Hq|Hq]; [|auto]. specialize (Ha r Hr). clear - Ha Hq. lia.
            - right. exists a0, b0. split; [now right|auto]. }
          { right. exists a, bs. cbn [rkey rvar]. split; [now left|]. unfold w. rewrite (mod_off c KB PB VB G V off Hoff). f_equal. exact Hc. }
        * cbn [app map fst]. intros k [<-|Hi]; apply in_or_app; [right; now left|left; auto].
        * intros k a0 bs0 Hi _. destruct (La k a0 bs0 Hi) as (_ & _ & _ & _ & Sk). clear - Sk Hc5. lia.
        * auto.
        * change (map rkey (accepted L')) with (keys L'). rewrite Kw. apply incl_refl.
        * exact Kr.
        * intros r Hr Tr. unfold L' in Hr. rewrite rput_accepted in Hr. apply in_app_or in Hr as [Hr|[<-|[]]]; [|contradiction].
          destruct (J11 r Hr Tr) as [t1 t2]. split; [auto|]. cbn [app map fst]. intros [Hq|Hq]; [|auto]. specialize (Ha r Hr). clear - Ha Hq. lia.
      + clear - Hc5 Cu5 Cv4 Vb. unfold a in *. lia.
      + intros u Hu. destruct (Z.eq_dec o4 HD) as [Eo|No].
        * destruct (Hd5 Eo) as [_ EV]. rewrite EV in *. auto.
        * destruct (Hx5 No) as (x & EV & Hxx). rewrite EV in *. rewrite zlen_app in Hu. change (zlen [x]) with 1 in Hu.
          destruct (Z.eq_dec u (zlen VP4)) as [->|Nu]; [rewrite vpg_app2; congruence|]. rewrite vpg_app1 by (clear - Hu Nu Z0; lia).
          apply Hy4. clear - Hu Nu. lia.
      + intros _. unfold w. rewrite page_of_loc, Hm. exact PHD.
      + rewrite Tq, Tn, <- app_assoc. reflexivity.
      + intros im' Him. apply in_app_or in Him as [Him|[<-|Him]].
        * rewrite Forall_forall in Fq. destruct (Fq im' Him) as (F & X & Y0 & -> & Ex & Q). right. cbn [fst snd].
          split; [apply RI_stored; auto|]. eauto.
        * right. rewrite Ei. split; [apply RI_stored; auto|]. exists [], X5. rewrite app_nil_r. split; [auto|]. rewrite Ev.
          apply (VS_disk c s VP lv); auto. apply (a_S _ _ _ _ _ _ _ _ _ _ A).
        * left. auto.
    - (* without data *)
      destruct (Put false) as (s3 & im & rest & E & H3 & q1 & q2 & Co3 & Tn & Ei & Ev & Rs). rewrite E.
      set (L' := rlc_put N D B L (mkR key data NOVAR)) in *.
      exists s3, NOVAR, VP, lv, (im :: rest). cbv zeta. fold L'. split; [reflexivity|].
      split; [|split; [exact H3|split; [exact Co3|split; [exists []; now rewrite app_nil_r|split; [clear - Pd; lia|split; [|split; [auto|split; [congruence|split; [exact Tn|]]]]]]]]].
      + pose proof (Kacc NOVAR) as Kw. fold L' in Kw. cbn [app]. rewrite Kw. apply (VInv_data s L VR VP lv (keys L) s3 L' (keys L ++ [key]) false); auto.
        * apply (ri_inv _ _ _ _ _ _ H3).
        * intros r Hr. unfold L' in Hr. rewrite rput_accepted in Hr. apply in_app_or in Hr as [Hr|[<-|[]]]; [auto|right]. cbn [rkey rvar]. auto.
        * apply incl_appl, incl_refl.
        * rewrite Kw. apply incl_refl.
      + intros u Hu. clear - Hu. lia.
      + intros im' [<-|Him]; [right|left; auto]. rewrite Ei. split; [apply RI_stored; auto|]. exists [], []. rewrite !app_nil_r.
        split; [auto|]. rewrite Ev. apply (VS_disk c s VP lv); auto. apply (a_S _ _ _ _ _ _ _ _ _ _ A).
  Qed.

  Lemma wflush s L VR VP lv : VInv T s L VR VP lv HD (keys L) -> RI c KB PB f s L -> coh c s L -> cur L <> [] ->
    zlen (pages L) + 1 + maxErr c < PB -> zlen (pages L) mod D <> bufD (sd s) -> (zlen (pages L) + 1) mod B <> 0 ->
    let L' := rlc_seal D B L in
    exists s' im, embedDBFlush c s = Ok (s', 0) /\ VInv T s' L' VR VP lv HD (keys L') /\ RI c KB PB f s' L' /\ coh c s' L' /\
      trace (sio s') = [im] ++ trace (sio s) /\ fst (fst im) = fD (sio s') /\ snd im = fV (sio s) /\ fV (sio s') = fV (sio s).
  Proof.
    intros Y H Co Ne Hp Q2 Q1 L'. pose proof (vP c KB PB G) as Pd. pose proof P_HD as PHD.
    pose proof (a_cur _ _ _ _ _ _ _ _ _ _ (y_A _ _ _ _ _ _ _ _ _ _ _ _ _ _ _ Y)) as Hc.
    pose proof (cur_mod c KB PB G off offp s VP HD Hc) as Hm. rewrite (Z.mod_small HD) in Hm by (clear - PHD Pd; lia).
    destruct (flush_rlc c KB PB R f s L H Ne Hp Q2 Q1) as (s' & im & E & H' & e1 & (x1 & x2 & x3 & x4) & e3 & e4 & e6).
    { intros _. rewrite Hm. symmetry. apply (vHdr c KB PB G). }
    fold L' in H', e6.
    destruct (flush_still c s s' 0 (rl_idx _ _ _ R)) as (_ & new & Tn & Fn); auto.
    { intros t t' r' Et. unfold embedDBFlushVar. rewrite Et, Hm, (vHdr c KB PB G), Z.eqb_refl. intros Ef. congruence. }
    { intros t q Ew. exact (writePage_sv _ _ _ _ Ew). }
    rewrite x4 in Tn. apply app_inv_tail in Tn. subst new.
    exists s', im. split; [exact E|]. split.
    - assert (Ek : keys L' = keys L) by (unfold keys, L'; now rewrite rseal_accepted).
      apply (VInv_data s L VR VP lv (keys L) s' L' (keys L') (hasVar (sv s))); auto.
      + apply (ri_inv _ _ _ _ _ _ H').
      + rewrite e1. destruct (sv s). reflexivity.
      + intros r Hr. unfold L' in Hr. rewrite rseal_accepted in Hr. auto.
      + rewrite Ek. apply incl_refl.
      + apply incl_refl.
      + rewrite Ek. apply (y_keys _ _ _ _ _ _ _ _ _ _ _ _ _ _ _ Y).
    - split; [exact H'|]. split; [auto|]. split; [exact x4|]. split; [exact e3|]. split; [apply (Forall_inv Fn)|exact x3].
  Qed.

  Lemma wget s L VR VP lv k : VInv T s L VR VP lv HD (keys L) -> RI c KB PB f s L -> coh c s L -> 0 <= k < KB ->
    exists s' r d, embedDBGet c s k = Ok (s', r, d) /\ VInv T s' L VR VP lv HD (keys L) /\ RI c KB PB f s' L /\ coh c s' L /\
      sio s' = sio s /\ r = (match find_key k (retained L) with Some _ => 0 | None => -1 end) /\
      d = option_map rdata (find_key k (retained L)).
  Proof.
    intros Y H Co Hk.
    destruct (get_var c KB PB f VB G V s L k (ri_inv _ _ _ _ _ _ H) Hk) as (s' & r & dt & E & Sb & I' & oo & Er & Ed & So & Cm).
    destruct (Cm Co) as (Co' & _ & Eo). specialize (Eo (rl_bin _ _ _ R)). subst oo.
    exists s', r, dt. split; [exact E|]. split; [apply (VInv_rbuf c KB PB f kl sl off T s); auto|].
    split; [exact (RI_rbuf c KB PB f s s' L H Sb I')|]. split; [auto|]. split; [apply Sb|]. auto.
  Qed.

  Lemma wgetvar s L VR VP lv k ns : (forall k, T k \/ ~ T k) -> VInv T s L VR VP lv HD (keys L) -> RI c KB PB f s L -> coh c s L -> 0 <= k < KB ->
    Forall (fun n => 0 <= n < 2 ^ 32) ns -> (exists d, searchBuffer c (wbuf (sd s)) k = Ok (-1, d)) ->
    exists s' r d x, getvar_read c s k ns = Ok (s', OVGetVar r d x) /\ VInv T s' L VR VP lv HD (keys L) /\ RI c KB PB f s' L /\ coh c s' L /\
      sio s' = sio s /\ d = option_map rdata (find_key k (retained L)).
  Proof.
    intros TD Y H Co Hk Hns (d0 & Hs). pose proof (ri_inv _ _ _ _ _ _ H) as I. pose proof (i_wf _ _ _ _ _ _ _ _ I) as Wf.
    destruct (buffer_ok c KB PB G L k _ Wf (maxRec127 c VB V) (i_w _ _ _ _ _ _ _ _ I) Hk) as (j & Ej & Rj).
    assert (j = -1) as -> by congruence. change (if negb (-1 =? -1) then 0 else -1) with (-1) in Rj.
    assert (Hc : forall r, In r (cur L) -> rkey r <> k).
    { apply find_key_none. destruct (find_key k (cur L)); [discriminate Rj|reflexivity]. }
    destruct (getvar_page c KB PB f VB G V kl sl off T Hsl Hoff TD s L VR VP lv HD (keys L) k ns Y Hk Hc) as (s1 & r & dt & st & s1' & E & Gt & Y1 & S1 & _).
    destruct Gt as (S & I' & oo & Er & Ed & So & Cm). destruct (Cm Co) as (Co' & _ & Eo). specialize (Eo (rl_bin _ _ _ R)). subst oo.
    assert (Co1 : coh c s1 L).
    { apply (coh_same c s1'); auto. destruct (same_var_sd s1' s1 S1) as [-> _]. auto. }
    assert (H1 : RI c KB PB f s1 L).
    { pose proof (RI_rbuf c KB PB f s s1' L H S I') as Q. pose proof S1 as (F1 & F2 & _). apply (RI_same s1'); auto; [|now rewrite F1].
      apply (y_inv _ _ _ _ _ _ _ _ _ _ _ _ _ _ _ Y1). }
    assert (Fs : sio s1 = sio s) by (destruct S1 as (F1 & _); destruct S as (Fs & _); congruence).
    pose proof (a_S _ _ _ _ _ _ _ _ _ _ (y_A _ _ _ _ _ _ _ _ _ _ _ _ _ _ _ Y1)) as X1.
    unfold getvar_read. rewrite E. cbn [bind]. destruct st as [st|].
    - destruct (reads_safe c KB PB VB G V ns s1 VP lv st X1 Hns) as (s2 & st2 & xs & -> & X2 & S2). cbn [bind].
      pose proof (VInv_cache c KB PB f kl sl off T s1 s2 L VR VP lv HD _ Y1 S2 X2) as Y2.
      do 4 eexists. split; [reflexivity|]. split; [exact Y2|]. pose proof S2 as (F1 & F2 & _).
      split; [apply (RI_same s1); auto; [apply (y_inv _ _ _ _ _ _ _ _ _ _ _ _ _ _ _ Y2)|now rewrite F1]|].
      split; [apply (coh_same c s1); auto|]. split; [congruence|auto].
    - do 4 eexists. split; [reflexivity|]. auto 10.
  Qed.
  End Fix.

  (** ** Operations on the store *)
  Definition wside (L : log) (U : wstore) (VR : list entry) (VP : list page) : Prop :=
    bareL L = wlog U /\ map what_is VR = wpay U /\ (forall v, 0 <= v < zlen VP -> 0 < hkey c (vpg VP v)) /\
    incl (wtorn U) (keys L) /\ (accepted L = [] -> VP = []).
  Notation torn U := (fun k => In k (wtorn U)).
  Definition walive (s : state) (U : wstore) (VR : list entry) (VP : list page) : Prop :=
    exists f kl sl off lv L, 0 <= sl <= 1 /\ (0 <= off /\ off mod (NV * P) = 0) /\
      VInv c KB PB f kl sl off (torn U) s L VR VP lv HD (keys L) /\ RI c KB PB f s L /\ coh c s L /\
      (forall r, In r (retained L) -> kl <= rkey r) /\ (kl <= 0 \/ In kl (keys L)) /\ wside L U VR VP.
  (** Storage from which the store can be recovered. *)
  Definition wstored (F FV : file) (U : wstore) (VR : list entry) (VP : list page) : Prop :=
    exists L, stored KB c F L /\ VDisk c FV VP /\ VStored c KB (torn U) (pages L ++ [cur L]) VR VP (keys L) /\ wside L U VR VP.
  Definition later (VR : list entry) (VP : list page) (VR' : list entry) (VP' : list page) : Prop :=
    (exists X, VP' = VP ++ X) /\ forall k a bs, In (k, (a, bs)) VR' -> In (k, (a, bs)) VR \/ zlen VP <= a / P.
  Lemma later_refl VR VP : later VR VP VR VP.
  Proof. split; [exists []; now rewrite app_nil_r|auto]. Qed.
  Lemma later_trans VR VP VR1 VP1 VR2 VP2 : later VR VP VR1 VP1 -> later VR1 VP1 VR2 VP2 -> later VR VP VR2 VP2.
  Proof.
    intros [(X & ->) A] [(Y & ->) B']. split; [exists (X ++ Y); now rewrite app_assoc|]. intros k a bs Hi.
    destruct (B' k a bs Hi) as [Q|Q]; [auto|]. right. rewrite zlen_app in Q. pose proof (zlen_nonneg X). lia.
  Qed.

  Lemma concat_pages L : concat (pages L ++ [cur L]) = accepted L.
  Proof. rewrite concat_app. cbn [concat]. now rewrite app_nil_r. Qed.
  Lemma stored_same f kl sl off T s L VR VP lv Lb : VInv c KB PB f kl sl off T s L VR VP lv HD (keys L) -> accepted Lb = accepted L ->
    VStored c KB T (pages Lb ++ [cur Lb]) VR VP (keys Lb).
  Proof.
    intros Y E. unfold keys. rewrite E. change (map rkey (accepted L)) with (keys L).
    apply (stored_w f kl sl off T s L VR VP lv (keys L) T VR VP []); auto.
    - now rewrite app_nil_r.
    - apply incl_refl.
    - apply (y_nodup _ _ _ _ _ _ _ _ _ _ _ _ _ _ _ Y).
    - intros k a bs Hi. eapply all_sealed; eauto.
    - rewrite concat_pages, E. apply (y_rec _ _ _ _ _ _ _ _ _ _ _ _ _ _ _ Y).
    - rewrite concat_pages, E. apply (y_torn _ _ _ _ _ _ _ _ _ _ _ _ _ _ _ Y).
    - rewrite concat_pages, E. apply incl_refl.
  Qed.
  Lemma VP_small (VP : list page) : zlen VP * P + P < VB -> zlen VP + 1 < 2 ^ 32.
  Proof.
    intros H. pose proof (vP c KB PB G) as Pd. pose proof (va_VB _ _ V) as HVB. pose proof (zlen_nonneg VP).
    assert (zlen VP * 4 <= zlen VP * P) by (apply Z.mul_le_mono_nonneg_l; lia). lia.
  Qed.
  Lemma alive_wstored s U VR VP : walive s U VR VP -> zlen VP * P + P < VB -> wstored (fD (sio s)) (fV (sio s)) U VR VP.
  Proof.
    intros (f & kl & sl & off & lv & L & Hsl & Hoff & Y & H & Co & K1 & K2 & Sd) Hb. exists L.
    split; [apply (RI_stored f); auto|]. split; [|split; [eapply stored_same; eauto|auto]].
    apply (VS_disk c s VP lv); [|apply VP_small; auto]. apply (a_S _ _ _ _ _ _ _ _ _ _ (y_A _ _ _ _ _ _ _ _ _ _ _ _ _ _ _ Y)).
  Qed.
  Lemma alive_next s U VR VP : walive s U VR VP -> nextV (sv s) = zlen VP.
  Proof.
    intros (f & kl & sl & off & lv & L & _ & _ & Y & _).
    apply (x_next _ _ _ _ (a_S _ _ _ _ _ _ _ _ _ _ (y_A _ _ _ _ _ _ _ _ _ _ _ _ _ _ _ Y))).
  Qed.

  Lemma rlo_S L : lo L = rlc_lo D B (zlen (pages L)) -> lo L <= rlc_lo D B (zlen (pages L) + 1).
  Proof. intros ->. apply (rlo_mono c KB PB R). apply zlen_nonneg. Qed.

  Lemma wstep_ok s U VR VP o : walive s U VR VP -> wop_plain c KB o ->
    (forall k d v, o = VPut k d v -> forall r, In r (accepted (wlog U)) -> rkey r < k) ->
    zlen (pages (wlog U)) + 1 + maxErr c < PB -> zlen VP * P + HD + vcost c o < VB -> wquiet_step c s o ->
    exists s' x VR' VP' new, vstep c s o = Ok (s', x) /\ wout_ok U o x /\ walive s' (wstep N D B U o) VR' VP' /\
      later VR VP VR' VP' /\ zlen VP' * P <= zlen VP * P + vcost c o /\ trace (sio s') = new ++ trace (sio s) /\
      forall im, In im new -> exists U1 VR1 VP1, In U1 (wcrash N D B U o) /\ wstored (fst (fst im)) (snd im) U1 VR1 VP1 /\
        later VR VP VR1 VP1 /\ zlen VP1 * P <= zlen VP * P + vcost c o.
  Proof.
    intros (f & kl & sl & off & lv & L & Hsl & Hoff & Y & H & Co & K1 & K2 & Sd) Ho Ha Hp Hb (Hq & Hq2).
    pose proof Sd as (B1 & B2 & B3 & B4 & B5).
    pose proof (vP c KB PB G) as Pd. pose proof P_HD as PHD.
    pose proof (ri_inv _ _ _ _ _ _ H) as I. pose proof (i_wf _ _ _ _ _ _ _ _ I) as Wf.
    pose proof (i_w _ _ _ _ _ _ _ _ I) as Iw. pose proof (i_nextD _ _ _ _ _ _ _ _ I) as In_.
    assert (Zp : zlen (pages (wlog U)) = zlen (pages L)) by (rewrite <- B1; cbn [bareL pages]; apply zlen_map).
    assert (Zc : zlen (cur (wlog U)) = zlen (cur L)) by (rewrite <- B1; cbn [bareL cur]; apply zlen_map).
    rewrite Zp in Hp. pose proof (ri_lo _ _ _ _ _ _ H) as Hlo.
    assert (Fd : forall k, find_key k (retained (wlog U)) = option_map bare (find_key k (retained L))).
    { intros k. rewrite <- B1, bare_retained. apply find_bare. }
    destruct o as [k d v| |k|k ns]; cbn [wop_plain vstep] in *.
    - destruct Ho as (Hk & Hd & Hv).
      assert (Hkey : forall x, In x (keys L) -> x < k).
      { intros x Hx. apply in_map_iff in Hx as (r & <- & Hr). specialize (Ha k d v eq_refl (bare r)). cbn [bare rkey] in Ha. apply Ha.
        rewrite <- B1, bare_accepted. now apply in_map. }
      assert (Hb' : zlen VP * P + HD + P + bytes_cost v < VB) by (clear - Hb; unfold vcost, bytes_cost in *; destruct v; lia).
      destruct (wput f kl sl off (torn U) Hsl Hoff s L VR VP lv k d v B4 Y H Co Hk Hd Hkey Hp Hb')
        as (s' & w & VP' & lv' & new & E & Y' & H' & Co' & (X & EX) & Zv & Hy & Vn & Wm & Tn & Im).
      { intros Ge. rewrite <- In_. apply Hq. exists (zlen (cur L)). rewrite (get_count_ok c L0 _ _ Iw). split; [auto|]. cbn [as_hop]. clear - Ge. lia. }
      set (L' := rlc_put N D B L (mkR k d w)) in *. set (a := zlen VP * P + HD) in *.
      rewrite E. cbn [bind].
      assert (Ea : a / P = zlen VP) by (unfold a; apply (adiv P HD HP); clear - PHD Pd; lia).
      assert (Lt : later VR VP (new_entry k a v ++ VR) VP').
      { split; [eauto|]. intros k0 a0 b0 Hi. apply in_app_or in Hi as [Hi|Hi]; [right|auto]. destruct v as [b|]; cbn [new_entry] in Hi; [|destruct Hi].
        destruct Hi as [He|[]]. injection He as _ <- _. clear - Ea. lia. }
      assert (Ke : keys L' = keys L ++ [k]) by (unfold keys, L'; rewrite rput_accepted, map_app; reflexivity).
      assert (Vk : v <> None \/ VP' = VP) by (destruct v; [left; congruence|right; auto]).
      assert (Hpos : forall VPm Z, VP' = VPm ++ Z -> forall u, 0 <= u < zlen VPm -> 0 < hkey c (vpg VPm u)).
      { intros VPm Z EV u Hu. destruct Vk as [Vk|Vk].
        - rewrite <- (vpg_app1 VPm Z) by auto. rewrite <- EV. destruct (Z.lt_ge_cases u (zlen VP)) as [Lu|Gu].
          + rewrite EX, vpg_app1 by (clear - Hu Lu; lia). apply B3. clear - Hu Lu. lia.
          + rewrite Hy; [apply Hv; auto|]. rewrite EV, zlen_app. pose proof (zlen_nonneg Z) as Qz. clear - Hu Gu Qz. lia.
        - rewrite <- (vpg_app1 VPm Z) by auto. rewrite <- EV, Vk. apply B3. rewrite <- Vk, EV, zlen_app. pose proof (zlen_nonneg Z) as Qz. clear - Hu Qz. lia. }
      assert (Ne' : accepted L' <> []).
      { unfold L'. rewrite rput_accepted. intros Hn. apply app_eq_nil in Hn as [_ Hn]. discriminate Hn. }
      assert (Sd' : wside L' (wstep N D B U (VPut k d v)) (new_entry k a v ++ VR) VP').
      { split; [|split; [|split; [|split]]]; cbn [wstep wlog wpay wtorn].
        - rewrite <- B1. symmetry. apply rput_bare.
        - rewrite <- B2. destruct v; reflexivity.
        - apply (Hpos VP' []). now rewrite app_nil_r.
        - rewrite Ke. apply incl_appl. exact B4.
        - contradiction. }
      exists s', (OVPut 0), (new_entry k a v ++ VR), VP', new. split; [reflexivity|]. split; [reflexivity|]. split.
      { exists f, kl, sl, off, lv', L'. split; [auto|]. split; [auto|]. split; [exact Y'|]. split; [exact H'|]. split; [exact Co'|].
        split; [|split; [|exact Sd']].
        - intros r Hr. apply rput_retained in Hr; [|apply rlo_S; exact Hlo]. destruct Hr as [Hr| ->]; [auto|]. cbn [rkey].
          destruct K2 as [K2|K2]; [clear - K2 Hk; lia|]. specialize (Hkey kl K2). clear - Hkey. lia.
        - destruct K2 as [K2|K2]; [auto|right]. rewrite Ke. apply in_or_app. auto. }
      split; [exact Lt|].
      assert (Cs : zlen VP' * P <= zlen VP * P + vcost c (VPut k d v)) by (clear - Zv; unfold vcost, bytes_cost in *; destruct v; lia).
      split; [exact Cs|]. split; [exact Tn|].
      assert (Cn : 0 <= vcost c (VPut k d v)) by (clear - Pd; unfold vcost; destruct v as [b|]; [pose proof (zlen_nonneg b)|]; lia).
      assert (VDs : VDisk c (fV (sio s)) VP).
      { apply (VS_disk c s VP lv); [|apply VP_small; clear - Hb' Pd; unfold bytes_cost in Hb'; destruct v as [b|]; [pose proof (zlen_nonneg b)|]; lia].
        apply (a_S _ _ _ _ _ _ _ _ _ _ (y_A _ _ _ _ _ _ _ _ _ _ _ _ _ _ _ Y)). }
      intros im Him. destruct (Im im Him) as [(Lb & [[-> Lc]|[-> Gc]] & St & Sv)|(St & X1 & Y1 & EV & Dk)].
      + exists U, VR, VP. split; [left; reflexivity|]. split; [|split; [apply later_refl|clear - Cn; lia]].
        exists L. split; [exact St|]. split; [rewrite Sv; exact VDs|]. split; [eapply stored_same; eauto|auto].
      + exists (mkW (rlc_seal D B (wlog U)) (wpay U) (wtorn U)), VR, VP. split.
        { unfold wcrash. right. right. cbn [app]. rewrite Zc. destruct (Z.geb_spec (zlen (cur L)) N); [now left|]. clear - Gc H0. lia. }
        split; [|split; [apply later_refl|clear - Cn; lia]].
        exists (rlc_seal D B L). split; [exact St|]. split; [rewrite Sv; exact VDs|].
        split; [eapply stored_same; eauto; apply rseal_accepted|]. unfold wside. cbn [wlog wpay wtorn].
        split; [rewrite <- B1; symmetry; apply rseal_bare|]. split; [auto|]. split; [auto|].
        unfold keys. rewrite rseal_accepted. auto.
      + destruct v as [b|].
        * exists (mkW (rlc_put N D B (wlog U) (mkR k d 0)) (wpay U) (k :: wtorn U)), VR, (VP ++ X1). split.
          { unfold wcrash. apply in_or_app. right. apply in_or_app. right. now left. }
          split; [|split; [split; [eauto|auto]|]].
          2:{ rewrite EV, zlen_app in Cs. pose proof (zlen_nonneg Y1) as Qy. clear - Cs Qy Pd. nia. }
          exists L'. split; [exact St|]. split; [exact Dk|]. split.
          { apply (stored_w f kl sl off (torn U) s' L' (new_entry k a (Some b) ++ VR) VP' lv' (keys L') _ VR (VP ++ X1) Y1); auto.
            - apply incl_appr, incl_refl.
            - apply (y_nodup _ _ _ _ _ _ _ _ _ _ _ _ _ _ _ Y).
            - intros k0 a0 b0 Hi. pose proof (all_sealed f kl sl off (torn U) s L VR VP lv _ k0 a0 b0 Y Hi) as Q.
              rewrite zlen_app. pose proof (zlen_nonneg X1) as Qx. clear - Q Qx Pd. nia.
            - cbn [wtorn]. rewrite concat_pages. unfold L'. rewrite rput_accepted. intros r Hr Tr. apply in_app_or in Hr as [Hr|[<-|[]]].
              + apply (y_rec _ _ _ _ _ _ _ _ _ _ _ _ _ _ _ Y r Hr). intros Q. apply Tr. now right.
              + exfalso. apply Tr. now left.
            - cbn [wtorn]. rewrite concat_pages. unfold L'. rewrite rput_accepted. intros r Hr Tr. apply in_app_or in Hr as [Hr|[<-|[]]].
              + destruct Tr as [Tr|Tr]; [|apply (y_torn _ _ _ _ _ _ _ _ _ _ _ _ _ _ _ Y r Hr Tr)].
                assert (Q : In (rkey r) (keys L)) by (unfold keys; now apply in_map). specialize (Hkey _ Q). clear - Hkey Tr. lia.
              + cbn [rvar rkey]. split; [apply Wm; congruence|]. intros Hi.
                specialize (Hkey k (y_in _ _ _ _ _ _ _ _ _ _ _ _ _ _ _ Y k Hi)). clear - Hkey. lia.
            - rewrite concat_pages. apply incl_refl. }
          split; [|split; [|split; [|split]]]; cbn [wlog wpay wtorn].
          { rewrite <- B1. symmetry. apply rput_bare. }
          { exact B2. }
          { apply (Hpos (VP ++ X1) Y1 EV). }
          { rewrite Ke. intros x [<-|Hx]; apply in_or_app; [right; now left|left; auto]. }
          { contradiction. }
        * specialize (Vn eq_refl). clear EX. subst VP'. exists (wstep N D B U (VPut k d None)), VR, VP.
          assert (X1 = [] /\ Y1 = []) as [-> ->].
          { assert (Q : zlen VP = zlen ((VP ++ X1) ++ Y1)) by congruence. rewrite !zlen_app in Q.
            destruct X1; [|rewrite zlen_cons in Q; pose proof (zlen_nonneg X1); pose proof (zlen_nonneg Y1); lia].
            destruct Y1; [auto|rewrite zlen_cons in Q; change (zlen (@nil page)) with 0 in Q; pose proof (zlen_nonneg Y1); lia]. }
          rewrite app_nil_r in Dk. split; [unfold wcrash; right; left; reflexivity|].
          split; [|split; [apply later_refl|exact Cs]]. exists L'. split; [exact St|]. split; [exact Dk|].
          split; [eapply stored_same; eauto|exact Sd'].
    - assert (Cw : cur (wlog U) = map bare (cur L)) by (rewrite <- B1; reflexivity).
      assert (Cn : 0 <= vcost c VFlush) by (clear - Pd; unfold vcost; lia).
      destruct (cur L) as [|r0 l0] eqn:Ec.
      + rewrite (flush_empty c KB PB f G s L I Ec). cbn [bind].
        exists s, (OVFlush 0), VR, VP, []. split; [reflexivity|]. split; [reflexivity|]. cbn [wstep]. rewrite Cw. cbn [map].
        split; [exists f, kl, sl, off, lv, L; auto 20|]. split; [apply later_refl|]. split; [clear - Cn; lia|]. split; [reflexivity|]. intros im [].
      + assert (Ne : cur L <> []) by congruence. rewrite <- Ec in *.
        assert (C1 : 1 <= zlen (cur L)) by (rewrite Ec; unfold zlen; cbn [length]; clear; lia).
        destruct Hq as [Q1 Q2]; [exists (zlen (cur L)); rewrite (get_count_ok c L0 _ _ Iw); auto|].
        rewrite In_ in Q1, Q2. specialize (Q1 eq_refl).
        destruct (wflush f kl sl off (torn U) Hoff s L VR VP lv Y H Co Ne Hp Q2 Q1) as (s' & im & E & Y' & H' & Co' & Tn & Ei & Ev & Efv).
        set (L1 := rlc_seal D B L) in *. rewrite E. cbn [bind].
        assert (Ws : wstep N D B U VFlush = mkW (rlc_seal D B (wlog U)) (wpay U) (wtorn U)).
        { cbn [wstep]. rewrite Cw. destruct (cur L); [congruence|reflexivity]. }
        assert (Ek : accepted L1 = accepted L) by apply rseal_accepted.
        assert (Sd' : wside L1 (wstep N D B U VFlush) VR VP).
        { rewrite Ws. split; [|split; [|split; [|split]]]; cbn [wlog wpay wtorn]; auto.
          - rewrite <- B1. symmetry. apply rseal_bare.
          - unfold keys. rewrite Ek. exact B4.
          - rewrite Ek. exact B5. }
        assert (Al : walive s' (wstep N D B U VFlush) VR VP).
        { exists f, kl, sl, off, lv, L1. split; [auto|]. split; [auto|]. split; [rewrite Ws; exact Y'|]. split; [exact H'|]. split; [exact Co'|].
          split; [|split; [|exact Sd']].
          - intros r Hr. apply K1. apply (rseal_retained D B); [apply rlo_S; exact Hlo|exact Hr].
          - unfold keys. rewrite Ek. exact K2. }
        exists s', (OVFlush 0), VR, VP, [im]. split; [reflexivity|]. split; [reflexivity|]. split; [exact Al|]. split; [apply later_refl|].
        split; [clear - Cn; lia|]. split; [exact Tn|]. intros im' [<-|[]]. exists (wstep N D B U VFlush), VR, VP.
        split; [right; left; reflexivity|]. split; [|split; [apply later_refl|clear - Cn; lia]].
        rewrite Ei, Ev, <- Efv. apply alive_wstored; auto. unfold vcost in Hb. clear - Hb Pd. lia.
    - assert (Cn : 0 <= vcost c (VGet k)) by (clear - Pd; unfold vcost; lia).
      destruct (wget f kl sl off (torn U) s L VR VP lv k Y H Co Ho) as (s' & r & dt & E & Y' & H' & Co' & Es & Er & Ed).
      rewrite E. cbn [bind wstep]. exists s', (OVGet r dt), VR, VP, []. split; [reflexivity|]. split.
      { unfold wout_ok. rewrite Fd, Er, Ed. destruct (find_key k (retained L)); cbn [option_map bare rdata]; auto. }
      split; [exists f, kl, sl, off, lv, L; auto 20|]. split; [apply later_refl|]. split; [clear - Cn; lia|]. split; [now rewrite Es|]. intros im [].
    - assert (Cn : 0 <= vcost c (VGetVar k ns)) by (clear - Pd; unfold vcost; lia). destruct Ho as [Hk Hns].
      destruct (wgetvar f kl sl off (torn U) Hsl Hoff s L VR VP lv k ns) as (s' & r & dt & x & E & Y' & H' & Co' & Es & Ed); auto.
      { intros j. destruct (in_dec Z.eq_dec j (wtorn U)); auto. }
      { apply (Hq2 k ns eq_refl). }
      rewrite E. cbn [wstep]. exists s', (OVGetVar r dt x), VR, VP, []. split; [reflexivity|]. split.
      { unfold wout_ok. rewrite Fd, Ed. destruct (find_key k (retained L)); cbn [option_map bare rdata]; auto. }
      split; [exists f, kl, sl, off, lv, L; auto 20|]. split; [apply later_refl|]. split; [clear - Cn; lia|]. split; [now rewrite Es|]. intros im [].
  Qed.

  (** ** Looking up a payload *)
  Lemma wlookup s U VR VP k ns : walive s U VR VP -> zlen VP * P + HD + P < VB -> 0 <= k < KB -> ~ In k (wtorn U) ->
    var_fresh s -> lookup_inside c s k ns ->
    (forall a bs, In (k, (a, bs)) VR -> zlen VP + 2 - a / P <= NV - B \/ VB <= NV * P) ->
    exists s', getvar_read c s k ns = Ok (s', vlookup (mkVS (wlog U) (wpay U)) k ns).
  Proof.
    intros (f & kl & sl & off & lv & L & Hsl & Hoff & Y & H & Co & K1 & K2 & (B1 & B2 & _)) Hb Hk Ht Fr Li Hi.
    rewrite <- B1, <- B2. pose proof (vP c KB PB G) as Pd. pose proof P_HD as PHD.
    pose proof (a_cur _ _ _ _ _ _ _ _ _ _ (y_A _ _ _ _ _ _ _ _ _ _ _ _ _ _ _ Y)) as Hc.
    pose proof (cur_mod c KB PB G off (off_page c KB PB VB G V off Hoff) s VP HD Hc) as Hm. rewrite (Z.mod_small HD) in Hm by (clear - PHD Pd; lia).
    destruct Hc as [Hc _].
    apply (lookup_ok c KB PB f VB G V kl sl off (torn U) Hsl Hoff ltac:(intros j; destruct (in_dec Z.eq_dec j (wtorn U)); auto)
             s L VR VP lv HD (keys L) k ns Y Co Hk Ht Fr); auto.
    - intros _. split; [auto|]. intros s' r. unfold embedDBFlushVar. rewrite Hm, (vHdr c KB PB G), Z.eqb_refl. intros E. assert (s' = s) as -> by congruence. auto.
    - intros Hr. apply in_map_iff in Hr as (r & <- & Hr). auto.
    - clear - Hc Hb. lia.
    - rewrite (rl_bin _ _ _ R). discriminate.
    - intros a bs Hin. destruct (Hi a bs Hin); [left; lia|auto].
  Qed.
End WVar.

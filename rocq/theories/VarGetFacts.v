(** Looking up a record returns its payload; histories run to the end. *)
From Verif Require Import Base BaseFacts Config Spline Storage DB VarData Recovery Spec SpecSpline SplineFacts
  SpecPage SpecStore Run SpecRun SpecVar LogFacts PageFacts SearchFacts StoreFacts PutFacts GetFacts BinFacts RunFacts
  TapeFacts VarFacts VarPutFacts VarReadFacts VarRunFacts.
Open Scope Z_scope.
Ltac Zify.zify_post_hook ::= ZifyBool.elim_bool_cstr.
Ltac Zify.zify_convert_to_euclidean_division_equations_flag ::= constr:(false).

Section VarGet.
  Variables (c : cfg) (KB PB f VB : Z).
  Hypothesis G : setting c KB PB.
  Hypothesis V : var_area c VB.
  Notation P := (pageSize c).
  Notation HD := (keySize c + 4).
  Notation NV := (numVar c).
  Notation N := (maxRec c).
  Notation D := (numData c).
  Notation B := (eraseSize c).
  Notation M := (256 ^ keySize c).
  Notation VS := (VS c).
  Notation Inv := (Inv c KB PB f).
  Notation lies := (lies c).
  Notation pg L id := (nth (Z.to_nat id) (pages L) []).
  Let L0 := L0 c KB PB G.
  Let HP := vPH c KB PB G.

  Lemma addr_load p rs i r : holds c p rs -> nth_error rs i = Some r -> rec_ok c KB r ->
    ldz p (rec_off c (Z.of_nat i) + keySize c + dataSize c) 4 = Ok (rvar r) /\ Z.of_nat i < 127.
  Proof.
    intros Hh Hi (_ & Hd & Hv). specialize (Hv (va_use _ _ V)).
    destruct (rec_fields c L0 p rs i r Hh Hi Hd) as (_ & _ & F). specialize (F (va_use _ _ V)).
    assert (Li : (i < length rs)%nat) by (apply nth_error_Some; congruence).
    pose proof (h_max _ _ _ Hh) as Hm. unfold zlen in Hm. pose proof (va_rec _ _ V) as Hr.
    pose proof (L_slot c L0 (Z.of_nat i) ltac:(lia)) as S. pose proof (h_len _ _ _ Hh) as Hl.
    pose proof (l_rec c L0) as R. rewrite (va_use _ _ V) in R. pose proof (l_ks c L0). pose proof (l_ds c L0).
    split; [|lia]. rewrite ldz_ok by (change (Z.of_nat 4) with 4; lia). rewrite <- bytes_at_zrd, F, le_dec_enc; [auto|].
    change (256 ^ Z.of_nat 4) with (2 ^ 32). lia.
  Qed.

  Lemma setup_safe s VP lv k rs i r : VS s VP lv -> holds c (rbuf (sd s)) rs -> nth_error rs i = Some r -> rec_ok c KB r ->
    rvar r = NOVAR \/ rvar r mod P <= P - 4 ->
    exists s' q st, setupVarDataStream c s k (Z.of_nat i) = Ok (s', q, st) /\ VS s' VP lv /\ same_but_var s s'.
  Proof.
    intros X Hh Hi Hr Ha. destruct (addr_load _ _ _ _ Hh Hi Hr) as [E _]. pose proof (vP c KB PB G) as Pd.
    unfold setupVarDataStream. rewrite (nv_pos c KB PB VB G V). rewrite E. cbn [bind]. destruct (Z.eqb_spec (rvar r) NOVAR) as [E0|E0].
    { do 3 eexists. split; [reflexivity|]. split; [auto|apply same_var_refl]. }
    destruct Ha as [Ha|Ha]; [contradiction|]. destruct (cmpK c k _ <? 0).
    { do 3 eexists. split; [reflexivity|]. split; [auto|apply same_var_refl]. }
    destruct (readV_any c KB PB VB G V s VP lv ((rvar r / P) mod NV) X (mod_V c KB PB VB G V _)) as (s1 & q & -> & X1 & S1 & Hq & Hl & _).
    destruct (Z.eqb_spec q 0) as [E1|E1]; cbn [negb]; [|do 3 eexists; split; [reflexivity|auto]].
    specialize (Hl E1). pose proof (Z.mod_pos_bound (rvar r) P ltac:(lia)).
    rewrite ldz_ok by (change (Z.of_nat 4) with 4; lia). cbn [bind]. do 3 eexists. split; [reflexivity|auto].
  Qed.

  (** The payload a record points to is in place. *)
  Definition filed (VP : list page) (m : Z) (r : rcd) (pb : option (list Z)) : Prop :=
    match pb with
    | None => rvar r = NOVAR
    | Some bs => exists a, rvar r = a mod (NV * P) /\ a mod P <= P - 4 /\ lies VP a (le_enc 4 (zlen bs) ++ bs) /\
        m mod M <= rkey r /\ zlen bs < 2 ^ 32
    end.

  Lemma mod_mod_P a : (a mod (NV * P)) mod P = a mod P /\ ((a mod (NV * P)) / P) mod NV = (a / P) mod NV.
  Proof.
    destruct (area_u32 c KB PB VB G V) as [_ Ar]. pose proof (vP c KB PB G) as Pd. pose proof (vB c KB PB VB G V) as Bd.
    pose proof (Z_div_mod_eq_full a (NV * P)) as E. set (q := a / (NV * P)) in *. set (x := a mod (NV * P)) in *.
    assert (Ex : a = x + (q * NV) * P) by lia. clearbody q x. rewrite Ex, Z_mod_plus_full, Z_div_plus_full, Z_mod_plus_full by lia.
    auto.
  Qed.

  Lemma setup_ok s VP lv k rs i r pb : VS s VP lv -> var_fresh s -> holds c (rbuf (sd s)) rs -> nth_error rs i = Some r ->
    rec_ok c KB r -> rkey r = k -> filed VP (minVarRec (sv s)) r pb ->
    match pb with
    | None => setupVarDataStream c s k (Z.of_nat i) = Ok (s, 0, None)
    | Some bs => exists s' st base, setupVarDataStream c s k (Z.of_nat i) = Ok (s', 0, Some st) /\ VS s' VP lv /\
        same_but_var s s' /\ var_fresh s' /\ totalBytes st = zlen bs /\ bytesRead st = 0 /\ 0 <= fileOffset st /\
        base mod (NV * P) = 0 /\ lies VP (fileOffset st + base) bs /\ zlen VP * P + HD - base < 2 ^ 32
    end.
  Proof.
    intros X Fr Hh Hi Hr Hk Hf. destruct (addr_load _ _ _ _ Hh Hi Hr) as [E _]. pose proof (vP c KB PB G) as Pd.
    destruct (area_u32 c KB PB VB G V) as [Au Ar]. pose proof (vB c KB PB VB G V) as Bd.
    destruct Hr as (Hkb & _ & _).
    unfold setupVarDataStream. rewrite (nv_pos c KB PB VB G V). rewrite E. cbn [bind]. destruct pb as [bs|].
    2:{ rewrite Hf, Z.eqb_refl. reflexivity. }
    destruct Hf as (a & Ea & Ha & Hl & Hm & Hz).
    assert (A0 : 0 <= a mod (NV * P) < NV * P) by (apply Z.mod_pos_bound; lia).
    destruct (Z.eqb_spec (rvar r) NOVAR) as [E0|_]; [unfold NOVAR in E0; lia|].
    pose proof KB_M c KB PB G as KM.
    assert (Mm : 0 <= minVarRec (sv s) mod M) by (apply Z.mod_pos_bound; lia).
    rewrite (g_cmp _ _ _ G k (minVarRec (sv s) mod M)) by lia.
    replace (k <? minVarRec (sv s) mod M) with false by lia.
    replace ((if k =? minVarRec (sv s) mod M then 0 else 1) <? 0) with false by (destruct (k =? minVarRec (sv s) mod M); reflexivity).
    destruct (mod_mod_P a) as [Q1 Q2]. rewrite Ea, Q1, Q2.
    set (d := le_enc 4 (zlen bs) ++ bs) in *. pose proof (zlen_nonneg bs) as Zb.
    assert (Zd : zlen d = 4 + zlen bs) by (unfold d; rewrite zlen_app, le_enc_zlen; reflexivity).
    destruct (lies_page c KB PB G VP a d Hl ltac:(lia)) as (D0 & D1).
    destruct (readV_ok c KB PB VB G V s VP lv (a / P) X Fr D0 D1) as (s1 & -> & X1 & S1 & F1 & R1 & _).
    cbn [negb Z.eqb]. rewrite R1. pose proof (x_plen _ _ _ _ X (a / P) ltac:(lia)) as Lp.
    pose proof (Z.mod_pos_bound a P ltac:(lia)) as Hap.
    rewrite ldz_ok by (change (Z.of_nat 4) with 4; lia). cbn [bind].
    destruct (lies_chunk c KB PB G VP a d 4 Hl (x_plen _ _ _ _ X) ltac:(lia) ltac:(lia)) as (C1 & C2 & C3 & C4).
    change (Z.to_nat 4) with 4%nat in *. rewrite C1.
    assert (Fd : firstn 4 d = le_enc 4 (zlen bs)).
    { unfold d. rewrite firstn_app, le_enc_length, Nat.sub_diag, firstn_O, app_nil_r. apply firstn_all2. rewrite le_enc_length. lia. }
    assert (Sk : skipn 4 d = bs).
    { unfold d. rewrite skipn_app, le_enc_length, Nat.sub_diag, skipn_O. rewrite skipn_all2; [reflexivity|]. rewrite le_enc_length. lia. }
    rewrite Fd, Sk in *. rewrite le_dec_enc by (change (256 ^ Z.of_nat 4) with (2 ^ 32); lia).
    rewrite Au. set (a4 := vskip P HD a 4) in *.
    assert (Eo : (if ((a mod (NV * P) + 4) mod (NV * P)) mod P =? 0
                  then u32 ((a mod (NV * P) + 4) mod (NV * P) + varHdr c) mod (NV * P)
                  else (a mod (NV * P) + 4) mod (NV * P)) = a4 mod (NV * P)).
    { clear - G V HP Ar Pd C3 C4 Ha Hap Bd. rewrite Z.add_mod_idemp_l by lia. destruct (mod_mod_P (a + 4)) as [Q3 _]. rewrite Q3, (vHdr c KB PB G).
      destruct (asplit P HD HP a) as [As _].
      pose proof (Z.mod_pos_bound (a + 4) (NV * P) ltac:(lia)) as Ab.
      destruct (Z.lt_ge_cases (a mod P + 4) P) as [Lt|Ge].
      - rewrite (C3 Lt). assert (E4 : (a + 4) mod P = a mod P + 4).
        { replace (a + 4) with (a / P * P + (a mod P + 4)) by (clear - As; lia). apply (amod P); clear - Hap Lt Ha Pd; lia. }
        rewrite E4. replace (a mod P + 4 =? 0) with false by lia. reflexivity.
      - assert (Eq : a mod P + 4 = P) by lia. rewrite (C4 Eq). assert (E4 : (a + 4) mod P = 0).
        { replace (a + 4) with ((a / P + 1) * P + 0) by (clear - As Eq; lia). apply (amod P); clear - Pd; lia. }
        rewrite E4, Z.eqb_refl. rewrite u32_id by (clear - Ab Ar Pd; lia). rewrite Z.add_mod_idemp_l by lia. reflexivity. }
    cbv zeta. rewrite Eo. pose proof (Z_div_mod_eq_full a4 (NV * P)) as Ed.
    exists s1. eexists. exists (NV * P * (a4 / (NV * P))). split; [reflexivity|]. cbn [totalBytes bytesRead fileOffset].
    pose proof (Z.mod_pos_bound a4 (NV * P) ltac:(lia)) as Bo.
    split; [auto|]. split; [auto|]. split; [auto|]. split; [auto|]. split; [auto|]. split; [lia|].
    split; [rewrite Z.mul_comm; apply Z.mod_mul; lia|]. replace (a4 mod (NV * P) + NV * P * (a4 / (NV * P))) with a4 by (clear - Ed; lia).
    split; [auto|]. pose proof (vskip_inside P HD HP 4 a (proj1 Hl)) as [_ Ge]. fold a4 in Ge.
    destruct (asplit P HD HP a) as [As _]. pose proof (proj1 Hl) as [_ Ia].
    assert ((zlen VP - NV) * P <= a / P * P) by (apply Z.mul_le_mono_nonneg_r; [clear - Pd|clear - D1]; lia).
    clear - H Ge Ia As Ar Ed Bo Pd Hap. lia.
  Qed.

  (** Data below the smallest readable key is reported. *)
  Lemma setup_lost s k rs i r a : holds c (rbuf (sd s)) rs -> nth_error rs i = Some r -> rec_ok c KB r -> rkey r = k ->
    rvar r = a mod (NV * P) -> k < minVarRec (sv s) mod M < KB -> setupVarDataStream c s k (Z.of_nat i) = Ok (s, 1, None).
  Proof.
    intros Hh Hi Hr Hk Ea Hm. destruct (addr_load _ _ _ _ Hh Hi Hr) as [E _]. destruct Hr as (Hkb & _ & _).
    destruct (area_u32 c KB PB VB G V) as [Au Ar].
    unfold setupVarDataStream. rewrite (nv_pos c KB PB VB G V). rewrite E. cbn [bind].
    assert (A0 : 0 <= a mod (NV * P) < NV * P) by (apply Z.mod_pos_bound; lia).
    destruct (Z.eqb_spec (rvar r) NOVAR) as [E0|_]; [unfold NOVAR in E0; lia|].
    pose proof KB_M c KB PB G as KM.
    assert (Mm : 0 <= minVarRec (sv s) mod M < M) by (apply Z.mod_pos_bound; lia).
    rewrite (g_cmp _ _ _ G k (minVarRec (sv s) mod M)) by lia.
    replace (k <? minVarRec (sv s) mod M) with true by lia. reflexivity.
  Qed.

  (** *** Payload tables *)
  Lemma pay_in VR k a bs : NoDup (map fst VR) -> In (k, (a, bs)) VR -> payload k (map what_is VR) = Some bs.
  Proof.
    unfold payload. induction VR as [|[k1 [a1 b1]] VR IH]; intros Nd Hi; [destruct Hi|].
    cbn [map fst] in Nd. inversion Nd as [|? ? Hn Nd' ]; subst. cbn [map what_is find fst snd].
    destruct Hi as [He|Hi].
    - injection He as -> -> ->. now rewrite Z.eqb_refl.
    - destruct (Z.eqb_spec k1 k) as [E|E]; [|apply IH; auto].
      exfalso. apply Hn. rewrite E. apply in_map_iff. exists (k, (a, bs)). auto.
  Qed.
  Lemma pay_out VR k : ~ In k (map fst VR) -> payload k (map what_is VR) = None.
  Proof.
    unfold payload. induction VR as [|[k1 [a1 b1]] VR IH]; intros Hn; [reflexivity|].
    cbn [map what_is find fst snd]. destruct (Z.eqb_spec k1 k) as [E|E].
    - exfalso. apply Hn. now left.
    - apply IH. intros Hi. apply Hn. now right.
  Qed.

  Lemma sealed_read (VP : list page) w a n : inside P HD a -> vskip P HD a n <= zlen VP * P + HD ->
    vread P HD (VP ++ [w]) a n = vread P HD VP a n.
  Proof.
    intros Ia Hs. pose proof (vP c KB PB G) as Pd. apply (vread_ext P HD HP); auto. intros p Ip Hp. apply (vget_old c).
    destruct (addr_lt c KB PB G p (zlen VP) HD Ip ltac:(lia) ltac:(lia)) as [D0 [D1|[D1 D2]]]; [lia|]. destruct Ip. lia.
  Qed.

  Variables (kl sl off : Z) (T : Z -> Prop).
  Hypothesis Hsl : 0 <= sl <= 1.
  Hypothesis Hoff : 0 <= off /\ off mod (NV * P) = 0.
  Hypothesis TD : forall k, T k \/ ~ T k.
  Notation VA := (VA c kl sl off).
  Notation VInv := (VInv c KB PB f kl sl off T).
  Let Op := off_page c KB PB VB G V off Hoff.

  Lemma filed_of s L VR VP lv o acc r : VInv s L VR VP lv o acc -> In r (accepted L) ->
    kl <= rkey r -> ~ T (rkey r) ->
    (forall a bs, In (rkey r, (a, bs)) VR -> lv <= a / P /\ vskip P HD a (4 + length bs) <= zlen VP * P + HD) ->
    filed VP (minVarRec (sv s)) r (payload (rkey r) (map what_is VR)).
  Proof.
    intros Y Hr Hkl Ht Hs. destruct Y as [I A La Nd Re Ri Se St _ _ _]. destruct (Re r Hr Ht) as [[E1 E2]|(a & bs & E1 & E2)].
    - rewrite (pay_out VR _ E2). exact E1.
    - rewrite (pay_in VR _ a bs Nd E1). destruct (La _ _ _ E1) as (l1 & l2 & l3 & l4 & l5). destruct (Hs _ _ E1) as [h1 h2].
      pose proof (a_S _ _ _ _ _ _ _ _ _ _ A) as X. pose proof (x_live _ _ _ _ X) as Xl.
      assert (Ia : inside P HD a) by (split; lia).
      exists a. split; [auto|]. split; [lia|]. split; [|split; [|auto]].
      + assert (Ln : length (le_enc 4 (zlen bs) ++ bs) = (4 + length bs)%nat) by (rewrite app_length, le_enc_length; auto).
        split; [auto|]. rewrite Ln. split; [|split; [lia|auto]]. rewrite <- l4. symmetry. apply sealed_read; auto.
      + apply (hM _ _ _ _ _ _ _ _ _ (a_H _ _ _ _ _ _ _ _ _ _ A) (rkey r) a); auto.
        apply in_map_iff. exists (rkey r, (a, bs)). auto.
  Qed.

  Lemma nt s L VR VP lv o acc r k a (bs : list Z) : VInv s L VR VP lv o acc -> In r (accepted L) -> rkey r = k -> In (k, (a, bs)) VR -> ~ T (rkey r).
  Proof.
    intros Y Hr Hk Hi Ht. apply (y_torn _ _ _ _ _ _ _ _ _ _ _ _ _ _ _ Y r Hr Ht). rewrite Hk. apply in_map_iff. exists (k, (a, bs)). auto.
  Qed.

  Lemma rvar_in s L VR VP lv o acc r : VInv s L VR VP lv o acc -> In r (accepted L) -> rvar r = NOVAR \/ rvar r mod P <= P - 4.
  Proof.
    intros Y Hr. destruct (TD (rkey r)) as [Ht|Ht]; [right; apply (y_torn _ _ _ _ _ _ _ _ _ _ _ _ _ _ _ Y r Hr Ht)|].
    destruct (y_rec _ _ _ _ _ _ _ _ _ _ _ _ _ _ _ Y r Hr Ht) as [[E1 E2]|(a & bs & E1 & E2)]; [auto|]. right.
    rewrite E2. rewrite (proj1 (mod_mod_P a)). apply (y_laid _ _ _ _ _ _ _ _ _ _ _ _ _ _ _ Y _ _ _ E1).
  Qed.

  (** Setting up and reading the stream of a record. *)
  Lemma tail_ok s VP lv k rs i r pb ns : VS s VP lv -> var_fresh s -> holds c (rbuf (sd s)) rs -> nth_error rs i = Some r ->
    rec_ok c KB r -> rkey r = k -> filed VP (minVarRec (sv s)) r pb ->
    exists s1 st, setupVarDataStream c s k (Z.of_nat i) = Ok (s1, 0, st) /\
      match pb with
      | None => st = None
      | Some bs => exists st1, st = Some st1 /\
          (reads_inside c s1 st1 ns -> exists s2 st2, stream_reads c s1 st1 ns = Ok (s2, st2, pieces bs ns))
      end.
  Proof.
    intros X Fr Hh Hi Hr Hk Hf. pose proof (setup_ok s VP lv k rs i r pb X Fr Hh Hi Hr Hk Hf) as S. destruct pb as [bs|].
    - destruct S as (s1 & st & base & E & X1 & S1 & F1 & T1 & T2 & T3 & B1 & Li & Cp). exists s1, (Some st). split; [auto|].
      exists st. split; [auto|]. intros Ri. pose proof (zlen_nonneg bs). destruct Hf as (_ & _ & _ & _ & _ & Hz).
      destruct (reads_ok c KB PB VB G V ns s1 VP lv base st bs X1 F1 B1) as (s2 & st2 & E2 & _); auto; try lia. eauto.
    - exists s, None. auto.
  Qed.

  Lemma u32_small i : Z.of_nat i < 127 -> u32 (i8 (Z.of_nat i)) = Z.of_nat i.
  Proof. intros. rewrite i8_id by lia. apply u32_id. lia. Qed.

  (** ** A record that is on a data page *)
  Lemma getvar_page s L VR VP lv o acc k ns : VInv s L VR VP lv o acc -> 0 <= k < KB -> (forall r, In r (cur L) -> rkey r <> k) ->
    exists s1 r dt st s1', embedDBGetVar c s k = Ok (s1, r, dt, st) /\
      got c KB PB f s L k s1' (if match dt with Some _ => true | None => false end then 0 else -1) dt /\
      VInv s1 L VR VP lv o acc /\ same_but_var s1' s1 /\
      (dt = None -> r = -1 /\ st = None) /\
      (forall d, dt = Some d -> var_fresh s ->
         exists x, In x (accepted L) /\ rkey x = k /\ rdata x = d /\
         (kl <= k -> ~ T k -> (forall a bs, In (k, (a, bs)) VR -> lv <= a / P) ->
         r = 0 /\ match payload k (map what_is VR) with
         | None => st = None
         | Some bs => exists st1, st = Some st1 /\
             (reads_inside c s1 st1 ns -> exists s2 st2, stream_reads c s1 st1 ns = Ok (s2, st2, pieces bs ns))
         end)) /\
      (forall d a bs, dt = Some d -> In (k, (a, bs)) VR -> k < minVarRec (sv s) mod M < KB -> r = 1 /\ st = None).
  Proof.
    intros Y Hk Hc. pose proof (y_inv _ _ _ _ _ _ _ _ _ _ _ _ _ _ _ Y) as I. pose proof (wf_of c KB PB f s L I) as W.
    pose proof (i_w _ _ _ _ _ _ _ _ I) as Iw. pose proof (g_KB _ _ _ G) as GK. pose proof (g_cmp _ _ _ G) as GC.
    unfold embedDBGetVar. rewrite (va_use _ _ V). cbn [negb].
    destruct (buffer_ok c KB PB G L k _ W (maxRec127 c VB V) Iw Hk) as (j & Ej & Rj).
    rewrite (proj2 (find_key_none k (cur L)) Hc) in Ej, Rj. cbn [option_map] in Ej.
    destruct (Z.eqb_spec j (-1)) as [->|]; [|discriminate]. rewrite Ej. cbn [bind]. cbn [Z.eqb Pos.eqb negb].
    destruct (get_found c KB PB f VB G V s L k I Hk Hc) as (s' & r & dt & E & Gt & Fd). rewrite E. cbn [bind].
    pose proof Gt as (S1 & I1 & oo & Er & Ed & Ho & _).
    pose proof (VInv_rbuf c KB PB f kl sl off T s s' L VR VP lv o acc Y S1 I1) as Y1.
    destruct (Z.eqb_spec r 0) as [R0|R0].
    - destruct (Fd R0) as (id & x & Hid & Im & Fx & Edt).
      pose proof (page_recs c KB L id W) as Pr. pose proof (asc_page (pages L) (Z.to_nat id) (pages_asc c KB L W)) as As.
      pose proof (searchNode_find c KB L0 (proj2 GK) GC _ _ k (proj1 Im) As Pr Hk) as Sn. rewrite Fx in Sn.
      destruct Sn as (i & -> & Hi). cbn [bind].
      assert (Rx : rec_ok c KB x) by (rewrite Forall_forall in Pr; apply Pr; eapply nth_error_In; eauto).
      destruct (addr_load _ _ _ _ (proj1 Im) Hi Rx) as [_ Li]. rewrite (u32_small i Li).
      assert (Hx : In x (accepted L)) by (eapply accepted_page; eapply nth_error_In; eauto).
      assert (Kx : rkey x = k) by (apply find_key_some in Fx; [tauto|auto]).
      pose proof (a_S _ _ _ _ _ _ _ _ _ _ (y_A _ _ _ _ _ _ _ _ _ _ _ _ _ _ _ Y1)) as X1.
      destruct (setup_safe s' VP lv k _ i x X1 (proj1 Im) Hi Rx (rvar_in s L VR VP lv o acc x Y Hx)) as (s2 & q & st & Es & X2 & S2).
      rewrite Es. cbn [bind]. exists s2. do 3 eexists. exists s'. split; [reflexivity|].
      rewrite Edt in *. rewrite R0 in *. split; [exact Gt|]. split; [apply (VInv_cache c KB PB f kl sl off T s'); auto|]. split; [auto|].
      split; [discriminate|]. split.
      2:{ intros d a bs _ Hi1 Hm. destruct (y_rec _ _ _ _ _ _ _ _ _ _ _ _ _ _ _ Y x Hx (nt _ _ _ _ _ _ _ _ _ _ _ Y Hx Kx Hi1)) as [[n1 n2]|(a0 & b0 & n1 & n2)].
          { exfalso. apply n2. rewrite Kx. apply in_map_iff. exists (k, (a, bs)). auto. }
          rewrite (setup_lost s' k _ i x a0 (proj1 Im) Hi Rx Kx n2) in Es.
          - injection Es as <- <- <-. auto.
          - destruct S1 as (_ & _ & -> & _). exact Hm. }
      intros d Hd Fr. injection Hd as Hd. exists x. split; [auto|]. split; [auto|]. split; [auto|].
      intros Hkl Ht Hs.
      assert (Fr1 : var_fresh s').
      { unfold var_fresh in *. destruct S1 as (e1 & _ & e3 & _). rewrite e1, e3. auto. }
      assert (Fl : filed VP (minVarRec (sv s')) x (payload k (map what_is VR))).
      { rewrite <- Kx. apply (filed_of s' L VR VP lv o acc x Y1 Hx); rewrite Kx; [exact Hkl|exact Ht|]. intros a bs Hi1. split; [eapply Hs; eauto|].
        apply (y_sealed _ _ _ _ _ _ _ _ _ _ _ _ _ _ _ Y k a bs Hi1). intros Hin. apply in_map_iff in Hin as (z & Z1 & Z2).
        apply (Hc z Z2 Z1). }
      destruct (tail_ok s' VP lv k _ i x _ ns X1 Fr1 (proj1 Im) Hi Rx Kx Fl) as (s3 & st3 & E3 & T3).
      rewrite E3 in Es. injection Es as <- <- <-. split; [reflexivity|]. exact T3.
    - cbn [bind]. assert (Eo : oo = None) by (destruct oo; [contradiction|auto]). rewrite Eo in *. cbn [option_map] in Ed.
      exists s'. do 3 eexists. exists s'. split; [reflexivity|]. rewrite Ed in *.
      split; [rewrite <- Er; exact Gt|]. split; [auto|]. split; [apply same_var_refl|].
      split; [auto|]. split; discriminate.
  Qed.

  (** ** A record in the write buffer *)
  Lemma getvar_buffer s L VR VP lv o acc k x ns : VInv s L VR VP lv o acc -> 0 <= k < KB -> find_key k (cur L) = Some x ->
    var_clean c s -> curVarLoc (sv s) + off + P < VB ->
    exists s1 r st lv2, embedDBGetVar c s k = Ok (s1, r, Some (rdata x), st) /\ zlen VP - NV <= lv2 /\
      (forall a bs, In (k, (a, bs)) VR -> zlen VP + 1 + sl - a / P <= NV - B \/ VB <= NV * P -> lv2 <= a / P) /\
      (kl <= k -> ~ T k -> (forall a bs, In (k, (a, bs)) VR -> lv2 <= a / P) -> r = 0 /\
      match payload k (map what_is VR) with
      | None => st = None
      | Some bs => exists st1, st = Some st1 /\
          (reads_inside c s1 st1 ns -> exists s2 st2, stream_reads c s1 st1 ns = Ok (s2, st2, pieces bs ns))
      end) /\
      (VD c L VR VP (vwbuf (sv s)) o -> (forall x, In x acc -> x + 1 < KB) -> forall a bs, In (k, (a, bs)) VR -> a / P < lv2 -> r = 1 /\ st = None).
  Proof.
    intros Y Hk Fx [Fr Fr1] Hb. pose proof (y_inv _ _ _ _ _ _ _ _ _ _ _ _ _ _ _ Y) as I. pose proof (wf_of c KB PB f s L I) as W.
    pose proof (vP c KB PB G) as Pd. pose proof (i_w _ _ _ _ _ _ _ _ I) as Iw.
    pose proof (g_KB _ _ _ G) as GK. pose proof (g_cmp _ _ _ G) as GC. pose proof (vB c KB PB VB G V) as Bd.
    pose proof (cur_asc c KB L W) as As. pose proof (cur_recs c KB L W) as Cr.
    pose proof Fx as Fx0. apply find_key_some in Fx0 as [Hx Kx]; [|auto].
    assert (Ha : In x (accepted L)) by (unfold accepted; apply in_or_app; auto).
    pose proof (searchNode_find c KB L0 (proj2 GK) GC _ _ k Iw As Cr Hk) as Sn. rewrite Fx in Sn. destruct Sn as (i & Ei & Hi).
    assert (Rx : rec_ok c KB x) by (rewrite Forall_forall in Cr; auto).
    destruct (addr_load _ _ _ _ Iw Hi Rx) as [_ Li].
    unfold embedDBGetVar. rewrite (va_use _ _ V). cbn [negb]. unfold searchBuffer. rewrite (get_count_ok c L0 _ _ Iw). cbn [bind].
    assert (Zc : zlen (cur L) <> 0) by (destruct (cur L); [destruct Hx|]; rewrite zlen_cons; pose proof (zlen_nonneg l); lia).
    destruct (Z.eqb_spec (zlen (cur L)) 0); [contradiction|]. rewrite Ei. cbn [bind].
    rewrite (rec_data_ok c L0 _ _ _ _ Iw Hi) by (destruct Rx as (_ & Rd & _); exact Rd). cbn [bind].
    rewrite (i8_id (Z.of_nat i)) by lia. destruct (Z.eqb_spec (Z.of_nat i) (-1)); [lia|]. cbn [negb].
    pose proof (y_A _ _ _ _ _ _ _ _ _ _ _ _ _ _ _ Y) as A.
    assert (Ac : acc <> []).
    { intros E0. apply (in_map rkey), (y_acc _ _ _ _ _ _ _ _ _ _ _ _ _ _ _ Y) in Ha. rewrite E0 in Ha. destruct Ha. }
    pose proof (a_cur _ _ _ _ _ _ _ _ _ _ A) as [Hc Hc2]. pose proof (a_o _ _ _ _ _ _ _ _ _ _ A) as Ho.
    destruct (flushVar_ok c KB PB VB G V kl sl Hsl off Op s VP lv o _ _ A Ac) as (s' & VP' & lv' & Ef & A' & Gr & Hsame & Cu & Hnew).
    { intros y Hy. apply (y_keys _ _ _ _ _ _ _ _ _ _ _ _ _ _ _ Y y Hy). }
    { lia. }
    rewrite Ef. cbn [bind]. specialize (Fr1 _ _ Ef).
    assert (Y' : VInv s' L VR VP' lv' HD acc) by (apply (VInv_grow c KB PB f G kl sl off T Hoff s L VR VP lv o acc); auto).
    set (s2 := readToWriteBuf s').
    pose proof (a_S _ _ _ _ _ _ _ _ _ _ A') as X'.
    assert (X2 : VS s2 VP' lv') by (apply (VS_other c s'); auto; apply (x_faults _ _ _ _ X')).
    assert (H2 : holds c (rbuf (sd s2)) (cur L)).
    { unfold s2, readToWriteBuf. cbn [set_d sd d_rbuf rbuf]. pose proof (gr_data _ _ _ _ _ _ Gr) as (-> & _). exact Iw. }
    pose proof (a_cur _ _ _ _ _ _ _ _ _ _ A') as [Hc' _].
    assert (Zl : zlen VP' <= zlen VP + 1).
    { assert ((zlen VP' - zlen VP - 1) * P < P) by lia. nia. }
    destruct (gr_ext _ _ _ _ _ _ Gr) as [Xp EX].
    assert (Zg : zlen VP <= zlen VP') by (rewrite EX, zlen_app; pose proof (zlen_nonneg Xp); lia).
    pose proof (x_live _ _ _ _ X') as Xl.
    destruct (setup_safe s2 VP' lv' k _ i x X2 H2 Hi Rx (rvar_in s L VR VP lv o acc x Y Ha)) as (s3 & q & st & Es & X3 & S3).
    rewrite u32_id by lia. rewrite Es. cbn [bind]. do 3 eexists. exists lv'. split; [reflexivity|]. split; [lia|]. split; [|split].
    - intros a bs Hi1 Hs. destruct (y_laid _ _ _ _ _ _ _ _ _ _ _ _ _ _ _ Y' k a bs Hi1) as (l1 & l2 & l3 & l4 & l5).
      assert (0 <= a / P) by (apply Z.div_pos; lia).
      destruct Hs as [h|h]; [destruct (hR _ _ _ _ _ _ _ _ _ (a_H _ _ _ _ _ _ _ _ _ _ A')); lia|].
      rewrite (x_nowrap _ _ _ _ X'); [lia|lia|]. clear - h Hc' Cu Hc Hb Ho Pd Zg. nia.
    - intros Hkl Ht Hs.
      assert (Fl : filed VP' (minVarRec (sv s2)) x (payload k (map what_is VR))).
      { change (minVarRec (sv s2)) with (minVarRec (sv s')). rewrite <- Kx. apply (filed_of s' L VR VP' lv' HD acc x Y' Ha); rewrite Kx; [exact Hkl|exact Ht|].
        intros a bs Hi1. destruct (y_laid _ _ _ _ _ _ _ _ _ _ _ _ _ _ _ Y' k a bs Hi1) as (l1 & l2 & l3 & l4 & l5).
        split; [|lia]. eapply Hs; eauto. }
      destruct (tail_ok s2 VP' lv' k _ i x _ ns X2 Fr1 H2 Hi Rx Kx Fl) as (s4 & st4 & E4 & T4).
      rewrite E4 in Es. injection Es as <- <- <-. split; [reflexivity|exact T4].
    - intros [Hd Hw] HM a bs Hi1 Hl.
      assert (Hw1 : forall k a, In (k, a) (map where_is VR) -> k <= hkey c (vwbuf (sv s))).
      { destruct Hw as [Hw|[H1 _]]; [auto|]. rewrite H1 in Hx. destruct Hx. }
      assert (Hd' : dense c VP' (map where_is VR)).
      { destruct (Z.eq_dec o HD) as [Eo|Eo]; [destruct (Hsame Eo) as [_ ->]; auto|].
        destruct (Hnew Eo) as (y & -> & Hy). apply dense_snoc; auto. rewrite Hy. auto. }
      assert (Hm : k < minVarRec (sv s') mod M < KB).
      { pose proof KB_M c KB PB G as KM.
        destruct (hL _ _ _ _ _ _ _ _ _ (a_H _ _ _ _ _ _ _ _ _ _ A') Hd') with (k := k) (a := a) as (y & Y1 & Y2);
          [|apply in_map_iff; exists (k, (a, bs)); auto|auto|].
        - intros y Hy. specialize (HM y Hy). lia.
        - specialize (HM y Y1). lia. }
      destruct (y_rec _ _ _ _ _ _ _ _ _ _ _ _ _ _ _ Y x Ha (nt _ _ _ _ _ _ _ _ _ _ _ Y Ha Kx Hi1)) as [[n1 n2]|(a0 & b0 & n1 & n2)].
      { exfalso. apply n2. rewrite Kx. apply in_map_iff. exists (k, (a, bs)). auto. }
      rewrite (setup_lost s2 k _ i x a0 H2 Hi Rx Kx n2 Hm) in Es. injection Es as <- <- <-. auto.
  Qed.

  (** Once [VB] fits the area no page is ever given up. *)
  Lemma no_wrap s VP lv o E acc : VA s VP lv o E acc -> curVarLoc (sv s) + off < VB -> VB <= NV * P -> lv = 0.
  Proof.
    intros A Hb Hv. pose proof (vP c KB PB G) as Pd. pose proof (a_S _ _ _ _ _ _ _ _ _ _ A) as X.
    pose proof (vB c KB PB VB G V) as Bd.
    pose proof (a_cur _ _ _ _ _ _ _ _ _ _ A) as [Hc _]. pose proof (a_o _ _ _ _ _ _ _ _ _ _ A) as Ho.
    apply (x_nowrap _ _ _ _ X); [lia|]. clear - Hc Ho Hb Hv Pd. nia.
  Qed.

  (** ** Lookups in any state of the invariant *)
  Lemma lookup_any s L VR VP lv o acc k ns : VInv s L VR VP lv o acc -> coh c s L -> 0 <= k < KB ->
    var_fresh s -> (In k (map rkey (cur L)) -> var_clean c s) -> lookup_inside c s k ns -> (In k (map rkey (retained L)) -> kl <= k) -> curVarLoc (sv s) + off + P < VB ->
    (useBinary c = true -> In k (map rkey (accepted L)) -> In k (map rkey (retained L))) ->
    exists lv2, zlen VP - NV <= lv2 /\
      (forall a bs, In (k, (a, bs)) VR -> zlen VP + 1 + sl - a / P <= NV - B \/ VB <= NV * P -> lv2 <= a / P) /\
      (~ T k -> (forall a bs, In (k, (a, bs)) VR -> lv2 <= a / P) ->
         exists s', getvar_read c s k ns = Ok (s', vlookup (mkVS (bareL L) (map what_is VR)) k ns)) /\
      (VD c L VR VP (vwbuf (sv s)) o -> (forall x, In x acc -> x + 1 < KB) -> forall x a bs, find_key k (retained L) = Some x ->
         In (k, (a, bs)) VR -> a / P < lv2 -> exists s', getvar_read c s k ns = Ok (s', OVGetVar 1 (Some (rdata x)) None)).
  Proof.
    intros Y Co Hk Hfr Hcl Hin Hkl Hb Hbin. pose proof (y_inv _ _ _ _ _ _ _ _ _ _ _ _ _ _ _ Y) as I. pose proof (wf_of c KB PB f s L I) as W.
    pose proof (retained_asc c KB L W) as Ra. unfold vlookup. cbn [vlog vpay]. rewrite bare_retained, find_bare.
    unfold getvar_read, lookup_inside in *.
    assert (Fin : forall s1 r dt st d, embedDBGetVar c s k = Ok (s1, r, dt, st) -> r = 0 -> dt = Some d ->
      match payload k (map what_is VR) with
      | None => st = None
      | Some bs => exists st1, st = Some st1 /\
          (reads_inside c s1 st1 ns -> exists s2 st2, stream_reads c s1 st1 ns = Ok (s2, st2, pieces bs ns))
      end ->
      exists s', (let '(s, r, d, st) := (s1, r, dt, st) in
        match st with
        | None => Ok (s, OVGetVar r d None)
        | Some st => '(s, _, xs) <- stream_reads c s st ns ;; Ok (s, OVGetVar r d (Some xs))
        end) = Ok (s', OVGetVar 0 (Some d) (option_map (fun b => pieces b ns) (payload k (map what_is VR))))).
    { intros s1 r dt st d E -> -> T3. destruct (payload k (map what_is VR)) as [bs|].
      - destruct T3 as (st1 & -> & T3). destruct (T3 (Hin _ _ _ _ E)) as (s2 & st2 & ->). cbn [bind option_map]. eauto.
      - subst st. cbn [option_map]. eauto. }
    destruct (find_key k (cur L)) as [x|] eqn:Fx.
    - assert (Hcu : In k (map rkey (cur L))) by (apply find_key_some in Fx as [F1 F2]; [apply in_map_iff; eauto|apply (cur_asc c KB L W)]).
      destruct (getvar_buffer s L VR VP lv o acc k x ns Y Hk Fx (Hcl Hcu) Hb) as (s1 & r & st & lv2 & E & Z2 & T1 & T2 & T3).
      assert (Fr : find_key k (retained L) = Some x).
      { apply find_key_some in Fx as [F1 F2]; [|apply (cur_asc c KB L W)]. apply find_key_some; auto. split; [|auto].
        unfold retained. apply in_or_app. auto. }
      assert (Hret : In k (map rkey (retained L))).
      { apply find_key_some in Fr as [F1 F2]; auto. apply in_map_iff. eauto. }
      exists lv2. split; [auto|]. split; [exact T1|]. rewrite Fr. cbn [option_map bare rdata]. rewrite E. cbn [bind]. split.
      + intros Ht Hs. destruct (T2 (Hkl Hret) Ht Hs) as [T4 T5]. apply (Fin s1 r (Some (rdata x)) st (rdata x) E T4 eq_refl T5).
      + intros Vd HM x0 a bs Ex Hi Hl. injection Ex as <-. destruct (T3 Vd HM a bs Hi Hl) as [-> ->]. eauto.
    - rewrite find_key_none in Fx.
      destruct (getvar_page s L VR VP lv o acc k ns Y Hk Fx) as (s1 & r & dt & st & s1' & E & Gt & Y1 & S1 & Hn & Hd & Hlost).
      rewrite E. cbn [bind]. destruct Gt as (_ & _ & oo & Er & Ed & Ho & Cm). destruct (Cm Co) as (_ & Rt & Sp).
      assert (Eo : oo = find_key k (retained L)).
      { destruct (useBinary c) eqn:U; [|auto]. destruct (find_key k (retained L)) as [x|] eqn:F.
        - apply find_key_some in F as [F1 F2]; auto.
        - destruct oo as [x|]; [|auto]. destruct (Ho x eq_refl) as [H1 H2].
          rewrite find_key_none in F. exfalso.
          specialize (Hbin eq_refl ltac:(apply in_map_iff; exists x; auto)). apply in_map_iff in Hbin as (z & Z1 & Z2).
          apply (F z Z2 Z1). }
      pose proof (a_S _ _ _ _ _ _ _ _ _ _ (y_A _ _ _ _ _ _ _ _ _ _ _ _ _ _ _ Y)) as X. pose proof (x_live _ _ _ _ X) as Xl.
      exists lv. split; [lia|]. split; [|split].
      { intros a bs Hi Hs. destruct (y_laid _ _ _ _ _ _ _ _ _ _ _ _ _ _ _ Y k a bs Hi) as (l1 & _).
        pose proof (vP c KB PB G) as Pd. assert (0 <= a / P) by (apply Z.div_pos; lia).
        destruct Hs as [h|h].
        - destruct (hR _ _ _ _ _ _ _ _ _ (a_H _ _ _ _ _ _ _ _ _ _ (y_A _ _ _ _ _ _ _ _ _ _ _ _ _ _ _ Y))); lia.
        - rewrite (no_wrap s VP lv o _ _ (y_A _ _ _ _ _ _ _ _ _ _ _ _ _ _ _ Y)); lia. }
      + intros Ht Hs. rewrite <- Eo. destruct oo as [x|]; cbn [option_map] in *.
        * rewrite Ed in *. destruct (Hd (rdata x) eq_refl Hfr) as (y & Y2 & Y3 & Y4 & T3).
          assert (Hret : In k (map rkey (retained L))).
          { symmetry in Eo. apply find_key_some in Eo as [F1 F2]; auto. apply in_map_iff. eauto. }
          destruct (T3 (Hkl Hret) Ht Hs) as [T1 T2].
          cbn [bare rdata]. apply (Fin s1 r (Some (rdata x)) st (rdata x) E T1 eq_refl T2).
        * destruct (Hn Ed) as [-> ->]. rewrite Ed. cbn. eauto.
      + intros [Hde _] HM x a bs Ex Hi Hl. rewrite Ex in Eo. rewrite Eo in Ed. cbn [option_map] in Ed.
        destruct (Hlost (rdata x) a bs Ed Hi) as [-> ->].
        { pose proof KB_M c KB PB G as KM.
          destruct (hL _ _ _ _ _ _ _ _ _ (a_H _ _ _ _ _ _ _ _ _ _ (y_A _ _ _ _ _ _ _ _ _ _ _ _ _ _ _ Y)) Hde) with (k := k) (a := a) as (y & Y2 & Y3);
            [|apply in_map_iff; exists (k, (a, bs)); auto|auto|].
          - intros y Hy. specialize (HM y Hy). lia.
          - specialize (HM y Y2). lia. }
        rewrite Ed. eauto.
  Qed.

  Lemma lookup_ok s L VR VP lv o acc k ns : VInv s L VR VP lv o acc -> coh c s L -> 0 <= k < KB -> ~ T k ->
    var_fresh s -> (In k (map rkey (cur L)) -> var_clean c s) -> lookup_inside c s k ns -> (In k (map rkey (retained L)) -> kl <= k) -> curVarLoc (sv s) + off + P < VB ->
    (useBinary c = true -> In k (map rkey (accepted L)) -> In k (map rkey (retained L))) ->
    (forall a bs, In (k, (a, bs)) VR -> zlen VP + 1 + sl - a / P <= NV - B \/ VB <= NV * P) ->
    exists s', getvar_read c s k ns = Ok (s', vlookup (mkVS (bareL L) (map what_is VR)) k ns).
  Proof.
    intros Y Co Hk Ht Hfr Hcl Hin Hkl Hb Hbin Hs.
    destruct (lookup_any s L VR VP lv o acc k ns Y Co Hk Hfr Hcl Hin Hkl Hb Hbin) as (lv2 & _ & T1 & T2 & _). apply (T2 Ht). intros a bs Hi. eauto.
  Qed.
End VarGet.

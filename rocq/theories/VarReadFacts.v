(** Looking up records with variable data and reading their streams. *)
From Verif Require Import Base BaseFacts Config Spline Storage DB VarData Recovery Spec SpecSpline SplineFacts
  SpecPage SpecStore Run SpecRun SpecVar LogFacts PageFacts SearchFacts StoreFacts PutFacts GetFacts BinFacts
  TapeFacts VarFacts VarPutFacts.
Open Scope Z_scope.
Ltac Zify.zify_post_hook ::= ZifyBool.elim_bool_cstr.
Ltac Zify.zify_convert_to_euclidean_division_equations_flag ::= constr:(false).

Lemma skipn_skip {A} (l : list A) n m : skipn m (skipn n l) = skipn (n + m) l.
Proof. revert l. induction n as [|n IH]; intros [|x l]; cbn [skipn Nat.add]; auto. apply skipn_nil. Qed.

Section VarRead.
  Variables (c : cfg) (KB PB f VB : Z).
  Hypothesis G : setting c KB PB.
  Hypothesis V : var_area c VB.
  Notation P := (pageSize c).
  Notation HD := (keySize c + 4).
  Notation NV := (numVar c).
  Notation B := (eraseSize c).
  Notation VS := (VS c).
  Notation Inv := (Inv c KB PB f).
  Notation pg L id := (nth (Z.to_nat id) (pages L) []).
  Let L0 := L0 c KB PB G.
  Let HP := vPH c KB PB G.

  (** ** Lookups of keys that are not in the write buffer *)
  Lemma maxRec127 : maxRec c <= 255.
  Proof. pose proof (va_rec _ _ V). lia. Qed.

  Lemma get_var s L key : Inv s L -> 0 <= key < KB ->
    exists s' r dt, embedDBGet c s key = Ok (s', r, dt) /\ got c KB PB f s L key s' r dt.
  Proof.
    intros I Hk. destruct (useBinary c) eqn:U.
    - destruct (va_bin _ _ V U) as [[? ?] ?]. apply get_binary; auto. apply maxRec127.
    - apply (get_spline c KB PB f G); auto. apply maxRec127.
  Qed.

  Lemma search_img s L key : Inv s L -> 0 < zlen (pages L) -> 0 <= key < KB ->
    exists s1 r1, (if useBinary c then binarySearch c s key else splineSearch c s key) = Ok (s1, r1) /\
      (r1 = 0 -> exists id, 0 <= id < zlen (pages L) /\ img c (pages L) id (rbuf (sd s1))).
  Proof.
    intros I NP Hk. destruct (useBinary c) eqn:U.
    - pose proof (i_wf _ _ _ _ _ _ _ _ I) as W. pose proof (w_lo _ _ _ W) as Wl. pose proof (w_ne _ _ _ W NP) as Wn.
      pose proof (i_PB _ _ _ _ _ _ _ _ I) as IP. pose proof (g_PB _ _ _ G) as GP. pose proof (g_err _ _ _ G) as GE.
      destruct (va_bin _ _ V U) as [[Fi Ft] NR].
      unfold binarySearch. rewrite (i_minD _ _ _ _ _ _ _ _ I), (i_nextD _ _ _ _ _ _ _ _ I).
      rewrite (u32_id (zlen (pages L) - 1)) by lia.
      destruct (bin_ok c KB PB f G Fi NR False L key Hk NP 32 100 s (lo L) (zlen (pages L) - 1) I) as (s' & r & -> & Bo); auto; try lia; try tauto.
      destruct Bo as (S1 & I' & Co' & Br). cbn [bind].
      destruct Br as [[-> Nf]|([-> | ->] & id & Hid & Im & Un)].
      + do 2 eexists. split; [reflexivity|]. lia.
      + do 2 eexists. split; [reflexivity|]. eauto.
      + rewrite Ft. do 2 eexists. split; [reflexivity|]. eauto.
    - destruct (spline_ok c KB PB f G s L key U I NP Hk) as (s' & r & E & S1 & I' & Hr & R0 & _). eauto.
  Qed.

  Lemma get_found s L key : Inv s L -> 0 <= key < KB -> (forall r, In r (cur L) -> rkey r <> key) ->
    exists s' r dt, embedDBGet c s key = Ok (s', r, dt) /\ got c KB PB f s L key s' r dt /\
      (r = 0 -> exists id x, 0 <= id < zlen (pages L) /\ img c (pages L) id (rbuf (sd s')) /\
         find_key key (pg L id) = Some x /\ dt = Some (rdata x)).
  Proof.
    intros I Hk Hc. destruct (get_var s L key I Hk) as (s' & r & dt & E & Gt). exists s', r, dt. split; [auto|]. split; [auto|].
    intros ->. pose proof (i_wf _ _ _ _ _ _ _ _ I) as W. pose proof (i_w _ _ _ _ _ _ _ _ I) as Iw.
    destruct (buffer_ok c KB PB G L key _ W maxRec127 Iw Hk) as (i & Ei & Ri).
    rewrite (proj2 (find_key_none key (cur L)) Hc) in Ei, Ri. cbn [option_map] in Ei.
    destruct (Z.eqb_spec i (-1)) as [->|]; [|discriminate]. pose proof (zlen_nonneg (pages L)) as Zp.
    unfold embedDBGet in E. rewrite (i_nextD _ _ _ _ _ _ _ _ I) in E.
    destruct (Z.eqb_spec (zlen (pages L)) 0) as [P0|P1].
    { rewrite Ei in E. cbn in E. discriminate. }
    rewrite (get_count_ok c L0 _ _ Iw) in E. cbn [bind] in E.
    destruct (search_img s L key I ltac:(lia) Hk) as (s1 & r1 & Es & Im).
    set (stop := if negb (zlen (cur L) =? 0) then _ else _) in E.
    destruct stop as [[[r0 d0]|]| |] eqn:St; try discriminate E.
    { cbn [bind] in E. injection E as <- -> ->. exfalso. unfold stop in St. destruct (negb (zlen (cur L) =? 0)); [|discriminate].
      destruct (max_key c (wbuf (sd s))) as [mx| |]; try discriminate. destruct (min_key c (wbuf (sd s))) as [mn| |]; try discriminate.
      cbn [bind] in St. destruct (key >? mx); [discriminate|]. destruct (key >=? mn); [|discriminate].
      rewrite Ei in St. cbn [bind] in St. discriminate. }
    clear St stop. cbn [bind] in E. rewrite Es in E. cbn [bind] in E.
    destruct (Z.eqb_spec r1 0) as [Er|Er]; [|discriminate]. cbn [negb] in E.
    destruct (Im Er) as (id & Hid & Hi). rewrite (final_ok c KB PB G L key s1 id W Hk Hid Hi) in E.
    injection E as <- E1 E2. destruct (find_key key (pg L id)) as [x|] eqn:F; [|discriminate].
    exists id, x. auto.
  Qed.

  (** ** Streams of arbitrary contents are safe to read *)
  Lemma same_var_sd s s' : same_but_var s s' -> sd s' = sd s /\ si s' = si s /\ sio s' = sio s.
  Proof. intros (A1 & A2 & A3 & _). auto. Qed.

  Lemma loop_safe fuel : forall s VP lv st pg len acc, VS s VP lv -> zlen (vrbuf (sv s)) = P ->
    0 <= len < Z.of_nat fuel -> exists s' st' o, stream_loop c s fuel st pg len acc = Ok (s', st', o) /\
      VS s' VP lv /\ same_but_var s s' /\ (var_fresh s -> var_fresh s').
  Proof.
    pose proof (vP c KB PB G) as Pd. pose proof (vB c KB PB VB G V) as Bd.
    induction fuel as [|fuel IH]; intros s VP lv st pg len acc X Hl Hf; [cbn in Hf; lia|].
    cbn [stream_loop]. destruct ((0 <? len) && (bytesRead st <? totalBytes st)) eqn:C1.
    2:{ do 3 eexists. split; [reflexivity|]. split; [auto|]. split; [apply same_var_refl|auto]. }
    pose proof (Z.mod_pos_bound (fileOffset st) P ltac:(lia)) as Om.
    rewrite (u16_id (fileOffset st mod P)) by lia. set (off := fileOffset st mod P) in *.
    set (amt := Z.min (totalBytes st - bytesRead st) (Z.min (P - off) len)).
    assert (Am : 1 <= amt /\ off + amt <= P /\ amt <= len) by (unfold amt; lia).
    rewrite ld_ok by lia. cbn [bind]. cbv zeta.
    destruct ((0 <? len - amt) && _) eqn:C2.
    - destruct (readV_any c KB PB VB G V s VP lv ((pg + 1) mod NV) X (mod_V c KB PB VB G V (pg + 1))) as (s1 & r & -> & X1 & S1 & Hr & Hv & Fr).
      destruct (Z.eqb_spec r 0) as [->|Nr]; cbn [negb].
      + destruct (IH s1 VP lv (mkStream (totalBytes st) (u32 (bytesRead st + amt)) (u32 (u32 (fileOffset st + amt) + varHdr c)))
                     ((pg + 1) mod NV) (len - amt) (acc ++ zrd (vrbuf (sv s)) off (Z.to_nat amt)) X1 (Hv eq_refl) ltac:(lia))
          as (s2 & st2 & o & E & X2 & S2 & F2).
        cbn [totalBytes bytesRead fileOffset] in *. rewrite E. do 3 eexists. split; [reflexivity|]. split; [auto|].
        split; [eapply same_var_trans; eauto|auto].
      + do 3 eexists. split; [reflexivity|]. auto.
    - destruct (IH s VP lv (mkStream (totalBytes st) (u32 (bytesRead st + amt)) (u32 (fileOffset st + amt)))
                     pg (len - amt) (acc ++ zrd (vrbuf (sv s)) off (Z.to_nat amt)) X Hl ltac:(lia))
          as (s2 & st2 & o & E & X2 & S2 & F2).
      rewrite E. eauto 10.
  Qed.

  Lemma read_safe s VP lv st n : VS s VP lv -> 0 <= n < 2 ^ 32 ->
    exists s' st' o, embedDBVarDataStreamRead c s st n = Ok (s', st', o) /\
      VS s' VP lv /\ same_but_var s s' /\ (var_fresh s -> var_fresh s').
  Proof.
    intros X Hn. unfold embedDBVarDataStreamRead. rewrite (nv_pos c KB PB VB G V).
    destruct (readV_any c KB PB VB G V s VP lv ((fileOffset st / P) mod NV) X (mod_V c KB PB VB G V _)) as (s1 & r & -> & X1 & S1 & Hr & Hv & Fr).
    destruct (Z.eqb_spec r 0) as [->|Nr]; cbn [negb].
    - destruct (loop_safe (Z.to_nat (n + 1)) s1 VP lv st ((fileOffset st / P) mod NV) n [] X1 (Hv eq_refl) ltac:(lia)) as (s2 & st2 & o & E & X2 & S2 & F2).
      rewrite E. do 3 eexists. split; [reflexivity|]. split; [auto|]. split; [eapply same_var_trans; eauto|auto].
    - do 3 eexists. split; [reflexivity|]. auto.
  Qed.

  Lemma reads_safe ns : forall s VP lv st, VS s VP lv -> Forall (fun n => 0 <= n < 2 ^ 32) ns ->
    exists s' st' xs, stream_reads c s st ns = Ok (s', st', xs) /\ VS s' VP lv /\ same_but_var s s'.
  Proof.
    induction ns as [|n ns IH]; intros s VP lv st X Hn; cbn [stream_reads].
    { do 3 eexists. split; [reflexivity|]. split; [auto|apply same_var_refl]. }
    destruct (read_safe s VP lv st n X (Forall_inv Hn)) as (s1 & st1 & o & -> & X1 & S1 & _). cbn [bind].
    destruct (IH s1 VP lv st1 X1 (Forall_inv_tail Hn)) as (s2 & st2 & xs & -> & X2 & S2). cbn [bind].
    do 3 eexists. split; [reflexivity|]. split; [auto|eapply same_var_trans; eauto].
  Qed.

  (** ** Streams of intact payloads *)
  Lemma area_pos : NV * P <> 0.
  Proof. pose proof (vP c KB PB G). pose proof (vB c KB PB VB G V). apply Z.neq_mul_0. lia. Qed.

  (** [d] lies from [p] on, on readable pages. *)
  Definition lies (VP : list page) (p : Z) (d : list Z) : Prop :=
    inside P HD p /\ vread P HD VP p (length d) = d /\ zlen VP - NV <= p / P /\ vskip P HD p (length d) <= zlen VP * P + HD.

  Lemma lies_page (VP : list page) p d : lies VP p d -> 0 < zlen d -> 0 <= p / P /\ zlen VP - NV <= p / P < zlen VP.
  Proof.
    intros (I1 & _ & W1 & W2) Hd. destruct (vskip_inside P HD HP (length d) p I1) as [_ Sk]. unfold zlen in Hd.
    destruct (addr_lt c KB PB G p (zlen VP) HD I1 ltac:(lia) ltac:(lia)) as [D0 [D1|[D1 D2]]]; [lia|].
    destruct I1. lia.
  Qed.

  (** The first bytes, up to the end of the page. *)
  Lemma lies_chunk (VP : list page) p d amt : lies VP p d -> (forall v, 0 <= v < zlen VP -> zlen (vpg VP v) = P) ->
    1 <= amt <= zlen d -> p mod P + amt <= P ->
    zrd (vpg VP (p / P)) (p mod P) (Z.to_nat amt) = firstn (Z.to_nat amt) d /\
    lies VP (vskip P HD p (Z.to_nat amt)) (skipn (Z.to_nat amt) d) /\
    (p mod P + amt < P -> vskip P HD p (Z.to_nat amt) = p + amt) /\
    (p mod P + amt = P -> vskip P HD p (Z.to_nat amt) = p + amt + HD).
  Proof.
    intros Ly Pl Ha Hp. destruct (lies_page VP p d Ly ltac:(lia)) as [V0 Vw]. destruct Ly as (I1 & I2 & I3 & I4).
    destruct (asplit P HD HP p) as [Es Hm]. pose proof (proj2 I1) as Hi.
    set (n := Z.to_nat amt) in *. assert (En : Z.of_nat n = amt) by (unfold n; lia).
    assert (Ed : length d = (n + (length d - n))%nat) by (unfold zlen in Ha; lia).
    assert (Ls : length (skipn n d) = (length d - n)%nat) by apply skipn_length.
    rewrite Ed, vread_app in I2. rewrite Ed, vskip_app in I4. rewrite <- Ls in I2, I4.
    assert (E12 : vread P HD VP p n = firstn n d /\ vread P HD VP (vskip P HD p n) (length (skipn n d)) = skipn n d).
    { apply app_inv_len; [rewrite vread_length, firstn_length; unfold zlen in Ha; lia|]. rewrite firstn_skipn. exact I2. }
    destruct E12 as [E1 E2].
    destruct (vskip_inside P HD HP n p I1) as [In1 Sk1].
    split.
    { rewrite <- E1. pose proof (vread_in P HD HP VP (p / P) n (p mod P) V0) as R.
      change (nth (Z.to_nat (p / P)) VP []) with (vpg VP (p / P)) in R. rewrite <- Es in R. symmetry. apply R; [lia|lia|].
      apply Pl. lia. }
    split.
    { split; [auto|]. split; [auto|]. split; [|auto].
      assert (p / P <= vskip P HD p n / P) by (apply Z.div_le_mono; lia). lia. }
    set (v := p / P) in *. set (o := p mod P) in *. clearbody v o. subst p. split; intros Hc.
    - rewrite (vskip_in P HD HP) by lia. lia.
    - rewrite (vskip_end P HD HP) by lia. lia.
  Qed.

  Lemma stream_loop_ok fuel : forall s VP lv base st d len acc,
    VS s VP lv -> var_fresh s -> base mod (NV * P) = 0 ->
    let p := fileOffset st + base in
    lies VP p d -> zlen d = totalBytes st - bytesRead st -> 0 <= bytesRead st -> totalBytes st < 2 ^ 32 ->
    zlen VP * P + HD - base < 2 ^ 32 -> 0 <= fileOffset st ->
    (0 < zlen d -> 0 < len -> vrbuf (sv s) = vpg VP (p / P)) ->
    0 <= len < Z.of_nat fuel ->
    exists s' st', stream_loop c s fuel st ((p / P) mod NV) len acc = Ok (s', st', Some (acc ++ firstn (Z.to_nat len) d)) /\
      VS s' VP lv /\ same_but_var s s' /\ var_fresh s' /\
      totalBytes st' = totalBytes st /\ bytesRead st' = bytesRead st + Z.min len (zlen d) /\ 0 <= fileOffset st' /\
      (let p' := fileOffset st' + base in p' mod P <> 0 -> lies VP p' (skipn (Z.to_nat len) d)).
  Proof.
    pose proof (vP c KB PB G) as Pd. pose proof (vB c KB PB VB G V) as Bd.
    induction fuel as [|fuel IH]; intros s VP lv base st d len acc X Fr Hb p Ly Zd Br Tb Cap Fo Pg Hf; [cbn in Hf; lia|].
    pose proof (zlen_nonneg d) as Zn.
    cbn [stream_loop]. destruct ((0 <? len) && (bytesRead st <? totalBytes st)) eqn:C1.
    2:{ exists s, st.
        assert (En : firstn (Z.to_nat len) d = [] /\ skipn (Z.to_nat len) d = d /\ Z.min len (zlen d) = 0).
        { destruct (Z.eq_dec len 0) as [->|]; [split; [reflexivity|]; split; [reflexivity|lia]|].
          assert (d = []) as -> by (destruct d; [auto|unfold zlen in *; cbn [length] in *; lia]).
          rewrite firstn_nil, skipn_nil. split; [auto|]. split; [auto|]. change (zlen (@nil Z)) with 0. lia. }
        destruct En as (En1 & En2 & En3). rewrite En1, En2, app_nil_r. split; [reflexivity|]. split; [auto|].
        split; [apply same_var_refl|]. split; [auto|]. split; [auto|]. split; [lia|]. split; [auto|]. intros _. exact Ly. }
    assert (D1 : 0 < zlen d) by lia. specialize (Pg D1 ltac:(lia)).
    destruct (lies_page VP p d Ly D1) as [V0 Vw].
    assert (Om : fileOffset st mod P = p mod P).
    { unfold p. apply Z.mod_divide in Hb as [q ->]; [|apply area_pos]. replace (q * (NV * P)) with (q * NV * P) by lia.
      now rewrite Z_mod_plus_full. }
    destruct (asplit P HD HP p) as [Es Hm]. pose proof (proj2 (proj1 Ly)) as Hi.
    rewrite Om. rewrite (u16_id (p mod P)) by lia.
    set (amt := Z.min (totalBytes st - bytesRead st) (Z.min (P - p mod P) len)).
    assert (Am : (1 <= amt <= zlen d /\ p mod P + amt <= P /\ amt <= len) /\ (amt = zlen d \/ amt = P - p mod P \/ amt = len)) by (unfold amt; lia).
    clearbody amt. destruct Am as [Am Am2].
    pose proof (x_plen _ _ _ _ X) as Pl.
    destruct (lies_chunk VP p d amt Ly Pl ltac:(lia) ltac:(lia)) as (K1 & K2 & K3 & K4).
    rewrite ld_ok by (first [lia|rewrite Pg, Pl by lia; lia]). cbn [bind]. cbv zeta. cbn [totalBytes bytesRead fileOffset].
    rewrite Pg, K1. set (n := Z.to_nat amt) in *. assert (En : Z.of_nat n = amt) by (unfold n; lia). clearbody n.
    assert (Lsk : zlen (skipn n d) = zlen d - amt) by (unfold zlen in *; rewrite skipn_length; lia).
    (* the position stays below 2^32 *)
    assert (Pb : p + amt - base < 2 ^ 32).
    { destruct K2 as (_ & _ & _ & K2). destruct (vskip_inside P HD HP n p (proj1 Ly)) as [In1 Sk1].
      destruct (vskip_inside P HD HP (length (skipn n d)) _ In1) as [_ Q]. clear - K2 Q Cap Sk1 En. lia. }
    rewrite (u32_id (bytesRead st + amt)) by (clear - Br Am Zd Tb; lia).
    assert (Fa : fileOffset st + amt = p + amt - base) by (unfold p; lia).
    rewrite (u32_id (fileOffset st + amt)) by (clear - Pb Fa Fo Am; lia).
    assert (Fl : firstn (Z.to_nat len) d = firstn n d ++ firstn (Z.to_nat (len - amt)) (skipn n d)).
    { rewrite <- (firstn_skipn n d) at 1. rewrite firstn_app. rewrite firstn_firstn.
      replace (Nat.min (Z.to_nat len) n) with n by (clear - En Am; lia). f_equal. f_equal.
      rewrite firstn_length. clear - En Am. unfold zlen in *. lia. }
    assert (Sl : skipn (Z.to_nat len) d = skipn (Z.to_nat (len - amt)) (skipn n d)).
    { rewrite skipn_skip. f_equal. clear - En Am. lia. }
    destruct ((0 <? len - amt) && (bytesRead st + amt <? totalBytes st)) eqn:C2.
    - (* on to the next page *)
      assert (Full : p mod P + amt = P) by (clear - Am Am2 C2 Zd; lia).
      specialize (K4 Full). rewrite K4 in K2.
      destruct (lies_page VP _ _ K2 ltac:(lia)) as [V0' Vw'].
      assert (Dv : (p + amt + HD) / P = p / P + 1).
      { replace (p + amt + HD) with ((p / P + 1) * P + HD) by lia. apply (adiv P HD); lia. }
      rewrite Dv in *.
      assert (Ep : ((p / P) mod NV + 1) mod NV = (p / P + 1) mod NV) by (rewrite Zplus_mod_idemp_l; auto).
      rewrite Ep.
      destruct (readV_ok c KB PB VB G V s VP lv (p / P + 1) X Fr ltac:(lia) ltac:(lia)) as (s1 & -> & X1 & S1 & F1 & Rb & _).
      cbn [negb Z.eqb]. rewrite (vHdr c KB PB G).
      assert (Fb : p + amt + HD - base < 2 ^ 32).
      { destruct K2 as (K2a & _ & _ & K2). destruct (vskip_inside P HD HP (length (skipn n d)) _ K2a) as [_ Q]. clear - K2 Q Cap. lia. }
      rewrite (u32_id (fileOffset st + amt + HD)) by (clear - Fb Fa Fo Am Pd; lia).
      set (st1 := mkStream _ _ _).
      assert (Ep1 : fileOffset st1 + base = p + amt + HD) by (unfold st1; cbn [fileOffset]; clear - Fa; lia).
      destruct (IH s1 VP lv base st1 (skipn n d) (len - amt) (acc ++ firstn n d)) as (s2 & st2 & E & X2 & S2 & F2 & T2 & B2 & O2 & L2); auto.
      { rewrite Ep1. auto. }
      { unfold st1. cbn [totalBytes bytesRead]. clear - Zd Lsk Br Am Fo Pd; lia. }
      { unfold st1. cbn [bytesRead]. clear - Zd Lsk Br Am Fo Pd; lia. }
      { unfold st1. cbn [fileOffset]. clear - Zd Lsk Br Am Fo Pd; lia. }
      { intros _ _. rewrite Ep1, Dv. auto. }
      { clear - Hf Am. lia. }
      rewrite Ep1, Dv in E. rewrite E. exists s2, st2. rewrite <- app_assoc, <- Fl. split; [reflexivity|].
      split; [auto|]. split; [eapply same_var_trans; eauto|]. split; [auto|]. split; [auto|].
      split; [rewrite B2; unfold st1; cbn [bytesRead]; clear - Lsk Am; lia|]. split; [auto|]. intros Hp'. rewrite Sl. apply L2. auto.
    - (* done: nothing wanted or nothing left *)
      assert (Dn : len - amt = 0 \/ zlen d = amt) by (clear - C2 Am Zd; lia).
      set (st1 := mkStream (totalBytes st) (bytesRead st + amt) (fileOffset st + amt)).
      assert (Em : firstn (Z.to_nat (len - amt)) (skipn n d) = []).
      { destruct Dn as [->|Dn]; [reflexivity|]. assert (skipn n d = []) as -> by (apply skipn_all2; clear - Dn En; unfold zlen in Dn; lia). apply firstn_nil. }
      exists s, st1. rewrite Fl, Em, app_nil_r. split.
      { destruct fuel as [|fuel]; [clear - Hf C1; lia|]. cbn [stream_loop]. unfold st1. cbn [totalBytes bytesRead].
        rewrite C2. reflexivity. }
      split; [auto|]. split; [apply same_var_refl|]. split; [auto|]. split; [auto|].
      split; [unfold st1; cbn [bytesRead]; clear - Am Dn; lia|]. split; [unfold st1; cbn [fileOffset]; clear - Fo Am; lia|].
      intros Hp'. assert (Epp : fileOffset st1 + base = p + amt) by (unfold st1; cbn [fileOffset]; clear - Fa; lia).
      change (fileOffset st + amt + base) with (fileOffset st1 + base) in *.
      assert (NF : p mod P + amt < P).
      { destruct (Z.eq_dec (p mod P + amt) P) as [Ef|]; [|clear - Am n0; lia]. exfalso. apply Hp'. rewrite Epp.
        replace (p + amt) with ((p / P + 1) * P + 0) by (clear - Es Ef; lia). apply (amod P). clear - Pd; lia. }
      rewrite (K3 NF) in K2. rewrite Sl, Epp.
      destruct Dn as [->|Dn]; [exact K2|].
      assert (skipn n d = []) as E0 by (apply skipn_all2; clear - Dn En; unfold zlen in Dn; lia). rewrite E0 in *. rewrite skipn_nil. exact K2.
  Qed.

  Lemma read_ok s VP lv base st d len :
    VS s VP lv -> var_fresh s -> base mod (NV * P) = 0 ->
    let p := fileOffset st + base in
    lies VP p d -> zlen d = totalBytes st - bytesRead st -> 0 <= bytesRead st -> totalBytes st < 2 ^ 32 ->
    zlen VP * P + HD - base < 2 ^ 32 -> 0 <= fileOffset st -> 0 < zlen d -> 0 <= len < 2 ^ 32 ->
    exists s' st', embedDBVarDataStreamRead c s st len = Ok (s', st', Some (firstn (Z.to_nat len) d)) /\
      VS s' VP lv /\ same_but_var s s' /\ var_fresh s' /\
      totalBytes st' = totalBytes st /\ bytesRead st' = bytesRead st + Z.min len (zlen d) /\ 0 <= fileOffset st' /\
      (let p' := fileOffset st' + base in p' mod P <> 0 -> lies VP p' (skipn (Z.to_nat len) d)).
  Proof.
    intros X Fr Hb p Ly Zd Br Tb Cap Fo D1 Hl. pose proof (vP c KB PB G) as Pd. pose proof (vB c KB PB VB G V) as Bd.
    destruct (lies_page VP p d Ly D1) as [V0 Vw]. unfold embedDBVarDataStreamRead. rewrite (nv_pos c KB PB VB G V).
    assert (Ev : (fileOffset st / P) mod NV = (p / P) mod NV).
    { unfold p. apply Z.mod_divide in Hb as [q ->]; [|apply area_pos]. replace (q * (NV * P)) with (q * NV * P) by lia.
      rewrite Z_div_plus_full by lia. now rewrite Z_mod_plus_full. }
    rewrite Ev.
    destruct (readV_ok c KB PB VB G V s VP lv (p / P) X Fr V0 Vw) as (s1 & -> & X1 & S1 & F1 & Rb & _). cbn [negb Z.eqb].
    destruct (stream_loop_ok (Z.to_nat (len + 1)) s1 VP lv base st d len [] X1 F1 Hb Ly Zd Br Tb Cap Fo ltac:(auto) ltac:(lia))
      as (s2 & st2 & E & X2 & S2 & F2 & R).
    exists s2, st2. fold p in E. rewrite E. split; [reflexivity|]. split; [auto|]. split; [eapply same_var_trans; eauto|]. auto.
  Qed.

  (** An exhausted stream delivers nothing, wherever it points. *)
  Lemma read_done s VP lv st len : VS s VP lv -> var_fresh s -> bytesRead st = totalBytes st -> 0 <= len < 2 ^ 32 ->
    exists s' o, embedDBVarDataStreamRead c s st len = Ok (s', st, o) /\ (o = None \/ o = Some []) /\
      VS s' VP lv /\ same_but_var s s' /\ var_fresh s'.
  Proof.
    intros X Fr E Hl. unfold embedDBVarDataStreamRead. rewrite (nv_pos c KB PB VB G V).
    destruct (readV_any c KB PB VB G V s VP lv ((fileOffset st / P) mod NV) X (mod_V c KB PB VB G V _)) as (s1 & r & -> & X1 & S1 & Hr & Hv & F1).
    destruct (Z.eqb_spec r 0) as [->|Nr]; cbn [negb].
    - destruct (Z.to_nat (len + 1)) as [|k] eqn:Ek; [lia|]. cbn [stream_loop].
      replace ((0 <? len) && (bytesRead st <? totalBytes st)) with false by lia. do 2 eexists. split; [reflexivity|]. auto 8.
    - do 2 eexists. split; [reflexivity|]. auto 8.
  Qed.

  Lemma reads_ok ns : forall s VP lv base st d,
    VS s VP lv -> var_fresh s -> base mod (NV * P) = 0 ->
    let p := fileOffset st + base in
    (p mod P <> 0 -> lies VP p d) -> zlen d = totalBytes st - bytesRead st -> 0 <= bytesRead st -> totalBytes st < 2 ^ 32 ->
    zlen VP * P + HD - base < 2 ^ 32 -> 0 <= fileOffset st -> reads_inside c s st ns ->
    exists s' st', stream_reads c s st ns = Ok (s', st', pieces d ns) /\ VS s' VP lv /\ same_but_var s s' /\ var_fresh s'.
  Proof.
    pose proof (vP c KB PB G) as Pd. pose proof (vB c KB PB VB G V) as Bd.
    induction ns as [|n ns IH]; intros s VP lv base st d X Fr Hb p Ly Zd Br Tb Cap Fo Ri; cbn [stream_reads pieces].
    { do 2 eexists. split; [reflexivity|]. split; [auto|]. split; [apply same_var_refl|auto]. }
    destruct Ri as (Hn & Ho & Ri). pose proof (zlen_nonneg d) as Zn.
    destruct (Z.eq_dec (bytesRead st) (totalBytes st)) as [Done|Nd].
    - destruct (read_done s VP lv st n X Fr Done Hn) as (s1 & o & E & Oo & X1 & S1 & F1). rewrite E. cbn [bind].
      assert (d = []) as -> by (destruct d; [auto|unfold zlen in Zd; cbn [length] in Zd; lia]).
      rewrite firstn_nil, skipn_nil.
      destruct (IH s1 VP lv base st [] X1 F1 Hb Ly Zd Br Tb Cap Fo (Ri _ _ _ E)) as (s2 & st2 & -> & X2 & S2 & F2). cbn [bind].
      exists s2, st2. split; [destruct Oo as [-> | ->]; reflexivity|]. split; [auto|]. split; [eapply same_var_trans; eauto|auto].
    - assert (Np : p mod P <> 0).
      { destruct Ho as [Ho|Ho]; [|congruence]. unfold p. apply Z.mod_divide in Hb as [q ->]; [|apply area_pos].
        replace (q * (NV * P)) with (q * NV * P) by lia. now rewrite Z_mod_plus_full. }
      destruct (read_ok s VP lv base st d n X Fr Hb (Ly Np) Zd Br Tb Cap Fo ltac:(lia) Hn) as (s1 & st1 & E & X1 & S1 & F1 & T1 & B1 & O1 & L1).
      rewrite E. cbn [bind].
      assert (Zs : zlen (skipn (Z.to_nat n) d) = zlen d - Z.min n (zlen d)) by (unfold zlen in *; rewrite skipn_length; lia).
      destruct (IH s1 VP lv base st1 (skipn (Z.to_nat n) d) X1 F1 Hb L1 ltac:(lia) ltac:(lia) ltac:(lia) Cap O1 (Ri _ _ _ E))
        as (s2 & st2 & -> & X2 & S2 & F2). cbn [bind].
      exists s2, st2. split; [reflexivity|]. split; [auto|]. split; [eapply same_var_trans; eauto|auto].
  Qed.
End VarRead.

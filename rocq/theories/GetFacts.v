(** embedDBGet refines lookup in the retained records. *)
From Verif Require Import Base BaseFacts Config Spline Storage DB Spec SpecSpline SplineFacts
  SpecPage SpecStore LogFacts PageFacts SearchFacts StoreFacts PutFacts.
Open Scope Z_scope.
Ltac Zify.zify_post_hook ::= ZifyBool.elim_bool_cstr.
Ltac Zify.zify_convert_to_euclidean_division_equations_flag ::= constr:(false).

Lemma same_rbuf_trans a b d : same_but_rbuf a b -> same_but_rbuf b d -> same_but_rbuf a d.
Proof.
  intros (A1 & A2 & A3 & p & q & A4) (B1 & B2 & B3 & p' & q' & B4).
  do 3 (split; [congruence|]). exists p', q'. rewrite B4, A4. reflexivity.
Qed.

Section Get.
  Variables (c : cfg) (KB PB f : Z).
  Hypothesis G : setting c KB PB.
  Notation InvG := (InvG c KB PB f).
  Notation Inv := (Inv c KB PB f).
  Notation N := (maxRec c).
  Notation D := (numData c).
  Notation B := (eraseSize c).
  Notation pg L id := (nth (Z.to_nat id) (pages L) []).

  Let L0 := L0 c KB PB G.

  Lemma cmpx_lt a b : 0 <= a < KB -> 0 <= b < KB -> (cmpK c a b <? 0) = (a <? b).
  Proof. intros Ha Hb. rewrite (g_cmp _ _ _ G) by auto. destruct (Z.ltb_spec a b), (Z.eqb_spec a b); lia. Qed.
  Lemma cmpx_gt a b : 0 <= a < KB -> 0 <= b < KB -> (cmpK c a b >? 0) = (b <? a).
  Proof. intros Ha Hb. rewrite (g_cmp _ _ _ G) by auto. destruct (Z.ltb_spec a b), (Z.eqb_spec a b), (Z.ltb_spec b a); lia. Qed.
  Lemma cmpx_le a b : 0 <= a < KB -> 0 <= b < KB -> (cmpK c a b <=? 0) = (a <=? b).
  Proof. intros Ha Hb. rewrite (g_cmp _ _ _ G) by auto. destruct (Z.ltb_spec a b), (Z.eqb_spec a b), (Z.leb_spec a b); lia. Qed.
  Lemma cmpx_ge a b : 0 <= a < KB -> 0 <= b < KB -> (cmpK c a b >=? 0) = (b <=? a).
  Proof. intros Ha Hb. rewrite (g_cmp _ _ _ G) by auto. destruct (Z.ltb_spec a b), (Z.eqb_spec a b), (Z.leb_spec b a); lia. Qed.

  Lemma accepted_rec L r : wf_log c KB L -> In r (accepted L) -> rec_ok c KB r.
  Proof. intros W H. pose proof (w_recs _ _ _ W) as R. rewrite Forall_forall in R. auto. Qed.

  Lemma pages_asc L : wf_log c KB L -> ascending (concat (pages L)).
  Proof. intros W. pose proof (w_asc _ _ _ W) as A. unfold accepted in A. rewrite asc_app in A. tauto. Qed.

  (** The least and the largest key of a page image. *)
  Lemma page_bounds L id p : wf_log c KB L -> 0 <= id < zlen (pages L) -> img c (pages L) id p ->
    exists a b, min_key c p = Ok (rkey a) /\ max_key c p = Ok (rkey b) /\
      In a (pg L id) /\ In b (pg L id) /\ rkey a = kfun (pages L) id /\
      0 <= rkey a < KB /\ 0 <= rkey b < KB /\
      (forall r, In r (pg L id) -> rkey a <= rkey r <= rkey b).
  Proof.
    intros W Hid [Hh _]. destruct (page_ne c KB L id W Hid) as (a & rs & E).
    destruct (page_snoc c KB L id W Hid) as (b & rs' & E').
    assert (Ia : In a (pg L id)) by (rewrite E; now left).
    assert (Ib : In b (pg L id)) by (rewrite E'; apply in_or_app; right; now left).
    pose proof (accepted_rec L a W (accepted_page _ _ _ Ia)) as Ra.
    pose proof (accepted_rec L b W (accepted_page _ _ _ Ib)) as Rb.
    pose proof (asc_page (pages L) (Z.to_nat id) (pages_asc L W)) as As.
    exists a, b. split; [rewrite E in Hh; eapply (min_key_ok c L0); eauto; apply (g_KB _ _ _ G)|].
    split; [rewrite E' in Hh; eapply (max_key_ok c L0); eauto; apply (g_KB _ _ _ G)|].
    do 2 (split; [auto|]). split; [unfold kfun; now rewrite E|].
    split; [apply Ra|]. split; [apply Rb|]. intros r Hr. split.
    - rewrite E in As, Hr. rewrite asc_cons in As. destruct As as [As _]. destruct Hr as [<-|Hr]; [lia|]. specialize (As _ Hr). lia.
    - eapply last_key_max; eauto. rewrite E'. apply last_key_app.
  Qed.

  Lemma page_of_key L id a b r : wf_log c KB L -> 0 <= id < zlen (pages L) ->
    In a (pg L id) -> In b (pg L id) -> rkey a <= rkey r <= rkey b ->
    forall j, 0 <= j < zlen (pages L) -> In r (pg L j) -> j = id.
  Proof.
    intros W Hid Ha Hb Hr j Hj Ir. pose proof (pages_asc L W) as A.
    destruct (Z.lt_trichotomy j id) as [H|[H|H]]; auto.
    - pose proof (pages_order (pages L) (Z.to_nat j) (Z.to_nat id) r a A ltac:(lia) Ir Ha). lia.
    - pose proof (pages_order (pages L) (Z.to_nat id) (Z.to_nat j) b r A ltac:(lia) Hb Ir). lia.
  Qed.

  Definition contains (L : log) (k id : Z) : Prop := exists r, In r (pg L id) /\ rkey r = k.

  (** ** linearSearch *)
  Lemma linear_ok L n w key : 0 <= key < KB -> forall fuel s pageId low high,
    InvG s L n w -> lo L <= low -> high <= zlen (pages L) - 1 -> (low <= high -> low <= pageId <= high) ->
    high - low + 1 < Z.of_nat fuel -> (0 < fuel)%nat ->
    exists s' r, linearSearch c s key fuel pageId low high = Ok (s', r) /\
      same_but_rbuf s s' /\ InvG s' L n w /\ (r = 0 \/ r = -1) /\
      (r = 0 -> exists id, 0 <= id < zlen (pages L) /\ img c (pages L) id (rbuf (sd s'))) /\
      (coh c s L -> coh c s' L /\
        ((forall p, lo L <= p < zlen (pages L) -> contains L key p -> low <= p <= high) ->
         (r = 0 -> exists id, lo L <= id < zlen (pages L) /\ img c (pages L) id (rbuf (sd s')) /\
            forall p, lo L <= p < zlen (pages L) -> contains L key p -> p = id) /\
         (r = -1 -> forall p, lo L <= p < zlen (pages L) -> ~ contains L key p))).
  Proof.
    intros Hk. induction fuel as [|fuel IH]; intros s pageId low high I Hl Hh Hp Hf F0; [lia|].
    clear F0. cbn [linearSearch]. pose proof (i_wf _ _ _ _ _ _ _ _ I) as W.
    pose proof (w_lo _ _ _ W) as Wl. pose proof (w_live _ _ _ W) as Wv.
    rewrite (i_minD _ _ _ _ _ _ _ _ I), (i_nextD _ _ _ _ _ _ _ _ I).
    destruct (Z.le_gt_cases low high) as [Le|Gt].
    2:{ replace (low >? high) with true by lia. rewrite Bool.orb_true_r, !Bool.orb_true_l.
        exists s, (-1). split; [reflexivity|]. split; [apply same_rbuf_refl|]. split; [auto|].
        split; [lia|]. split; [lia|]. intros Co. split; [auto|]. intros H. split; [lia|].
        intros _ p P1 P2. specialize (H p P1 P2). lia. }
    specialize (Hp Le).
    replace ((pageId >? high) || (pageId <? low) || (low >? high) || (pageId <? lo L)
             || (pageId >=? zlen (pages L))) with false by lia.
    destruct (readPage_live c KB PB f G s L _ _ pageId I ltac:(lia)) as (p & -> & Ex & Cp).
    set (s1 := mkS (sio s) (d_rbuf (sd s) p (pageId mod D)) (si s) (sv s)).
    assert (S1 : same_but_rbuf s s1).
    { do 3 (split; [reflexivity|]). do 2 eexists. reflexivity. }
    pose proof (readPage_inv c KB PB f s L _ _ pageId p I Ex) as I1. fold s1 in I1.
    assert (C1 : coh c s L -> coh c s1 L).
    { intros Co. unfold s1. apply (readPage_coh c KB PB G); auto; lia. }
    destruct Ex as (id' & Hid' & Em & Im).
    destruct (page_bounds L id' p W Hid' Im) as (a & b & Ea & Eb & Ia & Ib & Ka & Ra & Rb & Bd).
    change (negb (0 =? 0)) with false. change (rbuf (sd s1)) with p. cbn [negb].
    rewrite Ea. cbn [bind]. rewrite cmpx_lt by auto.
    destruct (Z.ltb_spec key (rkey a)) as [K1|K1].
    { destruct (IH s1 (pageId - 1) low (pageId - 1) I1) as (s' & r & E & A1 & A2 & A3 & A4 & A5); auto; try lia.
      exists s', r. split; [exact E|]. split; [exact (same_rbuf_trans _ _ _ S1 A1)|]. do 3 (split; [auto|]).
      intros Co. destruct (A5 (C1 Co)) as [Co' A6]. split; [auto|]. intros H. apply A6.
      intros q Q1 Q2. pose proof (H q Q1 Q2) as H'. split; [lia|].
      specialize (Cp Co). destruct (page_bounds L pageId p W ltac:(lia) Cp) as (a' & b' & Ea' & _ & Ia' & _ & _ & _ & _ & Bd').
      assert (Eq : rkey a' = rkey a) by congruence.
      destruct (Z.le_gt_cases q (pageId - 1)); auto. destruct Q2 as (r0 & Q2 & Q3).
      destruct (Z.eq_dec q pageId) as [->|]; [specialize (Bd' _ Q2); lia|].
      pose proof (pages_order (pages L) (Z.to_nat pageId) (Z.to_nat q) a' r0 (pages_asc L W) ltac:(lia) Ia' Q2). lia. }
    rewrite Eb. cbn [bind]. rewrite cmpx_gt by auto.
    destruct (Z.ltb_spec (rkey b) key) as [K2|K2].
    { destruct (IH s1 (pageId + 1) (pageId + 1) high I1) as (s' & r & E & A1 & A2 & A3 & A4 & A5); auto; try lia.
      exists s', r. split; [exact E|]. split; [exact (same_rbuf_trans _ _ _ S1 A1)|]. do 3 (split; [auto|]).
      intros Co. destruct (A5 (C1 Co)) as [Co' A6]. split; [auto|]. intros H. apply A6.
      intros q Q1 Q2. pose proof (H q Q1 Q2) as H'. split; [|lia].
      specialize (Cp Co). destruct (page_bounds L pageId p W ltac:(lia) Cp) as (a' & b' & _ & Eb' & _ & Ib' & _ & _ & _ & Bd').
      assert (Eq : rkey b' = rkey b) by congruence.
      destruct (Z.le_gt_cases (pageId + 1) q); auto. destruct Q2 as (r0 & Q2 & Q3).
      destruct (Z.eq_dec q pageId) as [->|]; [specialize (Bd' _ Q2); lia|].
      pose proof (pages_order (pages L) (Z.to_nat q) (Z.to_nat pageId) r0 b' (pages_asc L W) ltac:(lia) Q2 Ib'). lia. }
    exists s1, 0. split; [reflexivity|]. split; [auto|]. split; [auto|]. split; [auto|].
    split; [intros _; exists id'; auto|]. intros Co. split; [auto|]. intros H. split; [intros _|lia].
    specialize (Cp Co). exists pageId. split; [lia|]. split; [exact Cp|].
    destruct (page_bounds L pageId p W ltac:(lia) Cp) as (a' & b' & Ea' & Eb' & Ia' & Ib' & _ & _ & _ & _).
    assert (rkey a' = rkey a /\ rkey b' = rkey b) as [Q1 Q2] by (split; congruence).
    intros q Hq (r0 & R1 & R2). eapply (page_of_key L pageId a' b' r0); eauto; lia.
  Qed.

  (** ** splineSearch *)
  Lemma contains_range L k p : wf_log c KB L -> 0 <= p < zlen (pages L) -> contains L k p ->
    kfun (pages L) p <= k /\ (p < zlen (pages L) - 1 -> k < kfun (pages L) (p + 1)).
  Proof.
    intros W Hp (r & R1 & R2). destruct (page_ne c KB L p W Hp) as (a & rs & E).
    pose proof (asc_page (pages L) (Z.to_nat p) (pages_asc L W)) as As. split.
    - unfold kfun. rewrite E in *. rewrite asc_cons in As. destruct As as [As _]. destruct R1 as [<-|R1]; [lia|].
      specialize (As _ R1). lia.
    - intros Hp'. destruct (page_ne c KB L (p + 1) W ltac:(lia)) as (a' & rs' & E').
      unfold kfun. rewrite E'. assert (In a' (pg L (p + 1))) as Ia by (rewrite E'; now left).
      pose proof (pages_order (pages L) (Z.to_nat p) (Z.to_nat (p + 1)) r a' (pages_asc L W) ltac:(lia) R1 Ia). lia.
  Qed.

  Lemma spline_ok s L key : useBinary c = false -> Inv s L -> 0 < zlen (pages L) -> 0 <= key < KB ->
    exists s' r, splineSearch c s key = Ok (s', r) /\ same_but_rbuf s s' /\ Inv s' L /\
      (r = 0 \/ r = -1) /\
      (r = 0 -> exists id, 0 <= id < zlen (pages L) /\ img c (pages L) id (rbuf (sd s'))) /\
      (coh c s L -> coh c s' L /\
         (r = 0 -> exists id, lo L <= id < zlen (pages L) /\ img c (pages L) id (rbuf (sd s')) /\
            forall p, lo L <= p < zlen (pages L) -> contains L key p -> p = id) /\
         (r = -1 -> forall p, lo L <= p < zlen (pages L) -> ~ contains L key p)).
  Proof.
    intros U I NP Hk. pose proof (i_wf _ _ _ _ _ _ _ _ I) as W. pose proof (w_lo _ _ _ W) as Wl.
    pose proof (w_ne _ _ _ W NP) as Wn. pose proof (i_f _ _ _ _ _ _ _ _ I) as If.
    pose proof (i_PB _ _ _ _ _ _ _ _ I) as IP. pose proof (g_PB _ _ _ G) as GP. pose proof (g_err _ _ _ G) as GE.
    pose proof (i_spl _ _ _ _ _ _ _ _ I) as Is. rewrite U in Is. destruct Is as (sp & E1 & E2 & E3).
    unfold splineSearch. rewrite E1.
    assert (CM : cmp_ok (cmpK c) KB).
    { intros x y Hx Hy. rewrite (g_cmp _ _ _ G) by auto. destruct (Z.ltb_spec x y), (Z.eqb_spec x y); lia. }
    destruct (find_SI _ _ _ _ _ CM _ _ key E2 ltac:(lia) Hk) as (loc & low & high & -> & B1 & B2 & B3).
    cbn [bind]. rewrite (i_minD _ _ _ _ _ _ _ _ I).
    assert (Rg : forall p, lo L <= p < zlen (pages L) -> contains L key p -> low <= p <= high).
    { intros p Hp Hc. destruct (contains_range L key p W ltac:(lia) Hc). apply B3; auto. lia. }
    destruct (Z.ltb_spec high (lo L)) as [Hh|Hh].
    { exists s, (-1). split; [reflexivity|]. split; [apply same_rbuf_refl|]. split; [auto|]. split; [auto|].
      split; [lia|]. intros Co. split; [auto|]. split; [lia|]. intros _ p P1 P2. specialize (Rg p P1 P2). lia. }
    set (ll := if low <? lo L then _ else _).
    assert (Ell : exists loc' low', ll = (loc', low') /\ lo L <= low' <= loc' /\ loc' <= high /\
              (forall p, lo L <= p < zlen (pages L) -> contains L key p -> low' <= p <= high)).
    { unfold ll. destruct (Z.ltb_spec low (lo L)).
      - eexists _, _. split; [reflexivity|]. rewrite u32_id by lia.
        assert (lo L <= (lo L + high) / 2) by (apply Z.div_le_lower_bound; lia).
        assert ((lo L + high) / 2 <= high) by (apply Z.div_le_upper_bound; lia).
        split; [lia|]. split; [lia|]. intros p P1 P2. specialize (Rg p P1 P2). lia.
      - eexists _, _. split; [reflexivity|]. split; [lia|]. split; [lia|]. auto. }
    destruct Ell as (loc' & low' & -> & L1 & L2 & L3). clear Rg B3.
    pose proof (i_rb _ _ _ _ _ _ _ _ I) as Rb.
    assert (Lin : exists s' r, ('(s, r) <- linearSearch c s key (Z.to_nat (Z.max (high - low') 0 + 3)) loc' low' high ;;
                 if r =? -1 then Ok (s, -1) else Ok (s, 0)) = Ok (s', r) /\ same_but_rbuf s s' /\ Inv s' L /\
      (r = 0 \/ r = -1) /\
      (r = 0 -> exists id, 0 <= id < zlen (pages L) /\ img c (pages L) id (rbuf (sd s'))) /\
      (coh c s L -> coh c s' L /\
         (r = 0 -> exists id, lo L <= id < zlen (pages L) /\ img c (pages L) id (rbuf (sd s')) /\
            forall p, lo L <= p < zlen (pages L) -> contains L key p -> p = id) /\
         (r = -1 -> forall p, lo L <= p < zlen (pages L) -> ~ contains L key p))).
    { destruct (linear_ok L _ _ key Hk (Z.to_nat (Z.max (high - low') 0 + 3)) s loc' low' high I) as (s' & r & -> & A1 & A2 & A3 & A4 & A5); try lia.
      exists s', r. cbn [bind]. split; [destruct A3 as [-> | ->]; reflexivity|]. do 4 (split; [auto|]).
      intros Co. destruct (A5 Co) as [Co' A6]. split; [auto|]. apply A6; auto. }
    destruct ((low' <=? bufD (sd s)) && (high >=? bufD (sd s))) eqn:Hb; [|exact Lin].
    (* the read buffer holds a live page *)
    destruct Rb as [Rb|[(id & Hid & Eid & Im)|[_ Rb]]]; [unfold NOPAGE in Rb; lia| |lia].
    destruct (page_bounds L id _ W Hid Im) as (a & b & Ea & Eb & Ia & Ib & Ka & Ra & Rbb & Bd).
    rewrite Ea. cbn [bind]. rewrite cmpx_le by auto.
    destruct (Z.leb_spec (rkey a) key) as [K1|K1]; [|exact Lin].
    rewrite Eb. cbn [bind]. rewrite cmpx_ge by auto.
    destruct (Z.leb_spec key (rkey b)) as [K2|K2]; [|exact Lin].
    clear Lin. exists s, 0. split; [reflexivity|]. split; [apply same_rbuf_refl|]. split; [auto|]. split; [auto|].
    split; [intros _; exists id; auto|]. intros Co. split; [auto|]. split; [intros _|lia].
    pose proof (w_live _ _ _ W) as Wv. pose proof (g_D _ _ _ G) as GD. pose proof (g_B _ _ _ G) as GB.
    set (q := bufD (sd s)) in *.
    assert (Qd : 0 <= q < D) by (rewrite Eid; apply Z.mod_pos_bound; lia).
    assert (Cq : img c (pages L) q (rbuf (sd s))).
    { apply Co; [lia|]. apply Z.mod_small; auto. }
    exists q. split; [lia|]. split; [exact Cq|].
    destruct (page_bounds L q _ W ltac:(lia) Cq) as (a' & b' & Ea' & Eb' & Ia' & Ib' & _ & _ & _ & _).
    assert (rkey a' = rkey a /\ rkey b' = rkey b) as [Q1 Q2] by (split; congruence).
    intros p Hp (r0 & R1 & R2). eapply (page_of_key L q a' b' r0); eauto; lia.
  Qed.

  (** ** The final search inside the page *)
  Lemma final_ok L key s id : wf_log c KB L -> 0 <= key < KB -> 0 <= id < zlen (pages L) ->
    img c (pages L) id (rbuf (sd s)) ->
    (i <- embedDBSearchNode c (rbuf (sd s)) key ;;
     match i with
     | Some i => dt <- rec_data c (rbuf (sd s)) i ;; Ok (s, 0, Some dt)
     | None => Ok (s, -1, None)
     end) = Ok (s, match find_key key (pg L id) with Some _ => 0 | None => -1 end,
                option_map rdata (find_key key (pg L id))).
  Proof.
    intros W Hk Hid [Im _]. pose proof (g_KB _ _ _ G) as GK. pose proof (g_cmp _ _ _ G) as GC.
    pose proof (page_recs c KB L id W) as Pr. pose proof (asc_page (pages L) (Z.to_nat id) (pages_asc L W)) as As.
    pose proof (searchNode_find c KB L0 (proj2 GK) GC _ _ key Im As Pr Hk) as S.
    destruct (find_key key (pg L id)) as [r|].
    - destruct S as (i & -> & Hi). cbn [bind option_map].
      rewrite (rec_data_ok c L0 _ _ _ _ Im Hi); [reflexivity|].
      rewrite Forall_forall in Pr. apply (Pr r). eapply nth_error_In; eauto.
    - rewrite S. reflexivity.
  Qed.

  Lemma retained_asc L : wf_log c KB L -> ascending (retained L).
  Proof.
    intros W. pose proof (w_asc _ _ _ W) as A. unfold accepted in A. unfold retained.
    assert (E : concat (pages L) = concat (firstn (Z.to_nat (lo L)) (pages L)) ++ concat (livePages L)).
    { unfold livePages. rewrite <- concat_app, firstn_skipn. auto. }
    rewrite E, <- app_assoc, asc_app in A. tauto.
  Qed.
  Lemma retained_accepted L r : In r (retained L) -> In r (accepted L).
  Proof.
    unfold retained, accepted. intros H. apply in_app_or in H as [H|H]; apply in_or_app; [left|now right].
    unfold livePages in H. rewrite <- (firstn_skipn (Z.to_nat (lo L)) (pages L)), concat_app.
    apply in_or_app. now right.
  Qed.

  (** Outcome of a lookup. *)
  Definition got (s : state) (L : log) (key : Z) (s' : state) (r : Z) (dt : option (list Z)) : Prop :=
    same_but_rbuf s s' /\ Inv s' L /\
    exists o, r = match o with Some _ => 0 | None => -1 end /\ dt = option_map rdata o /\
      (forall x, o = Some x -> In x (accepted L) /\ rkey x = key) /\
      (coh c s L -> coh c s' L /\ 
         (forall x, In x (retained L) -> rkey x = key -> o = Some x) /\
         (useBinary c = false -> o = find_key key (retained L))).

  Lemma got_here s L key o : Inv s L -> o = find_key key (retained L) ->
    got s L key s match o with Some _ => 0 | None => -1 end (option_map rdata o).
  Proof.
    intros I ->. pose proof (i_wf _ _ _ _ _ _ _ _ I) as W. pose proof (retained_asc L W) as A.
    split; [apply same_rbuf_refl|]. split; [auto|]. eexists. split; [reflexivity|]. split; [reflexivity|]. split.
    - intros x H. apply (find_key_some key _ x A) in H as [H1 H2]. split; auto. now apply retained_accepted.
    - intros Co. split; [auto|]. split; [|auto]. intros x H1 H2. apply find_key_some; auto.
  Qed.

  Lemma buffer_ok L key p : wf_log c KB L -> N <= 255 -> holds c p (cur L) -> 0 <= key < KB ->
    exists i, searchBuffer c p key = Ok (i, option_map rdata (find_key key (cur L))) /\
      (if negb (i =? -1) then 0 else -1) = match find_key key (cur L) with Some _ => 0 | None => -1 end.
  Proof.
    intros W Hn Hh Hk. pose proof (g_KB _ _ _ G) as GK.
    pose proof (searchBuffer_ok c KB L0 (proj2 GK) (g_cmp _ _ _ G) p (cur L) key Hn Hh (cur_asc c KB L W) (cur_recs c KB L W) Hk) as S.
    destruct (find_key key (cur L)) as [r|].
    - destruct S as (i & -> & Hi). exists i. split; [reflexivity|]. destruct (Z.eqb_spec i (-1)); [lia|reflexivity].
    - rewrite S. exists (-1). split; reflexivity.
  Qed.

  Lemma found_page L key id : wf_log c KB L -> lo L <= id < zlen (pages L) ->
    (forall p, lo L <= p < zlen (pages L) -> contains L key p -> p = id) ->
    (forall r, In r (cur L) -> rkey r <> key) ->
    find_key key (pg L id) = find_key key (retained L).
  Proof.
    intros W Hid H Hc. pose proof (w_lo _ _ _ W) as Wl. pose proof (retained_asc L W) as A.
    pose proof (asc_page (pages L) (Z.to_nat id) (pages_asc L W)) as As.
    destruct (find_key key (retained L)) as [r|] eqn:E.
    - apply find_key_some in E as [E1 E2]; auto. apply find_key_some; auto. split; auto.
      unfold retained in E1. apply in_app_or in E1 as [E1|E1]; [|exfalso; eapply Hc; eauto].
      apply in_live in E1 as (p & P1 & P2); [|lia]. rewrite <- (H p P1); auto. exists r. auto.
    - rewrite find_key_none in *. intros r Hr. apply E. unfold retained. apply in_or_app. left.
      apply in_live; [lia|]. exists id. auto.
  Qed.

  (** embedDBGet up to the search for the page. *)
  Lemma get_pre s L key : Inv s L -> N <= 255 -> 0 <= key < KB ->
    (exists s' r dt, embedDBGet c s key = Ok (s', r, dt) /\ got s L key s' r dt) \/
    (0 < zlen (pages L) /\ (forall r, In r (cur L) -> rkey r <> key) /\
     embedDBGet c s key =
        ('(s, r) <- (if useBinary c then binarySearch c s key else splineSearch c s key) ;;
        if negb (r =? 0) then Ok (s, -1, None)
        else
          i <- embedDBSearchNode c (rbuf (sd s)) key ;;
          match i with
          | Some i => dt <- rec_data c (rbuf (sd s)) i ;; Ok (s, 0, Some dt)
          | None => Ok (s, -1, None)
          end)).
  Proof.
    intros I Hn Hk. pose proof (i_wf _ _ _ _ _ _ _ _ I) as W. pose proof (i_w _ _ _ _ _ _ _ _ I) as Iw.
    pose proof (w_lo _ _ _ W) as Wl. pose proof (g_KB _ _ _ G) as GK.
    pose proof (zlen_nonneg (pages L)) as Zp. pose proof (w_asc _ _ _ W) as Wa. unfold accepted in Wa.
    rewrite asc_app in Wa. destruct Wa as (_ & Ca & Ord).
    unfold embedDBGet. rewrite (i_nextD _ _ _ _ _ _ _ _ I).
    destruct (buffer_ok L key _ W Hn Iw Hk) as (i & Ei & Ri).
    destruct (Z.eqb_spec (zlen (pages L)) 0) as [P0|P1].
    { left. rewrite Ei. cbn [bind]. rewrite Ri. do 3 eexists. split; [reflexivity|].
      apply (got_here s L key (find_key key (cur L))); auto.
      unfold retained, livePages. assert (pages L = []) as -> by (destruct (pages L); [auto|unfold zlen in P0; cbn in P0; lia]).
      now rewrite skipn_nil. }
    rewrite (get_count_ok c L0 _ _ Iw). cbn [bind].
    destruct (Z.eqb_spec (zlen (cur L)) 0) as [C0|C1]; cbn [negb].
    { right. cbn [bind]. split; [lia|]. split; [|reflexivity].
      intros r Hr. destruct (cur L); [destruct Hr|unfold zlen in C0; cbn in C0; lia]. }
    destruct (cur L) as [|a l] eqn:Ecur; [now cbn in C1|].
    destruct (exists_last (l := a :: l)) as (l' & b & El'); [discriminate|].
    pose proof (cur_recs c KB L W) as Cr. rewrite Ecur in Cr. rewrite Forall_forall in Cr.
    assert (Ib : In b (a :: l)) by (rewrite El'; apply in_or_app; right; now left).
    assert (Mx : max_key c (wbuf (sd s)) = Ok (rkey b)).
    { rewrite El' in Iw. eapply (max_key_ok c L0); eauto. apply GK. }
    rewrite Mx. cbn [bind].
    rewrite (min_key_ok c L0 _ a l KB (proj2 GK) Iw) by (apply Cr; now left). cbn [bind].
    assert (Low : forall r, In r (concat (pages L)) -> rkey r < rkey a) by (intros r Hr; apply Ord; [auto|now left]).
    assert (Lv : forall r, In r (concat (livePages L)) -> rkey r < rkey a).
    { intros r Hr. apply Low. unfold livePages in Hr.
      rewrite <- (firstn_skipn (Z.to_nat (lo L)) (pages L)), concat_app. apply in_or_app. now right. }
    assert (Cb : forall r, In r (a :: l) -> rkey a <= rkey r <= rkey b).
    { intros r Hr. split.
      - rewrite asc_cons in Ca. destruct Ca as [Ca _]. destruct Hr as [<-|Hr]; [lia|]. specialize (Ca _ Hr). lia.
      - eapply last_key_max; eauto. rewrite El'. apply last_key_app. }
    assert (Ab := Cb b Ib).
    rewrite Z.gtb_ltb.
    destruct (Z.ltb_spec (rkey b) key) as [K1|K1].
    { left. cbn [bind]. do 3 eexists. split; [reflexivity|].
      apply (got_here s L key None); auto. symmetry. rewrite find_key_none. intros r Hr.
      unfold retained in Hr. rewrite Ecur in Hr. apply in_app_or in Hr as [Hr|Hr]; [specialize (Lv _ Hr)|specialize (Cb _ Hr)]; lia. }
    rewrite Z.geb_leb.
    destruct (Z.leb_spec (rkey a) key) as [K2|K2].
    { left. rewrite Ei. cbn [bind]. rewrite Ri. do 3 eexists. split; [reflexivity|].
      apply (got_here s L key (find_key key (a :: l))); auto.
      symmetry. unfold retained. rewrite Ecur. destruct (find_key key (a :: l)) as [r|] eqn:E.
      - apply find_key_some in E as [E1 E2]; auto. apply find_key_some.
        + pose proof (retained_asc L W) as A. unfold retained in A. now rewrite Ecur in A.
        + split; auto. apply in_or_app. now right.
      - rewrite find_key_none in *. intros r Hr. apply in_app_or in Hr as [Hr|Hr]; [|auto]. specialize (Lv _ Hr). lia. }
    right. cbn [bind]. split; [lia|]. split; [|reflexivity]. intros r Hr. specialize (Cb _ Hr). lia.
  Qed.

  Theorem get_spline s L key : Inv s L -> useBinary c = false -> N <= 255 -> 0 <= key < KB ->
    exists s' r dt, embedDBGet c s key = Ok (s', r, dt) /\ got s L key s' r dt.
  Proof.
    intros I U Hn Hk. destruct (get_pre s L key I Hn Hk) as [H|(NP & Hc & ->)]; [exact H|].
    rewrite U. pose proof (i_wf _ _ _ _ _ _ _ _ I) as W. pose proof (w_lo _ _ _ W) as Wl.
    destruct (spline_ok s L key U I NP Hk) as (s' & r & -> & S1 & I' & Hr & R0 & Co). cbn [bind].
    destruct Hr as [-> | ->].
    - destruct (R0 eq_refl) as (id0 & Hid0 & Im0). cbn [negb Z.eqb].
      rewrite (final_ok L key s' id0 W Hk Hid0 Im0). do 3 eexists. split; [reflexivity|].
      split; [auto|]. split; [auto|]. eexists. split; [reflexivity|]. split; [reflexivity|]. split.
      + intros x Hx. apply find_key_some in Hx as [H1 H2]; [|apply asc_page, pages_asc; auto].
        split; auto. eapply accepted_page; eauto.
      + intros C. destruct (Co C) as (C' & (id & Hid & Im & Un) & _); auto. split; [auto|].
        (* the two descriptions of the read buffer agree *)
        assert (id0 = id) by (destruct Im0 as [_ P1], Im as [_ P2]; congruence). subst id0.
        pose proof (found_page L key id W Hid Un Hc) as E. rewrite E. split; auto.
        intros x H1 H2. apply find_key_some; auto. apply retained_asc; auto.
    - change (negb (-1 =? 0)) with true. cbv iota. do 3 eexists. split; [reflexivity|].
      split; [auto|]. split; [auto|]. exists None. split; [reflexivity|]. split; [reflexivity|]. split; [discriminate|].
      intros C. destruct (Co C) as (C' & _ & Nf). specialize (Nf eq_refl). split; [auto|].
      assert (E : find_key key (retained L) = None).
      { rewrite find_key_none. intros x Hx Ek. unfold retained in Hx. apply in_app_or in Hx as [Hx|Hx]; [|eapply Hc; eauto].
        apply in_live in Hx as (p & P1 & P2); [|lia]. apply (Nf p P1). exists x. auto. }
      split; [|auto]. intros x H1 H2. rewrite find_key_none in E. exfalso. eapply E; eauto.
  Qed.
End Get.

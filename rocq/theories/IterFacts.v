(** Iterators return exactly the retained records satisfying the query. *)
From Verif Require Import Base BaseFacts Config Spline Storage DB Recovery Spec SpecSpline SplineFacts
  SpecPage SpecStore SpecIter Run SpecRun LogFacts PageFacts SearchFacts StoreFacts PutFacts GetFacts.
Open Scope Z_scope.
Ltac Zify.zify_post_hook ::= ZifyBool.elim_bool_cstr.
Ltac Zify.zify_convert_to_euclidean_division_equations_flag ::= constr:(false).

Lemma skipn_at {A} (l : list A) i x : nth_error l i = Some x -> skipn i l = x :: skipn (S i) l.
Proof.
  revert l; induction i as [|i IH]; intros [|y l] H; try discriminate.
  - injection H as ->. reflexivity.
  - cbn [nth_error] in H. change (skipn (S (S i)) (y :: l)) with (skipn (S i) l). exact (IH l H).
Qed.

Lemma skipn_plus {A} (l : list A) a b : skipn (a + b) l = skipn a (skipn b l).
Proof.
  revert l; induction b as [|b IH]; intros l; [rewrite Nat.add_0_r; reflexivity|].
  destruct l; [now rewrite !skipn_nil|]. rewrite Nat.add_succ_r. cbn [skipn]. apply IH.
Qed.

Lemma filter_len {A} (g : A -> bool) l : (length (filter g l) <= length l)%nat.
Proof. induction l as [|x l IH]; cbn; [auto|]. destruct (g x); cbn; lia. Qed.

(** A state that differs only in the read buffers. *)
Definition same_but_bufs (s s' : state) : Prop :=
  sio s' = sio s /\ sv s' = sv s /\
  (exists p q, sd s' = d_rbuf (sd s) p q) /\ (exists p q, si s' = i_rbuf (si s) p q).

Lemma bufs_refl s : same_but_bufs s s.
Proof.
  do 2 (split; [auto|]). split; [exists (rbuf (sd s)), (bufD (sd s)); destruct (sd s); reflexivity|].
  exists (irbuf (si s)), (bufI (si s)); destruct (si s); reflexivity.
Qed.
Lemma bufs_trans a b d : same_but_bufs a b -> same_but_bufs b d -> same_but_bufs a d.
Proof.
  intros (A1 & A2 & (p & q & A3) & (p1 & q1 & A4)) (B1 & B2 & (p' & q' & B3) & (p2 & q2 & B4)).
  do 2 (split; [congruence|]). split; [exists p', q'; rewrite B3, A3; reflexivity|exists p2, q2; rewrite B4, A4; reflexivity].
Qed.
Lemma rbuf_bufs s s' : same_but_rbuf s s' -> same_but_bufs s s'.
Proof.
  intros (A1 & A2 & A3 & p & q & A4). do 2 (split; [auto|]). split; [eauto|].
  exists (irbuf (si s)), (bufI (si s)). rewrite A2. destruct (si s); reflexivity.
Qed.

(** The first page for keys below the key of every page. *)
Lemma find_low kf f KB PB cmp sp n q : cmp_ok cmp KB -> SI kf f KB PB sp n -> f < n -> 0 <= q < KB -> q < kf f ->
  exists loc high, spl_find cmp sp q = Ok (loc, f, high).
Proof.
  intros CM H Hn Q Hq. destruct (SI_knots _ _ _ _ _ _ H Hn) as (ps & P & Ch & In' & L1 & Cnt & L2 & Last).
  destruct H. destruct (nth_z ps 0) as [p Hp]; [lia|].
  destruct P as [_ P]. apply P in Hp as E. change (Z.of_nat (Z.to_nat 0)) with 0 in E.
  assert (R : f <= p < n) by (apply In'; eapply nth_error_In; eauto).
  assert (kf f <= kf p).
  { destruct (Z.eq_dec f p) as [->|]; [lia|]. pose proof (si_mono f p ltac:(lia) ltac:(lia) ltac:(lia)). lia. }
  unfold spl_find. rewrite E. cbn [fst snd].
  assert (C : (cmp q (kf p) <? 0) = true).
  { destruct (CM q (kf p) Q ltac:(apply si_kf; lia)). lia. }
  rewrite C. cbn [orb]. rewrite si_first by lia. cbn [snd]. eauto.
Qed.

Section Iter.
  Variables (c : cfg) (KB PB f : Z).
  Hypothesis G : setting c KB PB.
  Notation Inv := (Inv c KB PB f).
  Notation N := (maxRec c).
  Notation D := (numData c).
  Let L0 := L0 c KB PB G.

  (** ** The record filter *)
  Definition dead (q : query) (rs : list rcd) : Prop := Forall (fun r => in_query c q r = false) rs.

  Lemma check_ok it r : query_ok KB (it_query it) -> 0 <= rkey r < KB ->
    match it_check c it (rkey r) (rdata r) with
    | Match => in_query c (it_query it) r = true
    | Skip => in_query c (it_query it) r = false
    | Stop => exists k, itMaxK it = Some k /\ k < rkey r
    end.
  Proof.
    intros [Q1 Q2] Hr. unfold it_check, in_query, it_query in *. cbn [qMinK qMaxK qMinD qMaxD] in *.
    assert (B1 : forall k, itMinK it = Some k -> (cmpK c (rkey r) k <? 0) = negb (k <=? rkey r)).
    { intros k E. rewrite (cmpx_lt c KB PB G) by auto. lia. }
    assert (B2 : forall k, itMaxK it = Some k -> (cmpK c (rkey r) k >? 0) = negb (rkey r <=? k)).
    { intros k E. rewrite (cmpx_gt c KB PB G) by auto. lia. }
    destruct (itMinK it) as [k1|]; [rewrite (B1 _ eq_refl); destruct (k1 <=? rkey r); cbn [negb andb]; [|reflexivity]|cbn [andb]].
    all: destruct (itMaxK it) as [k2|]; [rewrite (B2 _ eq_refl); destruct (Z.leb_spec (rkey r) k2); cbn [negb andb];
      [|exists k2; split; [auto|lia]]|cbn [andb]].
    all: destruct (itMinD it) as [d1|]; [destruct (Z.ltb_spec (cmpD c (rdata r) d1) 0), (Z.geb_spec (cmpD c (rdata r) d1) 0); try lia; cbn [andb]; try reflexivity|cbn [andb]].
    all: destruct (itMaxD it) as [d2|]; [destruct (Z.gtb_spec (cmpD c (rdata r) d2) 0), (Z.leb_spec (cmpD c (rdata r) d2) 0); try lia; reflexivity|reflexivity].
  Qed.

  Lemma it_rec_query it j : it_query (it_rec it j) = it_query it.
  Proof. reflexivity. Qed.

  (** The record loop on a page holding [rs]: it stops at the first record that
      is not skipped. *)
  Lemma recs_ok p rs : holds c p rs -> Forall (rec_ok c KB) rs ->
    forall fuel it out, query_ok KB (it_query it) -> 0 <= itRec it ->
    zlen rs - itRec it < Z.of_nat fuel -> (0 < fuel)%nat ->
    (exists out', next_recs c p (zlen rs) fuel it out = Ok (it_rec it (Z.max (itRec it) (zlen rs)), None, out') /\
       dead (it_query it) (skipn (Z.to_nat (itRec it)) rs) /\
       (out' = out \/ exists x, In x rs /\ out' = Some (kv x))) \/
    (exists pre x post b, skipn (Z.to_nat (itRec it)) rs = pre ++ x :: post /\
       dead (it_query it) pre /\
       next_recs c p (zlen rs) fuel it out =
         Ok (it_rec it (itRec it + zlen pre + 1), Some b, Some (kv x)) /\
       (b = 1 /\ in_query c (it_query it) x = true \/
        b = 0 /\ exists k, itMaxK it = Some k /\ k < rkey x)).
  Proof.
    intros H Hr. pose proof (h_max _ _ _ H) as Hm. pose proof (l_fit c L0) as Fit.
    induction fuel as [|fuel IH]; intros it out Hq Hp Hf Hpos; [lia|].
    cbn [next_recs]. destruct (Z.ltb_spec (itRec it) (zlen rs)) as [Lt|Ge].
    2:{ left. exists out. split; [|split; [|auto]].
        - rewrite Z.max_l by lia. destruct it; reflexivity.
        - rewrite skipn_all2 by (unfold zlen in *; lia). constructor. }
    destruct (nth_error rs (Z.to_nat (itRec it))) as [r|] eqn:E.
    2:{ apply nth_error_None in E. unfold zlen in *. lia. }
    assert (Sk : skipn (Z.to_nat (itRec it)) rs = r :: skipn (Z.to_nat (itRec it + 1)) rs).
    { replace (Z.to_nat (itRec it + 1)) with (S (Z.to_nat (itRec it))) by lia. apply skipn_at; auto. }
    assert (R : rec_ok c KB r) by (eapply Forall_forall; [exact Hr|eapply nth_error_In; eauto]).
    pose proof (rec_key_ok c L0 p rs (Z.to_nat (itRec it)) r KB (proj2 (g_KB _ _ _ G)) H E R) as RK.
    pose proof (rec_data_ok c L0 p rs (Z.to_nat (itRec it)) r H E (proj1 (proj2 R))) as RD.
    rewrite Z2Nat.id in RK, RD by lia. rewrite RK. cbn [bind]. rewrite RD. cbn [bind].
    rewrite u16_id by lia. destruct R as (R1 & _). pose proof (check_ok it r Hq R1) as Ck.
    destruct (it_check c it (rkey r) (rdata r)) eqn:Ec.
    - right. exists [], r, (skipn (Z.to_nat (itRec it + 1)) rs), 1. split; [exact Sk|]. split; [constructor|].
      split; [|left; auto]. change (zlen (@nil rcd)) with 0. rewrite Z.add_0_r. reflexivity.
    - specialize (IH (it_rec it (itRec it + 1)) (Some (kv r)) Hq). cbn [itRec it_rec] in IH.
      specialize (IH ltac:(lia) ltac:(lia) ltac:(lia)).
      change (it_query (it_rec it (itRec it + 1))) with (it_query it) in IH.
      change (itMaxK (it_rec it (itRec it + 1))) with (itMaxK it) in IH.
      destruct IH as [(o & En & Hd & Ho)|(pre & x & post & b & E1 & E2 & En & E3)].
      + left. exists o. unfold kv in En. rewrite En. split; [|split].
        * f_equal. f_equal. f_equal. rewrite !Z.max_r by lia. reflexivity.
        * rewrite Sk. constructor; auto.
        * right. destruct Ho as [->|Ho]; [|exact Ho]. exists r. split; [|reflexivity]. eapply nth_error_In; eauto.
      + right. exists (r :: pre), x, post, b. rewrite Sk, E1. split; [reflexivity|]. split; [constructor; auto|].
        unfold kv in En. rewrite En. split; [|auto]. rewrite zlen_cons. do 3 f_equal. unfold it_rec. f_equal. lia.
    - right. exists [], r, (skipn (Z.to_nat (itRec it + 1)) rs), 0. split; [exact Sk|]. split; [constructor|].
      split; [|right; auto]. change (zlen (@nil rcd)) with 0. rewrite Z.add_0_r. reflexivity.
  Qed.

  Lemma in_skipn_l {A} n (l : list A) x : In x (skipn n l) -> In x l.
  Proof. intros H. rewrite <- (firstn_skipn n l). apply in_or_app; auto. Qed.

  (** ** Positions *)
  Definition pgn (L : log) (p : Z) : list rcd := nth (Z.to_nat p) (pages L ++ [cur L]) [].

  Lemma pgn_page L p : 0 <= p < zlen (pages L) -> pgn L p = nth (Z.to_nat p) (pages L) [].
  Proof. unfold pgn, zlen. intros H. rewrite app_nth1 by lia. reflexivity. Qed.
  Lemma pgn_cur L : pgn L (zlen (pages L)) = cur L.
  Proof. unfold pgn, zlen. rewrite Nat2Z.id, app_nth2, Nat.sub_diag by lia. reflexivity. Qed.

  Lemma after_page L p r : 0 <= p <= zlen (pages L) -> 0 <= r <= zlen (pgn L p) ->
    after L p r = skipn (Z.to_nat r) (pgn L p) ++ after L (p + 1) 0.
  Proof.
    intros Hp Hr. unfold after. change (Z.to_nat 0) with 0%nat. rewrite skipn_O.
    assert (E : nth_error (pages L ++ [cur L]) (Z.to_nat p) = Some (pgn L p)).
    { apply nth_error_nth'. rewrite app_length. cbn [length]. unfold zlen in *. lia. }
    rewrite (skipn_at _ _ _ E). cbn [concat]. rewrite skipn_app.
    replace (Z.to_nat r - length (pgn L p))%nat with 0%nat by (unfold zlen in *; lia). rewrite skipn_O.
    do 3 f_equal. lia.
  Qed.
  Lemma after_end L p r : zlen (pages L) < p -> after L p r = [].
  Proof.
    intros H. unfold after. rewrite (skipn_all2 (pages L ++ [cur L])).
    - apply skipn_nil.
    - rewrite app_length. cbn [length]. unfold zlen in *. lia.
  Qed.
  Lemma after_all L : after L 0 0 = accepted L.
  Proof. unfold after, accepted. change (Z.to_nat 0) with 0%nat. rewrite !skipn_O, concat_app. cbn [concat]. now rewrite app_nil_r. Qed.
  Lemma after_retained L : wf_log c KB L -> after L (lo L) 0 = retained L.
  Proof.
    intros W. pose proof (w_lo _ _ _ W). unfold after, retained, livePages. change (Z.to_nat 0) with 0%nat. rewrite skipn_O.
    rewrite skipn_app. replace (Z.to_nat (lo L) - length (pages L))%nat with 0%nat by (unfold zlen in *; lia).
    rewrite skipn_O, concat_app. cbn [concat]. now rewrite app_nil_r.
  Qed.

  Lemma skipn_concat {A} (Q : list (list A)) n : exists pre, concat Q = pre ++ concat (skipn n Q).
  Proof.
    exists (concat (firstn n Q)). rewrite <- concat_app. now rewrite firstn_skipn.
  Qed.
  Lemma after_asc L p r : wf_log c KB L -> ascending (after L p r).
  Proof.
    intros W. pose proof (w_asc _ _ _ W) as A. rewrite <- after_all in A. unfold after in *.
    change (Z.to_nat 0) with 0%nat in A. rewrite !skipn_O in A.
    destruct (skipn_concat (pages L ++ [cur L]) (Z.to_nat p)) as [pre E]. rewrite E, asc_app in A.
    destruct A as (_ & A & _).
    rewrite <- (firstn_skipn (Z.to_nat r)) in A. rewrite asc_app in A. tauto.
  Qed.

  Lemma dead_app q a b : dead q (a ++ b) <-> dead q a /\ dead q b.
  Proof. unfold dead. apply Forall_app. Qed.
  Lemma dead_above q k rs : qMaxK q = Some k -> (forall r, In r rs -> k < rkey r) -> dead q rs.
  Proof.
    intros E H. unfold dead. apply Forall_forall. intros r I. specialize (H r I). unfold in_query. rewrite E.
    replace (rkey r <=? k) with false by lia. now rewrite Bool.andb_false_r.
  Qed.
  Lemma dead_below q k rs : qMinK q = Some k -> (forall r, In r rs -> rkey r < k) -> dead q rs.
  Proof.
    intros E H. unfold dead. apply Forall_forall. intros r I. specialize (H r I). unfold in_query. rewrite E.
    replace (k <=? rkey r) with false by lia. reflexivity.
  Qed.
  Lemma dead_filter q rs : dead q rs -> filter (in_query c q) rs = [].
  Proof. induction 1 as [|r rs H _ IH]; cbn; [auto|]. now rewrite H. Qed.

  (** ** The page loop *)
  Section Loop.
    (** What is known about the index (used by the bitmap test). *)
    Variable J : state -> log -> Prop.
    Variable bm : option (list Z).
    Variable Q : query.
    Hypothesis J_read : forall s L p n, J s L -> J (mkS (sio s) (d_rbuf (sd s) p n) (si s) (sv s)) L.
    Hypothesis J_skip : forall s L it, Inv s L -> J s L -> itBM it = bm -> it_query it = Q ->
      lo L <= itPage it <= zlen (pages L) -> 0 <= itRec it ->
      exists s' b, next_skip c s it = Ok (s', Some b) /\ same_but_bufs s s' /\ sd s' = sd s /\ J s' L /\
        (b = true -> itRec it = 0 /\ dead (it_query it) (pgn L (itPage it))).
    Hypothesis HQ : query_ok KB Q.

    Lemma Inv_bufs s s' L : Inv s L -> same_but_bufs s s' -> sd s' = sd s -> Inv s' L.
    Proof.
      intros [] (E1 & E2 & _ & (p & q & E4)) E3. constructor; rewrite ?E1, ?E3; auto.
      intros U. specialize (i_idx U). rewrite E4, E3, E1. exact i_idx.
    Qed.

    Lemma loop_ok L : forall fuel s sw it out, Inv s L -> J s L -> itBM it = bm -> it_query it = Q ->
      lo L <= itPage it -> 0 <= itRec it ->
      (sw = true -> zlen (pages L) <= itPage it) ->
      zlen (pages L) - itPage it + 1 < Z.of_nat fuel -> (0 < fuel)%nat ->
      exists s' it' r out', next_loop c s fuel sw it out = Ok (s', it', r, out') /\
        same_but_bufs s s' /\ Inv s' L /\ J s' L /\ it_query it' = Q /\ itBM it' = bm /\
        lo L <= itPage it' <= Z.max (itPage it) (zlen (pages L) + 1) /\ 0 <= itRec it' /\ (r = 0 \/ r = 1) /\
        (r = 1 -> itPage it <= itPage it' <= zlen (pages L) /\ itRec it' <= N /\
                  (itPage it' = itPage it -> itRec it < itRec it')) /\
        (coh c s L -> (itPage it <= zlen (pages L) -> itRec it <= zlen (pgn L (itPage it))) ->
          coh c s' L /\
          (r = 0 -> dead Q (after L (itPage it) (itRec it))) /\
          (r = 1 -> exists pre x, after L (itPage it) (itRec it) = pre ++ x :: after L (itPage it') (itRec it') /\
             dead Q pre /\ in_query c Q x = true /\ out' = Some (kv x) /\
             itPage it' <= zlen (pages L) /\ itRec it' <= zlen (pgn L (itPage it'))) /\
          (r = 0 -> dead Q (after L (itPage it') (itRec it')) /\
             (itPage it' <= zlen (pages L) -> itRec it' <= zlen (pgn L (itPage it')))) /\
          (out' = out \/ exists x, In x (accepted L) /\ out' = Some (kv x))).
    Proof.
      induction fuel as [|fuel IH]; intros s sw it out I HJ Eb Eq Hl Hr Hsw Hf F0; [lia|].
      clear F0. cbn [next_loop]. pose proof (i_wf _ _ _ _ _ _ _ _ I) as W.
      pose proof (w_lo _ _ _ W) as Wl. pose proof (w_live _ _ _ W) as Wv.
      pose proof (i_PB _ _ _ _ _ _ _ _ I) as IP. pose proof (g_PB _ _ _ G) as GP. pose proof (g_err _ _ _ G) as GE.
      rewrite (i_nextD _ _ _ _ _ _ _ _ I).
      destruct (Z.gtb_spec (itPage it) (zlen (pages L))) as [Gt|Le].
      { exists s, it, 0, out. split; [reflexivity|]. split; [apply bufs_refl|]. do 4 (split; [auto|]).
        split; [lia|]. split; [auto|]. split; [auto|]. split; [lia|]. intros Co _. split; [auto|].
        rewrite after_end by lia. split; [intros _; constructor|]. split; [lia|]. split; [|auto]. intros _. split; [constructor|lia]. }
      destruct (J_skip s L it I HJ Eb Eq ltac:(lia) Hr) as (s1 & b & -> & S1 & D1 & J1 & Sk). cbn [bind].
      pose proof (Inv_bufs s s1 L I S1 D1) as I1.
      assert (C1 : coh c s L -> coh c s1 L) by (unfold coh; now rewrite D1).
      destruct b.
      { destruct (Sk eq_refl) as (R0 & Dd). clear Sk. rewrite u32_id by lia.
        set (sw1 := if itPage it =? zlen (pages L) then true else sw).
        assert (Hsw1 : sw1 = true -> zlen (pages L) <= itPage it).
        { unfold sw1. destruct (Z.eqb_spec (itPage it) (zlen (pages L))); [lia|auto]. }
        clearbody sw1.
        destruct (IH s1 sw1 (it_page it (itPage it + 1) (itRec it)) out I1 J1 Eb Eq) as
          (s' & it' & r & out' & E & A1 & A2 & A3 & A4 & A5 & A6 & A7 & A8 & Pg & A9);
          cbn [itPage itRec it_page] in *; try lia.
        exists s', it', r, out'. split; [exact E|]. split; [eapply bufs_trans; eauto|]. do 4 (split; [auto|]).
        split; [lia|]. split; [auto|]. split; [auto|]. split; [lia|]. intros Co Hp. rewrite R0 in A9 |- *.
        destruct (A9 (C1 Co)) as (B1 & B2 & B3 & B4 & B5); [intros; apply zlen_nonneg|].
        rewrite (after_page L (itPage it) 0) by (pose proof (zlen_nonneg (pgn L (itPage it))); lia).
        change (Z.to_nat 0) with 0%nat. rewrite skipn_O. rewrite Eq in Dd.
        split; [auto|]. split; [intros; apply dead_app; auto|]. split; [|split; [exact B4|exact B5]].
        intros Er. destruct (B3 Er) as (pre & x & E1 & E2 & E3). exists (pgn L (itPage it) ++ pre), x.
        rewrite E1, app_assoc. split; [auto|]. split; [apply dead_app; auto|auto]. }
      clear Sk.
      (* the page examined *)
      set (sw1 := if itPage it =? zlen (pages L) then true else sw).
      assert (PG : exists s2 rs, (if sw1 then (s1, 0) else readPage s1 (itPage it mod numData c)) = (s2, 0) /\
                holds c (if sw1 then wbuf (sd s2) else rbuf (sd s2)) rs /\
                Forall (rec_ok c KB) rs /\ (forall x, In x rs -> In x (accepted L)) /\ same_but_bufs s s2 /\ Inv s2 L /\ J s2 L /\
                (sw1 = true -> zlen (pages L) <= itPage it) /\
                (coh c s L -> coh c s2 L /\
                   holds c (if sw1 then wbuf (sd s2) else rbuf (sd s2)) (pgn L (itPage it)) /\
                   Forall (rec_ok c KB) (pgn L (itPage it)))).
      { unfold sw1. destruct (Z.eqb_spec (itPage it) (zlen (pages L))) as [En|Nn].
        - exists s1, (cur L). split; [reflexivity|].
          pose proof (i_w _ _ _ _ _ _ _ _ I1) as Hw. pose proof (cur_recs c KB L W) as Hc.
          split; [exact Hw|]. split; [exact Hc|]. split; [intros x Hx; unfold accepted; apply in_or_app; auto|]. do 3 (split; [auto|]). split; [lia|].
          intros Co. split; [auto|]. rewrite En, pgn_cur. auto.
        - assert (sw = false) as -> by (destruct sw; auto; specialize (Hsw eq_refl); lia).
          destruct (readPage_live c KB PB f G s1 L _ _ (itPage it) I1 ltac:(lia)) as (p & Er & Ex & Cp).
          rewrite Er.
          pose proof (readPage_inv c KB PB f s1 L _ _ (itPage it) p I1 Ex) as I2.
          destruct Ex as (id' & Hid' & Em & Im).
          eexists _, (nth (Z.to_nat id') (pages L) []). split; [reflexivity|]. split; [apply Im|].
          split; [eapply page_recs; eauto|].
          split. { intros x Hx. unfold accepted. apply in_or_app. left. apply in_concat. eexists. split; [|exact Hx].
                   apply nth_In. unfold zlen in Hid'. lia. }
          split. { eapply bufs_trans; [exact S1|]. apply rbuf_bufs. do 3 (split; [reflexivity|]). do 2 eexists. reflexivity. }
          split; [exact I2|]. split; [apply J_read; auto|]. split; [lia|].
          intros Co. specialize (Cp (C1 Co)). split; [apply (readPage_coh c KB PB G); auto; lia|].
          rewrite pgn_page by lia. split; [apply Cp|eapply page_recs; eauto]. }
      clearbody sw1. destruct PG as (s2 & rs & -> & Hh & Hrs & Irs & S2 & I2 & J2 & Hsw1 & Cg).
      change (negb (0 =? 0)) with false. cbv iota.
      set (p := if sw1 then wbuf (sd s2) else rbuf (sd s2)) in *. clearbody p.
      rewrite (get_count_ok c L0 _ _ Hh). cbn [bind].
      pose proof (zlen_nonneg rs) as Zr.
      rewrite <- Eq in HQ.
      destruct (recs_ok p rs Hh Hrs (Z.to_nat (zlen rs + 1)) it out HQ Hr ltac:(lia) ltac:(lia))
        as [(o & En & _ & Ho)|(pre & x & post & b & Es0 & _ & En & Hb)].
      - rewrite En. cbn [bind]. rewrite u32_id by (cbn [itPage it_rec]; lia).
        change (itPage (it_rec it (Z.max (itRec it) (zlen rs)))) with (itPage it).
        destruct (IH s2 sw1 (it_page (it_rec it (Z.max (itRec it) (zlen rs))) (itPage it + 1) 0) o I2 J2 Eb Eq) as
          (s' & it' & r & out' & E & A1 & A2 & A3 & A4 & A5 & A6 & A7 & A8 & Pg & A9);
          cbn [itPage itRec it_page it_rec] in *; try lia.
        exists s', it', r, out'. split; [exact E|]. split; [eapply bufs_trans; eauto|]. do 4 (split; [auto|]).
        split; [lia|]. split; [auto|]. split; [auto|]. split; [lia|]. intros Co Hp.
        destruct (Cg Co) as (Co2 & Hh' & Hrs'). destruct (A9 Co2) as (B1 & B2 & B3 & B4 & B5); [intros; apply zlen_nonneg|].
        specialize (Hp Le). rewrite (after_page L (itPage it) (itRec it)) by lia.
        assert (Zn : zlen rs = zlen (pgn L (itPage it))).
        { pose proof (get_count_ok c L0 _ _ Hh) as X. rewrite (get_count_ok c L0 _ _ Hh') in X. congruence. }
        assert (Dd : dead Q (skipn (Z.to_nat (itRec it)) (pgn L (itPage it)))).
        { rewrite Zn in En, Zr. 
          destruct (recs_ok p _ Hh' Hrs' (Z.to_nat (zlen (pgn L (itPage it)) + 1)) it out HQ Hr ltac:(lia) ltac:(lia))
            as [(o' & En' & Dd & _)|(pre' & x' & post' & b' & _ & _ & En' & _)]; [now rewrite <- Eq|].
          rewrite En in En'. discriminate. }
        split; [auto|]. split; [intros; apply dead_app; auto|]. split; [|split; [exact B4|]].
        2:{ destruct B5 as [->|B5]; [|right; exact B5]. destruct Ho as [->|(x & X1 & X2)]; [auto|].
            right. exists x. split; [|exact X2]. now apply Irs. }
        intros Er. destruct (B3 Er) as (pre & x & E1 & E2 & E3).
        exists (skipn (Z.to_nat (itRec it)) (pgn L (itPage it)) ++ pre), x.
        rewrite E1, app_assoc. split; [auto|]. split; [apply dead_app; auto|auto].
      - rewrite En. cbn [bind]. eexists _, _, _, _. split; [reflexivity|]. split; [auto|]. split; [auto|]. split; [auto|].
        split; [exact Eq|]. split; [exact Eb|]. cbn [itPage itRec it_rec]. split; [lia|].
        pose proof (zlen_nonneg pre) as Zp. split; [lia|]. split; [lia|].
        split.
        { intros _. split; [lia|]. split; [|lia]. pose proof (h_max _ _ _ Hh) as Hm.
          pose proof (f_equal (@length _) Es0) as X. rewrite skipn_length, app_length in X. cbn [length] in X.
          unfold zlen in *. lia. }
        intros Co Hp.
        destruct (Cg Co) as (Co2 & Hh' & Hrs'). specialize (Hp Le).
        assert (Zn : zlen rs = zlen (pgn L (itPage it))).
        { pose proof (get_count_ok c L0 _ _ Hh) as X. rewrite (get_count_ok c L0 _ _ Hh') in X. congruence. }
        rewrite (after_page L (itPage it) (itRec it)) by lia.
        rewrite Zn in En, Zr. 
        destruct (recs_ok p _ Hh' Hrs' (Z.to_nat (zlen (pgn L (itPage it)) + 1)) it out HQ Hr ltac:(lia) ltac:(lia))
            as [(o' & En' & Dd & _)|(pre' & x' & post' & b' & Es & Dp & En' & Hb')].
        { rewrite En in En'. discriminate. }
        rewrite En in En'. injection En' as E1 E2 E3 E4. rewrite Eq in *.
        assert (AA : after L (itPage it) (itRec it) = pre' ++ x' :: (post' ++ after L (itPage it + 1) 0)).
        { rewrite after_page by lia. rewrite Es, <- app_assoc. reflexivity. }
        assert (Lp : zlen (pgn L (itPage it)) = itRec it + zlen pre' + 1 + zlen post').
        { pose proof (f_equal (@length _) Es) as X. rewrite skipn_length, app_length in X. cbn [length] in X.
          unfold zlen in *. lia. }
        pose proof (zlen_nonneg post').
        assert (Sp : skipn (Z.to_nat (itRec it + zlen pre' + 1)) (pgn L (itPage it)) = post').
        { replace (Z.to_nat (itRec it + zlen pre' + 1)) with (S (length pre') + Z.to_nat (itRec it))%nat
            by (unfold zlen; lia).
          rewrite skipn_plus, Es. rewrite skipn_app, skipn_all2 by lia.
          replace (S (length pre') - length pre')%nat with 1%nat by lia. reflexivity. }
        assert (AB : after L (itPage it) (itRec it + zlen pre + 1) = post' ++ after L (itPage it + 1) 0).
        { rewrite E1, after_page by lia. now rewrite Sp. }
        assert (Dd : b = 0 -> dead Q (x' :: post' ++ after L (itPage it + 1) 0)).
        { intros ->. destruct Hb' as [[Hb' _]|[_ (k & K1 & K2)]]; [lia|].
          eapply dead_above; [rewrite <- Eq; exact K1|].
          pose proof (after_asc L (itPage it) (itRec it) W) as As. rewrite AA, asc_app in As.
          destruct As as (_ & As & _). rewrite asc_cons in As. destruct As as [As _].
          intros y [<-|Iy]; [auto|]. specialize (As y Iy). lia. }
        split; [auto|]. split; [|split; [|split]].
        + intros Hb0. rewrite Es, <- app_assoc. apply dead_app. split; [auto|]. apply Dd; auto.
        + intros ->. destruct Hb' as [[_ Hq]|[Hb' _]]; [|lia].
          exists pre', x'. rewrite Es, <- app_assoc. cbn [app]. rewrite AB.
          split; [reflexivity|]. split; [auto|]. split; [auto|].
          split; [unfold kv; congruence|]. split; [lia|lia].
        + intros Hb0. rewrite AB. split; [|lia]. specialize (Dd Hb0). inversion Dd; auto.
        + right. exists x. split; [|reflexivity]. apply Irs. apply (in_skipn_l (Z.to_nat (itRec it))). rewrite Es0. apply in_or_app. right. left. reflexivity.
    Qed.

    Lemma next_ok s L it : Inv s L -> J s L -> itBM it = bm -> it_query it = Q ->
      lo L <= itPage it <= zlen (pages L) + 1 -> 0 <= itRec it ->
      exists s' it' r out', embedDBNext c s it = Ok (s', it', r, out') /\
        same_but_bufs s s' /\ Inv s' L /\ J s' L /\ it_query it' = Q /\ itBM it' = bm /\
        lo L <= itPage it' <= zlen (pages L) + 1 /\ 0 <= itRec it' /\ (r = 0 \/ r = 1) /\
        (r = 1 -> itPage it <= itPage it' <= zlen (pages L) /\ itRec it' <= N /\
                  (itPage it' = itPage it -> itRec it < itRec it')) /\
        (coh c s L -> (itPage it <= zlen (pages L) -> itRec it <= zlen (pgn L (itPage it))) ->
          coh c s' L /\
          (r = 0 -> dead Q (after L (itPage it) (itRec it))) /\
          (r = 1 -> exists pre x, after L (itPage it) (itRec it) = pre ++ x :: after L (itPage it') (itRec it') /\
             dead Q pre /\ in_query c Q x = true /\ out' = Some (kv x) /\
             itPage it' <= zlen (pages L) /\ itRec it' <= zlen (pgn L (itPage it'))) /\
          (r = 0 -> dead Q (after L (itPage it') (itRec it')) /\
             (itPage it' <= zlen (pages L) -> itRec it' <= zlen (pgn L (itPage it')))) /\
          (out' = None \/ exists x, In x (accepted L) /\ out' = Some (kv x))).
    Proof.
      intros I HJ Eb Eq Hp Hr. unfold embedDBNext. rewrite (i_nextD _ _ _ _ _ _ _ _ I).
      destruct (loop_ok L (Z.to_nat (Z.max (zlen (pages L) - itPage it) 0 + 3)) s false it None I HJ Eb Eq) as
        (s' & it' & r & out' & E & A1 & A2 & A3 & A4 & A5 & A6 & A7 & A8 & Pg & A9); try lia.
      exists s', it', r, out'. rewrite Z.max_r in A6 by lia. auto 14.
    Qed.

    Lemma filter_dead a b : dead Q a -> filter (in_query c Q) (a ++ b) = filter (in_query c Q) b.
    Proof. intros H. rewrite filter_app, dead_filter by auto. reflexivity. Qed.

    Lemma drain_ok L : forall fuel s it, Inv s L -> J s L -> coh c s L -> itBM it = bm -> it_query it = Q ->
      lo L <= itPage it <= zlen (pages L) -> 0 <= itRec it <= zlen (pgn L (itPage it)) ->
      zlen (filter (in_query c Q) (after L (itPage it) (itRec it))) < Z.of_nat fuel ->
      exists s' it', drain c s it fuel = Ok (s', it', map kv (filter (in_query c Q) (after L (itPage it) (itRec it)))) /\
        same_but_bufs s s' /\ Inv s' L /\ J s' L /\ coh c s' L.
    Proof.
      induction fuel as [|fuel IH]; intros s it I HJ Co Eb Eq Hp Hr Hf.
      { pose proof (zlen_nonneg (filter (in_query c Q) (after L (itPage it) (itRec it)))). lia. }
      cbn [drain].
      destruct (next_ok s L it I HJ Eb Eq ltac:(lia) ltac:(lia)) as
        (s' & it' & r & out' & -> & A1 & A2 & A3 & A4 & A5 & A6 & A7 & A8 & Pg & A9). cbn [bind].
      destruct (A9 Co ltac:(lia)) as (C' & N0 & N1 & _ & _). destruct A8 as [-> | ->].
      - rewrite Z.eqb_refl. exists s', it'. rewrite dead_filter by auto. auto.
      - change (1 =? 0) with false. cbv iota. destruct (N1 eq_refl) as (pre & x & E1 & E2 & E3 & -> & P1 & P2).
        rewrite E1, filter_dead in Hf |- * by auto. cbn [filter] in Hf |- *. rewrite E3 in Hf |- *.
        rewrite zlen_cons in Hf.
        destruct (IH s' it' A2 A3 C' A5 A4 ltac:(lia) ltac:(lia) ltac:(lia)) as (s2 & it2 & -> & B1 & B2 & B3 & B4).
        cbn [bind]. exists s2, it2. split; [reflexivity|]. split; [eapply bufs_trans; eauto|]. auto.
    Qed.

    (** Without any assumption on the read buffer: a scan ends. *)
    Lemma drain_ends L : forall fuel s it, Inv s L -> J s L -> itBM it = bm -> it_query it = Q ->
      lo L <= itPage it <= zlen (pages L) + 1 -> 0 <= itRec it <= N ->
      (zlen (pages L) + 1 - itPage it) * (N + 1) - itRec it + N < Z.of_nat fuel ->
      exists s' it' xs, drain c s it fuel = Ok (s', it', xs) /\ same_but_bufs s s' /\ Inv s' L /\ J s' L.
    Proof.
      pose proof (l_fit c L0) as Fit. induction fuel as [|fuel IH]; intros s it I HJ Eb Eq Hp Hr Hf; [nia|]. cbn [drain].
      destruct (next_ok s L it I HJ Eb Eq ltac:(lia) ltac:(lia)) as
        (s' & it' & r & out' & -> & A1 & A2 & A3 & A4 & A5 & A6 & A7 & A8 & Pg & _). cbn [bind].
      destruct A8 as [-> | ->].
      - rewrite Z.eqb_refl. exists s', it', []. auto.
      - change (1 =? 0) with false. cbv iota. specialize (Pg eq_refl) as (P1 & P2 & P3).
        destruct (IH s' it' A2 A3 A5 A4 ltac:(lia) ltac:(lia)) as (s2 & it2 & xs & -> & B1 & B2 & B3).
        { assert (X : itPage it' = itPage it \/ itPage it + 1 <= itPage it') by lia. destruct X as [X|X].
          - specialize (P3 X). rewrite X. lia.
          - clear - X P1 P2 A7 Hr Hf. nia. }
        cbn [bind]. eexists s2, it2, _. split; [reflexivity|]. split; [eapply bufs_trans; eauto|]. auto.
    Qed.
  End Loop.

  (** ** Starting an iterator *)
  Definition bm_of (q : query) : option (list Z) :=
    if useBmap c then
      match qMinD q, qMaxD q with None, None => None | _, _ => Some (buildBM c (qMinD q) (qMaxD q)) end
    else None.

  Lemma after_from L p q : 0 <= p <= q -> q <= zlen (pages L) ->
    exists pre, after L p 0 = pre ++ after L q 0 /\
      forall r, In r pre -> exists i, p <= i < q /\ In r (nth (Z.to_nat i) (pages L) []).
  Proof.
    intros H1 H2. unfold after. change (Z.to_nat 0) with 0%nat. rewrite !skipn_O.
    exists (concat (firstn (Z.to_nat q - Z.to_nat p) (skipn (Z.to_nat p) (pages L)))). split.
    - rewrite !skipn_app. replace (Z.to_nat p - length (pages L))%nat with 0%nat by (unfold zlen in *; lia).
      replace (Z.to_nat q - length (pages L))%nat with 0%nat by (unfold zlen in *; lia). rewrite !skipn_O, !concat_app.
      rewrite app_assoc. f_equal. rewrite <- concat_app. f_equal.
      replace (Z.to_nat q) with ((Z.to_nat q - Z.to_nat p) + Z.to_nat p)%nat at 2 by lia.
      rewrite skipn_plus, firstn_skipn. reflexivity.
    - intros r Hr. apply in_concat in Hr as (pg & Hp & Hr). apply In_nth_error in Hp as [i Hi].
      assert (Li : (i < Z.to_nat q - Z.to_nat p)%nat).
      { assert (X : nth_error (firstn (Z.to_nat q - Z.to_nat p) (skipn (Z.to_nat p) (pages L))) i <> None) by congruence.
        apply nth_error_Some in X. rewrite firstn_length in X. lia. }
      assert (X : nth i (firstn (Z.to_nat q - Z.to_nat p) (skipn (Z.to_nat p) (pages L))) [] = pg)
        by (eapply nth_error_nth; eauto).
      rewrite nth_firstn in X by lia. rewrite BaseFacts.nth_skipn in X.
      exists (p + Z.of_nat i). split; [lia|]. replace (Z.to_nat (p + Z.of_nat i)) with (Z.to_nat p + i)%nat by lia.
      now rewrite X.
  Qed.

  Lemma init_ok s L q : useBinary c = false -> Inv s L -> query_ok KB q ->
    exists it, embedDBInitIterator c s (qMinK q) (qMaxK q) (qMinD q) (qMaxD q) = Ok it /\
      it_query it = q /\ itBM it = bm_of q /\ lo L <= itPage it <= zlen (pages L) /\ itRec it = 0 /\
      exists pre, retained L = pre ++ after L (itPage it) 0 /\ dead q pre.
  Proof.
    intros U I [Hq1 Hq2]. pose proof (i_wf _ _ _ _ _ _ _ _ I) as W.
    pose proof (w_lo _ _ _ W) as Wl. pose proof (i_f _ _ _ _ _ _ _ _ I) as If.
    pose proof (i_spl _ _ _ _ _ _ _ _ I) as Is. rewrite U in Is. destruct Is as (sp & E1 & E2 & E3).
    unfold embedDBInitIterator. rewrite E1, (i_minD _ _ _ _ _ _ _ _ I). fold (bm_of q).
    assert (Base : exists it, Ok (mkIt (lo L) 0 (qMinK q) (qMaxK q) (qMinD q) (qMaxD q) (bm_of q)) = Ok it /\
      it_query it = q /\ itBM it = bm_of q /\ lo L <= itPage it <= zlen (pages L) /\ itRec it = 0 /\
      exists pre, retained L = pre ++ after L (itPage it) 0 /\ dead q pre).
    { eexists. split; [reflexivity|]. cbn [it_query itPage itRec itBM itMinK itMaxK itMinD itMaxD]. split; [destruct q; reflexivity|]. split; [auto|]. split; [lia|]. split; [auto|].
      exists []. rewrite after_retained by auto. split; [reflexivity|constructor]. }
    destruct (qMinK q) as [k|] eqn:Ek; [|exact Base].
    rewrite U. cbn [negb]. rewrite Bool.andb_true_r.
    destruct (Z.eqb_spec (s_count sp) 0) as [Z0|Z0]; cbn [negb]; [exact Base|]. clear Base.
    assert (NP : f < zlen (pages L)).
    { destruct (Z.eq_dec f (zlen (pages L))) as [Ef|]; [|lia]. destruct E2. destruct si_case as [(_ & X & _)|[(X & _)|(X & _)]]; lia. }
    pose proof (w_ne _ _ _ W ltac:(lia)) as Wn.
    assert (CM : cmp_ok (cmpK c) KB).
    { intros x y Hx Hy. rewrite (g_cmp _ _ _ G) by auto. destruct (Z.ltb_spec x y), (Z.eqb_spec x y); lia. }
    specialize (Hq1 k eq_refl).
    destruct (find_SI _ _ _ _ _ CM _ _ k E2 NP Hq1) as (loc & low & high & Ef & B1 & B2 & B3).
    rewrite Ef. cbn [bind]. eexists. split; [reflexivity|]. cbn [it_query itPage itRec itBM itMinK itMaxK itMinD itMaxD].
    split; [rewrite <- Ek; destruct q; reflexivity|]. split; [auto|]. split; [lia|]. split; [auto|].
    rewrite <- (after_retained L W).
    destruct (after_from L (lo L) (Z.max low (lo L))) as (pre & Ea & Hpre); [lia|lia|].
    exists pre. split; [exact Ea|]. eapply dead_below; [exact Ek|]. intros r Hr.
    destruct (Hpre r Hr) as (i & Hi & Ir). clear Hpre.
    assert (K1 : rkey r < kfun (pages L) (i + 1)).
    { apply (contains_range c KB L (rkey r) i W ltac:(lia)); [exists r; auto|lia]. }
    cut (kfun (pages L) (i + 1) <= k); [lia|]. clear K1.
    destruct (Z.le_gt_cases (kfun (pages L) (i + 1)) k) as [?|Hk]; [auto|exfalso].
    destruct (Z.le_gt_cases (kfun (pages L) f) k) as [Hf|Hf].
    - (* the last page whose first key is at most k *)
      assert (X : exists p, f <= p <= i /\ kfun (pages L) p <= k /\ k < kfun (pages L) (p + 1)).
      { clear - Hk Hf Hi If. assert (f <= i) by lia. clear Hi. remember (Z.to_nat (i - f)) as m. revert i Hk H Heqm.
        induction m as [|m IHm]; intros i Hk H E.
        - exists f. assert (i = f) as -> by lia. split; [lia|auto].
        - destruct (Z.le_gt_cases (kfun (pages L) i) k); [exists i; split; [lia|auto]|].
          destruct (IHm (i - 1)) as (p & P1 & P2); try lia.
          { replace (i - 1 + 1) with i by lia. auto. }
          exists p. split; [lia|auto]. }
      destruct X as (p & P1 & P2 & P3). specialize (B3 p ltac:(lia) P2 ltac:(auto)). lia.
    - destruct (find_low _ _ _ _ _ _ _ k CM E2 NP Hq1 Hf) as (loc' & high' & Ef'). rewrite Ef in Ef'. injection Ef' as -> -> ->. lia.
  Qed.

  (** ** Scans without the bitmap test *)
  Lemma noskip q : bm_of q = None -> forall s L it, Inv s L -> True -> itBM it = bm_of q -> it_query it = q ->
      lo L <= itPage it <= zlen (pages L) -> 0 <= itRec it ->
      exists s' b, next_skip c s it = Ok (s', Some b) /\ same_but_bufs s s' /\ sd s' = sd s /\ True /\
        (b = true -> itRec it = 0 /\ dead (it_query it) (pgn L (itPage it))).
  Proof.
    intros E s L it _ _ Eb _ _ _. exists s, false. unfold next_skip. rewrite Eb, E.
    split; [reflexivity|]. split; [apply bufs_refl|]. split; [auto|]. split; [auto|]. discriminate.
  Qed.

  Lemma scan_plain s L q n : useBinary c = false -> bm_of q = None -> Inv s L -> coh c s L -> query_ok KB q ->
    (length (retained L) < n)%nat ->
    exists it s' it', embedDBInitIterator c s (qMinK q) (qMaxK q) (qMinD q) (qMaxD q) = Ok it /\
      drain c s it n = Ok (s', it', map kv (filter (in_query c q) (retained L))) /\
      same_but_bufs s s' /\ Inv s' L /\ coh c s' L.
  Proof.
    intros U Eb I Co Hq Hn. destruct (init_ok s L q U I Hq) as (it & E & E1 & E2 & E3 & E4 & pre & E5 & E6).
    assert (EF : filter (in_query c q) (retained L) = filter (in_query c q) (after L (itPage it) 0)).
    { rewrite E5, filter_app, dead_filter by auto. reflexivity. }
    destruct (drain_ok (fun _ _ => True) (bm_of q) q (fun _ _ _ _ H => H) (noskip q Eb) Hq L n s it I
      Logic.I Co E2 E1 E3) as (s' & it' & Ed & D1 & D2 & D3 & D4).
    { rewrite E4. pose proof (zlen_nonneg (pgn L (itPage it))). lia. }
    { rewrite E4, <- EF. pose proof (filter_len (in_query c q) (retained L)). unfold zlen. lia. }
    exists it, s', it'. rewrite EF. rewrite E4 in Ed. auto.
  Qed.

  Lemma scan_ends s L q n : useBinary c = false -> bm_of q = None -> Inv s L -> query_ok KB q ->
    (zlen (pages L) + 1) * (N + 1) + N < Z.of_nat n ->
    exists it s' it' xs, embedDBInitIterator c s (qMinK q) (qMaxK q) (qMinD q) (qMaxD q) = Ok it /\
      drain c s it n = Ok (s', it', xs) /\ same_but_bufs s s' /\ Inv s' L.
  Proof.
    intros U Eb I Hq Hn. destruct (init_ok s L q U I Hq) as (it & E & E1 & E2 & E3 & E4 & pre & E5 & E6).
    pose proof (l_fit c L0) as Fit. pose proof (w_lo _ _ _ (i_wf _ _ _ _ _ _ _ _ I)) as Wl.
    destruct (drain_ends (fun _ _ => True) (bm_of q) q (fun _ _ _ _ H => H) (noskip q Eb) Hq L n s it I
      Logic.I E2 E1 ltac:(lia) ltac:(lia)) as (s' & it' & xs & Ed & D1 & D2 & D3).
    { rewrite E4. clear - Hn Fit E3 Wl. nia. }
    exists it, s', it', xs. auto.
  Qed.
End Iter.

(** embedDBGet in binary-search mode. *)
From Verif Require Import Base BaseFacts Config Spline Storage DB Spec SpecSpline SplineFacts
  SpecPage SpecStore LogFacts PageFacts SearchFacts StoreFacts PutFacts GetFacts.
Open Scope Z_scope.
Ltac Zify.zify_post_hook ::= ZifyBool.elim_bool_cstr.
Ltac Zify.zify_convert_to_euclidean_division_equations_flag ::= constr:(false).

Section Bin.
  Variables (c : cfg) (KB PB f : Z).
  Hypothesis G : setting c KB PB.
  Hypothesis PS : plain_storage c.
  Let NF : eraseFill c = None := proj1 PS.
  Hypothesis HC : useRLC c = false.
  Notation InvG := (InvG c KB PB f).
  Notation Inv := (Inv c KB PB f).
  Notation N := (maxRec c).
  Notation D := (numData c).
  Notation B := (eraseSize c).
  Notation pg L id := (nth (Z.to_nat id) (pages L) []).

  Let L0 := L0 c KB PB G.

  (** The newest page at a physical place. *)
  Lemma newest n q : 0 <= q < D -> q < n -> exists id, 0 <= id /\ n - D <= id < n /\ id mod D = q.
  Proof.
    intros Hq Hn. exists (n - 1 - (n - 1 - q) mod D).
    pose proof (Z.mod_pos_bound (n - 1 - q) D ltac:(lia)). pose proof (Z.mod_le (n - 1 - q) D ltac:(lia) ltac:(lia)).
    split; [lia|]. split; [lia|].
    pose proof (Z.div_mod (n - 1 - q) D ltac:(lia)) as E.
    replace (n - 1 - (n - 1 - q) mod D) with (q + (n - 1 - q) / D * D) by (rewrite Z.mul_comm; lia).
    rewrite Z_mod_plus_full. apply Z.mod_small; auto.
  Qed.

  Lemma read_any s L n w x : InvG s L n w ->
    (readPage s (x mod D) = (s, -1) /\ zlen (pages L) <= x mod D) \/
    exists s', readPage s (x mod D) = (s', 0) /\ same_but_rbuf s s' /\ InvG s' L n w /\
      (coh c s L -> coh c s' L) /\
      exists id, 0 <= id < zlen (pages L) /\ id mod D = x mod D /\ img c (pages L) id (rbuf (sd s')) /\
        (coh c s L -> forall j, lo L <= j < zlen (pages L) -> j mod D = x mod D -> j = id).
  Proof.
    intros I. pose proof (i_wf _ _ _ _ _ _ _ _ I) as W. pose proof (w_lo _ _ _ W) as Wl. pose proof (w_live _ _ _ W) as Wv.
    pose proof (g_D _ _ _ G) as GD. pose proof (g_B _ _ _ G) as GB.
    pose proof (Z.mod_pos_bound x D ltac:(lia)) as Hx. set (q := x mod D) in *. clearbody q.
    unfold readPage. destruct (Z.eqb_spec q (bufD (sd s))) as [E|NE].
    - right. exists s. split; [reflexivity|]. split; [apply same_rbuf_refl|]. split; [auto|]. split; [auto|].
      destruct (i_rb _ _ _ _ _ _ _ _ I) as [Rb|[(id & A & B' & C)|[Rb _]]]; [unfold NOPAGE in Rb; lia| |congruence].
      exists id. split; [auto|]. split; [congruence|]. split; [auto|].
      intros Co j Hj Ej. specialize (Co j Hj ltac:(congruence)). destruct Co as [_ P1], C as [_ P2]. congruence.
    - rewrite io_read_nf by apply (i_faults _ _ _ _ _ _ _ _ I). cbn [getF].
      pose proof (i_disk _ _ _ _ _ _ _ _ I) as Dk. unfold store_ok in Dk. rewrite HC in Dk. destruct Dk as [_ Dl Dp]. specialize (Dl (proj2 PS)).
      unfold file_read. rewrite Dl.
      destruct (Z.lt_ge_cases q (zlen (pages L))) as [Hl|Hl].
      + right. destruct (newest (zlen (pages L)) q Hx Hl) as (id & I1 & I2 & I3).
        replace ((0 <=? q) && (q <? Z.min (zlen (pages L)) D)) with true by lia.
        destruct (Dp id I1 I2) as [Im|(_ & b & X & _)]; [|congruence]. rewrite I3 in Im.
        eexists. split; [reflexivity|]. split; [do 3 (split; [reflexivity|]); do 2 eexists; reflexivity|].
        assert (Un : forall j, lo L <= j < zlen (pages L) -> j mod D = q -> j = id).
        { intros j Hj Ej. destruct (Z.le_ge_cases j id); [apply (mod_inj c KB PB G)|symmetry; apply (mod_inj c KB PB G)]; try lia; congruence. }
        split; [|split].
        * apply InvG_rb; auto. right; left. exists id. cbn. auto with zarith.
        * intros _ j Hj Ej. cbn [sd d_rbuf bufD rbuf] in *. rewrite (Un j Hj Ej). exact Im.
        * exists id. split; [lia|]. split; [auto|]. split; [exact Im|]. auto.
      + left. replace ((0 <=? q) && (q <? Z.min (zlen (pages L)) D)) with false by lia.
        split; [|auto]. destruct s; reflexivity.
  Qed.

  (** Outcome of the page search; [Q] is a condition under which the read buffer
      is not stale. *)
  Definition bout (Q : Prop) (s : state) (L : log) (key : Z) (s' : state) (r : option Z) : Prop :=
    same_but_rbuf s s' /\ Inv s' L /\ (Q -> coh c s' L) /\
    ((r = Some (-1) /\ (Q -> forall p, lo L <= p < zlen (pages L) -> ~ contains L key p)) \/
     ((r = Some 0 \/ r = None) /\
      exists id, 0 <= id < zlen (pages L) /\ img c (pages L) id (rbuf (sd s')) /\
        (Q -> forall p, lo L <= p < zlen (pages L) -> contains L key p -> p = id))).

  Lemma bout_trans Q s s1 L key s' r : same_but_rbuf s s1 -> bout Q s1 L key s' r -> bout Q s L key s' r.
  Proof.
    intros S1 (b1 & b2 & b3 & b4). split; [exact (same_rbuf_trans _ _ _ S1 b1)|]. auto.
  Qed.

  (** The range has wrapped below zero: the key is smaller than every key. *)
  Lemma wrapped_ok (Q : Prop) L key : 0 <= key < KB -> (forall p, 0 <= p < zlen (pages L) -> key < kfun (pages L) p) ->
    forall k fuel s last, Inv s L -> (Q -> coh c s L) -> (Z.of_nat k <= 31) -> (k < fuel)%nat ->
    0 <= last -> (k = 0%nat -> last = 0) -> ((0 < k)%nat -> 0 < last) ->
    exists s' r, binary_loop c s key fuel 0 last (2 ^ Z.of_nat k - 1) = Ok (s', r) /\ bout Q s L key s' r.
  Proof.
    intros Hk Hlow. induction k as [|k IH]; intros fuel s last I Hq Hk31 Hf Hl0 Hl1 Hl2;
      (destruct fuel as [|fuel]; [lia|]); cbn [binary_loop]; pose proof (i_wf _ _ _ _ _ _ _ _ I) as W;
      pose proof (w_lo _ _ _ W) as Wl.
    - assert (Nc : forall p, lo L <= p < zlen (pages L) -> ~ contains L key p).
      { intros p Hp Hc. destruct (contains_range c KB L key p W ltac:(lia) Hc). specialize (Hlow p ltac:(lia)). lia. }
      rewrite Hl1 by auto.
      destruct (read_any s L _ _ (2 ^ Z.of_nat 0 - 1) I) as [[-> _]|(s' & -> & S & I' & C & id & H1 & H2 & H3 & H4)].
      + change (negb (-1 =? 0)) with true. do 2 eexists. split; [reflexivity|].
        split; [apply same_rbuf_refl|]. split; [auto|]. split; [auto|]. left. auto.
      + cbn [negb Z.eqb]. cbn. do 2 eexists. split; [reflexivity|]. split; [auto|]. split; [auto|]. split; [auto|].
        right. split; [auto|]. exists id. split; [auto|]. split; [auto|]. intros _ p Hp Hc. exfalso. eapply Nc; eauto.
    - assert (Nc : forall p, lo L <= p < zlen (pages L) -> ~ contains L key p).
      { intros p Hp Hc. destruct (contains_range c KB L key p W ltac:(lia) Hc). specialize (Hlow p ltac:(lia)). lia. }
      destruct (read_any s L _ _ (2 ^ Z.of_nat (S k) - 1) I) as [[-> _]|(s' & -> & S & I' & C & id & H1 & H2 & H3 & H4)].
      + change (negb (-1 =? 0)) with true. do 2 eexists. split; [reflexivity|].
        split; [apply same_rbuf_refl|]. split; [auto|]. split; [auto|]. left. auto.
      + change (negb (0 =? 0)) with false. cbv iota.
        destruct (Z.geb_spec 0 last); [lia|].
        destruct (page_bounds c KB PB G L id _ W H1 H3) as (a & b & Ea & Eb & Ia & Ib & Ka & Ra & Rb & Bd).
        rewrite Ea. cbn [bind]. rewrite (cmpx_lt c KB PB G) by auto.
        pose proof (Hlow id H1) as Hlt. rewrite <- Ka in Hlt.
        destruct (Z.ltb_spec key (rkey a)); [|lia].
        assert (P : 2 ^ Z.of_nat (Datatypes.S k) = 2 * 2 ^ Z.of_nat k) by (rewrite Nat2Z.inj_succ, Z.pow_succ_r; lia).
        assert (P1 : 1 <= 2 ^ Z.of_nat k) by (pose proof (Z.pow_pos_nonneg 2 (Z.of_nat k)); lia).
        assert (P2 : 2 ^ Z.of_nat (Datatypes.S k) <= 2 ^ 31) by (apply Z.pow_le_mono_r; lia).
        rewrite P in *. set (x := 2 ^ Z.of_nat k) in *.
        rewrite (u32_id (2 * x - 1 - 1)) by lia. rewrite u32_id by lia.
        replace ((0 + (2 * x - 1 - 1)) / 2) with (x - 1).
        2:{ apply Z.div_unique with 0; lia. }
        destruct (IH fuel s' (2 * x - 1 - 1) I' ltac:(auto) ltac:(lia) ltac:(lia) ltac:(lia)) as (s'' & r & E & Bo).
        { intros ->. unfold x. reflexivity. }
        { intros K. assert (2 ^ 1 <= x) by (unfold x; apply Z.pow_le_mono_r; lia). lia. }
        exists s'', r. split; [exact E|]. exact (bout_trans _ _ _ _ _ _ _ S Bo).
  Qed.

  Lemma bin_empty (Q : Prop) L key fuel s last : Inv s L -> (Q -> coh c s L) -> (0 < fuel)%nat ->
    (Q -> forall p, lo L <= p < zlen (pages L) -> ~ contains L key p) ->
    exists s' r, binary_loop c s key fuel (last + 1) last ((last + 1 + last) / 2) = Ok (s', r) /\ bout Q s L key s' r.
  Proof.
    intros I Hq Hf Rg. destruct fuel as [|fuel]; [lia|]. cbn [binary_loop].
    destruct (read_any s L _ _ ((last + 1 + last) / 2) I) as [[-> _]|(s' & -> & S & I' & C & id & H1 & H2 & H3 & H4)].
    + change (negb (-1 =? 0)) with true. do 2 eexists. split; [reflexivity|].
      split; [apply same_rbuf_refl|]. split; [auto|]. split; [auto|]. left. auto.
    + change (negb (0 =? 0)) with false. cbv iota. destruct (Z.geb_spec (last + 1) last); [|lia].
      do 2 eexists. split; [reflexivity|]. split; [auto|]. split; [auto|]. split; [auto|]. right. split; [auto|].
      exists id. split; [auto|]. split; [auto|]. intros Co p Hp Hc. exfalso. eapply Rg; eauto.
  Qed.

  Lemma bin_ok (Q : Prop) L key : 0 <= key < KB -> 0 < zlen (pages L) -> forall m fuel s first last,
    Inv s L -> (Q -> coh c s L) -> Z.of_nat m <= 32 -> (m + 34 <= fuel)%nat ->
    lo L <= first -> last <= zlen (pages L) - 1 -> 0 <= last -> first <= last + 1 -> last - first + 1 < 2 ^ Z.of_nat m ->
    (Q -> forall p, lo L <= p < zlen (pages L) -> contains L key p -> first <= p <= last) ->
    exists s' r, binary_loop c s key fuel first last (u32 (first + last) / 2) = Ok (s', r) /\ bout Q s L key s' r.
  Proof.
    intros Hk NP. induction m as [|m IH]; intros fuel s first last I Hq Hm Hf F1 F2 F3 F4 F5 Rg;
      pose proof (i_wf _ _ _ _ _ _ _ _ I) as W; pose proof (w_lo _ _ _ W) as Wl; pose proof (w_live _ _ _ W) as Wv;
      pose proof (i_PB _ _ _ _ _ _ _ _ I) as IP; pose proof (g_PB _ _ _ G) as GP; pose proof (g_err _ _ _ G) as GE;
      rewrite (u32_id (first + last)) by lia.
    - change (2 ^ Z.of_nat 0) with 1 in F5. assert (first = last + 1) by lia. subst first.
      apply bin_empty; auto; [lia|]. intros q p Hp Hc. specialize (Rg q p Hp Hc). lia.
    - destruct (Z.eq_dec first (last + 1)) as [Efl|Nfl].
      { subst first. apply bin_empty; auto; [lia|]. intros q p Hp Hc. specialize (Rg q p Hp Hc). lia. }
      set (mid := (first + last) / 2).
      assert (M : first <= mid <= last /\ 2 * mid <= first + last <= 2 * mid + 1).
      { unfold mid. pose proof (Z.div_mod (first + last) 2 ltac:(lia)). pose proof (Z.mod_pos_bound (first + last) 2 ltac:(lia)). lia. }
      clearbody mid. destruct M as [M1 M2].
      destruct fuel as [|fuel]; [lia|]. cbn [binary_loop].
      destruct (readPage_live c KB PB f G s L _ _ mid I ltac:(lia)) as (p & -> & Ex & Cp).
      set (s1 := mkS (sio s) (d_rbuf (sd s) p (mid mod D)) (si s) (sv s)).
      assert (S1 : same_but_rbuf s s1).
      { do 3 (split; [reflexivity|]). do 2 eexists. reflexivity. }
      pose proof (readPage_inv c KB PB f s L _ _ mid p I Ex) as I1. fold s1 in I1.
      assert (C1 : Q -> coh c s1 L).
      { intros q. specialize (Hq q). unfold s1. apply (readPage_coh c KB PB G); auto; lia. }
      destruct Ex as (id' & Hid' & Em & Im).
      destruct (page_bounds c KB PB G L id' p W Hid' Im) as (a & b & Ea & Eb & Ia & Ib & Ka & Ra & Rb & Bd).
      assert (Eid : Q -> id' = mid).
      { intros q. specialize (Cp (Hq q)). destruct Cp as [_ X], Im as [_ Y]; congruence. }
      change (negb (0 =? 0)) with false. change (rbuf (sd s1)) with p. cbv iota.
      destruct (Z.geb_spec first last) as [Ge|Lt].
      { do 2 eexists. split; [reflexivity|]. split; [auto|]. split; [auto|]. split; [auto|]. right. split; [auto|].
        exists id'. split; [auto|]. split; [exact Im|]. intros q j Hj Hc. specialize (Rg q j Hj Hc). specialize (Eid q). lia. }
      rewrite Ea. cbn [bind]. rewrite (cmpx_lt c KB PB G) by auto.
      assert (Pw : 2 ^ Z.of_nat (Datatypes.S m) = 2 * 2 ^ Z.of_nat m) by (rewrite Nat2Z.inj_succ, Z.pow_succ_r; lia).
      destruct (Z.ltb_spec key (rkey a)) as [K1|K1].
      { assert (Low : forall x q, id' <= q -> In x (pg L q) -> 0 <= q < zlen (pages L) -> rkey a <= rkey x).
        { intros x q Hle Hx Hr. destruct (Z.eq_dec q id') as [->|]; [apply Bd; auto|].
          pose proof (pages_order (pages L) (Z.to_nat id') (Z.to_nat q) a x (pages_asc c KB L W) ltac:(lia) Ia Hx). lia. }
        destruct (Z.eq_dec mid 0) as [M0|M0].
        - (* wraps below zero *)
          assert (lo L = 0 /\ first = 0) as [Z1 Z2] by lia. subst first.
          rewrite M0 in *. change (u32 (0 - 1)) with (2 ^ 32 - 1).
          change (u32 (0 + (2 ^ 32 - 1)) / 2) with (2 ^ Z.of_nat 31 - 1).
          assert (id' = 0).
          { rewrite Z.mod_0_l in Em by (pose proof (g_D _ _ _ G); pose proof (g_B _ _ _ G); lia). rewrite Z.mod_small in Em by lia. auto. }
          subst id'.
          destruct (wrapped_ok Q L key Hk) with (k := 31%nat) (fuel := fuel) (s := s1) (last := 2 ^ 32 - 1) as (s' & r & E & Bo); auto; try lia.
          { intros q Hr. destruct (page_ne c KB L q W Hr) as (x & xs & Ex).
            assert (Ix : In x (pg L q)) by (rewrite Ex; now left).
            unfold kfun. rewrite Ex. specialize (Low x q ltac:(lia) Ix Hr). lia. }
          exists s', r. split; [exact E|]. exact (bout_trans _ _ _ _ _ _ _ S1 Bo).
        - rewrite (u32_id (mid - 1)) by lia.
          destruct (IH fuel s1 first (mid - 1) I1) as (s' & r & E & Bo); auto; try lia.
          { intros q j Hj Hc. specialize (Rg q j Hj Hc). specialize (Eid q). split; [lia|].
            destruct (Z.le_gt_cases j (mid - 1)); auto. destruct Hc as (x & X1 & X2).
            specialize (Low x j ltac:(lia) X1 ltac:(lia)). lia. }
          exists s', r. split; [exact E|]. exact (bout_trans _ _ _ _ _ _ _ S1 Bo). }
      rewrite Eb. cbn [bind]. rewrite (cmpx_gt c KB PB G) by auto.
      destruct (Z.ltb_spec (rkey b) key) as [K2|K2].
      { rewrite (u32_id (mid + 1)) by lia.
        destruct (IH fuel s1 (mid + 1) last I1) as (s' & r & E & Bo); auto; try lia.
        { intros q j Hj Hc. specialize (Rg q j Hj Hc). specialize (Eid q). split; [|lia].
          destruct (Z.le_gt_cases (mid + 1) j); auto. destruct Hc as (x & X1 & X2).
          destruct (Z.eq_dec j id') as [->|]; [specialize (Bd _ X1); lia|].
          pose proof (pages_order (pages L) (Z.to_nat j) (Z.to_nat id') x b (pages_asc c KB L W) ltac:(lia) X1 Ib). lia. }
        exists s', r. split; [exact E|]. exact (bout_trans _ _ _ _ _ _ _ S1 Bo). }
      do 2 eexists. split; [reflexivity|]. split; [auto|]. split; [auto|]. split; [auto|]. right. split; [auto|].
      exists id'. split; [auto|]. split; [exact Im|]. intros q j Hj (x & X1 & X2).
      eapply (page_of_key c KB L id' a b x); eauto; lia.
  Qed.

  Theorem get_binary s L key : Inv s L -> useBinary c = true -> fallthru c = Some 0 -> N <= 255 -> 0 <= key < KB ->
    exists s' r dt, embedDBGet c s key = Ok (s', r, dt) /\ got c KB PB f s L key s' r dt.
  Proof.
    intros I U Ft Hn Hk. destruct (get_pre c KB PB f G s L key I Hn Hk) as [H|(NP & Hc & ->)]; [exact H|].
    rewrite U. pose proof (i_wf _ _ _ _ _ _ _ _ I) as W. pose proof (w_lo _ _ _ W) as Wl. pose proof (w_ne _ _ _ W NP) as Wn.
    pose proof (i_PB _ _ _ _ _ _ _ _ I) as IP. pose proof (g_PB _ _ _ G) as GP. pose proof (g_err _ _ _ G) as GE.
    unfold binarySearch. rewrite (i_minD _ _ _ _ _ _ _ _ I), (i_nextD _ _ _ _ _ _ _ _ I).
    rewrite (u32_id (zlen (pages L) - 1)) by lia.
    destruct (bin_ok (coh c s L) L key Hk NP 32 100 s (lo L) (zlen (pages L) - 1) I) as (s' & r & -> & Bo); auto; try lia.
    destruct Bo as (S1 & I' & Co' & Br). cbn [bind].
    assert (Fin : forall id, 0 <= id < zlen (pages L) -> img c (pages L) id (rbuf (sd s')) ->
       (coh c s L -> forall p, lo L <= p < zlen (pages L) -> contains L key p -> p = id) ->
       exists s'' r0 dt, (i <- embedDBSearchNode c (rbuf (sd s')) key ;;
          match i with
          | Some i => dt <- rec_data c (rbuf (sd s')) i ;; Ok (s', 0, Some dt)
          | None => Ok (s', -1, None)
          end) = Ok (s'', r0, dt) /\ got c KB PB f s L key s'' r0 dt).
    { intros id Hid Im Un. rewrite (final_ok c KB PB G L key s' id W Hk Hid Im). do 3 eexists. split; [reflexivity|].
      split; [auto|]. split; [auto|]. eexists. split; [reflexivity|]. split; [reflexivity|]. split.
      - intros x Hx. apply find_key_some in Hx as [H1 H2]; [|apply asc_page, (pages_asc c KB); auto].
        split; auto. eapply accepted_page; eauto.
      - intros C. split; [auto|]. split; [|congruence]. intros x H1 H2.
        apply find_key_some; [apply asc_page, (pages_asc c KB); auto|]. split; auto.
        unfold retained in H1. apply in_app_or in H1 as [H1|H1]; [|exfalso; eapply Hc; eauto].
        apply in_live in H1 as (p & P1 & P2); [|lia]. rewrite <- (Un C p P1); auto. exists x. auto. }
    destruct Br as [[-> Nf]|([-> | ->] & id & Hid & Im & Un)].
    - cbn [bind]. change (negb (-1 =? 0)) with true. cbv iota. do 3 eexists. split; [reflexivity|].
      split; [auto|]. split; [auto|]. exists None. split; [reflexivity|]. split; [reflexivity|]. split; [discriminate|].
      intros C. split; [auto|]. split; [|congruence]. intros x H1 H2. exfalso.
      unfold retained in H1. apply in_app_or in H1 as [H1|H1]; [|eapply Hc; eauto].
      apply in_live in H1 as (p & P1 & P2); [|lia]. apply (Nf C p P1). exists x. auto.
    - cbn [bind]. change (negb (0 =? 0)) with false. cbv iota. eapply Fin; eauto.
    - rewrite Ft. cbn [bind]. change (negb (0 =? 0)) with false. cbv iota. eapply Fin; eauto.
  Qed.
End Bin.

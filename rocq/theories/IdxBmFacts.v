(** Reopening finds the index file as it was left: next page, first page in use, and
    the ring of index pages. *)
From Verif Require Import Base BaseFacts Config Spline Storage DB Recovery Spec SpecSpline SplineFacts
  SpecPage SpecStore SpecIter SpecIndex Run SpecRun SpecReopen SpecReopenIdx LogFacts PageFacts SearchFacts StoreFacts PutFacts
  GetFacts BinFacts RunFacts ReachFacts StoreThms IterFacts IterThms IdxRecFacts RecoverFacts ReopenThms ReopenIdxThms IndexFacts.
Open Scope Z_scope.
Ltac Zify.zify_post_hook ::= ZifyBool.elim_bool_cstr.
Ltac Zify.zify_convert_to_euclidean_division_equations_flag ::= constr:(false).

Lemma ok_eq {A} (a b : A) : Ok a = Ok b -> a = b.
Proof. congruence. Qed.
Lemma blank_id b n : (4 <= n)%nat -> b = 0 \/ b = 255 -> page_id (repeat b n) = 0 \/ page_id (repeat b n) = 2 ^ 32 - 1.
Proof.
  intros H Hb. do 4 (destruct n; [lia|]). unfold page_id, bytes_at. destruct Hb as [-> | ->]; vm_compute; auto.
Qed.

Section Rec.
  Variables (c : cfg) (KB PB : Z).
  Hypothesis G : setting c KB PB.
  Hypothesis Bl : idx_blank c.
  Notation NI := (numIndex c).
  Hypothesis HN : 2 <= NI < 2 ^ 31.
  Variable Q : Z -> page -> Prop.
  Hypothesis Qp : forall id p, Q id p -> zlen p = pageSize c /\ page_id p = id.
  Variables (F : file) (n x : Z).
  Hypothesis Hn : 0 < n < 2 ^ 31.
  Hypothesis Fl : Z.min n NI <= flen F.
  Hypothesis Ft : n < NI -> flen F = n.
  Hypothesis Hx : Z.max 0 (n - NI) <= x.
  Hypothesis Hlap : Z.max 0 (n - NI) < x -> n mod NI <> 0 /\ x <= n - n mod NI.
  Hypothesis R : ring NI Q F x n.
  Hypothesis Er : forall id, Z.max 0 (n - NI) <= id < x -> exists b, eraseFill c = Some b /\ fpg F (id mod NI) = repeat b (psz c).
  Let L0 := L0 c KB PB G.

  (** Pages of the lap being written. *)
  Let t := if n mod NI =? 0 then NI else n mod NI.

  Lemma t_rng : 1 <= t <= NI /\ t <= n /\ (n - t) mod NI = 0 /\ x <= n - t /\ (t < NI -> t = n mod NI /\ n mod NI <> 0).
  Proof.
    pose proof (Z.mod_pos_bound n NI ltac:(lia)) as Hr. pose proof (Z_div_mod_eq_full n NI) as Dm.
    assert (Hd : 0 <= n / NI) by (apply Z.div_pos; lia).
    unfold t. destruct (Z.eqb_spec (n mod NI) 0) as [E|E].
    - assert (1 <= n / NI) by nia. split; [lia|]. split; [nia|].
      split; [|split; [destruct (Z.eq_dec x (Z.max 0 (n - NI))); [nia|destruct Hlap; lia]|lia]]. replace (n - NI) with (n + (-1) * NI) by lia. rewrite Z_mod_plus_full. auto.
    - split; [lia|]. split; [nia|]. split; [|split; [|auto]].
      + replace (n - n mod NI) with (0 + (n / NI) * NI) by lia. rewrite Z_mod_plus_full. apply Z.mod_0_l. lia.
      + destruct (Z.eq_dec x (Z.max 0 (n - NI))) as [Ex|Ex]; [nia|]. apply Hlap. lia.
  Qed.

  (** Slot [j] of that lap. *)
  Lemma lap_page j : 0 <= j < t -> j < flen F /\ Q (n - t + j) (fpg F j).
  Proof.
    intros Hj. destruct t_rng as (T1 & T2 & T3 & T4 & _). destruct (R (n - t + j) ltac:(lia)) as [R1 R2].
    assert (E : (n - t + j) mod NI = j).
    { rewrite Z.add_mod, T3 by lia. rewrite Z.add_0_l, Z.mod_mod by lia. apply Z.mod_small. lia. }
    rewrite E in *. auto.
  Qed.

  Lemma scan_rg fuel : forall s more count mx, irc F s -> 0 <= count <= t ->
    (count < t -> more = true) -> (more = true -> count < flen F /\ irbuf (si s) = fpg F count) ->
    (0 < count -> mx = n - t + count - 1) -> Z.max (NI - count) 0 < Z.of_nat fuel ->
    exists s' w id, idx_scan c s fuel more count mx = Ok (s', t, n - 1, w, id) /\ irc F s' /\ same_but_ibuf s s' /\
      (w = false \/ w = true /\ id = n - NI /\ x = n - NI /\ 0 < n - NI).
  Proof.
    destruct t_rng as (T1 & T2 & T3 & T4 & T5).
    induction fuel as [|f IH]; intros s more count mx I Hc Hm1 Hm2 Hmx Hf; [lia|]. cbn [idx_scan].
    destruct (Z.eq_dec count t) as [Et|Nt].
    - assert (Emx : mx = n - 1) by lia.
      assert (Stop : exists s' w id, @Ok (state * Z * Z * bool * Z) (s, count, mx, false, mx) = Ok (s', t, n - 1, w, id) /\ irc F s' /\ same_but_ibuf s s' /\
        (w = false \/ w = true /\ id = n - NI /\ x = n - NI /\ 0 < n - NI)).
      { exists s, false, mx. rewrite Et, Emx. split; [reflexivity|]. split; [auto|]. split; [apply ibuf_refl|auto]. }
      destruct more; cbn [andb]; [|exact Stop]. destruct (Z.ltb_spec count NI) as [Lt|Ge]; [|exact Stop]. clear Stop.
      destruct (Hm2 eq_refl) as [H1 H2]. rewrite H2. destruct (T5 ltac:(lia)) as [T6 T7].
      assert (Gn : NI < n).
      { destruct (Z.lt_ge_cases n NI) as [L|L]; [rewrite (Ft L), Et, T6 in H1; rewrite Z.mod_small in H1 by lia; lia|].
        destruct (Z.eq_dec n NI) as [->|]; [|lia]. exfalso. apply T7. apply Z.mod_same. lia. }
      assert (Es : (n - NI) mod NI = count).
      { rewrite Et, T6. replace (n - NI) with (n + (-1) * NI) by lia. apply Z_mod_plus_full. }
      assert (Pg : zlen (fpg F count) = pageSize c /\ (page_id (fpg F count) = n - NI /\ x = n - NI \/
                   page_id (fpg F count) = 0 \/ page_id (fpg F count) = 2 ^ 32 - 1)).
      { destruct (Z.eq_dec x (n - NI)) as [Ex|Ex].
        - destruct (R (n - NI) ltac:(lia)) as [_ R2]. rewrite Es in R2. destruct (Qp _ _ R2). auto.
        - destruct (Er (n - NI) ltac:(lia)) as (b & Eb & Ep). rewrite Es in Ep. rewrite Ep.
          destruct (psz4 c KB PB G) as [P1 P2]. split; [unfold zlen; rewrite repeat_length; lia|]. right. apply blank_id; [auto|].
          destruct Bl as (_ & [B1|[B1|B1]] & _); rewrite Eb in B1; [discriminate| |]; injection B1 as ->; auto. }
      destruct Pg as [Pz Pi]. rewrite (ipid c KB PB G _ Pz). cbn [bind]. rewrite Emx.
      rewrite (u32_id (n - 1 + 1)), (u32_id (n - 1 - NI + 1)) by lia.
      destruct (Z.eqb_spec count 0); [lia|]. cbn [orb].
      destruct (Z.eqb_spec (page_id (fpg F count)) (n - 1 + 1)); [lia|].
      eexists s, _, _. rewrite Et. split; [reflexivity|]. split; [auto|]. split; [apply ibuf_refl|].
      destruct Pi as [[Pi Ex]|Pi].
      + right. rewrite <- Et, Pi. split; [apply Z.eqb_eq; lia|]. auto with zarith.
      + left. rewrite <- Et. apply Z.eqb_neq. lia.
    - assert (Em : more = true) by (apply Hm1; lia). subst more. cbn [andb]. destruct (Z.ltb_spec count NI) as [_|]; [|lia].
      destruct (Hm2 eq_refl) as [H1 H2]. rewrite H2. destruct (lap_page count ltac:(lia)) as [_ Pq]. destruct (Qp _ _ Pq) as [Pz Pi].
      rewrite (ipid c KB PB G _ Pz), Pi. cbn [bind].
      assert (Ac : (count =? 0) || (n - t + count =? u32 (mx + 1)) = true).
      { destruct (Z.eqb_spec count 0); [auto|]. cbn [orb]. apply Z.eqb_eq. rewrite Hmx by lia. rewrite u32_id by lia. lia. }
      rewrite Ac. destruct (ird F s (count + 1) I ltac:(unfold NOPAGE; lia)) as (s1 & r & -> & I1 & S1 & Hr).
      destruct (IH s1 (r =? 0) (count + 1) (n - t + count) I1) as (s' & w & id & E & A1 & A2 & A3); try lia.
      + intros Hr0. apply Z.eqb_eq in Hr0. destruct Hr as [Hr|Hr]; [tauto|lia].
      + rewrite E. exists s', w, id. split; [auto|]. split; [auto|]. split; [eapply ibuf_trans; eauto|auto].
  Qed.

  Lemma file_rg s s' : irc F s -> bufI (si s) = NOPAGE -> initIndexFromFile c s = Ok (s', 0) ->
    fI (sio s') = F /\ nextI (si s') = n /\ x <= minI (si s') <= n /\ n - minI (si s') <= NI /\ 0 <= minI (si s') /\
    availI (si s') = NI - (n - minI (si s')) /\
    forall id, minI (si s') <= id < n -> id mod NI = bufI (si s') -> Q id (irbuf (si s')).
  Proof.
    destruct t_rng as (T1 & T2 & T3 & T4 & T5). intros I Hb E. unfold initIndexFromFile in E.
    destruct (ird F s 0 I ltac:(unfold NOPAGE; lia)) as (s1 & r & E1 & I1 & S1 & Hr). rewrite E1 in E.
    destruct (lap_page 0 ltac:(lia)) as [P0 _].
    destruct (scan_rg (Z.to_nat (NI + 1)) s1 (r =? 0) 0 0 I1) as (s2 & w & id & E2 & I2 & S2 & Hw); try lia.
    { intros Hr0. apply Z.eqb_eq in Hr0. destruct Hr as [Hr|Hr]; [tauto|lia]. }
    rewrite E2 in E. cbn [bind] in E. destruct (Z.eqb_spec t 0); [lia|]. rewrite (u32_id (n - 1 + 1)) in E by lia.
    set (s3 := set_i s2 _) in E. assert (I3 : irc F s3) by exact I2.
    set (m := if w then n - NI else n - t).
    assert (Hm : x <= m <= n /\ n - m <= NI /\ 0 <= m /\ m < n /\ (if w then id mod NI else 0) = m mod NI).
    { unfold m. destruct Hw as [->|(-> & -> & Ex & Gn)].
      - rewrite T3. lia.
      - lia. }
    destruct Hm as (M1 & M2 & M3 & M4 & M5). rewrite M5 in E.
    destruct (R m ltac:(lia)) as [Rm1 Rm2]. pose proof (Z.mod_pos_bound m NI ltac:(lia)) as Mb.
    destruct (ird F s3 (m mod NI) I3 ltac:(unfold NOPAGE; lia)) as (s4 & r4 & E4 & I4 & S4 & Hr4). rewrite E4 in E.
    assert (Eb : irbuf (si s4) = fpg F (m mod NI)) by (destruct Hr4 as [Hr4|Hr4]; [tauto|lia]).
    rewrite Eb in E. destruct (Qp _ _ Rm2) as [Pz Pi]. rewrite (ipid c KB PB G _ Pz), Pi in E. cbn [bind] in E.
    apply ok_eq in E. injection E as <-. rewrite (u32_id (NI + m - (n - 1) - 1)) by lia.
    destruct S4 as (a1 & a2 & a3 & p4 & q4 & a4). cbn [set_i sio si i_avail availI minI nextI bufI irbuf].
    split; [apply I4|]. split; [rewrite a4; cbn [s3 set_i si i_rbuf i_next nextI]; lia|]. do 3 (split; [lia|]). split; [lia|].
    intros id' Hid Ei. destruct I4 as (_ & _ & [I4|[_ I4]]).
    - exfalso. rewrite I4 in Ei. unfold NOPAGE in Ei. pose proof (Z.mod_pos_bound id' NI ltac:(lia)). lia.
    - rewrite I4, <- Ei. apply R. lia.
  Qed.
End Rec.

Lemma from_rg c KB PB (Q : Z -> page -> Prop) F l n s : setting c KB PB -> idx_blank c -> 2 <= numIndex c < 2 ^ 31 ->
  (forall id p, Q id p -> zlen p = pageSize c /\ page_id p = id) ->
  RG c (numIndex c) Q F l n -> n < 2 ^ 31 -> from_index c F s ->
  fI (sio s) = F /\ nextI (si s) = n /\ RG c (numIndex c) Q F (minI (si s)) n /\
  availI (si s) = numIndex c - (n - minI (si s)) /\
  forall id, minI (si s) <= id < n -> id mod numIndex c = bufI (si s) -> Q id (irbuf (si s)).
Proof.
  intros G Bl HN Qp (H1 & H2 & H3 & H4 & x & Hx & Hlap & R & Er) Hn (s0 & E & I & B0 & N0 & M0 & A0).
  destruct (Z.eq_dec n 0) as [Z0|NZ].
  - subst n. specialize (H3 (proj1 Bl) ltac:(lia)). unfold initIndexFromFile in E.
    destruct (ird F s0 0 I ltac:(unfold NOPAGE; lia)) as (s1 & r & E1 & I1 & S1 & Hr). rewrite E1 in E.
    destruct Hr as [Hr|(-> & _ & ->)]; [lia|]. cbn [Z.eqb] in E.
    destruct (Z.to_nat (numIndex c + 1)) as [|f] eqn:Ef; [lia|]. cbn [idx_scan andb bind] in E. change (-1 =? 0) with false in E. cbn [andb bind] in E.
    change (0 =? 0) with true in E. cbv iota in E. apply ok_eq in E. injection E as ->. rewrite N0, M0, A0.
    split; [apply I|]. split; [auto|]. split; [|split; [lia|intros; lia]].
    split; [lia|]. split; [lia|]. split; [auto|]. split; [lia|]. exists 0. split; [lia|]. split; [lia|]. split; intros id Hid; lia.
  - destruct (file_rg c KB PB G Bl HN Q Qp F n x ltac:(lia) H4 (H3 (proj1 Bl)) ltac:(lia) Hlap R Er s0 s I B0 E)
      as (e1 & e2 & e3 & e4 & e5 & e6 & e7).
    do 2 (split; [auto|]). split; [|auto]. split; [lia|]. split; [lia|]. split; [auto|]. split; [auto|]. exists x. auto with zarith.
Qed.

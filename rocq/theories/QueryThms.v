(** Query plans over reachable databases. *)
From Verif Require Import Base BaseFacts Config Spline Storage DB Recovery Schema Query Spec SpecUtil SpecSpline SplineFacts
  SpecPage SpecStore SpecIter Run SpecRun LogFacts PageFacts SearchFacts StoreFacts PutFacts GetFacts BinFacts
  RunFacts ReachFacts StoreThms IterFacts IterThms SpecQuery QueryFacts AggFacts JoinFacts.
Open Scope Z_scope.
Ltac Zify.zify_post_hook ::= ZifyBool.elim_bool_cstr.
Ltac Zify.zify_convert_to_euclidean_division_equations_flag ::= constr:(false).

(** ** Initialisation *)
Lemma zero_row s : schema_ok s -> row_ok s (repeat 0 (Z.to_nat (widths s))).
Proof.
  intros H. split.
  - unfold bytes_ok. apply Forall_forall. intros x Hx. apply repeat_spec in Hx. lia.
  - unfold zlen. rewrite repeat_length. assert (0 <= widths s); [|lia].
    clear. unfold widths. induction s as [|a s IH]; cbn [fold_right]; lia.
Qed.

Section Starts.
  Variables (EI : env -> Prop).

  Lemma starts_sel sc kp k o rs col oper val : schema_ok sc -> col_in sc col -> bytes_ok val ->
    Z.abs (col_desc sc col) <= zlen val -> starts EI sc kp k o rs ->
    starts EI sc true k (OSel col oper val o None None) (filter (selects sc col oper val) rs).
  Proof.
    intros Hs Hc Hv Hl (F & H). exists (S (S (F + length rs))). intros e He. destruct (H e He) as (o' & E & Eb & Y).
    destruct (yields_shaped _ _ _ _ _ _ _ Y) as [Es _].
    eexists. split; [|split].
    - cbn [op_init]. rewrite E. cbn [bind]. rewrite Es. cbn [deref bind ensure_buf]. reflexivity.
    - cbn [op_buf]. now rewrite buf_schema.
    - rewrite buf_schema by auto.
      apply (sel_yields EI F sc kp col oper val Hs Hc Hv Hl (S (S (F + length rs))) k ltac:(lia) (length rs)); [lia|cbn; lia|now apply zero_row|exact Y].
  Qed.

  Lemma starts_proj sc kp k o rs cols : schema_ok sc -> Forall (col_in sc) cols -> schema_ok (map (col_desc sc) cols) ->
    starts EI sc kp k o rs ->
    starts EI (map (col_desc sc) cols) true k (OProj cols o None None) (map (project sc cols) rs).
  Proof.
    intros Hs Hc Ho (F & H). exists (S F). intros e He. destruct (H e He) as (o' & E & Eb & Y).
    destruct (yields_shaped _ _ _ _ _ _ _ Y) as [Es _].
    eexists. split; [|split].
    - cbn [op_init]. rewrite E. cbn [bind]. rewrite Es. cbn [deref bind]. rewrite proj_schema_ok by auto.
      cbn [bind ensure_buf]. reflexivity.
    - cbn [op_buf]. now rewrite buf_schema.
    - rewrite buf_schema by auto. apply (proj_yields EI F sc kp cols Hs Hc Ho); [now apply zero_row|exact Y].
  Qed.

  Lemma make_colsize fs : map agg_colsize (map afun_make fs) = map afun_desc fs.
  Proof.
    induction fs as [|f fs IH]; [auto|]. cbn [map]. rewrite IH. f_equal. destruct f as [| | | |col sz fl]; cbn; auto.
    unfold float_size. destruct (Z.gtb_spec sz 8), (Z.ltb_spec sz 8), (Z.gtb_spec sz 4), (Z.ltb_spec sz 4), (Z.leb_spec sz 4); cbn; lia.
  Qed.
  (** Averages with the size the constructor sets. *)
  Definition afun_std (f : afun) : afun := match f with FAvg col sz fl => FAvg col (float_size sz) fl | _ => f end.
  Lemma float_twice sz : float_size (float_size sz) = float_size sz.
  Proof. unfold float_size. destruct (sz <=? 4); reflexivity. Qed.
  Lemma std_ok sc fs : Forall (afun_ok sc) fs -> Forall (afun_ok sc) (map afun_std fs).
  Proof.
    induction 1 as [|f fs Hf _ IH]; constructor; [|exact IH]. destruct f; cbn [afun_std afun_ok] in *; auto. now rewrite float_twice.
  Qed.
  Lemma std_desc fs : map afun_desc (map afun_std fs) = map afun_desc fs.
  Proof. rewrite map_map. apply map_ext. intros []; cbn; auto. apply float_twice. Qed.
  Lemma std_col sc fs g : aggregated sc (map afun_std fs) g = aggregated sc fs g.
  Proof.
    unfold aggregated. induction fs as [|f fs IH]; [auto|]. cbn [map flat_map]. rewrite IH. f_equal.
    destruct f; cbn [afun_std afun_col]; auto. now rewrite float_twice.
  Qed.
  Lemma make_ok fs : fns_ok (map afun_std fs) (map afun_make fs).
  Proof.
    assert (Q : forall sz, (if (sz >? 8) || ((sz <? 8) && (sz >? 4)) then 8 else if sz <? 4 then 4 else sz) = float_size sz).
    { intros sz. unfold float_size.
      destruct (Z.gtb_spec sz 8), (Z.ltb_spec sz 8), (Z.gtb_spec sz 4), (Z.ltb_spec sz 4), (Z.leb_spec sz 4); cbn; lia. }
    induction fs as [|f fs [IH1 IH2]]; [split; constructor|]. split; cbn [map].
    - rewrite IH1. f_equal. destruct f; cbn [afun_make afun_std akind createAvgAggregate]; auto. unfold createAvgAggregate.
      cbn [akind]. now rewrite Q.
    - constructor; [|exact IH2]. destruct f; cbn [afun_make createCountAggregate createSumAggregate createMinAggregate createMaxAggregate room]; auto;
        try (unfold zlen; rewrite repeat_length; lia).
      unfold createAvgAggregate. cbn [room]. rewrite Q. unfold float_size. destruct (size <=? 4); auto.
  Qed.

  Lemma starts_agg sc kp k o rs grp fs : schema_ok sc -> Forall (afun_ok sc) fs -> schema_ok (map afun_desc fs) ->
    zlen rs <= 2 ^ 31 -> starts EI sc kp (S k) o rs ->
    starts EI (map afun_desc fs) true k (OAgg grp (map afun_make fs) o None None None false)
      (map (aggregated sc fs) (runs grp rs)).
  Proof.
    intros Hs Hf Ho Hn (F & H). exists (S (S (S (F + length rs)))). intros e He. destruct (H e He) as (o' & E & Eb & Y).
    destruct (yields_shaped _ _ _ _ _ _ _ Y) as [Es _].
    assert (Z1 : (zlen (map afun_make fs) >? 255) = false).
    { destruct Ho as [_ Ho]. unfold zlen in *. rewrite map_length in *. lia. }
    eexists. split; [|split].
    - cbn [op_init]. rewrite E. cbn [bind]. rewrite Es. cbn [deref bind]. rewrite Z1, make_colsize.
      cbn [ensure_buf]. rewrite !buf_schema by auto. reflexivity.
    - reflexivity.
    - rewrite <- (std_desc fs) in *. rewrite (map_ext _ _ (fun g => eq_sym (std_col sc fs g))).
      apply (agg_starts EI F sc kp grp (map afun_std fs) Hs (std_ok sc fs Hf) Ho); try lia; try (apply zero_row; auto); [exact Y|exact (make_ok fs)].
  Qed.

  Lemma widths_pos0 s : schema_ok s -> col_in s 0 -> col_size s 0 = Ok (col_desc s 0).
  Proof.
    intros _ H. unfold col_size, col_in, col_desc in *. destruct s as [|x s]; [cbn in H; unfold zlen in H; cbn in H; lia|]. reflexivity.
  Qed.

  Lemma starts_join s1 s2 kp1 kp2 k o1 o2 rs1 rs2 : schema_ok s1 -> schema_ok s2 -> schema_ok (s1 ++ s2) ->
    col_in s1 0 -> col_in s2 0 -> 0 < col_desc s1 0 -> col_desc s1 0 = col_desc s2 0 ->
    keys_asc s1 rs1 -> keys_asc s2 rs2 -> (kp1 && kp2 = false -> (k <= 1)%nat) ->
    starts EI s1 kp1 k o1 rs1 -> starts EI s2 kp2 k o2 rs2 ->
    starts EI (s1 ++ s2) true k (OJoin o1 o2 None None true) (joined s1 s2 rs1 rs2).
  Proof.
    intros H1 H2 Ho C1 C2 Hp Hd K1 K2 Hk (F1 & A1) (F2 & A2).
    set (F := Nat.max F1 F2). exists (S (S (S (F + length rs1 + length rs2)))). intros e He.
    destruct (A1 e He) as (i1 & E1 & B1 & Y1). destruct (A2 e He) as (i2 & E2 & B2 & Y2).
    destruct (yields_shaped _ _ _ _ _ _ _ Y1) as [S1 _]. destruct (yields_shaped _ _ _ _ _ _ _ Y2) as [S2 _].
    assert (Z1 : (zlen s1 + zlen s2 >? 255) = false).
    { destruct Ho as [_ Ho]. unfold zlen in *. rewrite app_length in Ho. lia. }
    eexists. split; [|split].
    - cbn [op_init]. rewrite E1. cbn [bind]. rewrite E2. cbn [bind]. rewrite S1, S2. cbn [deref bind].
      rewrite !widths_pos0 by auto. cbn [bind]. rewrite <- Hd, Z.eqb_refl.
      replace (col_desc s1 0 <? 0) with false by lia. cbn [negb orb]. rewrite Z1, buf_schema by auto. reflexivity.
    - reflexivity.
    - apply (join_starts EI F s1 s2 kp1 kp2 H1 H2 C1 C2 Hp Hd (S (S (S (F + length rs1 + length rs2)))) ltac:(lia) k); auto; try lia; [| |now apply zero_row].
      + eapply yields_mono; [| | |exact Y1]; auto; unfold F; lia.
      + eapply yields_mono; [| | |exact Y2]; auto; unfold F; lia.
  Qed.
End Starts.

(** An iterator without bounds copies nothing to the caller when it reports the end. *)
Lemma free_recs c p n : forall fuel it out it' r out', it_query it = mkQ None None None None ->
  next_recs c p n fuel it out = Ok (it', r, out') ->
  (r = None /\ out' = out /\ it_query it' = mkQ None None None None) \/ r = Some 1.
Proof.
  intros fuel it out it' r out' Q H. destruct fuel as [|fuel]; [discriminate|]. cbn [next_recs] in H.
  destruct (itRec it <? n).
  - destruct (rec_key c p (itRec it)) as [k| |]; [|discriminate|discriminate]. cbn [bind] in H.
    destruct (rec_data c p (itRec it)) as [d| |]; [|discriminate|discriminate]. cbn [bind] in H.
    replace (it_check c it k d) with Match in H. { injection H as <- <- <-. auto. }
    unfold it_check. unfold it_query in Q. injection Q as -> -> -> ->. reflexivity.
  - injection H as <- <- <-. auto.
Qed.
Lemma free_loop c : forall fuel s sw it out s' it' r out', it_query it = mkQ None None None None ->
  next_loop c s fuel sw it out = Ok (s', it', r, out') -> r = 0 -> out' = out.
Proof.
  induction fuel as [|fuel IH]; intros s sw it out s' it' r out' Q H R; [discriminate|]. cbn [next_loop] in H.
  destruct (itPage it >? nextD (sd s)); [injection H as <- <- <- <-; auto|].
  destruct (next_skip c s it) as [[s1 sk]| |]; [|discriminate|discriminate]. cbn [bind] in H.
  destruct sk as [[|]|].
  - eapply IH; [|exact H|exact R]. exact Q.
  - cbv zeta in H. match type of H with context [if ?b then (s1, 0) else ?x] => destruct (if b then (s1, 0) else x) as [s2 r2] end.
    destruct (negb (r2 =? 0)); [injection H as <- <- <- <-; auto|].
    destruct (get_count _) as [n| |]; [|discriminate|discriminate]. cbn [bind] in H.
    destruct (next_recs _ _ _ _ _ _) as [[[it1 r1] out1]| |] eqn:En; [|discriminate|discriminate]. cbn [bind] in H.
    destruct (free_recs _ _ _ _ _ _ _ _ _ Q En) as [(-> & -> & Q1)| ->].
    + eapply IH; [|exact H|exact R]. exact Q1.
    + injection H as <- <- <- <-. discriminate.
  - injection H as <- <- <- <-; auto.
Qed.

(** ** Plans *)
Section Plans.
  Variables (dbc : nat -> cfg) (KB PB f0 : nat -> Z) (Ls : nat -> log).
  Hypothesis G : forall n, setting (dbc n) (KB n) (PB n).
  Hypothesis U : forall n, useBinary (dbc n) = false.
  Hypothesis By : forall n, Forall (fun r => bytes_ok (rdata r)) (accepted (Ls n)).

  Definition EI (e : env) : Prop := forall n, fst (e n) = dbc n /\
    Inv (dbc n) (KB n) (PB n) (f0 n) (snd (e n)) (Ls n) /\ coh (dbc n) (snd (e n)) (Ls n).

  Definition tables (n : nat) : cfg * log := (dbc n, Ls n).

  Lemma EI_upd e n s : EI e -> Inv (dbc n) (KB n) (PB n) (f0 n) s (Ls n) -> coh (dbc n) s (Ls n) -> EI (upd_env e n s).
  Proof.
    intros H I C m. unfold upd_env. destruct (Nat.eqb_spec m n) as [->|]; [|exact (H m)].
    cbn [fst snd]. destruct (H n) as (A & _). auto.
  Qed.

  Section Scan.
    Variables (n : nat) (q : query) (s : list Z).
    Let c := dbc n.
    Let L := Ls n.
    Hypothesis Hq : query_ok (KB n) q.
    Hypothesis Hs : schema_ok s.
    Hypothesis Hw : widths s = keySize c + dataSize c.

    Definition placed (it : iter) : Prop := it_query it = q /\ itBM it = None /\
      lo L <= itPage it <= zlen (pages L) + 1 /\ 0 <= itRec it /\
      (itPage it <= zlen (pages L) -> itRec it <= zlen (pgn L (itPage it))).

    Lemma row_row x e : EI e -> In x (accepted L) ->
      row_ok s (row c x) /\ zlen (le_enc (ksz c) (rkey x)) = keySize c.
    Proof.
      intros He Hx. destruct (He n) as (_ & I & _). pose proof (i_wf _ _ _ _ _ _ _ _ I) as W.
      pose proof (w_recs _ _ _ W) as R. rewrite Forall_forall in R. destruct (R x Hx) as (_ & R2 & _). fold c in R2.
      pose proof (By n) as B. rewrite Forall_forall in B. specialize (B x Hx).
      pose proof (g_lay _ _ _ (G n)) as La. fold c in La. pose proof (l_ks _ La). pose proof (l_ds _ La).
      assert (Lk : zlen (le_enc (ksz c) (rkey x)) = keySize c) by (rewrite le_enc_zlen; unfold ksz; lia).
      split; [|exact Lk]. split.
      - unfold row. apply Forall_app. split; [|exact B]. apply le_enc_bytes.
      - unfold row. rewrite zlen_app, Hw, Lk. unfold zlen. rewrite R2. unfold dsz. lia.
    Qed.

    Lemma write_row b x e : EI e -> In x (accepted L) -> row_ok s b ->
      (p <- st b 0 (le_enc (ksz c) (rkey x)) ;; st p (keySize c) (rdata x)) = Ok (row c x).
    Proof.
      intros He Hx [_ Hb]. destruct (row_row x e He Hx) as ([_ Lr] & Lk). unfold row in Lr. rewrite zlen_app in Lr.
      pose proof (zlen_nonneg (rdata x)).
      pose proof (st_next b [] (le_enc (ksz c) (rkey x))) as E. change (zlen (@nil Z)) with 0 in E.
      cbn [app length skipn] in E. rewrite E by lia. cbn [bind]. rewrite <- Lk. rewrite st_next by lia.
      unfold row. rewrite skipn_all2, app_nil_r; [auto|]. rewrite app_length. unfold zlen in *. lia.
    Qed.

    Definition isfree : bool := plan_keeps (PScan n q s).
    Lemma isfree_q : isfree = true -> q = mkQ None None None None.
    Proof. unfold isfree, plan_keeps. destruct q as [[|] [|] [|] [|]]; cbn; congruence. Qed.

    (** One step of the scan. *)
    Lemma scan_step e f it b : EI e -> (1 <= f)%nat -> placed it -> row_ok s b ->
      exists e' it' b' r, op_next f e (OScan n it s (Some b)) = Ok (e', OScan n it' s (Some b'), r) /\ EI e' /\
        placed it' /\ row_ok s b' /\
        (if r then exists pre x, after L (itPage it) (itRec it) = pre ++ x :: after L (itPage it') (itRec it') /\
             dead c q pre /\ in_query c q x = true /\ b' = row c x
         else dead c q (after L (itPage it) (itRec it)) /\ dead c q (after L (itPage it') (itRec it')) /\
              (isfree = true -> b' = b)).
    Proof.
      intros He Hf (P1 & P2 & P3 & P4 & P5) Hb. destruct f as [|f]; [lia|].
      destruct (He n) as (Ec & I & Co). fold c L in Ec, I, Co.
      assert (NS : forall s L it, Inv c (KB n) (PB n) (f0 n) s L -> True -> itBM it = None -> it_query it = q ->
         lo L <= itPage it <= zlen (pages L) -> 0 <= itRec it ->
         exists s' b, next_skip c s it = Ok (s', Some b) /\ same_but_bufs s s' /\ sd s' = sd s /\ True /\
         (b = true -> itRec it = 0 /\ dead c (it_query it) (pgn L (itPage it)))).
      { intros s1 L1 it1 _ _ B1 _ _ _. exists s1, false. unfold next_skip. rewrite B1.
        split; [reflexivity|]. split; [apply bufs_refl|]. split; [auto|]. split; [auto|]. discriminate. }
      destruct (next_ok c (KB n) (PB n) (f0 n) (G n) (fun _ _ => True) None q (fun _ _ _ _ H => H) NS Hq _ L it I Logic.I P2 P1 P3 P4)
        as (d & it' & r & out & E & _ & A2 & _ & A4 & A5 & A6 & A7 & A8 & _ & A9).
      destruct (A9 Co P5) as (C' & N0 & N1 & N2 & N3). clear A9.
      assert (W : exists b', (match out with
                  | Some (k, dt) => p <- st b 0 (le_enc (ksz c) k) ;; st p (keySize c) dt
                  | None => Ok b
                  end) = Ok b' /\ row_ok s b' /\ (out = None -> b' = b) /\ (forall x, out = Some (kv x) -> b' = row c x)).
      { destruct N3 as [->|(x & Hx & ->)]; [exists b; do 3 (split; [auto|]); discriminate|]. unfold kv at 1.
        rewrite (write_row b x e He Hx Hb). exists (row c x). split; [auto|]. split; [apply (row_row x e He Hx)|].
        split; [discriminate|]. intros y Ey. unfold kv in Ey. injection Ey as E1 E2. unfold row. now rewrite E1, E2. }
      destruct W as (b' & Eb & Hb' & Wn & Ws).
      exists (upd_env e n d), it', b', (negb (r =? 0)). split.
      { cbn [op_next deref bind]. destruct (e n) as [c1 d1] eqn:En. cbn [fst snd] in Ec, E. subst c1.
        rewrite E. cbn [bind]. rewrite Eb. reflexivity. }
      split; [now apply EI_upd|]. split.
      { split; [auto|]. split; [auto|]. split; [auto|]. split; [auto|].
        destruct A8 as [-> | ->]; [apply (N2 eq_refl)|]. destruct (N1 eq_refl) as (_ & _ & _ & _ & _ & _ & _ & X). auto. }
      split; [auto|]. destruct A8 as [-> | ->]; change (negb (_ =? 0)) with false || change (negb (1 =? 0)) with true; cbv iota.
      - split; [auto|]. split; [apply (N2 eq_refl)|]. intros Fr. apply Wn.
        apply (free_loop c _ _ _ _ _ _ _ _ _ ltac:(rewrite P1; exact (isfree_q Fr)) E eq_refl).
      - destruct (N1 eq_refl) as (pre & x & X1 & X2 & X3 & X4 & _). exists pre, x. auto.
    Qed.

    Lemma scan_shaped it b : row_ok s b -> shaped s (OScan n it s (Some b)).
    Proof. intros H. split; [reflexivity|]. exists b. auto. Qed.

    Lemma scan_ended k : forall it b, placed it -> row_ok s b -> dead c q (after L (itPage it) (itRec it)) ->
      ended EI 1 s isfree k (OScan n it s (Some b)).
    Proof.
      induction k as [|k IH]; intros it b Hp Hb Hd; (split; [now apply scan_shaped|]); [exact Logic.I|].
      intros e f He Hf. destruct (scan_step e f it b He Hf Hp Hb) as (e' & it' & b' & r & E & He' & Hp' & Hb' & R).
      destruct r.
      - destruct R as (pre & x & R1 & _ & R3 & _). rewrite R1 in Hd. apply Forall_app in Hd as [_ Hd].
        inversion Hd. congruence.
      - destruct R as (_ & R2 & R3). exists e', (OScan n it' s (Some b')). split; [exact E|]. split; [auto|].
        split; [intros Fr; cbn [op_buf]; now rewrite (R3 Fr)|]. apply IH; auto.
    Qed.

    Lemma scan_yields k : forall m it b, placed it -> row_ok s b -> (length (after L (itPage it) (itRec it)) <= m)%nat ->
      (exists e, EI e) ->
      yields EI 1 s isfree k (OScan n it s (Some b)) (map (row c) (filter (in_query c q) (after L (itPage it) (itRec it)))).
    Proof.
      assert (Nil : forall it b, placed it -> row_ok s b -> filter (in_query c q) (after L (itPage it) (itRec it)) = [] ->
        yields EI 1 s isfree k (OScan n it s (Some b)) (map (row c) (filter (in_query c q) (after L (itPage it) (itRec it))))).
      { intros it b Hp Hb E. rewrite E. cbn [map yields]. apply scan_ended; auto.
        apply Forall_forall. intros x Hx. destruct (in_query c q x) eqn:Ex; [|auto].
        assert (In x []) as []. rewrite <- E. apply filter_In. auto. }
      induction m as [|m IH]; intros it b Hp Hb Hm He0.
      { apply Nil; auto. destruct (after L (itPage it) (itRec it)); [auto|cbn in Hm; lia]. }
      destruct (filter (in_query c q) (after L (itPage it) (itRec it))) as [|y ys] eqn:Ef.
      { rewrite <- Ef. apply Nil; auto. }
      cbn [map yields]. split; [now apply scan_shaped|]. intros e f He Hf.
      destruct (scan_step e f it b He Hf Hp Hb) as (e' & it' & b' & r & E & He' & Hp' & Hb' & R).
      exists e', (OScan n it' s (Some b')). destruct r.
      - destruct R as (pre & x & R1 & R2 & R3 & R4). rewrite R1 in Ef. rewrite (filter_dead c q) in Ef by exact R2.
        cbn [filter] in Ef. rewrite R3 in Ef. injection Ef as <- <-.
        do 2 (split; [auto|]). split; [cbn [op_buf]; now rewrite R4|]. apply IH; auto. rewrite R1, app_length in Hm. cbn [length] in Hm. lia.
      - destruct R as (R1 & _). exfalso. rewrite (dead_filter c q) in Ef by exact R1. discriminate.
    Qed.

    Hypothesis Ub : uses_bitmap c q = false.
    Hypothesis S2 : 2 <= zlen s.
    Hypothesis Sk : col_desc s 0 = keySize c.

    Lemma starts_scan k e0 : EI e0 -> exists it,
      embedDBInitIterator (fst (e0 n)) (snd (e0 n)) (qMinK q) (qMaxK q) (qMinD q) (qMaxD q) = Ok it /\
      starts EI s isfree k (OScan n it s None) (map (row c) (filter (in_query c q) (retained L))).
    Proof.
      intros He. destruct (He n) as (Ec & I & Co). fold c L in Ec, I, Co.
      destruct (init_ok c (KB n) (PB n) (f0 n) (G n) _ L q (U n) I Hq) as (it & E & E1 & E2 & E3 & E4 & pre & E5 & E6).
      exists it. rewrite Ec. split; [exact E|]. exists 1%nat. intros e He1. destruct (He1 n) as (Ec1 & _ & _). fold c in Ec1.
      pose proof (l_ks _ (g_lay _ _ _ (G n))) as Lk. fold c in Lk.
      exists (OScan n it s (Some (repeat 0 (Z.to_nat (widths s))))). split; [|split; [reflexivity|]].
      - cbn [op_init]. rewrite Ec1. replace (zlen s <? 2) with false by lia.
        rewrite widths_pos0 by (auto; unfold col_in; lia). cbn [bind]. rewrite Sk.
        replace (keySize c <=? 0) with false by lia. rewrite Z.abs_eq, Z.eqb_refl by lia. cbn [negb orb].
        rewrite size_schema by auto. rewrite Hw, Z.eqb_refl. cbn [negb ensure_buf]. rewrite buf_schema by auto. now rewrite Hw.
      - rewrite E5. rewrite (filter_dead c q) by exact E6.
        replace (after L (itPage it) 0) with (after L (itPage it) (itRec it)) by (now rewrite E4).
        apply scan_yields with (m := length (after L (itPage it) (itRec it))); eauto; [|now apply zero_row].
        split; [auto|]. split; [rewrite E2; now apply bm_none|]. split; [lia|]. split; [lia|]. intros _. rewrite E4. apply zlen_nonneg.
    Qed.
  End Scan.

  Lemma plan_schema_ok p : plan_ok tables KB p -> schema_ok (plan_schema p).
  Proof. destruct p; intros [H _]; exact H. Qed.

  Lemma plan_ready p : forall k e0, plan_ok tables KB p -> (plan_sticky p = false -> (k <= 1)%nat) -> EI e0 ->
    exists o, create e0 p = Ok o /\ starts EI (plan_schema p) (plan_keeps p) k o (denote tables p).
  Proof.
    induction p as [n q s|col oper val p IH|cols p IH|grp fs p IH|p1 IH1 p2 IH2]; intros k e0 H Hk He; destruct H as [Hs H].
    - destruct H as (Hq & Ub & S2 & Sk & Sw). destruct (starts_scan n q s Hq Hs Sw Ub S2 Sk k e0 He) as (it & E & St).
      exists (OScan n it s None). split; [cbn [create]; rewrite E; reflexivity|exact St].
    - destruct H as (Hp & Hc & Hv & Hl). destruct (IH k e0 Hp Hk He) as (o & E & St).
      exists (OSel col oper val o None None). split; [cbn [create]; rewrite E; reflexivity|].
      eapply starts_sel; eauto.
    - destruct H as (Hp & Hc). destruct (IH k e0 Hp Hk He) as (o & E & St).
      exists (OProj cols o None None). split; [cbn [create]; rewrite E; reflexivity|].
      eapply starts_proj; eauto. now apply plan_schema_ok.
    - destruct H as (Hp & Hf & Hst & Hn). destruct (IH (S k) e0 Hp ltac:(congruence) He) as (o & E & St).
      exists (OAgg grp (map afun_make fs) o None None None false). split; [cbn [create]; rewrite E; reflexivity|].
      apply (starts_agg EI _ (plan_keeps p)); [now apply plan_schema_ok|exact Hf|exact Hs|now apply Z.lt_le_incl|exact St].
    - destruct H as (Hp1 & Hp2 & C1 & C2 & P0 & Pe & K1 & K2).
      assert (B : plan_sticky p1 && plan_keeps p1 && plan_sticky p2 && plan_keeps p2 = false -> (k <= 1)%nat) by exact Hk.
      destruct (IH1 k e0 Hp1 ltac:(intros X; apply B; rewrite X; reflexivity) He) as (o1 & E1 & T1).
      destruct (IH2 k e0 Hp2 ltac:(intros X; apply B; rewrite X; now rewrite andb_false_r) He) as (o2 & E2 & T2).
      exists (OJoin o1 o2 None None true). split; [cbn [create]; rewrite E1; cbn [bind]; rewrite E2; reflexivity|].
      apply (starts_join EI _ _ (plan_keeps p1) (plan_keeps p2)); auto using plan_schema_ok.
      intros X. apply B. destruct (plan_keeps p1), (plan_keeps p2), (plan_sticky p1), (plan_sticky p2); cbn in *; congruence.
  Qed.

  Lemma fetch_ok F sc kp f : (F <= f)%nat -> forall rs n e o, EI e -> (length rs < n)%nat ->
    yields EI F sc kp 1 o rs -> exists e', fetch f n e o = Ok (e', rs) /\ EI e'.
  Proof.
    intros Hf. induction rs as [|r rs IH]; intros n e o He Hn Y; (destruct n as [|n]; [cbn in Hn; lia|]); cbn [yields ended] in Y.
    - destruct Y as [_ Y]. destruct (Y e f He Hf) as (e' & o' & E & He' & _). exists e'. split; [|auto].
      cbn [fetch]. rewrite E. reflexivity.
    - destruct Y as [_ Y]. destruct (Y e f He Hf) as (e' & o' & E & He' & Eb & Y'). cbn [length] in Hn.
      destruct (IH n e' o' He' ltac:(lia) Y') as (e2 & E2 & He2). exists e2. split; [|auto].
      cbn [fetch]. rewrite E. cbn [bind negb]. rewrite Eb. cbn [deref bind]. rewrite E2. reflexivity.
  Qed.

  Lemma plan_run p e : plan_ok tables KB p -> EI e ->
    exists F, forall f n, (F <= f)%nat -> (length (denote tables p) < n)%nat ->
    exists e', run_plan f n e p = Ok (e', denote tables p) /\ EI e'.
  Proof.
    intros H He. destruct (plan_ready p 1 e H ltac:(auto) He) as (o & E & F & St).
    exists F. intros f n Hf Hn. destruct (St e He) as (o' & Ei & _ & Y).
    destruct (fetch_ok F _ _ f Hf _ n e o' He Hn Y) as (e' & E' & He'). exists e'. split; [|auto].
    unfold run_plan. rewrite E. cbn [bind]. rewrite Ei. cbn [bind]. exact E'.
  Qed.
End Plans.

(** ** Over reachable databases *)
Lemma table_inv KB PB cs L : table KB PB cs L -> setting (fst cs) KB PB /\ useBinary (fst cs) = false /\
  Forall (fun r => bytes_ok (rdata r)) (accepted L) /\ Inv (fst cs) KB PB 0 (snd cs) L /\ coh (fst cs) (snd cs) L.
Proof.
  intros [c k h s xs Q R U B|c k h s xs S R U W B]; cbn [fst snd].
  - pose proof (q_set _ _ _ _ Q) as G. pose proof (q_modes _ _ _ _ Q) as M.
    destruct (calm_reach c KB PB G M h k s xs Q R) as (_ & I & Co). auto.
  - pose proof (sc_set _ _ _ _ S) as G. destruct (reach_inv c KB PB h S k s xs R) as [I _].
    pose proof (nowrap_coh c KB PB 0 G (sc_modes _ _ _ _ S) s _ I W). auto.
Qed.

(** The databases go on being usable: any later queries give the same answers. *)
Lemma plans_run (KB PB : nat -> Z) (Ls : nat -> log) (e : env) :
  (forall n, table (KB n) (PB n) (e n) (Ls n)) ->
  exists P : env -> Prop, P e /\ forall p e1, plan_ok (fun n => (fst (e n), Ls n)) KB p -> P e1 ->
    exists F, forall f n, (F <= f)%nat -> (length (denote (fun n => (fst (e n), Ls n)) p) < n)%nat ->
    exists e2, run_plan f n e1 p = Ok (e2, denote (fun n => (fst (e n), Ls n)) p) /\ P e2.
Proof.
  intros T. exists (EI (fun n => fst (e n)) KB PB (fun _ => 0) Ls). split.
  - intros n. destruct (table_inv _ _ _ _ (T n)) as (_ & _ & _ & I & Co). auto.
  - intros p e1 Hp He.
    apply (plan_run (fun n => fst (e n)) KB PB (fun _ => 0) Ls (fun n => proj1 (table_inv _ _ _ _ (T n)))
      (fun n => proj1 (proj2 (table_inv _ _ _ _ (T n)))) (fun n => proj1 (proj2 (proj2 (table_inv _ _ _ _ (T n))))) p e1 Hp He).
Qed.
Lemma plan_correct (KB PB : nat -> Z) (Ls : nat -> log) (e : env) p :
  (forall n, table (KB n) (PB n) (e n) (Ls n)) -> plan_ok (fun n => (fst (e n), Ls n)) KB p ->
  exists F, forall f n, (F <= f)%nat -> (length (denote (fun n => (fst (e n), Ls n)) p) < n)%nat ->
  exists e', run_plan f n e p = Ok (e', denote (fun n => (fst (e n), Ls n)) p).
Proof.
  intros T Hp. destruct (plans_run KB PB Ls e T) as (P & He & H). destruct (H p e Hp He) as (F & H').
  exists F. intros f n Hf Hn. destruct (H' f n Hf Hn) as (e' & E & _). eauto.
Qed.
(** Every plan can serve as an input operator. *)
Lemma plan_starts (KB PB : nat -> Z) (Ls : nat -> log) (e : env) p k :
  (forall n, table (KB n) (PB n) (e n) (Ls n)) -> plan_ok (fun n => (fst (e n), Ls n)) KB p ->
  (plan_sticky p = false -> (k <= 1)%nat) ->
  exists (P : env -> Prop) o, P e /\ create e p = Ok o /\
    starts P (plan_schema p) (plan_keeps p) k o (denote (fun n => (fst (e n), Ls n)) p).
Proof.
  intros T Hp Hk.
  assert (He : EI (fun n => fst (e n)) KB PB (fun _ => 0) Ls e).
  { intros n. destruct (table_inv _ _ _ _ (T n)) as (_ & _ & _ & I & Co). auto. }
  destruct (plan_ready (fun n => fst (e n)) KB PB (fun _ => 0) Ls (fun n => proj1 (table_inv _ _ _ _ (T n)))
    (fun n => proj1 (proj2 (table_inv _ _ _ _ (T n)))) (fun n => proj1 (proj2 (proj2 (table_inv _ _ _ _ (T n))))) p k e Hp Hk He)
    as (o & E & St). eauto.
Qed.

(** ** Facts about the specification *)
Lemma runs_nonempty grp rs : Forall (fun g => g <> []) (runs grp rs).
Proof.
  induction rs as [|r rs IH]; cbn [runs]; [constructor|].
  destruct (runs grp rs) as [|[|x g] gs]; try (constructor; [discriminate|constructor]).
  inversion IH; subst. destruct (grp r x); repeat constructor; auto; discriminate.
Qed.
Lemma runs_concat grp rs : concat (runs grp rs) = rs.
Proof.
  induction rs as [|r rs IH]; cbn [runs]; [auto|]. pose proof (runs_nonempty grp rs) as N.
  destruct (runs grp rs) as [|[|x g] gs].
  - cbn in *. now rewrite <- IH.
  - inversion N; congruence.
  - destruct (grp r x); cbn [concat app] in *; now rewrite <- IH.
Qed.

(** Consecutive members of one list. *)
Definition neighbours {A} (l : list A) (x y : A) : Prop := exists a b, l = a ++ x :: y :: b.
Lemma neighbours_cons {A} (r : A) l x y : neighbours (r :: l) x y ->
  neighbours l x y \/ (x = r /\ exists l', l = y :: l').
Proof.
  intros (a & b & E). destruct a as [|z a]; cbn in E; injection E as -> E; [right; eauto|]. left. exists a, b. exact E.
Qed.
Lemma runs_inside grp rs : Forall (fun g => forall x y, neighbours g x y -> grp x y = true) (runs grp rs).
Proof.
  assert (One : forall r x y : list Z, neighbours [r] x y -> grp x y = true).
  { intros r x y (a & b & E). destruct a as [|z [|]]; discriminate E. }
  induction rs as [|r rs IH]; cbn [runs]; [constructor|].
  destruct (runs grp rs) as [|[|x g] gs]; try (constructor; [apply One|constructor]).
  inversion IH as [|? ? I1 I2]; subst. destruct (grp r x) eqn:E.
  - constructor; [|exact I2]. intros a b H. apply neighbours_cons in H as [H|(-> & l' & H)]; [auto|].
    injection H as -> _. exact E.
  - constructor; [apply One|]. constructor; auto.
Qed.
Lemma runs_between grp rs g1 g2 : neighbours (runs grp rs) g1 g2 -> forall x y a b, g1 = a ++ [x] -> g2 = y :: b -> grp x y = false.
Proof.
  revert g1 g2. induction rs as [|r rs IH]; intros g1 g2 H x y a b E1 E2; cbn [runs] in H.
  { destruct H as ([|] & ? & H); discriminate. }
  assert (One : forall g : list (list Z), ~ neighbours [g] g1 g2).
  { intros g (u & v & E). destruct u as [|z [|]]; discriminate E. }
  destruct (runs grp rs) as [|[|z g] gs]; [destruct (One _ H)|destruct (One _ H)|]. destruct (grp r z) eqn:E.
  - apply neighbours_cons in H as [H|(-> & l' & ->)].
    + apply (IH g1 g2) with (a := a) (b := b); auto. destruct H as (u & v & ->). exists ((z :: g) :: u), v. reflexivity.
    + destruct a as [|w a]; [discriminate E1|]. injection E1 as _ E1.
      apply (IH (z :: g) g2) with (a := a) (b := b); auto. exists [], l'. reflexivity.
  - apply neighbours_cons in H as [H|(-> & l' & H)].
    + apply (IH g1 g2) with (a := a) (b := b); auto.
    + injection H as <- _. injection E2 as <- _. destruct a as [|w a]; [|destruct a; discriminate E1].
      injection E1 as <-. exact E.
Qed.

Lemma keys_asc_cons s r rs : keys_asc s (r :: rs) <-> Forall (fun x => field s 0 r < field s 0 x) rs /\ keys_asc s rs.
Proof.
  revert r. induction rs as [|x rs IH]; intros r; [cbn; split; auto|].
  change (keys_asc s (r :: x :: rs)) with (field s 0 r < field s 0 x /\ keys_asc s (x :: rs)). split.
  - intros [H1 H2]. split; [|auto]. apply IH in H2 as [H2 _]. constructor; [auto|].
    eapply Forall_impl; [|exact H2]. cbn. intros. lia.
  - intros [H1 H2]. inversion H1; subst. auto.
Qed.
Lemma asc_filter s rs k : keys_asc s rs ->
  filter (fun r => field s 0 r =? k) rs = [] \/ exists r, filter (fun r => field s 0 r =? k) rs = [r].
Proof.
  induction rs as [|r rs IH]; intros H; [auto|]. apply keys_asc_cons in H as [H1 H2]. cbn [filter].
  destruct (Z.eqb_spec (field s 0 r) k) as [E|]; [|auto]. right. exists r. f_equal.
  clear - H1 E. induction H1 as [|x rs Hx _ IH]; [auto|]. cbn [filter].
  destruct (Z.eqb_spec (field s 0 x) k); [lia|auto].
Qed.
Lemma col0_app s1 s2 r1 r2 : col_in s1 0 -> row_ok s1 r1 -> field (s1 ++ s2) 0 (r1 ++ r2) = field s1 0 r1.
Proof.
  intros C [_ R]. destruct s1 as [|d s1]; [unfold col_in, zlen in C; cbn in C; lia|].
  unfold field, column, col_desc, widths in *. change (Z.to_nat 0) with 0%nat. cbn [app firstn nth fold_right skipn Z.to_nat] in *.
  f_equal. rewrite firstn_app.
  assert (0 <= fold_right (fun c acc => Z.abs c + acc) 0 s1) by (clear; induction s1; cbn [fold_right]; lia).
  replace (Z.to_nat (Z.abs d) - length r1)%nat with 0%nat by (unfold zlen in R; lia). cbn [firstn]. now rewrite app_nil_r.
Qed.
Lemma joined_in s1 s2 rs1 rs2 x : In x (joined s1 s2 rs1 rs2) <->
  exists r1 r2, In r1 rs1 /\ In r2 rs2 /\ field s1 0 r1 = field s2 0 r2 /\ x = r1 ++ r2.
Proof.
  unfold joined. rewrite in_flat_map. split.
  - intros (r1 & H1 & H). apply in_map_iff in H as (r2 & <- & H). apply filter_In in H as [H2 H]. exists r1, r2.
    repeat split; auto. lia.
  - intros (r1 & r2 & H1 & H2 & E & ->). exists r1. split; [auto|]. apply in_map_iff. exists r2. split; [auto|].
    apply filter_In. split; [auto|lia].
Qed.
Lemma joined_asc s1 s2 rs1 rs2 : col_in s1 0 -> Forall (row_ok s1) rs1 -> keys_asc s1 rs1 -> keys_asc s2 rs2 ->
  keys_asc (s1 ++ s2) (joined s1 s2 rs1 rs2).
Proof.
  intros C R K1 K2. induction rs1 as [|r1 rs1 IH]; [exact I|]. inversion R as [|? ? R1 R2]; subst.
  apply keys_asc_cons in K1 as [K1 K1']. specialize (IH R2 K1').
  change (joined s1 s2 (r1 :: rs1) rs2) with
    (map (fun r2 => r1 ++ r2) (filter (fun r2 => field s2 0 r2 =? field s1 0 r1) rs2) ++ joined s1 s2 rs1 rs2).
  destruct (asc_filter s2 rs2 (field s1 0 r1) K2) as [-> | (r2 & ->)]; [exact IH|]. cbn [map app].
  apply keys_asc_cons. split; [|exact IH]. apply Forall_forall. intros x Hx.
  apply joined_in in Hx as (a & b & Ha & _ & _ & ->). rewrite Forall_forall in R2, K1.
  rewrite !col0_app by auto. apply K1. exact Ha.
Qed.

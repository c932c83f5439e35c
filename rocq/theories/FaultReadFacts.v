(** Gets and iterator steps on storage whose reads fail. *)
From Verif Require Import Base BaseFacts Config Spline Storage DB Recovery Spec SpecSpline SplineFacts SpecPage SpecStore SpecIter Run SpecRun SpecFault
  LogFacts PageFacts SearchFacts StoreFacts PutFacts GetFacts BinFacts RunFacts ReachFacts StoreThms IterFacts IterThms FaultFacts.
Open Scope Z_scope.

Lemma refilled_refl s : refilled s s.
Proof.
  split; [destruct s; reflexivity|]. split; [|split].
  - exists (rbuf (sd s)), (bufD (sd s)). split; [destruct (sd s); reflexivity|auto].
  - exists (irbuf (si s)), (bufI (si s)). split; [destruct (si s); reflexivity|auto].
  - exists (vrbuf (sv s)), (bufV (sv s)). split; [destruct (sv s); reflexivity|auto].
Qed.
Lemma refilled_files s s' : refilled s s' ->
  fD (sio s') = fD (sio s) /\ fI (sio s') = fI (sio s) /\ fV (sio s') = fV (sio s) /\ trace (sio s') = trace (sio s).
Proof.
  intros (A & _). unfold heal, with_faults, set_io in A. cbn [sio sd si sv] in A.
  assert (X : forall a b : state, a = b -> sio a = sio b) by congruence. apply X in A. cbn [sio] in A. injection A; auto.
Qed.
Lemma refilled_trans a b d : refilled a b -> refilled b d -> refilled a d.
Proof.
  intros A B. pose proof (refilled_files _ _ A) as (F1 & F2 & F3 & F4). pose proof (refilled_files _ _ B) as (G1 & G2 & G3 & G4).
  destruct A as (_ & (p1 & q1 & A1 & A1') & (p2 & q2 & A2 & A2') & (p3 & q3 & A3 & A3')).
  destruct B as (_ & (r1 & t1 & B1 & B1') & (r2 & t2 & B2 & B2') & (r3 & t3 & B3 & B3')).
  split; [unfold heal, with_faults, set_io; cbn [sio sd si sv]; congruence|].
  rewrite F1 in B1'. rewrite F2 in B2'. rewrite F3 in B3'. split; [|split].
  - exists r1, t1. split; [rewrite B1, A1; reflexivity|]. destruct B1' as [(-> & ->)|X]; [|auto]. rewrite A1. exact A1'.
  - exists r2, t2. split; [rewrite B2, A2; reflexivity|]. destruct B2' as [(-> & ->)|X]; [|auto]. rewrite A2. exact A2'.
  - exists r3, t3. split; [rewrite B3, A3; reflexivity|]. destruct B3' as [(-> & ->)|X]; [|auto]. rewrite A3. exact A3'.
Qed.
Lemma consumed_nil s : consumed s s [].
Proof. reflexivity. Qed.
Lemma consumed_trans a b d p q : consumed a b p -> consumed b d q -> consumed a d (p ++ q).
Proof. unfold consumed. intros -> ->. apply app_assoc. Qed.

(** What a call from [s] does, given what it does on sound storage. *)
Definition softly {A} (bad : state -> A -> Prop) (s : state) (m : res (state * A)) (h : state) (a0 : A) : Prop :=
  exists s' a p, m = Ok (s', a) /\ consumed s s' p /\ refilled s s' /\
    ((~ In true p /\ a = a0 /\ heal s' = h) \/ (In true p /\ bad s' a)).
Lemma softly_step {A} (bad : state -> A -> Prop) s s1 p m h a0 : consumed s s1 p -> refilled s s1 -> ~ In true p ->
  softly bad s1 m h a0 -> softly bad s m h a0.
Proof.
  intros C R N (s' & a & q & E & C' & R' & D). exists s', a, (p ++ q). split; [auto|]. split; [eapply consumed_trans; eauto|].
  split; [eapply refilled_trans; eauto|]. destruct D as [(D1 & D2)|(D1 & D2)]; [left|right]; (split; [|auto]).
  - intros X. apply in_app_or in X. tauto.
  - apply in_or_app. auto.
Qed.
Lemma softly_here {A} (bad : state -> A -> Prop) s a : softly bad s (Ok (s, a)) (heal s) a.
Proof. exists s, a, []. repeat (split; [auto using consumed_nil, refilled_refl|]). left. auto using in_nil. Qed.

Lemma refill_d s o p n : healo o = healo (sio s) -> file_read (fD (sio s)) n = Some p -> refilled s (mkS o (d_rbuf (sd s) p n) (si s) (sv s)).
Proof.
  intros E H. split; [rewrite !heal_eq; unfold set_io; cbn [sio sd si sv]; now rewrite E|]. cbn [sd si sv]. split; [eauto|]. split.
  - exists (irbuf (si s)), (bufI (si s)). split; [destruct (si s); reflexivity|auto].
  - exists (vrbuf (sv s)), (bufV (sv s)). split; [destruct (sv s); reflexivity|auto].
Qed.
Lemma refill_i s o p n : healo o = healo (sio s) -> file_read (fI (sio s)) n = Some p -> refilled s (mkS o (sd s) (i_rbuf (si s) p n) (sv s)).
Proof.
  intros E H. split; [rewrite !heal_eq; unfold set_io; cbn [sio sd si sv]; now rewrite E|]. cbn [sd si sv]. split; [|split].
  - exists (rbuf (sd s)), (bufD (sd s)). split; [destruct (sd s); reflexivity|auto].
  - eauto.
  - exists (vrbuf (sv s)), (bufV (sv s)). split; [destruct (sv s); reflexivity|auto].
Qed.
Lemma refill_io s o : healo o = healo (sio s) -> refilled s (set_io s o).
Proof.
  intros E. destruct (refilled_refl s) as (_ & X). split; [|exact X]. rewrite !heal_eq. unfold set_io. cbn [sio sd si sv]. now rewrite E.
Qed.

Lemma io_read_soft w n o : exists p, let '(o', r) := io_read w n o in
  used o o' p /\ healo o' = healo o /\ ((In true p /\ r = None) \/ (~ In true p /\ r = file_read (getF w o) n)).
Proof.
  unfold io_read, take_fault, used, healo. destruct (faults o) as [|b bs] eqn:E.
  - exists []. rewrite E. split; [reflexivity|]. split; [reflexivity|]. right. auto using in_nil.
  - destruct b; [exists [true]|exists [false]]; (split; [reflexivity|]); (split; [reflexivity|]); [left; cbn; auto|right].
    split; [intros [X|[]]; discriminate|]. destruct w; reflexivity.
Qed.

Definition minus1s (_ : state) (z : Z) : Prop := z = -1.
Lemma readPage_soft s n h r : readPage (heal s) n = (h, r) -> softly (fun s' r => r = -1 /\ heal s' = heal s) s (Ok (readPage s n)) h r.
Proof.
  unfold readPage. change (sd (heal s)) with (sd s). destruct (n =? bufD (sd s)) eqn:B; intros H.
  - injection H as <- <-. apply softly_here.
  - change (sio (heal s)) with (healo (sio s)) in H. destruct (io_read_soft WD n (sio s)) as (p & X).
    unfold io_read at 1, take_fault at 1 in H. cbn [healo faults getF fD] in H.
    destruct (io_read WD n (sio s)) as [o' r'] eqn:E. destruct X as (U & Hh & X). cbn [getF] in X.
    destruct X as [(T & ->)|(T & ->)].
    + exists (set_io s o'), (-1), p. split; [auto|]. split; [exact U|]. split; [now apply refill_io|]. right. split; [auto|]. split; [reflexivity|].
      rewrite !heal_eq. unfold set_io. cbn [sio sd si sv]. now rewrite Hh.
    + destruct (file_read (fD (sio s)) n) as [pg|] eqn:F; injection H as <- <-.
      * exists (mkS o' (d_rbuf (sd s) pg n) (si s) (sv s)), 0, p. split; [auto|]. split; [exact U|]. split; [now apply refill_d|].
        left. split; [auto|]. split; [auto|]. rewrite heal_eq. unfold set_io. cbn [sio sd si sv]. now rewrite Hh.
      * exists (set_io s o'), (-1), p. split; [auto|]. split; [exact U|]. split; [now apply refill_io|]. left. split; [auto|]. split; [auto|].
        rewrite heal_eq. unfold set_io. cbn [sio sd si sv]. now rewrite Hh.
Qed.
Lemma readIndexPage_soft s n h r : readIndexPage (heal s) n = (h, r) -> softly (fun s' r => r = -1 /\ heal s' = heal s) s (Ok (readIndexPage s n)) h r.
Proof.
  unfold readIndexPage. change (si (heal s)) with (si s). destruct (n =? bufI (si s)) eqn:B; intros H.
  - injection H as <- <-. apply softly_here.
  - change (sio (heal s)) with (healo (sio s)) in H. destruct (io_read_soft WI n (sio s)) as (p & X).
    unfold io_read at 1, take_fault at 1 in H. cbn [healo faults getF fI] in H.
    destruct (io_read WI n (sio s)) as [o' r'] eqn:E. destruct X as (U & Hh & X). cbn [getF] in X.
    destruct X as [(T & ->)|(T & ->)].
    + exists (set_io s o'), (-1), p. split; [auto|]. split; [exact U|]. split; [now apply refill_io|]. right. split; [auto|]. split; [reflexivity|].
      rewrite !heal_eq. unfold set_io. cbn [sio sd si sv]. now rewrite Hh.
    + destruct (file_read (fI (sio s)) n) as [pg|] eqn:F; injection H as <- <-.
      * exists (mkS o' (sd s) (i_rbuf (si s) pg n) (sv s)), 0, p. split; [auto|]. split; [exact U|]. split; [now apply refill_i|].
        left. split; [auto|]. split; [auto|]. rewrite heal_eq. unfold set_io. cbn [sio sd si sv]. now rewrite Hh.
      * exists (set_io s o'), (-1), p. split; [auto|]. split; [exact U|]. split; [now apply refill_io|]. left. split; [auto|]. split; [auto|].
        rewrite heal_eq. unfold set_io. cbn [sio sd si sv]. now rewrite Hh.
Qed.

(** ** Searching *)
Lemma linear_soft c key : forall fuel s pg low high h r, linearSearch c (heal s) key fuel pg low high = Ok (h, r) ->
  softly minus1s s (linearSearch c s key fuel pg low high) h r.
Proof.
  induction fuel as [|f IH]; intros s pg low high h r H; [discriminate|]. cbn [linearSearch] in *.
  change (sd (heal s)) with (sd s) in H.
  destruct ((pg >? high) || (pg <? low) || (low >? high) || (pg <? minD (sd s)) || (pg >=? nextD (sd s))).
  { injection H as <- <-. apply softly_here. }
  destruct (readPage (heal s) (pg mod numData c)) as [h1 r1] eqn:E.
  destruct (readPage_soft _ _ _ _ E) as (s1 & r1' & p & E1 & C1 & R1 & D). injection E1 as E1. rewrite E1.
  destruct D as [(N & -> & <-)|(T & -> & _)].
  - change (sd (heal s1)) with (sd s1) in H. destruct (negb (r1 =? 0)).
    + injection H as <- <-. eapply softly_step; eauto. apply softly_here.
    + apply bind_inv in H as (mk & Em & H). rewrite Em. cbn [bind]. destruct (cmpK c key mk <? 0).
      * eapply softly_step; eauto.
      * apply bind_inv in H as (xk & Ex & H). rewrite Ex. cbn [bind]. destruct (cmpK c key xk >? 0).
        { eapply softly_step; eauto. }
        injection H as <- <-. eapply softly_step; eauto. apply softly_here.
  - cbn [Z.eqb negb]. exists s1, (-1), p. do 3 (split; [auto|]). right. split; [auto|reflexivity].
Qed.

Definition minus1o (_ : state) (z : option Z) : Prop := z = Some (-1).
Lemma binary_soft c key : forall fuel s a b pg h r, binary_loop c (heal s) key fuel a b pg = Ok (h, r) ->
  softly minus1o s (binary_loop c s key fuel a b pg) h r.
Proof.
  induction fuel as [|f IH]; intros s a b pg h r H; [discriminate|]. cbn [binary_loop] in *.
  destruct (readPage (heal s) (pg mod numData c)) as [h1 r1] eqn:E.
  destruct (readPage_soft _ _ _ _ E) as (s1 & r1' & p & E1 & C1 & R1 & D). injection E1 as E1. rewrite E1.
  destruct D as [(N & -> & <-)|(T & -> & _)].
  - change (sd (heal s1)) with (sd s1) in H. destruct (negb (r1 =? 0)).
    + injection H as <- <-. eapply softly_step; eauto. apply softly_here.
    + destruct (a >=? b). { injection H as <- <-. eapply softly_step; eauto. apply softly_here. }
      apply bind_inv in H as (mk & Em & H). rewrite Em. cbn [bind]. destruct (cmpK c key mk <? 0).
      * eapply softly_step; eauto.
      * apply bind_inv in H as (xk & Ex & H). rewrite Ex. cbn [bind]. destruct (cmpK c key xk >? 0).
        { eapply softly_step; eauto. }
        injection H as <- <-. eapply softly_step; eauto. apply softly_here.
  - cbn [Z.eqb negb]. exists s1, (Some (-1)), p. do 3 (split; [auto|]). right. split; [auto|reflexivity].
Qed.
Lemma binarySearch_soft c s key h r : binarySearch c (heal s) key = Ok (h, r) -> softly minus1s s (binarySearch c s key) h r.
Proof.
  unfold binarySearch. change (sd (heal s)) with (sd s). intros H. apply bind_inv in H as ((h1 & r1) & E & H).
  destruct (binary_soft _ _ _ _ _ _ _ _ _ E) as (s1 & r1' & p & E1 & C1 & R1 & D). rewrite E1. cbn [bind].
  destruct D as [(N & -> & <-)|(T & ->)].
  - destruct r1 as [v|]; [|destruct (fallthru c) as [v|]; [|discriminate]]; injection H as <- <-; (eapply softly_step; eauto; apply softly_here).
  - exists s1, (-1), p. do 3 (split; [auto|]). right. split; [auto|reflexivity].
Qed.
Lemma splineSearch_soft c s key h r : splineSearch c (heal s) key = Ok (h, r) -> softly minus1s s (splineSearch c s key) h r.
Proof.
  unfold splineSearch. change (sd (heal s)) with (sd s). intros H. destruct (spl (sd s)) as [sp|]; [|discriminate].
  apply bind_inv in H as (((loc & low) & high) & E & H). rewrite E. cbn [bind]. destruct (high <? minD (sd s)).
  { injection H as <- <-. apply softly_here. }
  destruct (if low <? minD (sd s) then _ else _) as [loc' low'].
  apply bind_inv in H as (hit & Eh & H). rewrite Eh. cbn [bind]. destruct hit.
  { injection H as <- <-. apply softly_here. }
  apply bind_inv in H as ((h1 & r1) & E1 & H). destruct (linear_soft _ _ _ _ _ _ _ _ _ E1) as (s1 & r1' & p & F1 & C1 & R1 & D).
  rewrite F1. cbn [bind]. destruct D as [(N & -> & <-)|(T & ->)].
  - destruct (r1 =? -1); injection H as <- <-; (eapply softly_step; eauto; apply softly_here).
  - exists s1, (-1), p. do 3 (split; [auto|]). right. split; [auto|reflexivity].
Qed.

Lemma get_soft c s k h r d : embedDBGet c (heal s) k = Ok (h, r, d) ->
  exists s' r' d' p, embedDBGet c s k = Ok (s', r', d') /\ consumed s s' p /\ refilled s s' /\
    ((~ In true p /\ r' = r /\ d' = d /\ heal s' = h) \/ (In true p /\ r' = -1 /\ d' = None)).
Proof.
  assert (Here : forall s1 r (d : option (list Z)) p, consumed s s1 p -> refilled s s1 -> ~ In true p ->
    exists s' r' d' p, Ok (s1, r, d) = Ok (s', r', d') /\ consumed s s' p /\ refilled s s' /\
    ((~ In true p /\ r' = r /\ d' = d /\ heal s' = heal s1) \/ (In true p /\ r' = -1 /\ d' = None))).
  { intros s1 r0 d0 p C R N. exists s1, r0, d0, p. auto 10. }
  unfold embedDBGet. change (sd (heal s)) with (sd s). intros H. destruct (nextD (sd s) =? 0).
  { apply bind_inv in H as ((x & dt) & E & H). rewrite E. cbn [bind]. injection H as <- <- <-.
    apply (Here s _ _ []); auto using consumed_nil, refilled_refl. }
  apply bind_inv in H as (n & En & H). rewrite En. cbn [bind]. apply bind_inv in H as (stop & Es & H). rewrite Es. cbn [bind].
  destruct stop as [(r0 & d0)|].
  { injection H as <- <- <-. apply (Here s _ _ []); auto using consumed_nil, refilled_refl. }
  apply bind_inv in H as ((h1 & r1) & E & H).
  assert (S : softly minus1s s (if useBinary c then binarySearch c s k else splineSearch c s k) h1 r1).
  { destruct (useBinary c); [now apply binarySearch_soft|now apply splineSearch_soft]. }
  destruct S as (s1 & r1' & p & F1 & C1 & R1 & D). rewrite F1. cbn [bind]. destruct D as [(N & -> & <-)|(T & Q)]; [|unfold minus1s in Q; subst r1'].
  - change (sd (heal s1)) with (sd s1) in H. destruct (negb (r1 =? 0)).
    { injection H as <- <- <-. apply (Here s1 _ _ p); auto. }
    apply bind_inv in H as (i & Ei & H). rewrite Ei. cbn [bind]. destruct i as [i|].
    + apply bind_inv in H as (dt & Ed & H). rewrite Ed. cbn [bind]. injection H as <- <- <-. apply (Here s1 _ _ p); auto.
    + injection H as <- <- <-. apply (Here s1 _ _ p); auto.
  - cbn [Z.eqb negb]. exists s1, (-1), None, p. auto 10.
Qed.

(** ** Iterators *)
Lemma next_skip_soft c s it h b : next_skip c (heal s) it = Ok (h, b) ->
  softly (fun s' o => o = None /\ heal s' = heal s) s (next_skip c s it) h b.
Proof.
  unfold next_skip. intros H. destruct (itBM it) as [bm|]; [|injection H as <- <-; apply softly_here].
  destruct (itRec it =? 0); [|injection H as <- <-; apply softly_here].
  destruct (negb (useIndex c) || (maxIdx c =? 0)); [discriminate|]. change (si (heal s)) with (si s) in H.
  destruct ((itPage it / maxIdx c >=? minI (si s)) && (itPage it / maxIdx c <? nextI (si s))); [|injection H as <- <-; apply softly_here].
  destruct (readIndexPage (heal s) (itPage it / maxIdx c mod numIndex c)) as [h1 r1] eqn:E.
  destruct (readIndexPage_soft _ _ _ _ E) as (s1 & r1' & p & E1 & C1 & R1 & D). injection E1 as E1. rewrite E1.
  destruct D as [(N & -> & <-)|(T & -> & Hs)].
  - destruct (negb (r1 =? 0)); [injection H as <- <-; eapply softly_step; eauto; apply softly_here|].
    change (si (heal s1)) with (si s1) in H. apply bind_inv in H as (ibm & Eb & H). rewrite Eb. cbn [bind].
    injection H as <- <-. eapply softly_step; eauto. apply softly_here.
  - cbn [Z.eqb negb]. exists s1, None, p. auto 10.
Qed.
Lemma readIndexPage_again s n s1 : readIndexPage s n = (s1, 0) -> readIndexPage s1 n = (s1, 0).
Proof.
  unfold readIndexPage. destruct (n =? bufI (si s)) eqn:B; [intros H; injection H as <-; now rewrite B|].
  destruct (io_read WI n (sio s)) as [o [p|]]; intros H; injection H as <-; [|discriminate].
  cbn [si i_rbuf bufI]. now rewrite Z.eqb_refl.
Qed.
Lemma readIndexPage_si s n s1 r : readIndexPage s n = (s1, r) -> minI (si s1) = minI (si s) /\ nextI (si s1) = nextI (si s) /\ sd s1 = sd s.
Proof.
  unfold readIndexPage. destruct (n =? bufI (si s)); [intros H; injection H as <- _; auto|].
  destruct (io_read WI n (sio s)) as [o [p|]]; intros H; injection H as <- _; auto.
Qed.
Lemma next_skip_again c s it s1 b : next_skip c s it = Ok (s1, Some b) -> next_skip c s1 it = Ok (s1, Some b) /\ sd s1 = sd s.
Proof.
  unfold next_skip. destruct (itBM it) as [bm|]; [|intros H; injection H as <- <-; auto].
  destruct (itRec it =? 0); [|intros H; injection H as <- <-; auto].
  destruct (negb (useIndex c) || (maxIdx c =? 0)); [discriminate|].
  destruct ((itPage it / maxIdx c >=? minI (si s)) && (itPage it / maxIdx c <? nextI (si s))) eqn:B;
    [|intros H; injection H as <- <-; rewrite B; auto].
  destruct (readIndexPage s (itPage it / maxIdx c mod numIndex c)) as [s2 r] eqn:E. pose proof (readIndexPage_si _ _ _ _ E) as (X1 & X2 & X3).
  destruct (Z.eqb_spec r 0) as [->|]; cbn [negb]; [|discriminate].
  intros H. apply bind_inv in H as (ibm & Eb & H). injection H as <- <-.
  rewrite X1, X2, B, (readIndexPage_again _ _ _ E). cbn [Z.eqb negb]. rewrite Eb. auto.
Qed.

Lemma recs_out c p n : forall fuel it out it' r o, next_recs c p n fuel it out = Ok (it', r, o) ->
  itPage it' = itPage it /\ forall out1, exists o1, next_recs c p n fuel it out1 = Ok (it', r, o1) /\ (r <> None -> o1 = o).
Proof.
  induction fuel as [|f IH]; intros it out it' r o H; [discriminate|]. cbn [next_recs] in *. destruct (itRec it <? n).
  - apply bind_inv in H as (k & Ek & H). apply bind_inv in H as (dt & Ed & H). rewrite Ek. cbn [bind]. rewrite Ed. cbn [bind].
    destruct (it_check c it k dt); [injection H as <- <- <-|apply IH in H as (H1 & H2)|injection H as <- <- <-].
    + split; [reflexivity|]. intros out1. eauto.
    + split; [exact H1|]. intros _. apply H2.
    + split; [reflexivity|]. intros out1. eauto.
  - injection H as <- <- <-. split; [reflexivity|]. intros out1. exists out1. split; [auto|congruence].
Qed.
Lemma u32_pos z : 0 <= u32 z.
Proof. unfold u32. apply Z.mod_pos_bound. reflexivity. Qed.
Lemma u32_small z : 0 <= z < 2 ^ 32 -> u32 z = z.
Proof. intros H. unfold u32. now apply Z.mod_small. Qed.
Lemma readPage_next s n s1 r : readPage s n = (s1, r) -> nextD (sd s1) = nextD (sd s).
Proof.
  unfold readPage. destruct (n =? bufD (sd s)); [intros H; injection H as <- _; auto|].
  destruct (io_read WD n (sio s)) as [o [p|]]; intros H; injection H as <- _; auto.
Qed.
Lemma next_skip_next c s it s1 b : next_skip c s it = Ok (s1, b) -> nextD (sd s1) = nextD (sd s).
Proof.
  unfold next_skip. destruct (itBM it) as [bm|]; [|intros H; injection H as <- <-; auto].
  destruct (itRec it =? 0); [|intros H; injection H as <- <-; auto].
  destruct (negb (useIndex c) || (maxIdx c =? 0)); [discriminate|].
  destruct (_ && _); [|intros H; injection H as <- <-; auto].
  destruct (readIndexPage s (itPage it / maxIdx c mod numIndex c)) as [s2 r] eqn:E. pose proof (readIndexPage_si _ _ _ _ E) as (_ & _ & X3).
  destruct (negb (r =? 0)); intros H; [injection H as <- <-; congruence|].
  apply bind_inv in H as (ibm & Eb & H). injection H as <- <-. congruence.
Qed.

(** The buffers of the caller and [searchWriteBuf] do not influence a step. *)
Lemma loop_out c : forall fuel s sw it out h it0 r0 o0, next_loop c s fuel sw it out = Ok (h, it0, r0, o0) ->
  0 <= nextD (sd s) < 2 ^ 32 - 1 -> 0 <= itPage it ->
  forall sw1 out1, (sw = true -> nextD (sd s) <= itPage it) -> (sw1 = true -> nextD (sd s) <= itPage it) ->
  exists o1, next_loop c s fuel sw1 it out1 = Ok (h, it0, r0, o1) /\ (r0 = 1 -> o1 = o0).
Proof.
  induction fuel as [|f IH]; intros s sw it out h it0 r0 o0 H B P sw1 out1 W W1; [discriminate|]. cbn [next_loop] in *.
  destruct (itPage it >? nextD (sd s)) eqn:G.
  { injection H as <- <- <- <-. exists out1. split; [auto|discriminate]. }
  assert (ES : (if itPage it =? nextD (sd s) then true else sw1) = (if itPage it =? nextD (sd s) then true else sw)).
  { destruct (Z.eqb_spec (itPage it) (nextD (sd s))); [auto|]. destruct sw, sw1; auto; [specialize (W eq_refl)|specialize (W1 eq_refl)]; lia. }
  rewrite ES. set (w := if itPage it =? nextD (sd s) then true else sw) in *.
  assert (Ew : w = true -> itPage it = nextD (sd s)) by (unfold w; destruct (Z.eqb_spec (itPage it) (nextD (sd s))); auto; intros ->; specialize (W eq_refl); lia).
  clearbody w. clear W W1 ES sw sw1.
  assert (Up : u32 (itPage it + 1) = itPage it + 1) by (apply u32_small; lia).
  apply bind_inv in H as ((s1 & sk) & E1 & H). pose proof (next_skip_next _ _ _ _ _ E1) as N1. rewrite E1. cbn [bind].
  destruct sk as [[|]|].
  - apply (IH _ _ _ _ _ _ _ _ H); rewrite ?N1; cbn [it_page itPage]; rewrite ?Up; try lia; intros ->; specialize (Ew eq_refl); lia.
  - destruct (if w then (s1, 0) else readPage s1 (itPage it mod numData c)) as [s2 r] eqn:E2.
    assert (N2 : nextD (sd s2) = nextD (sd s)). { destruct w; [injection E2 as <- _; auto|]. apply readPage_next in E2. congruence. }
    destruct (negb (r =? 0)).
    { injection H as <- <- <- <-. exists out1. split; [auto|discriminate]. }
    apply bind_inv in H as (n & En & H). rewrite En. cbn [bind]. apply bind_inv in H as (((it1 & r1) & o1) & Er & H).
    destruct (recs_out _ _ _ _ _ _ _ _ _ Er) as (Q & X). destruct (X out1) as (o2 & Er' & Y). rewrite Er'. cbn [bind].
    destruct r1 as [r1|].
    + injection H as <- <- <- <-. exists o2. split; [auto|]. intros _. apply Y. discriminate.
    + apply (IH _ _ _ _ _ _ _ _ H); rewrite ?N2; cbn [it_page itPage]; rewrite ?Q, ?Up; try lia; intros ->; specialize (Ew eq_refl); lia.
  - injection H as <- <- <- <-. exists out1. split; [auto|discriminate].
Qed.

Definition resumes (c : cfg) (s' : state) (it' : iter) (h : state) (it0 : iter) (r0 : Z) (o0 : option (Z * list Z)) : Prop :=
  exists o1, embedDBNext c (heal s') it' = Ok (h, it0, r0, o1) /\ (r0 = 1 -> o1 = o0).
Lemma loop_soft c : forall fuel s sw it out h it0 r0 o0, next_loop c (heal s) fuel sw it out = Ok (h, it0, r0, o0) ->
  0 <= nextD (sd s) < 2 ^ 32 - 1 -> 0 <= itPage it -> (sw = true -> nextD (sd s) <= itPage it) ->
  (itPage it <= nextD (sd s) -> fuel = Z.to_nat (nextD (sd s) - itPage it + 3)) ->
  exists s' it' r o p, next_loop c s fuel sw it out = Ok (s', it', r, o) /\ consumed s s' p /\ refilled s s' /\
    ((~ In true p /\ it' = it0 /\ r = r0 /\ o = o0 /\ heal s' = h) \/ (In true p /\ r = 0 /\ resumes c s' it' h it0 r0 o0)).
Proof.
  induction fuel as [|f IH]; intros s sw it out h it0 r0 o0 H B P W Fu; [discriminate|]. pose proof H as H0. cbn [next_loop] in H |- *.
  change (sd (heal s)) with (sd s) in H. destruct (itPage it >? nextD (sd s)) eqn:G.
  { injection H as <- <- <- <-. exists s, it, 0, out, []. do 3 (split; [auto using consumed_nil, refilled_refl|]). left. auto using in_nil. }
  specialize (Fu ltac:(lia)).
  set (w := if itPage it =? nextD (sd s) then true else sw) in *.
  assert (Ew : w = true -> itPage it = nextD (sd s)) by (unfold w; destruct (Z.eqb_spec (itPage it) (nextD (sd s))); auto; intros ->; specialize (W eq_refl); lia).
  clearbody w. assert (Up : u32 (itPage it + 1) = itPage it + 1) by (apply u32_small; lia).
  assert (Resume : forall s', heal s' = heal s -> resumes c s' it h it0 r0 o0).
  { intros s' Es. unfold resumes, embedDBNext. rewrite Es. change (sd (heal s)) with (sd s).
    replace (Z.to_nat (Z.max (nextD (sd s) - itPage it) 0 + 3)) with (S f) by lia.
    eapply loop_out; eauto. discriminate. }
  apply bind_inv in H as ((h1 & sk) & E1 & H). destruct (next_skip_soft _ _ _ _ _ E1) as (s1 & sk' & p & F1 & C1 & R1 & D).
  rewrite F1. cbn [bind]. destruct D as [(N & -> & <-)|(T & -> & Hs)].
  2:{ exists s1, it, 0, out, p. do 3 (split; [auto|]). right. auto. }
  pose proof (next_skip_next _ _ _ _ _ F1) as N1. 
  assert (Lift : forall s1 p it1 sw1 out1, consumed s s1 p -> refilled s s1 -> ~ In true p -> nextD (sd s1) = nextD (sd s) -> itPage it1 = itPage it + 1 ->
    (sw1 = true -> itPage it = nextD (sd s)) -> next_loop c (heal s1) f sw1 it1 out1 = Ok (h, it0, r0, o0) ->
    exists s' it' r o p, next_loop c s1 f sw1 it1 out1 = Ok (s', it', r, o) /\ consumed s s' p /\ refilled s s' /\
      ((~ In true p /\ it' = it0 /\ r = r0 /\ o = o0 /\ heal s' = h) \/ (In true p /\ r = 0 /\ resumes c s' it' h it0 r0 o0))).
  { clear - IH B P Fu G. intros s1 p it1 sw1 out1 C R N Hn Hp Hw H. apply IH in H; rewrite ?Hn, ?Hp; try lia.
    destruct H as (s' & it' & r & o & q & E & C' & R' & D). exists s', it', r, o, (p ++ q). split; [auto|].
    split; [eapply consumed_trans; eauto|]. split; [eapply refilled_trans; eauto|]. destruct D as [(D1 & D2)|(D1 & D2)]; [left|right]; (split; [|auto]).
    - intros X. apply in_app_or in X. tauto.
    - apply in_or_app. auto. }
  destruct sk as [[|]|].
  - apply (Lift s1 p); auto.
  - destruct w.
    + cbn [Z.eqb negb] in *. change (sd (heal s1)) with (sd s1) in H. apply bind_inv in H as (n & En & H). rewrite En. cbn [bind].
      apply bind_inv in H as (((it1 & r1) & o1) & Er & H). rewrite Er. cbn [bind]. apply recs_out in Er as (Q & _). destruct r1 as [r1|].
      * injection H as <- <- <- <-. exists s1, it1, r1, o1, p. do 3 (split; [auto|]). left. auto.
      * apply (Lift s1 p); auto. cbn [it_page itPage]. rewrite Q. exact Up.
    + destruct (readPage (heal s1) (itPage it mod numData c)) as [h2 r2] eqn:E2.
      destruct (readPage_soft _ _ _ _ E2) as (s2 & r2' & q & F2 & C2 & R2 & D2). injection F2 as F2. rewrite F2. pose proof (readPage_next _ _ _ _ F2) as N2.
      assert (C : consumed s s2 (p ++ q)) by (eapply consumed_trans; eauto). assert (R : refilled s s2) by (eapply refilled_trans; eauto).
      destruct D2 as [(NN & -> & <-)|(T & -> & Hs)].
      * assert (NT : ~ In true (p ++ q)) by (intros X; apply in_app_or in X; tauto).
        destruct (negb (r2 =? 0)).
        { injection H as <- <- <- <-. exists s2, it, 0, out, (p ++ q). do 3 (split; [auto|]). left. auto. }
        change (sd (heal s2)) with (sd s2) in H. apply bind_inv in H as (n & En & H). rewrite En. cbn [bind].
        apply bind_inv in H as (((it1 & r1) & o1) & Er & H). rewrite Er. cbn [bind]. apply recs_out in Er as (Q & _). destruct r1 as [r1|].
        { injection H as <- <- <- <-. exists s2, it1, r1, o1, (p ++ q). do 3 (split; [auto|]). left. auto. }
        apply (Lift s2 (p ++ q)); auto; [congruence|]. cbn [it_page itPage]. rewrite Q. exact Up.
      * cbn [Z.eqb negb]. exists s2, it, 0, out, (p ++ q). do 3 (split; [auto|]). right. split; [apply in_or_app; auto|]. split; [auto|].
        destruct (next_skip_again _ _ _ _ _ E1) as (A1 & A2). change (sd (heal s1)) with (sd s1) in A2. change (sd (heal s)) with (sd s) in A2.
        assert (Hl : next_loop c (heal s1) (S f) sw it out = Ok (h, it0, r0, o0)).
        { rewrite <- H0. cbn [next_loop]. change (sd (heal s1)) with (sd s1). change (sd (heal s)) with (sd s). rewrite A2, G, A1, E1. reflexivity. }
        unfold resumes, embedDBNext. rewrite Hs. change (sd (heal s1)) with (sd s1). rewrite A2.
        replace (Z.to_nat (Z.max (nextD (sd s) - itPage it) 0 + 3)) with (S f) by lia.
        eapply loop_out; eauto; change (sd (heal s1)) with (sd s1); rewrite ?A2; auto. discriminate.
  - injection H as <- <- <- <-. exists s1, it, 0, out, p. do 3 (split; [auto|]). left. auto.
Qed.
Lemma next_soft c s it h it0 r0 o0 : 0 <= nextD (sd s) < 2 ^ 32 - 1 -> 0 <= itPage it ->
  embedDBNext c (heal s) it = Ok (h, it0, r0, o0) ->
  exists s' it' r o p, embedDBNext c s it = Ok (s', it', r, o) /\ consumed s s' p /\ refilled s s' /\
    ((~ In true p /\ it' = it0 /\ r = r0 /\ o = o0 /\ heal s' = h) \/ (In true p /\ r = 0 /\ resumes c s' it' h it0 r0 o0)).
Proof.
  unfold embedDBNext at 1 2. change (sd (heal s)) with (sd s). intros B P H. apply loop_soft; auto; [discriminate|]. intros X. f_equal. lia.
Qed.

(** ** Scans *)
Lemma recs_ret c p n : forall fuel it out it' r o, next_recs c p n fuel it out = Ok (it', r, o) -> r = None \/ r = Some 0 \/ r = Some 1.
Proof.
  induction fuel as [|f IH]; intros it out it' r o H; [discriminate|]. cbn [next_recs] in H. destruct (itRec it <? n).
  - apply bind_inv in H as (k & Ek & H). apply bind_inv in H as (dt & Ed & H).
    destruct (it_check c it k dt); [injection H as <- <- <-; auto|eauto|injection H as <- <- <-; auto].
  - injection H as <- <- <-. auto.
Qed.
Lemma loop_keeps c : forall fuel s sw it out h it0 r0 o0, next_loop c s fuel sw it out = Ok (h, it0, r0, o0) -> 0 <= itPage it ->
  nextD (sd h) = nextD (sd s) /\ 0 <= itPage it0 /\ (r0 = 0 \/ r0 = 1).
Proof.
  induction fuel as [|f IH]; intros s sw it out h it0 r0 o0 H P; [discriminate|]. cbn [next_loop] in H.
  destruct (itPage it >? nextD (sd s)); [injection H as <- <- <- <-; auto|].
  set (w := if itPage it =? nextD (sd s) then true else sw) in *. clearbody w.
  apply bind_inv in H as ((s1 & sk) & E1 & H). pose proof (next_skip_next _ _ _ _ _ E1) as N1. destruct sk as [[|]|].
  - apply IH in H; [rewrite N1 in H; exact H|]. cbn [it_page itPage]. apply u32_pos.
  - destruct (if w then (s1, 0) else readPage s1 (itPage it mod numData c)) as [s2 r] eqn:E2.
    assert (N2 : nextD (sd s2) = nextD (sd s)). { destruct w; [injection E2 as <- _; auto|]. apply readPage_next in E2. congruence. }
    destruct (negb (r =? 0)); [injection H as <- <- <- <-; auto|].
    apply bind_inv in H as (n & En & H). apply bind_inv in H as (((it1 & r1) & o1) & Er & H).
    destruct (recs_out _ _ _ _ _ _ _ _ _ Er) as (Q & _). destruct (recs_ret _ _ _ _ _ _ _ _ _ Er) as [->|[->| ->]].
    + apply IH in H; [rewrite N2 in H; exact H|]. cbn [it_page itPage]. apply u32_pos.
    + injection H as <- <- <- <-. rewrite Q. auto.
    + injection H as <- <- <- <-. rewrite Q. auto.
  - injection H as <- <- <- <-. auto.
Qed.
Lemma refilled_next s s' : refilled s s' -> nextD (sd s') = nextD (sd s).
Proof. intros (_ & (p & q & E & _) & _). rewrite E. reflexivity. Qed.

Lemma drain_soft c : forall n s it h it0 xs, 0 <= nextD (sd s) < 2 ^ 32 - 1 -> 0 <= itPage it ->
  drain c (heal s) it n = Ok (h, it0, xs) ->
  exists s' it' ys p, drain c s it n = Ok (s', it', ys) /\ consumed s s' p /\ refilled s s' /\
    ((~ In true p /\ it' = it0 /\ ys = xs /\ heal s' = h) \/
     (In true p /\ exists zs, xs = ys ++ zs /\ drain c (heal s') it' n = Ok (h, it0, zs))).
Proof.
  induction n as [|n IH]; intros s it h it0 xs B P H; [discriminate|]. cbn [drain] in H.
  apply bind_inv in H as ((((h1 & it1) & r1) & o1) & E1 & H).
  destruct (next_soft c s it h1 it1 r1 o1 B P E1) as (s1 & it1' & r1' & o1' & p & F1 & C1 & R1 & D).
  destruct (loop_keeps _ _ _ _ _ _ _ _ _ _ E1 P) as (K1 & K2 & K3). change (sd (heal s)) with (sd s) in K1.
  cbn [drain]. rewrite F1. cbn [bind]. destruct D as [(N & -> & -> & -> & <-)|(T & -> & (o2 & E2 & Eo))].
  - destruct (r1 =? 0) eqn:Z.
    { injection H as <- <- <-. exists s1, it1, [], p. do 3 (split; [auto|]). left. auto. }
    apply bind_inv in H as (((h2 & it2) & xs2) & E2 & H). injection H as <- <- <-.
    apply IH in E2 as (s2 & it2' & ys & q & F2 & C2 & R2 & D); [|rewrite (refilled_next _ _ R1); lia|auto].
    rewrite F2. cbn [bind]. exists s2, it2', (match o1 with Some v => v :: ys | None => ys end), (p ++ q). split; [auto|]. split; [eapply consumed_trans; eauto|].
    split; [eapply refilled_trans; eauto|]. destruct D as [(D1 & -> & -> & D4)|(D1 & zs & -> & D2)]; [left|right].
    + split; [intros X; apply in_app_or in X; tauto|auto].
    + split; [apply in_or_app; auto|]. exists zs. split; [now destruct o1|]. pose proof (drain_mono c n (S n) _ _ _ (le_S _ _ (le_n n)) D2) as X. cbn [drain] in X. exact X.
  - cbn [Z.eqb]. exists s1, it1', [], p. do 3 (split; [auto|]). right. split; [auto|]. exists xs. split; [auto|].
    rewrite E2. cbn [bind]. destruct (r1 =? 0) eqn:Z; [exact H|]. assert (r1 = 1) by lia. rewrite (Eo H0). exact H.
Qed.

(** ** Sequences of gets *)
Section Gets.
  Variables (c : cfg) (KB PB f : Z).
  Hypothesis G : setting c KB PB.
  Hypothesis M : modes c.
  Notation K := (fun s L => Inv c KB PB f (heal s) L /\ coh c (heal s) L).

  Lemma readPage_keeps s L id s' r : K s L -> lo L <= id < zlen (pages L) -> readPage s (id mod numData c) = (s', r) -> K s' L.
  Proof.
    intros [I Co] H E. destruct (readPage_live c KB PB f G (heal s) L _ _ id I H) as (p & E1 & X & Y).
    destruct (readPage_soft _ _ _ _ E1) as (s1 & r1 & q & F1 & _ & _ & D). rewrite E in F1. injection F1 as <- <-.
    destruct D as [(_ & _ & ->)|(_ & _ & ->)]; [|auto]. pose proof (i_wf _ _ _ _ _ _ _ _ I) as W. split.
    - now apply readPage_inv.
    - destruct W. apply (readPage_coh c KB PB); auto; lia.
  Qed.
  Lemma linear_keeps key L : forall fuel s pg low high s' r, K s L -> linearSearch c s key fuel pg low high = Ok (s', r) -> K s' L.
  Proof.
    induction fuel as [|n IH]; intros s pg low high s' r Ks H; [discriminate|]. cbn [linearSearch] in H.
    destruct ((pg >? high) || (pg <? low) || (low >? high) || (pg <? minD (sd s)) || (pg >=? nextD (sd s))) eqn:Gd.
    { injection H as <- <-. exact Ks. }
    destruct (readPage s (pg mod numData c)) as [s1 r1] eqn:E.
    assert (K1 : K s1 L).
    { refine (readPage_keeps s L pg s1 r1 Ks _ E). destruct Ks as [I _]. pose proof (i_minD _ _ _ _ _ _ _ _ I) as X. pose proof (i_nextD _ _ _ _ _ _ _ _ I) as Y.
      change (sd (heal s)) with (sd s) in *. clear - Gd X Y. lia. }
    destruct (negb (r1 =? 0)); [injection H as <- <-; exact K1|].
    apply bind_inv in H as (mk & _ & H). destruct (cmpK c key mk <? 0); [exact (IH _ _ _ _ _ _ K1 H)|].
    apply bind_inv in H as (xk & _ & H). destruct (cmpK c key xk >? 0); [exact (IH _ _ _ _ _ _ K1 H)|]. injection H as <- <-. exact K1.
  Qed.
  Lemma get_keeps s L k s' r d : useBinary c = false -> K s L -> embedDBGet c s k = Ok (s', r, d) -> K s' L.
  Proof.
    intros U Ks. unfold embedDBGet, splineSearch. rewrite U. destruct (nextD (sd s) =? 0).
    { intros H. apply bind_inv in H as ((x & dt) & _ & H). injection H as <- _ _. exact Ks. }
    intros H. apply bind_inv in H as (n & _ & H). apply bind_inv in H as (stop & _ & H). destruct stop as [(r0 & d0)|].
    { injection H as <- _ _. exact Ks. }
    apply bind_inv in H as ((s1 & r1) & E & H).
    assert (K1 : K s1 L).
    { destruct (spl (sd s)) as [sp|]; [|discriminate]. apply bind_inv in E as (((loc & low) & high) & _ & E). destruct (high <? minD (sd s)).
      { injection E as <- <-. exact Ks. }
      destruct (if low <? minD (sd s) then _ else _) as [loc' low']. apply bind_inv in E as (hit & _ & E). destruct hit.
      { injection E as <- <-. exact Ks. }
      apply bind_inv in E as ((s2 & r2) & E2 & E). apply (linear_keeps _ L) in E2; [|exact Ks]. destruct (r2 =? -1); injection E as <- <-; exact E2. }
    destruct (negb (r1 =? 0)); [injection H as <- _ _; exact K1|].
    apply bind_inv in H as (i & _ & H). destruct i as [i|]; [|injection H as <- _ _; exact K1].
    apply bind_inv in H as (dt & _ & H). injection H as <- _ _. exact K1.
  Qed.

  Lemma gets_soft ks : useBinary c = false -> forall s L, K s L -> Forall (key_ok c KB L) ks ->
    exists s' ys, run c s (map HGet ks) = Ok (s', ys) /\ refilled s s' /\ K s' L /\
      Forall2 (fun k y => y = lookup L k \/ y = OGet (-1) None) ks ys.
  Proof.
    intros U. induction ks as [|k ks IH]; intros s L Ks F.
    { exists s, []. cbn. split; [auto|]. split; [apply refilled_refl|auto]. }
    destruct Ks as [I Co]. destruct (get_ok c KB PB f G M (heal s) L k I Co (Forall_inv F)) as (h & E & _).
    cbn [step] in E. apply bind_inv in E as (((h1 & r1) & d1) & E & Eq). injection Eq as <- Eq.
    destruct (get_soft c s k h1 r1 d1 E) as (s1 & r & d & p & E1 & _ & R1 & D).
    assert (K1 : K s1 L) by exact (get_keeps s L k s1 r d U (conj I Co) E1).
    destruct (IH s1 L K1 (Forall_inv_tail F)) as (s2 & ys & E2 & R2 & K2 & F2).
    exists s2, (OGet r d :: ys). cbn [map run step]. rewrite E1. cbn [bind]. rewrite E2. cbn [bind]. split; [auto|].
    split; [eapply refilled_trans; eauto|]. split; [exact K2|]. constructor; [|exact F2].
    destruct D as [(_ & -> & -> & _)|(_ & -> & ->)]; [left; congruence|auto].
  Qed.
End Gets.

Section Runs.
  Variables (c : cfg) (KB PB : Z).
  Lemma heal_with s fs : heal (with_faults s fs) = heal s.
  Proof. reflexivity. Qed.
  Lemma heal_id s : faults (sio s) = [] -> heal s = s.
  Proof. intros H. destruct s as [[] ? ? ?]. cbn in *. now subst. Qed.

  Lemma c30_gets h k s xs fs ks : quiet c KB PB h -> calmly c k h s xs -> useBinary c = false ->
    Forall (key_ok c KB (spec_log c h)) ks ->
    exists s' ys t, run c (with_faults s fs) (map HGet ks) = Ok (s', ys) /\ 
      Forall2 (fun k y => y = lookup (spec_log c h) k \/ y = OGet (-1) None) ks ys /\
      refilled (with_faults s fs) s' /\ run c (heal s') (map HGet ks) = Ok (t, map (lookup (spec_log c h)) ks).
  Proof.
    intros Q R U F. pose proof (q_set _ _ _ _ Q) as G. pose proof (q_modes _ _ _ _ Q) as M.
    destruct (calm_reach c KB PB G M h k s xs Q R) as (_ & I & Co).
    pose proof (heal_id s (i_faults _ _ _ _ _ _ _ _ I)) as Hs.
    destruct (gets_soft c KB PB 0 G M ks U (with_faults s fs) (spec_log c h)) as (s' & ys & E & R' & [I' Co'] & F2); auto.
    { rewrite heal_with, Hs. auto. }
    destruct (gets_ok c KB PB 0 G M ks (heal s') _ I' Co' F) as (t & E2 & _). exists s', ys, t. auto.
  Qed.

  Lemma c30_scan h k s xs fs q n : quiet c KB PB h -> calmly c k h s xs -> useBinary c = false ->
    uses_bitmap c q = false -> query_ok KB q -> (length (retained (spec_log c h)) < n)%nat ->
    exists it s' it' ys zs t it2 p, embedDBInitIterator c (with_faults s fs) (qMinK q) (qMaxK q) (qMinD q) (qMaxD q) = Ok it /\
      drain c (with_faults s fs) it n = Ok (s', it', ys) /\ ys ++ zs = answer c (spec_log c h) q /\
      consumed (with_faults s fs) s' p /\ refilled (with_faults s fs) s' /\
      (~ In true p -> zs = []) /\ (In true p -> drain c (heal s') it' n = Ok (t, it2, zs)).
  Proof.
    intros Q R U Ub Hq Hn. pose proof (q_set _ _ _ _ Q) as G. pose proof (q_modes _ _ _ _ Q) as M.
    destruct (calm_reach c KB PB G M h k s xs Q R) as (_ & I & Co).
    pose proof (heal_id s (i_faults _ _ _ _ _ _ _ _ I)) as Hs.
    destruct (scan_plain c KB PB 0 G s _ q n U (bm_none c q Ub) I Co Hq Hn) as (it & t & it2 & E1 & E2 & _).
    exists it. assert (E1' : embedDBInitIterator c (with_faults s fs) (qMinK q) (qMaxK q) (qMinD q) (qMaxD q) = Ok it) by exact E1.
    assert (Pos : 0 <= itPage it).
    { pose proof (i_minD _ _ _ _ _ _ _ _ I) as X. destruct (i_wf _ _ _ _ _ _ _ _ I) as [[X0 _] _ _ _ _ _ _ _].
      clear - E1 X X0. unfold embedDBInitIterator in E1. destruct (spl (sd s)) as [sp|]; [|discriminate].
      apply bind_inv in E1 as (pg & E1 & E2). injection E2 as <-. cbn [itPage]. destruct (qMinK q) as [mk|]; [|injection E1 as <-; lia].
      destruct (negb (s_count sp =? 0) && negb (useBinary c)); [|injection E1 as <-; lia].
      apply bind_inv in E1 as (((a & b) & d) & _ & E1). injection E1 as <-. lia. }
    assert (Nx : 0 <= nextD (sd s) < 2 ^ 32 - 1).
    { rewrite (i_nextD _ _ _ _ _ _ _ _ I). pose proof (zlen_nonneg (pages (spec_log c h))). pose proof (i_PB _ _ _ _ _ _ _ _ I).
      pose proof (g_PB _ _ _ G). pose proof (g_err _ _ _ G). lia. }
    assert (E2' : drain c (heal (with_faults s fs)) it n = Ok (t, it2, answer c (spec_log c h) q)) by (rewrite heal_with, Hs; exact E2).
    destruct (drain_soft c n (with_faults s fs) it t it2 _ Nx Pos E2') as (s' & it' & ys & p & Ed & C & Rf & D).
    destruct D as [(N & -> & -> & Ht)|(T & zs & Ea & Er)].
    - exists s', it2, (answer c (spec_log c h) q), [], t, it2, p. rewrite app_nil_r. do 5 (split; [auto|]). split; [auto|tauto].
    - exists s', it', ys, zs, t, it2, p. do 5 (split; [auto|]). split; [tauto|auto].
  Qed.
End Runs.

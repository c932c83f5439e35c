(** Lookups of variable data on storage whose reads fail. *)
From Verif Require Import Base BaseFacts Config Spline Storage DB VarData Recovery Spec SpecPage SpecStore SpecIter Run SpecRun SpecFault
  FaultFacts FaultReadFacts.
Open Scope Z_scope.

Lemma refill_v s o p n : healo o = healo (sio s) -> file_read (fV (sio s)) n = Some p -> refilled s (mkS o (sd s) (si s) (v_rbuf (sv s) p n)).
Proof.
  intros E H. split; [rewrite !heal_eq; unfold set_io; cbn [sio sd si sv]; now rewrite E|]. cbn [sd si sv]. split; [|split].
  - exists (rbuf (sd s)), (bufD (sd s)). split; [destruct (sd s); reflexivity|auto].
  - exists (irbuf (si s)), (bufI (si s)). split; [destruct (si s); reflexivity|auto].
  - eauto.
Qed.
Lemma readVar_soft s n h r : readVariablePage (heal s) n = (h, r) ->
  softly (fun s' r => r = -1 /\ heal s' = heal s) s (Ok (readVariablePage s n)) h r.
Proof.
  unfold readVariablePage. change (sv (heal s)) with (sv s). destruct (n =? bufV (sv s)) eqn:B; intros H.
  - injection H as <- <-. apply softly_here.
  - change (sio (heal s)) with (healo (sio s)) in H. destruct (io_read_soft WV n (sio s)) as (p & X).
    unfold io_read at 1, take_fault at 1 in H. cbn [healo faults getF fV] in H.
    destruct (io_read WV n (sio s)) as [o' r'] eqn:E. destruct X as (U & Hh & X). cbn [getF] in X.
    destruct X as [(T & ->)|(T & ->)].
    + exists (set_io s o'), (-1), p. split; [auto|]. split; [exact U|]. split; [now apply refill_io|]. right. split; [auto|]. split; [reflexivity|].
      rewrite !heal_eq. unfold set_io. cbn [sio sd si sv]. now rewrite Hh.
    + destruct (file_read (fV (sio s)) n) as [pg|] eqn:F; injection H as <- <-.
      * exists (mkS o' (sd s) (si s) (v_rbuf (sv s) pg n)), 0, p. split; [auto|]. split; [exact U|]. split; [now apply refill_v|].
        left. split; [auto|]. split; [auto|]. rewrite heal_eq. unfold set_io. cbn [sio sd si sv]. now rewrite Hh.
      * exists (set_io s o'), (-1), p. split; [auto|]. split; [exact U|]. split; [now apply refill_io|]. left. split; [auto|]. split; [auto|].
        rewrite heal_eq. unfold set_io. cbn [sio sd si sv]. now rewrite Hh.
Qed.

Lemma softly_bad {A} (bad bad' : state -> A -> Prop) s m h a0 : (forall s' a, bad s' a -> bad' s' a) -> softly bad s m h a0 -> softly bad' s m h a0.
Proof. intros I (s' & a & p & E & C & R & D). exists s', a, p. repeat (split; [assumption|]). destruct D as [D|(T & D)]; auto. Qed.

(** A page of variable data is read, and the rest does not touch storage. *)
Lemma setup_soft c s key n h r vs : setupVarDataStream c (heal s) key n = Ok (h, r, vs) ->
  exists s' r' vs' p, setupVarDataStream c s key n = Ok (s', r', vs') /\ consumed s s' p /\ refilled s s' /\
    ((~ In true p /\ r' = r /\ vs' = vs /\ heal s' = h) \/ (In true p /\ r' = 2 /\ vs' = None /\ heal s' = heal s)).
Proof.
  assert (Here : forall r (vs : option stream), exists s' r' vs' p, Ok (s, r, vs) = Ok (s', r', vs') /\ consumed s s' p /\ refilled s s' /\
    ((~ In true p /\ r' = r /\ vs' = vs /\ heal s' = heal s) \/ (In true p /\ r' = 2 /\ vs' = None /\ heal s' = heal s))).
  { intros r0 vs0. exists s, r0, vs0, []. auto 10 using consumed_nil, refilled_refl, in_nil. }
  unfold setupVarDataStream. change (sd (heal s)) with (sd s). change (sv (heal s)) with (sv s). intros H.
  apply bind_inv in H as (addr & Ea & H). rewrite Ea. cbn [bind].
  destruct (addr =? NOVAR); [injection H as <- <- <-; apply Here|].
  destruct (cmpK c key (minVarRec (sv s) mod 256 ^ keySize c) <? 0); [injection H as <- <- <-; apply Here|].
  destruct (numVar c =? 0); [discriminate H|].
  destruct (readVariablePage (heal s) ((addr / pageSize c) mod numVar c)) as [h1 r1] eqn:E1.
  destruct (readVar_soft _ _ _ _ E1) as (s1 & r1' & p & F1 & C1 & R1 & D).
  injection F1 as F1. rewrite F1. destruct D as [(N & -> & <-)|(T & -> & Hh)].
  - change (sv (heal s1)) with (sv s1) in H. destruct (negb (r1 =? 0)); [injection H as <- <- <-; exists s1, 2, None, p; auto 10|].
    apply bind_inv in H as (len & El & H). rewrite El. cbn [bind]. injection H as <- <- <-.
    eexists s1, 0, _, p. split; [reflexivity|]. auto 10.
  - cbn [Z.eqb negb]. exists s1, 2, None, p. auto 10.
Qed.

Lemma getVar_soft c s k h r d vs : (forall n dt, searchBuffer c (wbuf (sd s)) k = Ok (n, dt) -> n = -1) ->
  embedDBGetVar c (heal s) k = Ok (h, r, d, vs) ->
  exists s' r' d' vs' p, embedDBGetVar c s k = Ok (s', r', d', vs') /\ consumed s s' p /\ refilled s s' /\
    ((~ In true p /\ r' = r /\ d' = d /\ vs' = vs /\ heal s' = h) \/
     (In true p /\ r' = -1 /\ vs' = None /\ (d' = None \/ d' = d))).
Proof.
  intros NB. unfold embedDBGetVar. change (sd (heal s)) with (sd s). intros H. destruct (negb (useVar c)).
  { injection H as <- <- <- <-. exists s, 0, None, None, []. auto 10 using consumed_nil, refilled_refl, in_nil. }
  apply bind_inv in H as ((n & dt) & E & H). rewrite E. cbn [bind]. rewrite (NB _ _ E) in *. change (negb (-1 =? -1)) with false in *. cbn iota in *.
  apply bind_inv in H as (((h1 & found) & d1) & E1 & H). apply bind_inv in E1 as (((h0 & r0) & d0) & E0 & E1).
  destruct (get_soft _ _ _ _ _ _ E0) as (s1 & r1 & d1' & p & F1 & C1 & R1 & D). rewrite F1. cbn [bind].
  destruct D as [(N & -> & -> & <-)|(T & -> & ->)].
  2:{ cbn [Z.eqb bind]. exists s1, (-1), None, None, p. auto 10. }
  change (sd (heal s1)) with (sd s1) in E1. destruct (r0 =? 0).
  2:{ injection E1 as <- <- <-. cbn [bind] in *. injection H as <- <- <- <-. exists s1, (-1), d0, None, p. auto 10. }
  apply bind_inv in E1 as (i & Ei & E1). rewrite Ei. cbn [bind]. injection E1 as <- <- <-.
  apply bind_inv in H as (((h2 & r2) & vs2) & E2 & H).
  destruct (setup_soft _ _ _ _ _ _ _ E2) as (s2 & r2' & vs2' & q & F2 & C2 & R2 & D2).
  cbn [bind]. cbn iota. rewrite F2. cbn [bind]. injection H as <- <- <- <-.
  eexists s2, _, _, _, (p ++ q). split; [reflexivity|]. split; [eapply consumed_trans; eauto|]. split; [eapply refilled_trans; eauto|].
  destruct D2 as [(N2 & -> & -> & <-)|(T2 & -> & -> & _)]; [left|right].
  - split; [intros X; apply in_app_or in X; tauto|]. auto.
  - split; [apply in_or_app; auto|]. cbn [Z.eqb]. auto.
Qed.

Lemma stream_loop_soft c : forall fuel s st pg len acc h st0 o, stream_loop c (heal s) fuel st pg len acc = Ok (h, st0, o) ->
  exists s' st' o' p, stream_loop c s fuel st pg len acc = Ok (s', st', o') /\ consumed s s' p /\ refilled s s' /\
    ((~ In true p /\ st' = st0 /\ o' = o /\ heal s' = h) \/ (In true p /\ o' = None)).
Proof.
  induction fuel as [|f IH]; intros s st pg len acc h st0 o H; [discriminate H|]. cbn [stream_loop] in *.
  destruct ((0 <? len) && (bytesRead st <? totalBytes st)).
  2:{ injection H as <- <- <-. eexists s, _, _, []. split; [reflexivity|]. auto 10 using consumed_nil, refilled_refl, in_nil. }
  change (sv (heal s)) with (sv s) in H. apply bind_inv in H as (bs & Eb & H). rewrite Eb. cbn [bind].
  set (amt := Z.min _ _) in *. cbn [bytesRead totalBytes fileOffset] in *.
  destruct ((0 <? len - amt) && _) eqn:W; [|apply IH; assumption].
  destruct (readVariablePage (heal s) ((pg + 1) mod numVar c)) as [h1 r1] eqn:E1.
  destruct (readVar_soft _ _ _ _ E1) as (s1 & r1' & p & F1 & C1 & R1 & D). injection F1 as F1. rewrite F1.
  destruct D as [(N & -> & <-)|(T & -> & Hh)].
  - destruct (negb (r1 =? 0)); [injection H as <- <- <-; eexists s1, _, _, p; split; [reflexivity|]; auto 10|].
    destruct (IH _ _ _ _ _ _ _ _ H) as (s2 & st2 & o2 & q & F2 & C2 & R2 & D2).
    exists s2, st2, o2, (p ++ q). split; [assumption|]. split; [eapply consumed_trans; eauto|]. split; [eapply refilled_trans; eauto|].
    destruct D2 as [(N2 & D2)|(T2 & D2)]; [left|right]; (split; [|assumption]).
    + intros X. apply in_app_or in X. tauto.
    + apply in_or_app. auto.
  - cbn [Z.eqb negb]. eexists s1, _, _, p. split; [reflexivity|]. auto 10.
Qed.

(** The first read of a call of embedDBVarDataStreamRead leaves the stream as it was. *)
Lemma stream_soft c s st len h st0 o : embedDBVarDataStreamRead c (heal s) st len = Ok (h, st0, o) ->
  exists s' st' o' p, embedDBVarDataStreamRead c s st len = Ok (s', st', o') /\ consumed s s' p /\ refilled s s' /\
    ((~ In true p /\ st' = st0 /\ o' = o /\ heal s' = h) \/ (In true p /\ o' = None)).
Proof.
  unfold embedDBVarDataStreamRead. destruct (numVar c =? 0); [discriminate|].
  destruct (readVariablePage (heal s) ((fileOffset st / pageSize c) mod numVar c)) as [h1 r1] eqn:E1. intros H.
  destruct (readVar_soft _ _ _ _ E1) as (s1 & r1' & p & F1 & C1 & R1 & D). injection F1 as F1. rewrite F1.
  destruct D as [(N & -> & <-)|(T & -> & Hh)].
  - destruct (negb (r1 =? 0)); [injection H as <- <- <-; eexists s1, _, _, p; split; [reflexivity|]; auto 10|].
    destruct (stream_loop_soft _ _ _ _ _ _ _ _ _ _ H) as (s2 & st2 & o2 & q & F2 & C2 & R2 & D2).
    exists s2, st2, o2, (p ++ q). split; [assumption|]. split; [eapply consumed_trans; eauto|]. split; [eapply refilled_trans; eauto|].
    destruct D2 as [(N2 & D2)|(T2 & D2)]; [left|right]; (split; [|assumption]).
    + intros X. apply in_app_or in X. tauto.
    + apply in_or_app. auto.
  - cbn [Z.eqb negb]. eexists s1, _, _, p. split; [reflexivity|]. auto 10.
Qed.
Lemma stream_first_soft c s st len h st0 o fs : embedDBVarDataStreamRead c (heal s) st len = Ok (h, st0, o) ->
  (fileOffset st / pageSize c) mod numVar c <> bufV (sv s) -> faults (sio s) = true :: fs ->
  exists s', embedDBVarDataStreamRead c s st len = Ok (s', st, None) /\ faults (sio s') = fs /\
    embedDBVarDataStreamRead c (heal s') st len = Ok (h, st0, o).
Proof.
  intros H B F. exists (set_io s (mkIO fs (fD (sio s)) (fI (sio s)) (fV (sio s)) (trace (sio s)))). split; [|split].
  - unfold embedDBVarDataStreamRead in *. destruct (numVar c =? 0); [discriminate|]. unfold readVariablePage.
    destruct (Z.eqb_spec ((fileOffset st / pageSize c) mod numVar c) (bufV (sv s))); [contradiction|].
    unfold io_read, take_fault. rewrite F. reflexivity.
  - reflexivity.
  - exact H.
Qed.

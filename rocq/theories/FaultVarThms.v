(** Payload lookups of whole histories on storage whose reads fail. *)
From Coq Require Import Lia.
From Verif Require Import Base BaseFacts Config Spline Storage DB VarData Recovery Spec SpecPage SpecStore SpecIter Run SpecRun SpecFault SpecVar
  LogFacts SearchFacts StoreFacts GetFacts FaultFacts FaultReadFacts FaultVarFacts VarFacts VarRunFacts VarStoreThms VarReadFacts VarThms.
Open Scope Z_scope.
Ltac Zify.zify_post_hook ::= ZifyBool.elim_bool_cstr.
Ltac Zify.zify_convert_to_euclidean_division_equations_flag ::= constr:(false).

Lemma reads_soft c : forall ns s st h st0 xs, stream_reads c (heal s) st ns = Ok (h, st0, xs) ->
  (exists s' p, stream_reads c s st ns = Ok (s', st0, xs) /\ consumed s s' p /\ ~ In true p /\ heal s' = h /\ refilled s s') \/
  (exists m s' st' p, (m < length ns)%nat /\ stream_reads c s st (firstn (S m) ns) = Ok (s', st', firstn m xs ++ [[]]) /\
     consumed s s' p /\ In true p /\ refilled s s').
Proof.
  induction ns as [|n ns IH]; intros s st h st0 xs H; cbn [stream_reads] in *.
  - injection H as <- <- <-. left. exists s, []. auto 10 using consumed_nil, refilled_refl, in_nil.
  - apply bind_inv in H as (((h1 & st1) & o) & E1 & H). apply bind_inv in H as (((h2 & st2) & ys) & E2 & H). injection H as <- <- <-.
    destruct (stream_soft _ _ _ _ _ _ _ E1) as (s1 & st1' & o' & p & F1 & C1 & R1 & D). rewrite F1. cbn [bind].
    destruct D as [(N & -> & -> & <-)|(T & ->)].
    + destruct (IH _ _ _ _ _ E2) as [(s2 & q & F2 & C2 & N2 & Hh & R2)|(m & s2 & st' & q & M & F2 & C2 & T2 & R2)].
      * left. rewrite F2. cbn [bind]. exists s2, (p ++ q). split; [reflexivity|]. split; [eapply consumed_trans; eauto|].
        split; [intros X; apply in_app_or in X; tauto|]. split; [assumption|eapply refilled_trans; eauto].
      * right. exists (S m), s2, st', (p ++ q). cbn [length]. split; [lia|]. rewrite firstn_cons. cbn [stream_reads]. rewrite F1. cbn [bind]. rewrite F2. cbn [bind].
        split; [reflexivity|]. split; [eapply consumed_trans; eauto|]. split; [apply in_or_app; auto|eapply refilled_trans; eauto].
    + right. exists 0%nat, s1, st1', p. cbn [length]. split; [lia|]. cbn [firstn stream_reads]. rewrite F1. auto.
Qed.

Lemma getvar_read_soft c s k ns h r d o : (forall n dt, searchBuffer c (wbuf (sd s)) k = Ok (n, dt) -> n = -1) ->
  getvar_read c (heal s) k ns = Ok (h, OVGetVar r d o) ->
  exists s' p, consumed s s' p /\ refilled s s' /\
  ((~ In true p /\ getvar_read c s k ns = Ok (s', OVGetVar r d o) /\ heal s' = h) \/
   (In true p /\ exists d', (d' = None \/ d' = d) /\ getvar_read c s k ns = Ok (s', OVGetVar (-1) d' None)) \/
   (In true p /\ exists m xs, o = Some xs /\ (m < length ns)%nat /\
      getvar_read c s k (firstn (S m) ns) = Ok (s', OVGetVar r d (Some (firstn m xs ++ [[]]))))).
Proof.
  intros NB H. unfold getvar_read in *. apply bind_inv in H as ((((h1 & r1) & d1) & st) & E1 & H).
  destruct (getVar_soft _ _ _ _ _ _ _ NB E1) as (s1 & r1' & d1' & st' & p & F1 & C1 & R1 & D). rewrite F1. cbn [bind].
  destruct D as [(N & -> & -> & -> & <-)|(T & -> & -> & Dd)].
  - destruct st as [st|].
    + apply bind_inv in H as (((h2 & st2) & xs) & E2 & H). assert (Hh : h2 = h /\ r1 = r /\ d1 = d /\ o = Some xs) by (repeat split; congruence).
      destruct Hh as (-> & -> & -> & ->). clear H.
      destruct (reads_soft _ _ _ _ _ _ _ E2) as [(s2 & q & F2 & C2 & N2 & Hh & R2)|(m & s2 & st' & q & M & F2 & C2 & T2 & R2)];
        exists s2, (p ++ q); (split; [eapply consumed_trans; eauto|]); (split; [eapply refilled_trans; eauto|]).
      * left. split; [intros X; apply in_app_or in X; tauto|]. rewrite F2. auto.
      * right. right. split; [apply in_or_app; auto|]. exists m, xs. split; [reflexivity|]. split; [assumption|]. rewrite F2. reflexivity.
    + assert (Hh : heal s1 = h /\ r1 = r /\ d1 = d /\ o = None) by (repeat split; congruence). destruct Hh as (Hh & -> & -> & ->).
      exists s1, p. auto 10.
  - exists s1, p. split; [assumption|]. split; [assumption|]. right. left. split; [assumption|]. exists d1'. split; [|reflexivity].
    assert (d1 = d). { destruct st; [apply bind_inv in H as (((h2 & st2) & xs) & E2 & H)|]; congruence. }
    congruence.
Qed.

Lemma c30_payloads KB PB VB c dk h1 k d b h2 s ns fs : let h := h1 ++ VPut k d (Some b) :: h2 in
  vscenario c KB PB VB h -> vreached c dk h s -> var_clean c s -> lookup_inside c s k ns ->
  refused (vlog (vstore_of c h1)) k = false -> In k (map rkey (retained (vlog (vstore_of c h)))) ->
  ~ In k (map rkey (cur (vlog (vstore_of c h)))) -> var_intact c VB dk h s k ->
  exists s' p, consumed (with_faults s fs) s' p /\ refilled (with_faults s fs) s' /\
  ((~ In true p /\ getvar_read c (with_faults s fs) k ns = Ok (s', OVGetVar 0 (Some d) (Some (pieces b ns)))) \/
   (In true p /\ exists d', (d' = None \/ d' = Some d) /\ getvar_read c (with_faults s fs) k ns = Ok (s', OVGetVar (-1) d' None)) \/
   (In true p /\ exists m, (m < length ns)%nat /\
      getvar_read c (with_faults s fs) k (firstn (S m) ns) = Ok (s', OVGetVar 0 (Some d) (Some (firstn m (pieces b ns) ++ [[]]))))).
Proof.
  intros h Sc Re Cl Hin Rf Hr Nc Hi.
  destruct (c15_stored KB PB VB c dk h1 k d (Some b) h2 s ns Sc Re Cl Hin Rf Hr (fun _ => Hi)) as (t & E). fold h in E. cbn [option_map] in E.
  destruct (reached_VInv c KB PB VB h dk s Sc Re) as (L & VR & VP & lv & o & Y & _ & St & _).
  pose proof (y_inv _ _ _ _ _ _ _ _ _ _ _ _ _ _ _ Y) as I. assert (GV : setting c KB PB /\ var_setting c VB) by (clear - Sc; destruct Sc; auto). destruct GV as [G V].
  assert (Hs : heal s = s) by (apply heal_id; exact (i_faults _ _ _ _ _ _ _ _ I)).
  assert (NB : forall n dt, searchBuffer c (wbuf (sd (with_faults s fs))) k = Ok (n, dt) -> n = -1).
  { intros n dt S. change (sd (with_faults s fs)) with (sd s) in S.
    pose proof (wf_of c KB PB 0 s L I) as W.
    pose proof (searchBuffer_ok c KB (g_lay _ _ _ G) (proj2 (g_KB _ _ _ G)) (g_cmp _ _ _ G) (wbuf (sd s)) (cur L) k) as X.
    specialize (X ltac:(pose proof (vs_rec _ _ V); lia) (i_w _ _ _ _ _ _ _ _ I) (cur_asc c KB L W) (cur_recs c KB L W) (key_range _ _ _ _ _ _ _ _ _ Sc)).
    assert (F : find_key k (cur L) = None).
    { destruct (find_key k (cur L)) as [r|] eqn:F; [|reflexivity]. exfalso. apply Nc. rewrite <- St. cbn [store_is vlog bareL cur]. rewrite bare_keys.
      apply find_some in F as [F1 F2]. apply Z.eqb_eq in F2. subst k. now apply in_map. }
    rewrite F in X. congruence. }
  destruct (getvar_read_soft c (with_faults s fs) k ns t 0 (Some d) (Some (pieces b ns)) NB) as (s' & p & C & R & D).
  { change (heal (with_faults s fs)) with (heal s). rewrite Hs. exact E. }
  exists s', p. split; [assumption|]. split; [assumption|]. destruct D as [(D1 & D2 & _)|[D|(D1 & m & xs & Ex & D2)]]; [auto|auto|].
  right. right. split; [assumption|]. injection Ex as <-. eauto.
Qed.

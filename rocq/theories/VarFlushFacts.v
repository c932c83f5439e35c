(** A flush changes no payload lookup. *)
From Coq Require Import Lia.
From Verif Require Import Base Config Spline Storage DB VarData Recovery Spec SpecPage SpecStore BaseFacts StoreFacts Run SpecRun
  StoreThms ReachFacts SpecVar VarFacts VarRunFacts VarStoreThms VarReadFacts VarThms.
Open Scope Z_scope.
Ltac Zify.zify_post_hook ::= ZifyBool.elim_bool_cstr.
Ltac Zify.zify_convert_to_euclidean_division_equations_flag ::= constr:(false).

Lemma vscenario_prefix c KB PB VB h1 h2 : vscenario c KB PB VB (h1 ++ h2) -> vscenario c KB PB VB h1.
Proof.
  intros [G V HR Ho Hl Hc]. destruct (vhist_app _ _ _ _ _ Ho) as [Ho1 _]. rewrite vcosts_app in Hc. rewrite zlen_app in Hl.
  pose proof (zlen_nonneg h2). constructor; auto; [lia|].
  assert (0 <= vcosts c h2); [|lia]. clear - G.
  induction h2 as [|o h2 IH]; cbn [vcosts fold_right]; [lia|]. fold (vcosts c h2).
  assert (0 <= pageSize c) by (pose proof (vP c KB PB G); lia).
  unfold vcost. destruct o as [k d [b|]| | |]; try (pose proof (zlen_nonneg b)); lia.
Qed.
Lemma c37_var KB PB VB c dk h s s' k ns :
  vscenario c KB PB VB (h ++ [VFlush]) -> vreached c dk h s -> vreached c dk (h ++ [VFlush]) s' -> 0 <= k < KB ->
  (let L := vlog (vstore_of c h) in cur L = [] \/ zlen (pages L) - lo L < numData c) ->
  var_clean c s -> var_clean c s' -> lookup_inside c s k ns -> lookup_inside c s' k ns ->
  (useBinary c = true -> In k (map rkey (accepted (vlog (vstore_of c h)))) -> In k (map rkey (retained (vlog (vstore_of c h))))) ->
  (payload k (vpay (vstore_of c h)) <> None -> var_intact c VB dk h s k /\ var_intact c VB dk (h ++ [VFlush]) s' k) ->
  exists t t' x, getvar_read c s k ns = Ok (t, x) /\ getvar_read c s' k ns = Ok (t', x).
Proof.
  intros Sc1 Re0 Re1 Hk Hc Cl0 Cl1 In0 In1 Hb Hi. pose proof (vscenario_prefix _ _ _ _ _ _ Sc1) as Sc0. cbv zeta in Hc.
  assert (EV : vstore_of c (h ++ [VFlush]) = mkVS (log_flush (numData c) (eraseSize c) (vlog (vstore_of c h))) (vpay (vstore_of c h))).
  { unfold vstore_of. rewrite fold_left_app. reflexivity. }
  assert (Wl : 0 <= lo (vlog (vstore_of c h)) <= zlen (pages (vlog (vstore_of c h)))).
  { destruct (reached_VInv c KB PB VB h dk s Sc0 Re0) as (L & VR & VP & lv & o & Y & _ & St & _). rewrite <- St.
    pose proof (wf_of c KB PB 0 s L (y_inv _ _ _ _ _ _ _ _ _ _ _ _ _ _ _ Y)) as W. pose proof (w_lo _ _ _ W).
    unfold store_is. cbn [vlog bareL pages lo]. unfold zlen in *. rewrite map_length. exact H. }
  pose proof (flush_retained (numData c) (eraseSize c) _ Hc Wl) as Er.
  assert (Ea : accepted (log_flush (numData c) (eraseSize c) (vlog (vstore_of c h))) = accepted (vlog (vstore_of c h))).
  { unfold log_flush, accepted, seal. destruct (cur (vlog (vstore_of c h))) eqn:E; [now rewrite E|]. cbn [pages cur].
    rewrite concat_app. cbn [concat]. now rewrite !app_nil_r. }
  destruct (var_lookup c KB PB VB h dk s k ns Sc0 Re0 Hk Cl0 In0 Hb (fun H => proj1 (Hi H))) as (t & E0).
  destruct (var_lookup c KB PB VB (h ++ [VFlush]) dk s' k ns Sc1 Re1 Hk Cl1 In1) as (t' & E1).
  - rewrite EV. cbn [vlog]. rewrite Ea, Er. exact Hb.
  - rewrite EV. cbn [vpay]. intros H. exact (proj2 (Hi H)).
  - exists t, t', (vlookup (vstore_of c h) k ns). split; [exact E0|]. rewrite E1, EV. unfold vlookup. cbn [vlog vpay]. now rewrite Er.
Qed.

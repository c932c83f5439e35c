(** In-page search (embedDBSearchNode) finds a key exactly when the page holds
    it, whatever the estimate. *)
From Verif Require Import Base BaseFacts Config Spline Storage DB Spec SpecPage LogFacts PageFacts.
Open Scope Z_scope.

Section Search.
  Variables (c : cfg) (KB : Z).
  Hypothesis L : layout c.
  Hypothesis HK : KB <= 256 ^ keySize c.
  Hypothesis CMP : cmp_exact (cmpK c) KB.

  Lemma search_loop_ok p rs k : holds c p rs -> ascending rs -> Forall (rec_ok c KB) rs -> 0 <= k < KB ->
    forall fuel first last middle,
    0 <= first -> last < zlen rs -> first <= last + 1 ->
    (first <= last -> first <= middle <= last) ->
    last - first + 1 < Z.of_nat fuel ->
    (forall i r, nth_error rs i = Some r -> rkey r = k -> first <= Z.of_nat i <= last) ->
    search_loop c p k fuel first last middle =
      Ok None /\ (forall r, In r rs -> rkey r <> k) \/
    exists i r, search_loop c p k fuel first last middle = Ok (Some (Z.of_nat i)) /\
      nth_error rs i = Some r /\ rkey r = k.
  Proof.
    intros H Ha Hr Hk fuel. induction fuel as [|fuel IH]; intros first last middle F0 Ll FL Hm Hf Hin; [lia|].
    cbn [search_loop]. destruct (Z.leb_spec first last) as [Le|Gt].
    2:{ left. split; auto. intros r I E. apply In_nth_error in I as [i Hi]. specialize (Hin _ _ Hi E). lia. }
    specialize (Hm Le).
    destruct (nth_error rs (Z.to_nat middle)) as [r|] eqn:E.
    2:{ apply nth_error_None in E. unfold zlen in *. lia. }
    assert (R : rec_ok c KB r) by (eapply Forall_forall; [exact Hr|eapply nth_error_In; eauto]).
    pose proof (rec_key_ok c L p rs (Z.to_nat middle) r KB HK H E R) as RK.
    rewrite Z2Nat.id in RK by lia. rewrite RK. cbn [bind].
    destruct R as (R & _). rewrite (CMP _ _ R Hk).
    destruct (Z.ltb_spec (rkey r) k) as [Lt|Ge].
    - change (-1 <? 0) with true. cbv iota. apply IH; try lia.
      + intros i r' Hi Ei. specialize (Hin _ _ Hi Ei). destruct (Z.le_gt_cases (Z.of_nat i) middle); [|lia].
        destruct (Nat.eq_dec i (Z.to_nat middle)) as [->|Ne].
        * rewrite E in Hi; injection Hi as ->; lia.
        * assert (rkey r' < rkey r) by (eapply asc_nth; eauto; lia). lia.
    - destruct (Z.eqb_spec (rkey r) k) as [Eq|Ne].
      + change (0 <? 0) with false. change (0 =? 0) with true. cbv iota. right.
        exists (Z.to_nat middle), r. rewrite Z2Nat.id by lia. auto.
      + change (1 <? 0) with false. change (1 =? 0) with false. cbv iota. apply IH; try lia.
        * intros i r' Hi Ei. specialize (Hin _ _ Hi Ei). destruct (Z.le_gt_cases middle (Z.of_nat i)); [|lia].
          destruct (Nat.eq_dec i (Z.to_nat middle)) as [->|Ne2].
          -- rewrite E in Hi; injection Hi as ->; lia.
          -- assert (rkey r < rkey r') by (eapply asc_nth; eauto; lia). lia.
  Qed.

  Lemma searchNode_ok p rs k : holds c p rs -> ascending rs -> Forall (rec_ok c KB) rs -> 0 <= k < KB ->
    embedDBSearchNode c p k = Ok None /\ (forall r, In r rs -> rkey r <> k) \/
    exists i r, embedDBSearchNode c p k = Ok (Some (Z.of_nat i)) /\ nth_error rs i = Some r /\ rkey r = k.
  Proof.
    intros H Ha Hr Hk. unfold embedDBSearchNode. rewrite (get_count_ok c L p rs H). cbn [bind].
    pose proof (h_max _ _ _ H) as Hm. destruct (l_fit c L) as [_ F]. pose proof (zlen_nonneg rs) as N.
    rewrite i16_id by lia. apply search_loop_ok with (rs := rs); auto; try lia.
    - intros Hl. rewrite Z.add_0_l.
      destruct ((i16 (est c p k) >=? zlen rs) || (i16 (est c p k) <=? 0)) eqn:E.
      + rewrite Z.quot_div_nonneg by lia. destruct (_ >? _) eqn:G; lia.
      + destruct (_ >? _) eqn:G; lia.
    - intros i r Hi _. assert (i < length rs)%nat by (apply nth_error_Some; congruence). unfold zlen. lia.
  Qed.

  (** As an equation. *)
  Lemma searchNode_find p rs k : holds c p rs -> ascending rs -> Forall (rec_ok c KB) rs -> 0 <= k < KB ->
    match find_key k rs with
    | None => embedDBSearchNode c p k = Ok None
    | Some r => exists i, embedDBSearchNode c p k = Ok (Some (Z.of_nat i)) /\ nth_error rs i = Some r
    end.
  Proof.
    intros H Ha Hr Hk. destruct (searchNode_ok p rs k H Ha Hr Hk) as [[E N]|(i & r & E & Hi & Ek)].
    - rewrite (proj2 (find_key_none k rs) N). auto.
    - rewrite (proj2 (find_key_some k rs r Ha)); [eauto|]. split; auto. eapply nth_error_In; eauto.
  Qed.

  Lemma searchBuffer_ok p rs k : maxRec c <= 255 -> holds c p rs -> ascending rs -> Forall (rec_ok c KB) rs -> 0 <= k < KB ->
    match find_key k rs with
    | None => searchBuffer c p k = Ok (-1, None)
    | Some r => exists i, searchBuffer c p k = Ok (i, Some (rdata r)) /\ i <> -1
    end.
  Proof.
    intros M H Ha Hr Hk. unfold searchBuffer. rewrite (get_count_ok c L p rs H). cbn [bind].
    destruct (Z.eqb_spec (zlen rs) 0) as [Z0|Z1].
    - destruct rs; [reflexivity|]. rewrite zlen_cons in Z0. pose proof (zlen_nonneg rs). lia.
    - pose proof (searchNode_find p rs k H Ha Hr Hk) as S. destruct (find_key k rs) as [r|].
      + destruct S as (i & -> & Hi). cbn [bind].
        assert (R : rec_ok c KB r) by (eapply Forall_forall; [exact Hr|eapply nth_error_In; eauto]).
        rewrite (rec_data_ok c L p rs i r H Hi) by (apply R). cbn [bind]. eexists; split; [reflexivity|].
        pose proof (h_max _ _ _ H). assert (i < length rs)%nat by (apply nth_error_Some; congruence).
        unfold zlen in *. unfold i8, sgn_of. cbv zeta.
        destruct (Z.ltb_spec (Z.of_nat i mod 2 ^ 8) (2 ^ (8 - 1))); rewrite Z.mod_small in * by lia; lia.
      + rewrite S. reflexivity.
  Qed.
End Search.

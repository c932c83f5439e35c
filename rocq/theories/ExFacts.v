(** Concrete configurations and histories meeting the hypotheses of the storage
    theorems. *)
From Verif Require Import Base BaseFacts Config Spline Storage DB Recovery Spec Util UtilFacts SpecPage SpecStore Run SpecRun ReachFacts.
Open Scope Z_scope.

(** 7 records of 4+4 bytes on 64-byte pages, 4 data pages in blocks of 2. *)
Definition eA := ex_cfg 64 32 4 2 8 1 None None.
(** The same with binary search. *)
Definition eB := ex_cfg 64 (32 + 128 + 256) 4 2 8 1 None (Some 0).
(** The same with an erase that destroys the block. *)
Definition eE := ex_cfg 64 32 4 2 8 1 (Some 255) None.
(** Index file, bitmaps and max/min summaries; 128-byte pages, 8 data pages. *)
Definition eX := ex_cfg 128 (1 + 2 + 8 + 32) 8 2 8 1 None None.

Lemma ex_cmp_exact : cmp_exact int32Comparator_wrap (2 ^ 31).
Proof.
  intros a b A B. rewrite int32Comparator_wrap_order by auto.
  destruct (Z.compare_spec a b), (Z.ltb_spec a b), (Z.eqb_spec a b); try lia; auto.
Qed.

Lemma ex_upd_length d b : length (ex_upd d b) = length b.
Proof.
  unfold ex_upd, updateBitmapInt64. destruct (ldz d 0 4) as [v| |]; cbn [bind]; auto.
  destruct (ldz b _ 1) as [x| |]; cbn [bind]; auto.
  destruct (st b _ _) as [r| |] eqn:E; auto. apply st_inv in E as (A & B & ->).
  pose proof (zwr_length b _ _ A B) as Z. unfold zlen in Z. lia.
Qed.

Ltac num := first [left; reflexivity|right; vm_compute; discriminate|vm_compute; repeat split; first [reflexivity|discriminate]].
Ltac lay := constructor; [num|num|num|num|num|num|num|intros H; try discriminate H; num|intros H; try discriminate H; num|
  intros H; try discriminate H; intros d b Hd Hb; cbn [updBM]|num|num|num].
Ltac setting_ex := constructor; [|num|num|num|num|num|num|exact ex_cmp_exact|num|intros _; num|
  intros H; try discriminate H; reflexivity|intros H; try discriminate H; num].

Lemma eA_set : setting eA (2 ^ 31) (2 ^ 31).
Proof. setting_ex. lay. Qed.
Lemma eB_set : setting eB (2 ^ 31) (2 ^ 31).
Proof. setting_ex. lay. Qed.
Lemma eE_set : setting eE (2 ^ 31) (2 ^ 31).
Proof. setting_ex. lay. Qed.
Lemma eX_set : setting eX (2 ^ 31) (2 ^ 31).
Proof. setting_ex. lay. cbn [eX ex_cfg updBM]. now rewrite ex_upd_length. Qed.
Ltac modes_ex := constructor; [reflexivity|reflexivity|num|intros _; split; reflexivity|first [discriminate|intros _; reflexivity]].
Lemma eA_modes : modes eA.
Proof. modes_ex. Qed.
Lemma eB_modes : modes eB.
Proof. modes_ex. Qed.
Lemma eE_modes : modes eE.
Proof. constructor; [reflexivity|reflexivity|num|discriminate|discriminate]. Qed.
Lemma eX_modes : modes eX.
Proof. modes_ex. Qed.

(** Histories of puts, checked by computation. *)
Definition op_plainb (c : cfg) (KB : Z) (o : hop) : bool :=
  match o with
  | HPut k d => (0 <=? k) && (k <? KB) && (length d =? dsz c)%nat
  | HFlush => true
  | HGet k => (0 <=? k) && (k <? KB)
  end.
Lemma ops_plain c KB h : forallb (op_plainb c KB) h = true -> Forall (op_plain c KB) h.
Proof.
  intros H. apply Forall_forall. intros o Ho. rewrite forallb_forall in H. specialize (H o Ho).
  destruct o; cbn in *; auto; rewrite ?andb_true_iff in H.
  - destruct H as [H1 H2]. apply Nat.eqb_eq in H2. split; [lia|auto].
  - lia.
Qed.
Definition is_flush (o : hop) : bool := match o with HFlush => true | _ => false end.

Lemma scenario_check c h : setting c (2 ^ 31) (2 ^ 31) -> modes c -> useReset c = true ->
  forallb (op_plainb c (2 ^ 31)) h = true -> zascending (put_keys h) ->
  (useIndex c && existsb is_flush h = false) -> (zlen h + maxErr c <? 2 ^ 31 = true) ->
  scenario c (2 ^ 31) (2 ^ 31) h.
Proof.
  intros. constructor; auto.
  - apply ops_plain; auto.
  - intros U Hi. rewrite U in *. cbn [andb] in *. assert (existsb is_flush h = true); [|congruence].
    apply existsb_exists. exists HFlush. auto.
  - lia.
Qed.
Ltac scen := apply scenario_check;
  [first [exact eA_set|exact eB_set|exact eE_set|exact eX_set]
  |first [exact eA_modes|exact eB_modes|exact eE_modes|exact eX_modes]
  |reflexivity|vm_compute; reflexivity|vm_compute; repeat split|vm_compute; reflexivity|vm_compute; reflexivity].

Lemma eA_open k : exists s, embedDBInit eA k [] = Ok (s, 0).
Proof. apply (fresh_exists _ _ _ k eA_set); try reflexivity. discriminate. Qed.
Lemma eB_open k : exists s, embedDBInit eB k [] = Ok (s, 0).
Proof. apply (fresh_exists _ _ _ k eB_set); try reflexivity. discriminate. Qed.
Lemma eE_open k : exists s, embedDBInit eE k [] = Ok (s, 0).
Proof. apply (fresh_exists _ _ _ k eE_set); try reflexivity. discriminate. Qed.
Lemma eX_open k : exists s, embedDBInit eX k [] = Ok (s, 0).
Proof. apply (fresh_exists _ _ _ k eX_set); try reflexivity. vm_compute; intuition congruence. Qed.

(** 60 puts (two wraps around the 4 pages), a flush, lookups of a retained, an
    evicted and an absent key. *)
Definition hA : list hop := puts 60 1 1.
Lemma hA_ok : scenario eA (2 ^ 31) (2 ^ 31) (hA ++ [HFlush] ++ map HGet [60; 1; 99]).
Proof. scen. Qed.

(** Deciding [calm] and [hist_ok] on concrete histories. *)
Fixpoint calmb (c : cfg) (s : state) (h : list hop) : bool :=
  match h with
  | [] => true
  | o :: h' =>
      (if is_flush o && useIndex c
       then match get_count (iwbuf (si s)) with Ok n => n <? maxIdx c | _ => false end else true) &&
      match step c s o with
      | Ok (s', _) =>
          ((nextD (sd s') =? nextD (sd s)) || negb (nextD (sd s) mod numData c =? bufD (sd s))) && calmb c s' h'
      | _ => true
      end
  end.
Lemma calmb_ok c h : forall s, calmb c s h = true -> calm c s h.
Proof.
  induction h as [|o h IH]; intros s H; [exact I|]. cbn [calmb] in H. apply andb_prop in H as [H1 H2]. split.
  - intros -> U. rewrite U in H1. cbn [is_flush andb] in H1. destruct (get_count (iwbuf (si s))) as [n| |]; try discriminate.
    exists n. split; [auto|lia].
  - intros s' x E. rewrite E in H2. apply andb_prop in H2 as [H2 H3]. split; [|auto]. intros Ne.
    destruct (Z.eqb_spec (nextD (sd s')) (nextD (sd s))); [congruence|]. cbn [orb] in H2.
    destruct (Z.eqb_spec (nextD (sd s) mod numData c) (bufD (sd s))); [discriminate|auto].
Qed.

Definition op_okb (c : cfg) (KB : Z) (L : log) (o : hop) : bool :=
  match o with
  | HPut k d =>
      (0 <=? k) && (k <? KB) && (length d =? dsz c)%nat &&
      (negb (refused L k) || negb (match cur L with [] => true | _ => false end)
       || (zlen (nth (Z.to_nat (zlen (pages L) - 1)) (pages L) []) =? maxRec c))
  | HFlush => true
  | HGet k => (0 <=? k) && (k <? KB) && negb (useBinary c)
  end.
Fixpoint hist_okb (c : cfg) (KB : Z) (L : log) (h : list hop) : bool :=
  match h with
  | [] => true
  | o :: h' => op_okb c KB L o && hist_okb c KB (fst (spec_step (maxRec c) (numData c) (eraseSize c) L o)) h'
  end.
Lemma hist_okb_ok c KB h : forall L, hist_okb c KB L h = true -> hist_ok c KB L h.
Proof.
  induction h as [|o h IH]; intros L H; [exact I|]. cbn [hist_okb] in H. apply andb_prop in H as [H1 H2].
  split; [|auto]. destruct o as [k d| |k]; cbn [op_okb op_ok] in *; auto.
  - rewrite !andb_true_iff in H1. destruct H1 as ((H1 & H3) & H4). apply Nat.eqb_eq in H3. split; [lia|]. split; [auto|].
    intros R C. rewrite R, C in H4. cbn [negb orb] in H4. lia.
  - rewrite !andb_true_iff in H1. split; [lia|]. intros U. rewrite U in H1. destruct H1; discriminate.
Qed.
Lemma quiet_check c h : setting c (2 ^ 31) (2 ^ 31) -> modes c -> useReset c = true ->
  hist_okb c (2 ^ 31) emptyLog h = true -> (zlen h + maxErr c <? 2 ^ 31 = true) ->
  quiet c (2 ^ 31) (2 ^ 31) h.
Proof. intros. constructor; auto; [apply hist_okb_ok; auto|lia]. Qed.
Ltac quiet_ex := apply quiet_check;
  [first [exact eA_set|exact eB_set|exact eE_set|exact eX_set]
  |first [exact eA_modes|exact eB_modes|exact eE_modes|exact eX_modes]
  |reflexivity|vm_compute; reflexivity|vm_compute; reflexivity].

(** A history executed on an empty file without disturbing the read buffer. *)
Definition calm_run (c : cfg) (h : list hop) : bool :=
  match embedDBInit c noDisk [] with Ok (s, r) => (r =? 0) && calmb c s h | _ => false end.
Lemma calm_run_ok c h : calm_run c h = true ->
  exists s0, embedDBInit c noDisk [] = Ok (s0, 0) /\ calm c s0 h.
Proof.
  unfold calm_run. destruct (embedDBInit c noDisk []) as [[s r]| |]; try discriminate. intros H.
  apply andb_prop in H as [H1 H2]. exists s. assert (r = 0) as -> by lia. split; [auto|]. apply calmb_ok; auto.
Qed.
Definition runs_ok (c : cfg) (h : list hop) : bool :=
  match embedDBInit c noDisk [] with
  | Ok (s, r) => (r =? 0) && match run c s h with Ok _ => true | _ => false end
  | _ => false
  end.
Lemma reached_ex c h : runs_ok c h = true -> exists s xs, reached c noDisk h s xs.
Proof.
  unfold runs_ok, reached. destruct (embedDBInit c noDisk []) as [[s r]| |]; try discriminate. intros H.
  apply andb_prop in H as [H1 H2]. destruct (run c s h) as [[s' xs]| |] eqn:E; try discriminate.
  exists s', xs, s. assert (r = 0) as -> by lia. auto.
Qed.
Lemma calmly_ex c h : calm_run c h = true -> runs_ok c h = true -> exists s xs, calmly c noDisk h s xs.
Proof.
  intros H1 H2. destruct (calm_run_ok c h H1) as (s0 & E0 & Hc). unfold runs_ok in H2. rewrite E0 in H2.
  apply andb_prop in H2 as [_ H2]. destruct (run c s0 h) as [[s' xs]| |] eqn:E; try discriminate.
  exists s', xs, s0. auto.
Qed.
Lemma keys_check c KB L ks : useBinary c = false -> forallb (fun k => (0 <=? k) && (k <? KB)) ks = true ->
  Forall (key_ok c KB L) ks.
Proof.
  intros U H. apply Forall_forall. intros k Hk. rewrite forallb_forall in H. specialize (H k Hk). split; [lia|].
  rewrite U. discriminate.
Qed.

(** Concrete lifetimes with record-level consistency and variable data meeting the
    hypotheses of their theorems. *)
From Verif Require Import Base BaseFacts Config Spline Storage DB VarData Recovery Spec Util UtilFacts SpecPage SpecStore Run SpecRun
  SpecIter SpecReopen SpecVar SpecRlc SpecRlcVar ReachFacts ExFacts ExReopen ExRlc ExVar.
Open Scope Z_scope.

(** 4 records of 4+4 bytes and an address on 64-byte pages, 16 data pages and 8
    variable pages in blocks of 2; created with, reopened without the reset flag. *)
Definition eW := ex_cfg 64 (16 + 32 + 64) 16 2 8 1 None None.
Definition eWr := ex_cfg 64 (16 + 64) 16 2 8 1 None None.
Lemma eW_set : setting eW (2 ^ 31) (2 ^ 31).
Proof. setting_ex. lay. Qed.
Lemma eWr_set : setting eWr (2 ^ 31) (2 ^ 31).
Proof. setting_ex. lay. Qed.
Ltac wdb_ex := constructor; [rlc_ex|reflexivity|vm_compute; discriminate|reflexivity|vm_compute; discriminate
  |vm_compute; discriminate|left; reflexivity|vm_compute; discriminate].
Lemma eW_db : wdb eW (2 ^ 31) (2 ^ 31) (2 ^ 32).
Proof. wdb_ex; [exact eW_set|]. split; [left; reflexivity|exact I]. Qed.
Lemma eWr_db : wdb eWr (2 ^ 31) (2 ^ 31) (2 ^ 32).
Proof. wdb_ex; [exact eWr_set|]. split; [left; reflexivity|exact I]. Qed.
Lemma init_ex c : match embedDBInit c noDisk [] with Ok (_, r) => r =? 0 | _ => false end = true ->
  exists s, embedDBInit c noDisk [] = Ok (s, 0).
Proof. destruct (embedDBInit c noDisk []) as [[s r]| |]; intros H; try discriminate H. apply Z.eqb_eq in H. subst r. eauto. Qed.
Lemma eW_created : exists s, wcreated eW (2 ^ 31) (2 ^ 31) (2 ^ 32) noDisk s.
Proof.
  destruct (init_ex eW ltac:(vm_compute; reflexivity)) as (s & E). exists s.
  split; [exact eW_db|]. split; [reflexivity|]. split; [reflexivity|exact E].
Qed.

Inductive wcode := XOp (o : vop) | XStop (ts : list nat) | XCrash (o : vop) (i : nat) (ts : list nat).
Definition wev_of (cr : cfg) (x : wcode) : wevent :=
  match x with
  | XOp o => WOp o
  | XStop ts => WStop (map (fun i => (cr, i)) ts) cr
  | XCrash o i ts => WCrash o i (map (fun i => (cr, i)) ts) cr
  end.
Definition wop_plainb (c : cfg) (KB : Z) (o : vop) : bool :=
  match o with
  | VPut k d v => (0 <=? k) && (k <? KB) && (length d =? dsz c)%nat && match v with Some _ => 0 <? k | None => true end
  | VFlush => true
  | VGet k => (0 <=? k) && (k <? KB)
  | VGetVar k ns => (0 <=? k) && (k <? KB) && forallb (fun n => (0 <=? n) && (n <? 2 ^ 32)) ns
  end.
Lemma wop_plainb_ok c KB o : wop_plainb c KB o = true -> wop_plain c KB o.
Proof.
  destruct o as [k d v| |k|k ns]; cbn [wop_plainb wop_plain]; intros H; auto; rewrite ?andb_true_iff in H.
  - destruct H as ((H & H1) & H2). apply Nat.eqb_eq in H1. split; [lia|]. split; [auto|]. destruct v; [lia|congruence].
  - lia.
  - destruct H as (H & H1). split; [lia|]. rewrite forallb_forall in H1. apply Forall_forall. intros n Hn. specialize (H1 n Hn). lia.
Qed.
Definition wokb (c cr : cfg) (es : list wevent) : bool :=
  forallb (wop_plainb c (2 ^ 31)) (wev_ops es) && zascb (vput_keys (wev_ops es)) &&
  (zlen (wev_ops es) + maxErr c <? 2 ^ 31) && (zlen (wev_ops es) + maxErr cr <? 2 ^ 31) &&
  (vcosts c (wev_ops es) + 2 * pageSize c <? 2 ^ 32).
Lemma wokb_ok c cr xs : same_store c cr -> numVar cr = numVar c -> wdb cr (2 ^ 31) (2 ^ 31) (2 ^ 32) -> useReset cr = false -> maxErr cr <= 1 ->
  wokb c cr (map (wev_of cr) xs) = true -> wok c (2 ^ 31) (2 ^ 31) (2 ^ 32) (map (wev_of cr) xs).
Proof.
  intros S Nv R Hr He H. unfold wokb in H. rewrite !andb_true_iff in H. destruct H as [[[[H1 H2] H3] H4] H5]. constructor; try lia.
  - rewrite forallb_forall in H1. apply Forall_forall. intros o Ho. apply wop_plainb_ok. auto.
  - apply zascb_ok. auto.
  - assert (Ro : wreopen c cr (2 ^ 31) (2 ^ 31) (2 ^ 32) (zlen (wev_ops (map (wev_of cr) xs)))).
    { split; [|auto]. split; [auto|]. split; [apply (wd_rlc _ _ _ _ R)|]. split; [auto|]. split; [auto|]. lia. }
    revert Ro. generalize (zlen (wev_ops (map (wev_of cr) xs))). intros n Ro. clear H1 H2 H3 H4 H5.
    induction xs as [|x xs IH]; cbn [map]; constructor; auto.
    assert (Ts : forall ts, Forall (fun c' => wreopen c c' (2 ^ 31) (2 ^ 31) (2 ^ 32) n) (map fst (map (fun i : nat => (cr, i)) ts))).
    { induction ts; cbn [map fst]; constructor; auto. }
    destruct x; cbn [wev_of wev_cfgs]; try constructor; auto.
Qed.
Definition wquiet_stepb (c : cfg) (s : state) (o : vop) : bool :=
  quiet_stepb c s (as_hop o) &&
  match o with
  | VGetVar k _ => match searchBuffer c (wbuf (sd s)) k with Ok (r, _) => r =? -1 | _ => false end
  | _ => true
  end.
Fixpoint wquietb (c : cfg) (s : state) (es : list wevent) : bool :=
  match es with
  | [] => true
  | e :: es' =>
      match wev_op e with Some o => wquiet_stepb c s o | None => true end &&
      match wevent_step c s e with Ok (c1, s1, _) => wquietb c1 s1 es' | _ => true end
  end.
Lemma wquiet_stepb_ok c s o : wquiet_stepb c s o = true -> wquiet_step c s o.
Proof.
  unfold wquiet_stepb. intros H. apply andb_prop in H as [H1 H2]. split; [apply quiet_stepb_ok; auto|]. intros k ns ->.
  destruct (searchBuffer c (wbuf (sd s)) k) as [[r d]| |]; try discriminate H2. exists d. apply Z.eqb_eq in H2. now subst r.
Qed.
Lemma wquietb_ok es : forall c s, wquietb c s es = true -> wquiet c s es.
Proof.
  induction es as [|e es IH]; intros c s H; [exact I|]. cbn [wquietb wquiet] in *. apply andb_prop in H as [H1 H2]. split.
  - intros o Eo. rewrite Eo in H1. apply wquiet_stepb_ok. auto.
  - intros c1 s1 x E. rewrite E in H2. auto.
Qed.
Lemma eW_ok xs s : wcreated eW (2 ^ 31) (2 ^ 31) (2 ^ 32) noDisk s ->
  wokb eW eWr (map (wev_of eWr) xs) && opened eW (fun s => wquietb eW s (map (wev_of eWr) xs)) = true ->
  wok eW (2 ^ 31) (2 ^ 31) (2 ^ 32) (map (wev_of eWr) xs) /\ wquiet eW s (map (wev_of eWr) xs).
Proof.
  intros (_ & _ & _ & E) H. apply andb_prop in H as [H1 H2]. split.
  - apply wokb_ok; auto; [constructor; reflexivity|exact eWr_db|vm_compute; discriminate].
  - unfold opened in H2. rewrite E in H2. apply wquietb_ok. auto.
Qed.

Definition wafter (c : cfg) (es : list wevent) : res (cfg * state * list (option vout)) :=
  match embedDBInit c noDisk [] with Ok (s, _) => wlifetime c s es | UB => UB | Fuel => Fuel end.
Lemma wafter_eq c s es : embedDBInit c noDisk [] = Ok (s, 0) -> wafter c es = wlifetime c s es.
Proof. intros E. unfold wafter. now rewrite E. Qed.
(** Everything the lookup theorems ask of the last state of a lifetime that stored
    [k] after [es1]. *)
Definition wready (c : cfg) (es1 es2 : list wevent) (k : Z) (ns : list Z) (x : vout -> bool) : bool :=
  match wafter c es1, wafter c (es1 ++ es2) with
  | Ok (_, s', _), Ok (c1, s1, _) =>
      freshb s1 && lookupb c1 s1 k ns && (nextV (sv s1) + 2 - nextV (sv s') <=? numVar c - eraseSize c) &&
      match getvar_read c1 s1 k ns with Ok (_, y) => x y | _ => false end
  | _, _ => false
  end.
Lemma wready_ok c VB s es1 e es2 k ns d v p c1 s1 xs : embedDBInit c noDisk [] = Ok (s, 0) -> wev_op e = Some (VPut k d v) ->
  wready c es1 (e :: es2) k ns p = true -> wlifetime c s (es1 ++ e :: es2) = Ok (c1, s1, xs) ->
  var_fresh s1 /\ lookup_inside c1 s1 k ns /\ wintact VB c s (es1 ++ e :: es2) s1 k /\
  forall s2 x, getvar_read c1 s1 k ns = Ok (s2, x) -> p x = true.
Proof.
  intros E Eo H E1. unfold wready in H. rewrite !(wafter_eq c s _ E), E1 in H.
  destruct (wlifetime c s es1) as [[[c' s'] xs']| |] eqn:E2; try discriminate H.
  rewrite !andb_true_iff in H. destruct H as (((H1 & H2) & H3) & H4).
  split; [apply freshb_ok; auto|]. split; [apply lookupb_ok; auto|]. split.
  - right. exists es1, e, es2, d, v, c', s', xs'. split; [auto|]. split; [auto|]. split; [auto|lia].
  - intros s2 x Eg. rewrite Eg in H4. exact H4.
Qed.
Definition got0 (x : vout) : bool := match x with OVGetVar 0 _ _ => true | _ => false end.

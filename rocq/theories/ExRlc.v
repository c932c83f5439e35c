(** Concrete lifetimes with record-level consistency meeting the hypotheses of
    its theorems. *)
From Verif Require Import Base BaseFacts Config Spline Storage DB Recovery Spec Util UtilFacts SpecPage SpecStore Run SpecRun
  SpecIter SpecReopen SpecRlc ReachFacts RlcThms ExFacts ExReopen.
Open Scope Z_scope.

(** 7 records of 4+4 bytes on 64-byte pages, 8 data pages in blocks of 2, an
    erase that destroys the block; created with, reopened without the reset flag. *)
Definition eR := ex_cfg 64 (32 + 64) 8 2 8 1 (Some 255) None.
Definition eRr := ex_cfg 64 64 8 2 8 1 (Some 255) None.
(** The same with an erase that has no effect. *)
Definition eQ := ex_cfg 64 (32 + 64) 8 2 8 1 None None.
Definition eQr := ex_cfg 64 64 8 2 8 1 None None.
Lemma eR_set : setting eR (2 ^ 31) (2 ^ 31).
Proof. setting_ex. lay. Qed.
Lemma eRr_set : setting eRr (2 ^ 31) (2 ^ 31).
Proof. setting_ex. lay. Qed.
Lemma eQ_set : setting eQ (2 ^ 31) (2 ^ 31).
Proof. setting_ex. lay. Qed.
Lemma eQr_set : setting eQr (2 ^ 31) (2 ^ 31).
Proof. setting_ex. lay. Qed.
Ltac rlc_ex := constructor; [|reflexivity|reflexivity|reflexivity|vm_compute; discriminate|vm_compute; discriminate|reflexivity|].
Lemma eR_db : rlc_db eR (2 ^ 31) (2 ^ 31).
Proof. rlc_ex; [exact eR_set|]. split; [left; reflexivity|right; left; lia]. Qed.
Lemma eRr_db : rlc_db eRr (2 ^ 31) (2 ^ 31).
Proof. rlc_ex; [exact eRr_set|]. split; [left; reflexivity|right; left; lia]. Qed.
Lemma eQ_db : rlc_db eQ (2 ^ 31) (2 ^ 31).
Proof. rlc_ex; [exact eQ_set|]. split; [left; reflexivity|exact I]. Qed.
Lemma eQr_db : rlc_db eQr (2 ^ 31) (2 ^ 31).
Proof. rlc_ex; [exact eQr_set|]. split; [left; reflexivity|exact I]. Qed.
Lemma eR_created : exists s, rlc_created eR (2 ^ 31) (2 ^ 31) noDisk s.
Proof. apply rlc_exists; [exact eR_db|reflexivity|reflexivity|reflexivity]. Qed.
Lemma eQ_created : exists s, rlc_created eQ (2 ^ 31) (2 ^ 31) noDisk s.
Proof. apply rlc_exists; [exact eQ_db|reflexivity|reflexivity|reflexivity]. Qed.

(** Lifetimes that reopen with one configuration, and their checkers. *)
Inductive rcode := ROp (o : hop) | RStop (ts : list nat) | RCrash (o : hop) (i : nat) (ts : list nat).
Definition rev_of (cr : cfg) (x : rcode) : revent :=
  match x with
  | ROp o => RvOp o
  | RStop ts => RvStop (map (fun i => (cr, i)) ts) cr
  | RCrash o i ts => RvCrash o i (map (fun i => (cr, i)) ts) cr
  end.
Fixpoint zascb (l : list Z) : bool :=
  match l with
  | [] => true
  | k :: rest => match rest with [] => true | k' :: _ => k <? k' end && zascb rest
  end.
Lemma zascb_ok l : zascb l = true -> zascending l.
Proof.
  induction l as [|k l IH]; intros H; [exact I|]. cbn [zascb zascending] in *. apply andb_prop in H as [H1 H2]. split; [|auto].
  destruct l; [exact I|lia].
Qed.
Definition rlc_okb (c cr : cfg) (es : list revent) : bool :=
  forallb (op_plainb c (2 ^ 31)) (ev_ops es) && zascb (put_keys (ev_ops es)) &&
  (zlen (ev_ops es) + maxErr c <? 2 ^ 31) && (zlen (ev_ops es) + maxErr cr <? 2 ^ 31).
Lemma rlc_okb_ok c cr xs : same_store c cr -> rlc_db cr (2 ^ 31) (2 ^ 31) -> useReset cr = false -> maxErr cr <= 1 ->
  rlc_okb c cr (map (rev_of cr) xs) = true -> rlc_ok c (2 ^ 31) (2 ^ 31) (map (rev_of cr) xs).
Proof.
  intros S R Hr He H. unfold rlc_okb in H. rewrite !andb_true_iff in H. destruct H as [[[H1 H2] H3] H4]. constructor.
  - apply ops_plain. auto.
  - apply zascb_ok. auto.
  - assert (Ro : rlc_reopen c cr (2 ^ 31) (2 ^ 31) (zlen (ev_ops (map (rev_of cr) xs)))).
    { split; [auto|]. split; [auto|]. split; [auto|]. split; [auto|]. lia. }
    revert Ro. generalize (zlen (ev_ops (map (rev_of cr) xs))). intros n Ro. clear H1 H2 H3 H4.
    induction xs as [|x xs IH]; cbn [map]; constructor; auto.
    assert (Ts : forall ts, Forall (fun c' => rlc_reopen c c' (2 ^ 31) (2 ^ 31) n) (map fst (map (fun i : nat => (cr, i)) ts))).
    { induction ts; cbn [map fst]; constructor; auto. }
    destruct x; cbn [rev_of ev_cfgs]; try constructor; auto.
  - lia.
Qed.

Definition quiet_stepb (c : cfg) (s : state) (o : hop) : bool :=
  match get_count (wbuf (sd s)) with
  | Ok n =>
      let w := match o with HPut _ _ => maxRec c <=? n | HFlush => 1 <=? n | HGet _ => false end in
      negb w || ((negb (is_flush o) || negb ((nextD (sd s) + 1) mod eraseSize c =? 0)) &&
                 negb (nextD (sd s) mod numData c =? bufD (sd s)))
  | _ => true
  end.
Fixpoint rlc_quietb (c : cfg) (s : state) (es : list revent) : bool :=
  match es with
  | [] => true
  | e :: es' =>
      match ev_op e with Some o => quiet_stepb c s o | None => true end &&
      match revent_step c s e with Ok (c1, s1, _) => rlc_quietb c1 s1 es' | _ => true end
  end.
Lemma quiet_stepb_ok c s o : quiet_stepb c s o = true -> quiet_step c s o.
Proof.
  unfold quiet_stepb, quiet_step, writes_page. intros H (n & En & Hn). rewrite En in H. cbv zeta in H.
  assert (W : match o with HPut _ _ => maxRec c <=? n | HFlush => 1 <=? n | HGet _ => false end = true)
    by (destruct o; [apply Z.leb_le; auto|apply Z.leb_le; auto|destruct Hn]).
  rewrite W in H. cbn [negb orb] in H. apply andb_prop in H as [H1 H2]. split.
  - intros ->. cbn [is_flush negb orb] in H1. apply negb_true_iff, Z.eqb_neq in H1. auto.
  - apply negb_true_iff, Z.eqb_neq in H2. auto.
Qed.
Lemma rlc_quietb_ok es : forall c s, rlc_quietb c s es = true -> rlc_quiet c s es.
Proof.
  induction es as [|e es IH]; intros c s H; [exact I|]. cbn [rlc_quietb rlc_quiet] in *. apply andb_prop in H as [H1 H2]. split.
  - intros o Eo. rewrite Eo in H1. apply quiet_stepb_ok. auto.
  - intros c1 s1 x E. rewrite E in H2. auto.
Qed.

Definition opened (c : cfg) (f : state -> bool) : bool :=
  match embedDBInit c noDisk [] with Ok (s, _) => f s | _ => false end.
Lemma eR_ok xs s : rlc_created eR (2 ^ 31) (2 ^ 31) noDisk s ->
  rlc_okb eR eRr (map (rev_of eRr) xs) && opened eR (fun s => rlc_quietb eR s (map (rev_of eRr) xs)) = true ->
  rlc_ok eR (2 ^ 31) (2 ^ 31) (map (rev_of eRr) xs) /\ rlc_quiet eR s (map (rev_of eRr) xs).
Proof.
  intros (_ & _ & _ & _ & E) H. apply andb_prop in H as [H1 H2]. split.
  - apply rlc_okb_ok; auto; [constructor; reflexivity|exact eRr_db|vm_compute; discriminate].
  - unfold opened in H2. rewrite E in H2. apply rlc_quietb_ok. auto.
Qed.
Lemma eQ_ok xs s : rlc_created eQ (2 ^ 31) (2 ^ 31) noDisk s ->
  rlc_okb eQ eQr (map (rev_of eQr) xs) && opened eQ (fun s => rlc_quietb eQ s (map (rev_of eQr) xs)) = true ->
  rlc_ok eQ (2 ^ 31) (2 ^ 31) (map (rev_of eQr) xs) /\ rlc_quiet eQ s (map (rev_of eQr) xs).
Proof.
  intros (_ & _ & _ & _ & E) H. apply andb_prop in H as [H1 H2]. split.
  - apply rlc_okb_ok; auto; [constructor; reflexivity|exact eQr_db|vm_compute; discriminate].
  - unfold opened in H2. rewrite E in H2. apply rlc_quietb_ok. auto.
Qed.

(** Number of storage images of an operation after a lifetime; the last result
    of a lifetime; a get after a lifetime. *)
Definition after (c : cfg) (es : list revent) : res (cfg * state * list (option hout)) :=
  match embedDBInit c noDisk [] with Ok (s, _) => rlifetime c s es | UB => UB | Fuel => Fuel end.
Lemma after_eq c s es : embedDBInit c noDisk [] = Ok (s, 0) -> after c es = rlifetime c s es.
Proof. intros E. unfold after. now rewrite E. Qed.
Definition getting (c : cfg) (es : list revent) (ks : list Z) : res (list hout) :=
  '(c1, s1, _) <- after c es ;; outs (run c1 s1 (map HGet ks)).
Definition images (c : cfg) (es : list revent) (o : hop) : res nat :=
  '(c1, s1, _) <- after c es ;; '(s2, _) <- step c1 s1 o ;; Ok (length (new_images s1 s2)).

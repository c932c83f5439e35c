(** Operators on the heap behave as the operator trees they represent. *)
From Verif Require Import Base BaseFacts Config Storage DB Recovery Schema Query Heap Spec SpecUtil SpecPage SpecStore Run SpecRun SpecIter SpecQuery SpecHeap QueryThms.
From Coq Require Import Permutation.
Open Scope Z_scope.

Lemma mset_same m b o : m_blk (mset m b o) b = o.
Proof. cbn. now rewrite Nat.eqb_refl. Qed.
Lemma mset_other m b o x : x <> b -> m_blk (mset m b o) x = m_blk m x.
Proof. intros H. cbn. destruct (Nat.eqb_spec x b); congruence. Qed.
Lemma load_at m b o : m_blk m b = Some o -> load m (Some b) = Ok o.
Proof. intros H. cbn. now rewrite H. Qed.
Lemma store_at m b x o : m_blk m b = Some x -> store m (Some b) o = Ok (mset m b (Some o)).
Proof. intros H. unfold store. now rewrite (load_at _ _ _ H). Qed.
Lemma release_at m b x : m_blk m b = Some x -> release m (Some b) = Ok (mset m b None).
Proof. intros H. unfold release. now rewrite (load_at _ _ _ H). Qed.
Lemma get_op_at m b o : m_blk m b = Some (BOp o) -> get_op m (Some b) = Ok o.
Proof. intros H. unfold get_op. now rewrite (load_at _ _ _ H). Qed.
Lemma get_bytes_at m b o : m_blk m b = Some (BBytes o) -> get_bytes m (Some b) = Ok o.
Proof. intros H. unfold get_bytes. now rewrite (load_at _ _ _ H). Qed.
Lemma get_bytes_in m p l : bytes_in m p (Some l) -> get_bytes m p = Ok l.
Proof. destruct p; [apply get_bytes_at|contradiction]. Qed.
Lemma schema_at_in m p l : schema_in m p (Some l) -> schema_at m (option_map fst p) = Ok l.
Proof.
  destruct p as [(x & y)|]; [|contradiction]. intros (A & B). cbn [option_map fst]. unfold schema_at. rewrite (load_at _ _ _ A). cbn [bind].
  unfold get_cols. now rewrite (load_at _ _ _ B).
Qed.

Lemma rep_root m o t : rep m o t -> m_blk m (root t) = Some (BOp (opr_of t)).
Proof. destruct o; cbn [rep]; tauto. Qed.
Lemma rep_schema m o t : rep m o t -> schema_in m (schp t) (op_schema o).
Proof. destruct o; cbn [rep]; tauto. Qed.
Lemma rep_buf m o t : rep m o t -> bytes_in m (bufp t) (op_buf o).
Proof. destruct o; cbn [rep]; tauto. Qed.
Lemma opr_of_buf t : o_buf (opr_of t) = bufp t.
Proof. destruct t; reflexivity. Qed.
Lemma opr_of_schema t : o_schema (opr_of t) = option_map fst (schp t).
Proof. destruct t; reflexivity. Qed.
Lemma rep_op m o t : rep m o t -> get_op m (Some (root t)) = Ok (opr_of t).
Proof. intros H. apply get_op_at. now apply rep_root in H. Qed.

(** ** Footprints *)
Lemma nodup_app (a b : list nat) : NoDup (a ++ b) <-> NoDup a /\ NoDup b /\ forall x, In x a -> ~ In x b.
Proof.
  induction a as [|x a IH]; cbn [app].
  - split; [intros H; split; [constructor|split; [auto|intros x []]]|tauto].
  - rewrite !NoDup_cons_iff, IH, in_app_iff. split.
    + intros (H1 & H2 & H3 & H4). repeat split; auto. intros y [<-|Hy]; auto.
    + intros ((H1 & H2) & H3 & H4). repeat split; auto; [|intros y Hy; apply H4; now right].
      intros [X|X]; [auto|]. exact (H4 x (or_introl eq_refl) X).
Qed.
Lemma nin_app (x : nat) a b : ~ In x (a ++ b) <-> ~ In x a /\ ~ In x b.
Proof. rewrite in_app_iff. tauto. Qed.

Lemma root_fp t : In (root t) (fp t).
Proof. destruct t; cbn; auto. Qed.

(** [m'] is [m] on the blocks [l]. *)
Definition agree (l : list nat) (m m' : mem) : Prop := forall b, In b l -> m_blk m' b = m_blk m b.
Lemma bytes_agree m m' p b : agree (ol p) m m' -> bytes_in m p b -> bytes_in m' p b.
Proof. intros A. destruct p as [x|], b; cbn; auto. rewrite (A x (or_introl eq_refl)). auto. Qed.
Lemma schema_agree m m' p b : agree (os p) m m' -> schema_in m p b -> schema_in m' p b.
Proof. intros A. destruct p as [(x & y)|], b; cbn; auto. rewrite (A x (or_introl eq_refl)), (A y (or_intror (or_introl eq_refl))). auto. Qed.
Lemma agree_sub l l' m m' : incl l l' -> agree l' m m' -> agree l m m'.
Proof. intros I A b H. auto. Qed.
Lemma os_fp t : incl (os (schp t)) (fp t).
Proof. intros b H. destruct t; cbn [fp schp] in *; rewrite ?in_app_iff; cbn [In]; rewrite ?in_app_iff; tauto. Qed.
Lemma ol_fp t : incl (ol (bufp t)) (fp t).
Proof. intros b H. destruct t; cbn [fp bufp] in *; rewrite ?in_app_iff; cbn [In]; rewrite ?in_app_iff; tauto. Qed.
Lemma rep_agree m m' : forall o t, agree (fp t) m m' -> rep m o t -> rep m' o t.
Proof.
  intros o. induction o; intros t A H; cbn [rep] in H |- *; destruct H as (R1 & R2 & R3 & R4);
    (split; [rewrite (A _ (root_fp t)); exact R1|]); (split; [eapply schema_agree; [|exact R2]; eapply agree_sub; [apply os_fp|exact A]|]);
    (split; [eapply bytes_agree; [|exact R3]; eapply agree_sub; [apply ol_fp|exact A]|]); destruct t; try contradiction; cbn [fp] in A.
  - destruct R4 as (X & Y). rewrite !A by (cbn; auto). auto.
  - destruct R4 as (X & Y). rewrite !A by (cbn; auto). split; [auto|]. apply IHo; [|exact Y]. eapply agree_sub; [|exact A].
    intros b Hb. cbn [In]. rewrite !in_app_iff. tauto.
  - destruct R4 as (X & Y & Z). rewrite !A by (cbn; auto). split; [auto|]. split; [auto|]. apply IHo; [|exact Z]. eapply agree_sub; [|exact A].
    intros b Hb. cbn [In]. rewrite !in_app_iff. tauto.
  - destruct R4 as ((n & X & Xn) & Y & Z & W). split; [exists n; rewrite !A by (cbn; auto); auto|]. rewrite !A by (cbn; auto). split; [auto|]. split.
    + eapply bytes_agree; [|exact Z]. eapply agree_sub; [|exact A]. intros b Hb. cbn [In]. rewrite !in_app_iff. tauto.
    + apply IHo; [|exact W]. eapply agree_sub; [|exact A]. intros b Hb. cbn [In]. rewrite !in_app_iff. tauto.
  - destruct R4 as (X & Y & Z). rewrite !A by (cbn; auto). split; [auto|]. split; [apply IHo1; [|exact Y]|apply IHo2; [|exact Z]];
      (eapply agree_sub; [|exact A]; intros b Hb; cbn [In]; rewrite !in_app_iff; tauto).
Qed.
Lemma rep_mset m o t b v : ~ In b (fp t) -> rep m o t -> rep (mset m b v) o t.
Proof. intros N. apply rep_agree. intros x H. apply mset_other. congruence. Qed.
Lemma bytes_mset m p l b v : ~ In b (ol p) -> bytes_in m p l -> bytes_in (mset m b v) p l.
Proof. intros N. apply bytes_agree. intros x H. apply mset_other. congruence. Qed.
Lemma schema_mset m p l b v : ~ In b (os p) -> schema_in m p l -> schema_in (mset m b v) p l.
Proof. intros N. apply schema_agree. intros x H. apply mset_other. congruence. Qed.

(** Blocks of a represented tree are live. *)
Lemma rep_live m : forall o t b, rep m o t -> In b (fp t) -> m_blk m b <> None.
Proof.
  assert (Hs : forall p s b, schema_in m p s -> In b (os p) -> m_blk m b <> None).
  { intros [(x & y)|] [s|] b; cbn; try contradiction; auto. intros (A & B) [<-|[<-|[]]]; congruence. }
  assert (Hb : forall p s b, bytes_in m p s -> In b (ol p) -> m_blk m b <> None).
  { intros [x|] [s|] b; cbn; try contradiction; auto. intros A [<-|[]]; congruence. }
  intros o. induction o; intros t b H; cbn [rep] in H; destruct H as (R1 & R2 & R3 & R4); destruct t; try contradiction; cbn [fp schp bufp root] in *.
  - destruct R4 as (X & Y). intros [<-|[<-|[<-|D]]]; try congruence. apply in_app_or in D as [D|D]; eauto.
  - destruct R4 as (X & Y). intros [<-|[<-|D]]; try congruence. apply in_app_or in D as [D|D]; [eauto|]. apply in_app_or in D as [D|D]; eauto.
  - destruct R4 as (X & Y & Z). intros [<-|[<-|[<-|D]]]; try congruence. apply in_app_or in D as [D|D]; [eauto|]. apply in_app_or in D as [D|D]; eauto.
  - destruct R4 as ((n & X & _) & Y & Z & W). intros [<-|[<-|[<-|D]]]; try congruence. apply in_app_or in D as [D|D]; [eauto|].
    apply in_app_or in D as [D|D]; [eauto|]. apply in_app_or in D as [D|D]; eauto.
  - destruct R4 as (X & Y & Z). intros [<-|[<-|D]]; try congruence. apply in_app_or in D as [D|D]; [eauto|].
    apply in_app_or in D as [D|D]; [eauto|]. apply in_app_or in D as [D|D]; eauto.
Qed.

(** Only the blocks [l] change; none is allocated or freed elsewhere. *)
Definition outside (l : list nat) (m m' : mem) : Prop :=
  (forall b, ~ In b l -> m_blk m' b = m_blk m b) /\ m_next m' = m_next m /\ m_fail m' = m_fail m.
Lemma outside_refl l m : outside l m m.
Proof. repeat split. Qed.
Lemma outside_trans l m1 m2 m3 : outside l m1 m2 -> outside l m2 m3 -> outside l m1 m3.
Proof. intros (A & B & C) (D & E & F). split; [|split; congruence]. intros b H. rewrite D, A; auto. Qed.
Lemma outside_sub l l' m m' : incl l l' -> outside l m m' -> outside l' m m'.
Proof. intros I (A & B). split; [|exact B]. intros b H. apply A. auto. Qed.
Lemma outside_mset l m b v : In b l -> outside l m (mset m b v).
Proof. intros H. split; [|split; reflexivity]. intros x Hx. apply mset_other. congruence. Qed.
Lemma outside_rep l m m' o t : outside l m m' -> (forall b, In b (fp t) -> ~ In b l) -> rep m o t -> rep m' o t.
Proof. intros (A & _) D. apply rep_agree. intros b H. auto. Qed.

(** ** next *)
Definition refines (nx : env -> op -> res (env * op * bool)) (nxh : env -> mem -> ptr -> res (env * mem * bool)) : Prop :=
  forall e m i t e' i' r, rep m i t -> NoDup (fp t) -> nx e i = Ok (e', i', r) ->
  op_schema i' = op_schema i /\
  exists m', nxh e m (Some (root t)) = Ok (e', m', r) /\ rep m' i' t /\ outside (fp t) m m'.

Section Loops.
  Variables (nx : env -> op -> res (env * op * bool)) (nxh : env -> mem -> ptr -> res (env * mem * bool)).
  Hypothesis R : refines nx nxh.

  Lemma sel_loop_ref pos n oper val sg v t : NoDup (fp t) -> ~ In v (fp t) ->
    forall fuel e m i e' i' r, rep m i t -> m_blk m v = Some (BBytes val) ->
    sel_loop nx fuel e i pos n oper val sg = Ok (e', i', r) ->
    op_schema i' = op_schema i /\
    exists m', sel_loop_h nxh fuel e m (Some (root t)) pos n oper (Some v) sg = Ok (e', m', r) /\ rep m' i' t /\ outside (fp t) m m'.
  Proof.
    intros ND Nv. induction fuel as [|f IH]; intros e m i e' i' r Hr Hv H; [discriminate|]. cbn [sel_loop] in H. cbn [sel_loop_h].
    apply bind_inv in H as (((e1 & i1) & r1) & E1 & H). destruct (R _ _ _ _ _ _ _ Hr ND E1) as (Es & m1 & E & H1 & O1). rewrite E. cbn [bind].
    destruct r1; cbn [negb] in *.
    - apply bind_inv in H as (b & Eb & H). destruct (op_buf i1) as [b'|] eqn:Ob; [|discriminate]. injection Eb as <-.
      pose proof (rep_buf _ _ _ H1) as Hb. rewrite Ob in Hb. rewrite (rep_op _ _ _ H1). cbn [bind]. rewrite opr_of_buf, (get_bytes_in _ _ _ Hb). cbn [bind].
      apply bind_inv in H as (d & Ed & H). rewrite Ed. cbn [bind].
      assert (Hv1 : m_blk m1 v = Some (BBytes val)) by (destruct O1 as (X & _); rewrite X; auto).
      rewrite (get_bytes_at _ _ _ Hv1). cbn [bind]. apply bind_inv in H as (x & Ex & H). rewrite Ex. cbn [bind].
      destruct (compare d oper x sg).
      + injection H as <- <- <-. split; [auto|]. eauto.
      + destruct (IH _ _ _ _ _ _ H1 Hv1 H) as (Es2 & m2 & E2 & H2 & O2). split; [congruence|]. exists m2. split; [auto|]. split; [auto|].
        eapply outside_trans; eauto.
    - injection H as <- <- <-. split; [auto|]. eauto.
  Qed.

  Lemma join_cmp_ref m i1 i2 t1 t2 n c : rep m i1 t1 -> rep m i2 t2 -> join_cmp n i1 i2 = Ok c ->
    join_cmp_h m (bufp t1) (bufp t2) n = Ok c.
  Proof.
    intros H1 H2 H. unfold join_cmp in H. unfold join_cmp_h. apply bind_inv in H as (b1 & E1 & H). apply bind_inv in H as (b2 & E2 & H).
    pose proof (rep_buf _ _ _ H1) as B1. pose proof (rep_buf _ _ _ H2) as B2.
    destruct (op_buf i1) as [x|]; [|discriminate]. destruct (op_buf i2) as [y|]; [|discriminate]. injection E1 as <-. injection E2 as <-.
    rewrite (get_bytes_in _ _ _ B1). cbn [bind]. rewrite (get_bytes_in _ _ _ B2). exact H.
  Qed.

  Lemma join_loop_ref n t1 t2 : NoDup (fp t1) -> NoDup (fp t2) -> (forall b, In b (fp t1) -> ~ In b (fp t2)) ->
    forall fuel e m i1 i2 ck e' j1 j2 r, rep m i1 t1 -> rep m i2 t2 ->
    join_loop nx fuel e i1 i2 n ck = Ok (e', j1, j2, r) ->
    op_schema j1 = op_schema i1 /\ op_schema j2 = op_schema i2 /\
    exists m', join_loop_h nxh fuel e m (Some (root t1)) (Some (root t2)) (bufp t1) (bufp t2) n ck = Ok (e', m', r) /\
      rep m' j1 t1 /\ rep m' j2 t2 /\ outside (fp t1 ++ fp t2) m m'.
  Proof.
    intros N1 N2 N12. assert (N21 : forall b, In b (fp t2) -> ~ In b (fp t1)) by (intros b Hb Hb'; eapply N12; eauto).
    assert (I1 : incl (fp t1) (fp t1 ++ fp t2)) by (intros b Hb; apply in_or_app; auto).
    assert (I2 : incl (fp t2) (fp t1 ++ fp t2)) by (intros b Hb; apply in_or_app; auto).
    assert (A1 : forall e m i1 i2 e' j r, rep m i1 t1 -> rep m i2 t2 -> nx e i1 = Ok (e', j, r) ->
      op_schema j = op_schema i1 /\ exists m', nxh e m (Some (root t1)) = Ok (e', m', r) /\ rep m' j t1 /\ rep m' i2 t2 /\ outside (fp t1 ++ fp t2) m m').
    { intros e m i1 i2 e' j r H1 H2 H. destruct (R _ _ _ _ _ _ _ H1 N1 H) as (Es & m' & E & H' & O). split; [auto|].
      exists m'. split; [auto|]. split; [auto|]. split; [exact (outside_rep _ _ _ _ _ O N21 H2)|]. exact (outside_sub _ _ _ _ I1 O). }
    assert (A2 : forall e m i1 i2 e' j r, rep m i1 t1 -> rep m i2 t2 -> nx e i2 = Ok (e', j, r) ->
      op_schema j = op_schema i2 /\ exists m', nxh e m (Some (root t2)) = Ok (e', m', r) /\ rep m' i1 t1 /\ rep m' j t2 /\ outside (fp t1 ++ fp t2) m m').
    { intros e m i1 i2 e' j r H1 H2 H. destruct (R _ _ _ _ _ _ _ H2 N2 H) as (Es & m' & E & H' & O). split; [auto|].
      exists m'. split; [auto|]. split; [exact (outside_rep _ _ _ _ _ O N12 H1)|]. split; [auto|]. exact (outside_sub _ _ _ _ I2 O). }
    induction fuel as [|f IH]; intros e m i1 i2 ck e' j1 j2 r H1 H2 H; [discriminate|]. cbn [join_loop] in H. cbn [join_loop_h].
    apply bind_inv in H as ((((e1 & k1) & k2) & ok) & E1 & H).
    match type of E1 with ?X = _ => assert (S : op_schema k1 = op_schema i1 /\ op_schema k2 = op_schema i2 /\ exists m1,
      (if ck then Ok (e, m, true) else
        comp <- join_cmp_h m (bufp t1) (bufp t2) n ;;
        if comp =? 0 then '(e, m, x1) <- nxh e m (Some (root t1)) ;; if negb x1 then Ok (e, m, false) else nxh e m (Some (root t2))
        else if comp <? 0 then nxh e m (Some (root t1)) else nxh e m (Some (root t2))) = Ok (e1, m1, ok) /\
      rep m1 k1 t1 /\ rep m1 k2 t2 /\ outside (fp t1 ++ fp t2) m m1) end.
    { destruct ck; [injection E1 as <- <- <- <-; split; [auto|]; split; [auto|]; exists m; auto using outside_refl|].
      apply bind_inv in E1 as (c & Ec & E1). rewrite (join_cmp_ref _ _ _ _ _ _ _ H1 H2 Ec). cbn [bind]. destruct (c =? 0).
      - apply bind_inv in E1 as (((e2 & l1) & x1) & E2 & E1). destruct (A1 _ _ _ _ _ _ _ H1 H2 E2) as (Q & m2 & F2 & P1 & P2 & O2). rewrite F2. cbn [bind].
        destruct x1; cbn [negb] in *.
        + apply bind_inv in E1 as (((e3 & l2) & x2) & E3 & E1). injection E1 as <- <- <- <-.
          destruct (A2 _ _ _ _ _ _ _ P1 P2 E3) as (Q' & m3 & F3 & P1' & P2' & O3). split; [auto|]. split; [auto|]. exists m3. split; [auto|]. split; [auto|]. split; [auto|].
          eapply outside_trans; eauto.
        + injection E1 as <- <- <- <-. split; [auto|]. split; [auto|]. eauto.
      - destruct (c <? 0).
        + apply bind_inv in E1 as (((e2 & l1) & x1) & E2 & E1). injection E1 as <- <- <- <-.
          destruct (A1 _ _ _ _ _ _ _ H1 H2 E2) as (Q & m2 & F2 & P1 & P2 & O2). split; [auto|]. split; [auto|]. eauto.
        + apply bind_inv in E1 as (((e2 & l2) & x2) & E2 & E1). injection E1 as <- <- <- <-.
          destruct (A2 _ _ _ _ _ _ _ H1 H2 E2) as (Q & m2 & F2 & P1 & P2 & O2). split; [auto|]. split; [auto|]. eauto. }
    destruct S as (Q1 & Q2 & m1 & F1 & P1 & P2 & O1). rewrite F1. cbn [bind]. destruct ok; cbn [negb] in *.
    - apply bind_inv in H as (c & Ec & H). rewrite (join_cmp_ref _ _ _ _ _ _ _ P1 P2 Ec). cbn [bind]. destruct (c =? 0).
      + injection H as <- <- <- <-. split; [auto|]. split; [auto|]. eauto.
      + destruct (IH _ _ _ _ _ _ _ _ _ P1 P2 H) as (Q1' & Q2' & m2 & F2 & P1' & P2' & O2). split; [congruence|]. split; [congruence|].
        exists m2. split; [auto|]. split; [auto|]. split; [auto|]. eapply outside_trans; eauto.
    - injection H as <- <- <- <-. split; [auto|]. split; [auto|]. eauto.
  Qed.

  Lemma agg_loop_ref grp ins st fn lb t : NoDup (fp t) -> NoDup [st; fn; lb] -> ~ In st (fp t) -> ~ In fn (fp t) -> ~ In lb (fp t) ->
    forall fuel e m i fns lastb usable inG e' i' fns' lastb' usable' inG' more,
    rep m i t -> op_schema i = Some ins ->
    m_blk m st = Some (BAgg grp (Some fn) (Some lb) (getRecordSizeFromSchema ins) usable) -> m_blk m fn = Some (BFns fns) -> m_blk m lb = Some (BBytes lastb) ->
    agg_loop nx fuel e i grp ins fns lastb usable inG = Ok (e', i', fns', lastb', usable', inG', more) ->
    op_schema i' = op_schema i /\
    exists m', agg_loop_h nxh fuel e m (Some (root t)) (Some st) inG = Ok (e', m', inG', more) /\ rep m' i' t /\
      m_blk m' st = Some (BAgg grp (Some fn) (Some lb) (getRecordSizeFromSchema ins) usable') /\ m_blk m' fn = Some (BFns fns') /\
      m_blk m' lb = Some (BBytes lastb') /\ outside (st :: fn :: lb :: fp t) m m' /\ (more = true -> usable' = true).
  Proof.
    intros ND ND3 Ns Nf Nl. assert (D : st <> fn /\ st <> lb /\ fn <> lb).
    { rewrite !NoDup_cons_iff in ND3. cbn [In] in ND3. intuition. } destruct D as (D1 & D2 & D3). clear ND3.
    assert (I0 : incl (fp t) (st :: fn :: lb :: fp t)) by (intros b Hb; cbn; auto).
    induction fuel as [|f IH]; intros e m i fns lastb usable inG e' i' fns' lastb' usable' inG' more Hr Hs B1 B2 B3 H; [discriminate|].
    cbn [agg_loop] in H. cbn [agg_loop_h].
    apply bind_inv in H as (((e1 & i1) & r1) & E1 & H). destruct (R _ _ _ _ _ _ _ Hr ND E1) as (Es & m1 & E & H1 & O1). rewrite E. cbn [bind].
    assert (C1 : m_blk m1 st = Some (BAgg grp (Some fn) (Some lb) (getRecordSizeFromSchema ins) usable)) by (destruct O1 as (X & _); rewrite X; auto).
    assert (C2 : m_blk m1 fn = Some (BFns fns)) by (destruct O1 as (X & _); rewrite X; auto).
    assert (C3 : m_blk m1 lb = Some (BBytes lastb)) by (destruct O1 as (X & _); rewrite X; auto).
    destruct r1; cbn [negb] in *.
    2:{ injection H as <- <- <- <- <- <- <-. split; [auto|]. exists m1. split; [auto|]. split; [auto|]. do 3 (split; [auto|]).
        split; [eapply outside_sub; eauto|discriminate]. }
    apply bind_inv in H as (b & Eb & H). destruct (op_buf i1) as [b'|] eqn:Ob; [|discriminate]. injection Eb as <-.
    pose proof (rep_buf _ _ _ H1) as Hb. rewrite Ob in Hb. unfold get_agg at 1. rewrite (load_at _ _ _ C1). cbn [bind].
    rewrite (rep_op _ _ _ H1). cbn [bind]. rewrite opr_of_buf, (get_bytes_in _ _ _ Hb). cbn [bind].
    assert (Sm : (if usable then x <- get_bytes m1 (Some lb) ;; Ok (grp x b') else Ok true) = Ok (negb usable || grp lastb b')).
    { destruct usable; cbn [negb orb]; [|auto]. rewrite (get_bytes_at _ _ _ C3). reflexivity. }
    rewrite Sm. cbn [bind]. destruct (negb usable || grp lastb b') eqn:G.
    2:{ injection H as <- <- <- <- <- <- <-. split; [auto|]. exists m1. split; [auto|]. split; [auto|]. do 3 (split; [auto|]).
        split; [eapply outside_sub; eauto|]. intros _. destruct usable; [auto|discriminate]. }
    unfold get_fns at 1. rewrite (load_at _ _ _ C2). cbn [bind].
    pose proof (rep_schema _ _ _ H1) as Sc. rewrite Es, Hs in Sc. rewrite opr_of_schema, (schema_at_in _ _ _ Sc). cbn [bind].
    apply bind_inv in H as (fns1 & Ef & H). rewrite Ef. cbn [bind]. rewrite (store_at _ _ _ _ C2). cbn [bind].
    rewrite (get_bytes_at _ lb lastb) by (rewrite mset_other by congruence; auto). cbn [bind].
    apply bind_inv in H as (x & Ex & H). rewrite Ex. cbn [bind]. apply bind_inv in H as (lastb1 & El & H). rewrite El. cbn [bind].
    rewrite (store_at _ lb (BBytes lastb)) by (rewrite mset_other by congruence; auto). cbn [bind].
    erewrite (store_at _ st) by (rewrite !mset_other by congruence; exact C1). cbn [bind].
    match goal with |- context [agg_loop_h nxh f e1 ?M _ _ _] => set (m2 := M) end.
    assert (O2 : outside (st :: fn :: lb :: fp t) m1 m2).
    { unfold m2. eapply outside_trans; [|eapply outside_trans]; apply outside_mset; cbn; auto. }
    destruct (IH e1 m2 i1 fns1 lastb1 true true e' i' fns' lastb' usable' inG' more) as (Es2 & m3 & E3 & P1 & P2 & P3 & P4 & P5 & P6).
    - unfold m2. apply rep_mset; auto. apply rep_mset; auto. apply rep_mset; auto.
    - congruence.
    - unfold m2. apply mset_same.
    - unfold m2. rewrite !mset_other by congruence. apply mset_same.
    - unfold m2. rewrite mset_other by congruence. apply mset_same.
    - exact H.
    - split; [congruence|]. exists m3. split; [auto|]. split; [auto|]. do 3 (split; [auto|]). split; [|auto].
      eapply outside_trans; [eapply outside_sub; [exact I0|exact O1]|]. eapply outside_trans; eauto.
  Qed.
End Loops.

(** ** The blocks of one operator without its inputs, and the inputs *)
Definition hd (t : shape) : list nat := root t :: os (schp t) ++ ol (bufp t).
Definition extra (t : shape) : list nat :=
  match t with
  | HScan p st it sp bp => [st; it]
  | HProj p st i sp bp => [st]
  | HSel p st v i sp bp => [st; v]
  | HAgg p st fn i sp bp lp => st :: fn :: ol lp
  | HJoin p st i1 i2 sp bp => [st]
  end.
Definition below (t : shape) : list nat :=
  match t with
  | HScan p st it sp bp => []
  | HProj p st i sp bp => fp i
  | HSel p st v i sp bp => fp i
  | HAgg p st fn i sp bp lp => fp i
  | HJoin p st i1 i2 sp bp => fp i1 ++ fp i2
  end.
Lemma perm_in (a b c : list nat) : Permutation (a ++ b ++ c) (b ++ a ++ c).
Proof. rewrite !app_assoc. apply Permutation_app_tail, Permutation_app_comm. Qed.
Lemma fp_perm t : Permutation (fp t) (hd t ++ extra t ++ below t).
Proof.
  destruct t; unfold hd; cbn [fp root schp bufp extra below app]; apply perm_skip; rewrite <- ?app_assoc.
  - rewrite (app_assoc (os sp)). apply (Permutation_app_comm [st; it]).
  - rewrite (app_assoc (os sp)), (app_assoc (os sp)). apply (perm_in [st]).
  - rewrite (app_assoc (os sp)), (app_assoc (os sp)). apply (perm_in [st; v]).
  - rewrite (app_assoc (os sp)), (app_assoc (os sp)). etransitivity; [apply (perm_in [st; fn])|]. reflexivity.
  - rewrite (app_assoc (os sp)), (app_assoc (os sp)). apply (perm_in [st]).
Qed.
Lemma fp_in t b : In b (fp t) <-> In b (hd t) \/ In b (extra t) \/ In b (below t).
Proof.
  rewrite <- !in_app_iff. split; apply Permutation_in; [|symmetry]; apply fp_perm.
Qed.
Lemma fp_nodup t : NoDup (fp t) <-> (NoDup (hd t) /\ NoDup (extra t) /\ NoDup (below t)) /\
  (forall b, In b (hd t) -> ~ In b (extra t)) /\ (forall b, In b (hd t) -> ~ In b (below t)) /\ (forall b, In b (extra t) -> ~ In b (below t)).
Proof.
  transitivity (NoDup (hd t ++ extra t ++ below t)).
  { split; apply Permutation_NoDup; [|symmetry]; apply fp_perm. }
  rewrite !nodup_app. split.
  - intros (A & (B & C & D) & E). repeat split; auto; intros b Hb Hb'; eapply E; eauto; apply in_or_app; auto.
  - intros ((A & B & C) & D & E & F). repeat split; auto. intros b Hb Hb'. apply in_app_or in Hb' as [X|X]; [eapply D|eapply E]; eauto.
Qed.
Lemma below_fp t : incl (below t) (fp t).
Proof. intros b H. apply fp_in. auto. Qed.
Lemma extra_fp t : incl (extra t) (fp t).
Proof. intros b H. apply fp_in. auto. Qed.
Lemma hd_fp t : incl (hd t) (fp t).
Proof. intros b H. apply fp_in. auto. Qed.

(** The operator structure, its schema and its record buffer. *)
Definition headed (m : mem) (t : shape) (s : option schema) (b : option (list Z)) : Prop :=
  m_blk m (root t) = Some (BOp (opr_of t)) /\ schema_in m (schp t) s /\ bytes_in m (bufp t) b.
Lemma headed_agree m m' t s b : agree (hd t) m m' -> headed m t s b -> headed m' t s b.
Proof.
  intros A (H1 & H2 & H3). split; [rewrite A; [auto|cbn; auto]|].
  split; [eapply schema_agree; [|exact H2]|eapply bytes_agree; [|exact H3]]; (eapply agree_sub; [|exact A]); intros q Hq; cbn; rewrite in_app_iff; tauto.
Qed.
Lemma headed_mset m t s b x v : ~ In x (hd t) -> headed m t s b -> headed (mset m x v) t s b.
Proof. intros N. apply headed_agree. intros q Hq. apply mset_other. congruence. Qed.
Lemma headed_outside l m m' t s b : outside l m m' -> (forall q, In q (hd t) -> ~ In q l) -> headed m t s b -> headed m' t s b.
Proof. intros (A & _) N. apply headed_agree. intros q Hq. auto. Qed.
Lemma headed_buf m t s l : NoDup (hd t) -> headed m t s (Some l) ->
  exists b, bufp t = Some b /\ m_blk m b = Some (BBytes l) /\ In b (hd t) /\ forall l', headed (mset m b (Some (BBytes l'))) t s (Some l').
Proof.
  intros ND (H1 & H2 & H3). unfold hd in ND. destruct (bufp t) as [b|] eqn:Eb; [|contradiction]. exists b. split; [auto|]. split; [exact H3|].
  cbn [ol] in ND. rewrite NoDup_cons_iff, nodup_app in ND. destruct ND as (N1 & N2 & N3 & N4). rewrite in_app_iff in N1. cbn in N1.
  split; [unfold hd; rewrite Eb; cbn; rewrite in_app_iff; cbn; auto|]. intros l'. split; [rewrite mset_other by (intros X; apply N1; auto); auto|].
  split; [|rewrite Eb; apply mset_same]. apply schema_mset; [|auto]. intros X. apply (N4 _ X). cbn. auto.
Qed.
Lemma headed_get m t s b : headed m t s b -> get_op m (Some (root t)) = Ok (opr_of t).
Proof. intros (H & _). now apply get_op_at. Qed.

Lemma next_scan f db it s b e m t e' o' r : rep m (OScan db it s b) t -> NoDup (fp t) -> op_next (S f) e (OScan db it s b) = Ok (e', o', r) ->
  op_schema o' = Some s /\ exists m', next_h (S f) e m (Some (root t)) = Ok (e', m', r) /\ rep m' o' t /\ outside (fp t) m m'.
Proof.
  intros Hr ND H. pose proof (hd_fp t) as Ih. pose proof (extra_fp t) as Ix. apply fp_nodup in ND as ((Nh & Nx & _) & Dhx & _).
  cbn [rep op_schema op_buf] in Hr. destruct Hr as (R1 & R2 & R3 & R4).
  assert (Hd : headed m t (Some s) b) by (split; auto). clear R1 R2 R3. pose proof (headed_get _ _ _ _ Hd) as Ro.
  cbn [op_next] in H. apply bind_inv in H as (buf & Eb & H). destruct b as [b|]; [|discriminate]. injection Eb as ->.
  destruct (headed_buf _ _ _ _ Nh Hd) as (bp & Ep & Bb & Ib & Hset). pose proof (Dhx _ Ib) as Nb.
  destruct t as [p st it' sp bp0| | | |]; try contradiction. destruct R4 as (X & Y). cbn [root schp bufp extra] in *. subst bp0.
  destruct Hd as (Hd1 & Hd2 & Hd3). cbn [schp] in Hd2. destruct sp as [(x & y)|]; [|contradiction].
  destruct (e db) as (c & d) eqn:Ed. apply bind_inv in H as ((((d1 & it1) & r1) & out) & En & H). apply bind_inv in H as (buf1 & Eb & H). injection H as <- <- <-.
  cbn [next_h]. rewrite Ro. cbn [bind opr_of o_kind o_schema o_state o_buf schp option_map fst]. unfold get_scan. rewrite (load_at _ _ _ X). cbn [bind].
  unfold get_iter. rewrite (load_at _ _ _ Y). cbn [bind]. rewrite Ed, (get_bytes_at _ _ _ Bb). cbn [bind]. rewrite En. cbn [bind].
  rewrite (store_at _ _ _ _ Y). cbn [bind]. rewrite Eb. cbn [bind].
  assert (Nit : ~ In it' (hd (HScan p st it' (Some (x, y)) (Some bp)))) by (intros Q; apply (Dhx _ Q); cbn; auto).
  assert (Bi : it' <> bp) by (intros ->; auto). assert (Bs : st <> bp) by (intros ->; apply Nb; cbn; auto).
  assert (Si : st <> it') by (rewrite NoDup_cons_iff in Nx; cbn in Nx; intuition).
  rewrite (store_at _ _ (BBytes buf)) by (rewrite mset_other by congruence; exact Bb). cbn [bind].
  split; [reflexivity|]. eexists. split; [reflexivity|]. split.
  - assert (Hd : headed (mset (mset m it' (Some (BIter it1))) bp (Some (BBytes buf1))) (HScan p st it' (Some (x, y)) (Some bp)) (Some s) (Some buf1)).
    { destruct (headed_buf (mset m it' (Some (BIter it1))) (HScan p st it' (Some (x, y)) (Some bp)) (Some s) buf Nh) as (bp' & Ep' & _ & _ & Z).
      - apply headed_mset; [exact Nit|split; auto].
      - cbn [bufp] in Ep'. injection Ep' as <-. apply Z. }
    destruct Hd as (U1 & U2 & U3). cbn [rep op_schema op_buf]. do 3 (split; [assumption|]).
    split; [rewrite !mset_other by congruence; exact X|]. rewrite mset_other by congruence. apply mset_same.
  - eapply outside_trans; apply outside_mset; [apply Ix; cbn; auto|apply Ih; exact Ib].
Qed.

Lemma next_proj f cols i s b e m t e' o' r : refines (op_next f) (next_h f) -> rep m (OProj cols i s b) t -> NoDup (fp t) ->
  op_next (S f) e (OProj cols i s b) = Ok (e', o', r) ->
  op_schema o' = s /\ exists m', next_h (S f) e m (Some (root t)) = Ok (e', m', r) /\ rep m' o' t /\ outside (fp t) m m'.
Proof.
  intros R Hr ND H. pose proof (hd_fp t) as Ih. pose proof (below_fp t) as Ib. apply fp_nodup in ND as ((Nh & Nx & Nl) & Dhx & Dhb & Dxb).
  cbn [rep op_schema op_buf] in Hr. destruct Hr as (R1 & R2 & R3 & R4).
  assert (Hd : headed m t s b) by (split; auto). clear R1 R2 R3. pose proof (headed_get _ _ _ _ Hd) as Ro.
  assert (Gt : exists p st ti sp bp, t = HProj p st ti sp bp) by (destruct t; try contradiction; eauto 10). destruct Gt as (p & st & ti & sp & bp & Et).
  assert (K : m_blk m st = Some (BProj cols) /\ rep m i ti) by (rewrite Et in R4; exact R4). clear R4. destruct K as (X & Y).
  assert (Eb : below t = fp ti) by (rewrite Et; reflexivity). rewrite Eb in *.
  assert (Est : In st (extra t)) by (rewrite Et; cbn; auto).
  cbn [op_next] in H. apply bind_inv in H as (ins & Ei & H). apply bind_inv in H as (((e1 & i1) & r1) & En & H).
  destruct (op_schema i) as [ins'|] eqn:Hs; [|discriminate]. injection Ei as ->.
  destruct (R _ _ _ _ _ _ _ Y Nl En) as (Es & m1 & F1 & Y1 & O1).
  assert (Hd1 : headed m1 t s b) by (exact (headed_outside _ _ _ _ _ _ O1 Dhb Hd)).
  assert (X1 : m_blk m1 st = Some (BProj cols)) by (destruct O1 as (Z1 & _); rewrite Z1; auto).
  cbn [next_h]. rewrite Ro. cbn [bind]. assert (Ek : o_kind (opr_of t) = KProj) by (rewrite Et; reflexivity). rewrite Ek.
  assert (Eo : o_state (opr_of t) = Some st /\ o_input (opr_of t) = Some (root ti)) by (rewrite Et; auto). destruct Eo as (-> & ->).
  unfold get_proj. rewrite (load_at _ _ _ X). cbn [bind]. rewrite (rep_op _ _ _ Y). cbn [bind]. rewrite F1. cbn [bind]. rewrite opr_of_buf.
  destruct r1; cbn [negb] in *.
  2:{ injection H as <- <- <-. split; [reflexivity|]. exists m1. split; [reflexivity|]. split; [|eapply outside_sub; eauto].
      destruct Hd1 as (U1 & U2 & U3). cbn [rep op_schema op_buf]. do 3 (split; [assumption|]). rewrite Et. auto. }
  apply bind_inv in H as (dst & Ed & H). apply bind_inv in H as (src & Er & H). apply bind_inv in H as (dst1 & Ec & H). injection H as <- <- <-.
  destruct b as [b|]; [|discriminate]. injection Ed as ->. destruct (headed_buf _ _ _ _ Nh Hd1) as (q & Ep & Bb & Iq & Hset). rewrite Ep.
  destruct (op_buf i1) as [src'|] eqn:Hb; [|discriminate]. injection Er as ->.
  pose proof (rep_schema _ _ _ Y1) as Sc. rewrite Es, Hs in Sc. rewrite opr_of_schema, (schema_at_in _ _ _ Sc). cbn [bind].
  rewrite (get_bytes_at _ _ _ Bb). cbn [bind]. rewrite (rep_op _ _ _ Y1). cbn [bind].
  pose proof (rep_buf _ _ _ Y1) as B1. rewrite Hb in B1. rewrite opr_of_buf, (get_bytes_in _ _ _ B1). cbn [bind]. rewrite Ec. cbn [bind].
  rewrite (store_at _ _ _ _ Bb). cbn [bind]. split; [reflexivity|]. eexists. split; [reflexivity|]. split.
  - destruct (Hset dst1) as (U1 & U2 & U3). cbn [rep op_schema op_buf]. do 3 (split; [assumption|]). rewrite Et.
    split; [rewrite mset_other; [exact X1|intros <-; exact (Dhx _ Iq Est)]|]. apply rep_mset; auto.
  - eapply outside_trans; [eapply outside_sub; [exact Ib|exact O1]|]. apply outside_mset. apply Ih. exact Iq.
Qed.

Lemma next_sel f col oper val i s b e m t e' o' r : refines (op_next f) (next_h f) -> rep m (OSel col oper val i s b) t -> NoDup (fp t) ->
  op_next (S f) e (OSel col oper val i s b) = Ok (e', o', r) ->
  op_schema o' = s /\ exists m', next_h (S f) e m (Some (root t)) = Ok (e', m', r) /\ rep m' o' t /\ outside (fp t) m m'.
Proof.
  intros R Hr ND H. pose proof (hd_fp t) as Ih. pose proof (below_fp t) as Ib. apply fp_nodup in ND as ((Nh & Nx & Nl) & Dhx & Dhb & Dxb).
  cbn [rep op_schema op_buf] in Hr. destruct Hr as (R1 & R2 & R3 & R4).
  assert (Hd : headed m t s b) by (split; auto). clear R1 R2 R3. pose proof (headed_get _ _ _ _ Hd) as Ro.
  assert (Gt : exists p st v ti sp bp, t = HSel p st v ti sp bp) by (destruct t; try contradiction; eauto 10). destruct Gt as (p & st & v & ti & sp & bp & Et).
  assert (K : m_blk m st = Some (BSel col oper (Some v)) /\ m_blk m v = Some (BBytes val) /\ rep m i ti) by (rewrite Et in R4; exact R4). clear R4. destruct K as (X & V & Y).
  assert (Eb : below t = fp ti) by (rewrite Et; reflexivity). rewrite Eb in *.
  assert (Est : In st (extra t)) by (rewrite Et; cbn; auto). assert (Ev : In v (extra t)) by (rewrite Et; cbn; auto).
  cbn [op_next] in H. apply bind_inv in H as (ins & Ei & H). apply bind_inv in H as (pos & Epos & H). apply bind_inv in H as (c & Ecs & H).
  apply bind_inv in H as (((e1 & i1) & r1) & En & H).
  destruct (op_schema i) as [ins'|] eqn:Hs; [|discriminate]. injection Ei as ->.
  destruct (sel_loop_ref _ _ R pos (Z.to_nat (Z.abs c)) oper val (is_signed c) v ti Nl (Dxb _ Ev) _ _ _ _ _ _ _ Y V En) as (Es & m1 & F1 & Y1 & O1).
  assert (Hd1 : headed m1 t s b) by (exact (headed_outside _ _ _ _ _ _ O1 Dhb Hd)).
  assert (X1 : m_blk m1 st = Some (BSel col oper (Some v))) by (destruct O1 as (Z1 & _); rewrite Z1; auto).
  assert (V1 : m_blk m1 v = Some (BBytes val)) by (destruct O1 as (Z1 & _); rewrite Z1; auto).
  cbn [next_h]. rewrite Ro. cbn [bind]. assert (Ek : o_kind (opr_of t) = KSel) by (rewrite Et; reflexivity). rewrite Ek.
  assert (Eo : o_state (opr_of t) = Some st /\ o_input (opr_of t) = Some (root ti)) by (rewrite Et; auto). destruct Eo as (-> & ->).
  rewrite (rep_op _ _ _ Y). cbn [bind]. pose proof (rep_schema _ _ _ Y) as Sc. rewrite Hs in Sc. rewrite !opr_of_schema, (schema_at_in _ _ _ Sc). cbn [bind].
  unfold get_sel. rewrite (load_at _ _ _ X). cbn [bind]. rewrite Epos. cbn [bind]. rewrite Ecs. cbn [bind]. rewrite F1. cbn [bind]. rewrite opr_of_buf.
  destruct r1; cbn [negb] in *.
  2:{ injection H as <- <- <-. split; [reflexivity|]. exists m1. split; [reflexivity|]. split; [|eapply outside_sub; eauto].
      destruct Hd1 as (U1 & U2 & U3). cbn [rep op_schema op_buf]. do 3 (split; [assumption|]). rewrite Et. auto. }
  apply bind_inv in H as (outs & Eu & H). apply bind_inv in H as (dst & Ed & H). apply bind_inv in H as (src & Er & H). apply bind_inv in H as (bs & El & H).
  apply bind_inv in H as (dst1 & Ec & H). injection H as <- <- <-.
  destruct s as [s|]; [|discriminate]. injection Eu as ->. pose proof Hd1 as (_ & Hsc & _). rewrite (schema_at_in _ _ _ Hsc). cbn [bind].
  destruct b as [b|]; [|discriminate]. injection Ed as ->. destruct (headed_buf _ _ _ _ Nh Hd1) as (q & Ep & Bb & Iq & Hset). rewrite Ep.
  destruct (op_buf i1) as [src'|] eqn:Hb; [|discriminate]. injection Er as ->.
  rewrite (rep_op _ _ _ Y1). cbn [bind].
  pose proof (rep_buf _ _ _ Y1) as B1. rewrite Hb in B1. rewrite opr_of_buf, (get_bytes_in _ _ _ B1). cbn [bind]. rewrite El. cbn [bind].
  rewrite (get_bytes_at _ _ _ Bb). cbn [bind]. rewrite Ec. cbn [bind].
  rewrite (store_at _ _ _ _ Bb). cbn [bind]. split; [reflexivity|]. eexists. split; [reflexivity|]. split.
  - destruct (Hset dst1) as (U1 & U2 & U3). cbn [rep op_schema op_buf]. do 3 (split; [assumption|]). rewrite Et.
    split; [rewrite mset_other; [exact X1|intros <-; exact (Dhx _ Iq Est)]|].
    split; [rewrite mset_other; [exact V1|intros <-; exact (Dhx _ Iq Ev)]|]. apply rep_mset; auto.
  - eapply outside_trans; [eapply outside_sub; [exact Ib|exact O1]|]. apply outside_mset. apply Ih. exact Iq.
Qed.

Lemma next_join f i1 i2 s b fst0 e m t e' o' r : refines (op_next f) (next_h f) -> rep m (OJoin i1 i2 s b fst0) t -> NoDup (fp t) ->
  op_next (S f) e (OJoin i1 i2 s b fst0) = Ok (e', o', r) ->
  op_schema o' = s /\ exists m', next_h (S f) e m (Some (root t)) = Ok (e', m', r) /\ rep m' o' t /\ outside (fp t) m m'.
Proof.
  intros R Hr ND H. pose proof (hd_fp t) as Ih. pose proof (extra_fp t) as Ix. pose proof (below_fp t) as Ib. apply fp_nodup in ND as ((Nh & Nx & Nl) & Dhx & Dhb & Dxb).
  cbn [rep op_schema op_buf] in Hr. destruct Hr as (R1 & R2 & R3 & R4).
  assert (Hd : headed m t s b) by (split; auto). clear R1 R2 R3. pose proof (headed_get _ _ _ _ Hd) as Ro.
  assert (Gt : exists p st t1 t2 sp bp, t = HJoin p st t1 t2 sp bp) by (destruct t; try contradiction; eauto 10). destruct Gt as (p & st & t1 & t2 & sp & bp & Et).
  assert (K : m_blk m st = Some (BJoin (Some (root t2)) fst0) /\ rep m i1 t1 /\ rep m i2 t2) by (rewrite Et in R4; exact R4). clear R4. destruct K as (X & Y1 & Y2).
  assert (Eb : below t = fp t1 ++ fp t2) by (rewrite Et; reflexivity). rewrite Eb in *.
  assert (Est : In st (extra t)) by (rewrite Et; cbn; auto). pose proof Nl as Nl'. apply nodup_app in Nl' as (N1 & N2 & D12).
  assert (D21 : forall q, In q (fp t2) -> ~ In q (fp t1)) by (intros q Hq Hq'; exact (D12 _ Hq' Hq)).
  assert (I1 : incl (fp t1) (fp t1 ++ fp t2)) by (intros q Hq; apply in_or_app; auto).
  assert (I2 : incl (fp t2) (fp t1 ++ fp t2)) by (intros q Hq; apply in_or_app; auto).
  cbn [op_next] in H. apply bind_inv in H as (s1 & Es1 & H). apply bind_inv in H as (s2 & Es2 & H). apply bind_inv in H as (c & Ecs & H).
  cbv zeta in H. apply bind_inv in H as ((((e1 & j1) & j2) & r1) & En & H).
  destruct (op_schema i1) as [s1'|] eqn:Hs1; [|discriminate]. injection Es1 as ->. destruct (op_schema i2) as [s2'|] eqn:Hs2; [|discriminate]. injection Es2 as ->.
  cbn [next_h]. rewrite Ro. cbn [bind]. assert (Ek : o_kind (opr_of t) = KJoin) by (rewrite Et; reflexivity). rewrite Ek.
  assert (Eo : o_state (opr_of t) = Some st /\ o_input (opr_of t) = Some (root t1)) by (rewrite Et; auto). destruct Eo as (-> & ->).
  unfold get_join. rewrite (load_at _ _ _ X). cbn [bind]. rewrite (rep_op _ _ _ Y1). cbn [bind]. rewrite (rep_op _ _ _ Y2). cbn [bind].
  pose proof (rep_schema _ _ _ Y1) as Sc1. rewrite Hs1 in Sc1. pose proof (rep_schema _ _ _ Y2) as Sc2. rewrite Hs2 in Sc2.
  rewrite !opr_of_schema, !opr_of_buf, (schema_at_in _ _ _ Sc1). cbn [bind]. rewrite Ecs. cbn [bind]. cbv zeta.
  match goal with |- context [bind ?X _] => assert (S : op_schema j1 = Some s1 /\ op_schema j2 = Some s2 /\ exists m1, X = Ok (e1, m1, r1) /\ rep m1 j1 t1 /\ rep m1 j2 t2 /\
    m_blk m1 st = Some (BJoin (Some (root t2)) false) /\ headed m1 t s b /\ outside (fp t) m m1) end.
  { destruct fst0.
    - rewrite (store_at _ _ _ _ X). cbn [bind]. set (m0 := mset m st (Some (BJoin (Some (root t2)) false))).
      assert (Nst : ~ In st (fp t1 ++ fp t2)) by auto. rewrite in_app_iff in Nst.
      assert (Z1 : rep m0 i1 t1) by (apply rep_mset; [tauto|exact Y1]). assert (Z2 : rep m0 i2 t2) by (apply rep_mset; [tauto|exact Y2]).
      assert (Z3 : headed m0 t s b) by (apply headed_mset; [intros Q; exact (Dhx _ Q Est)|exact Hd]).
      assert (Z4 : outside (fp t) m m0) by (apply outside_mset; auto).
      assert (Z5 : m_blk m0 st = Some (BJoin (Some (root t2)) false)) by apply mset_same.
      assert (Kp : forall m', outside (fp t1 ++ fp t2) m0 m' -> m_blk m' st = Some (BJoin (Some (root t2)) false) /\ headed m' t s b /\ outside (fp t) m m').
      { intros m' O. split; [destruct O as (Z & _); rewrite Z; auto; rewrite in_app_iff; tauto|]. split; [exact (headed_outside _ _ _ _ _ _ O Dhb Z3)|].
        eapply outside_trans; [exact Z4|]. eapply outside_sub; [|exact O]. exact Ib. }
      apply bind_inv in En as (((e2 & k1) & x1) & F1 & En). destruct (R _ _ _ _ _ _ _ Z1 N1 F1) as (Q1 & m2 & G1 & P1 & O1). rewrite G1. cbn [bind].
      pose proof (outside_rep _ _ _ _ _ O1 D21 Z2) as P2. apply (outside_sub _ _ _ _ I1) in O1.
      destruct x1; cbn [negb] in *; [|injection En as <- <- <- <-; split; [congruence|]; split; [congruence|]; exists m2; split; [reflexivity|]; auto].
      apply bind_inv in En as (((e3 & k2) & x2) & F2 & En). destruct (R _ _ _ _ _ _ _ P2 N2 F2) as (Q2 & m3 & G2 & P2' & O2). rewrite G2. cbn [bind].
      pose proof (outside_rep _ _ _ _ _ O2 D12 P1) as P1'. apply (outside_sub _ _ _ _ I2) in O2. pose proof (outside_trans _ _ _ _ O1 O2) as O3.
      destruct x2; cbn [negb] in *; [|injection En as <- <- <- <-; split; [congruence|]; split; [congruence|]; exists m3; split; [reflexivity|]; auto].
      destruct (join_loop_ref _ _ R (Z.to_nat (Z.abs c)) t1 t2 N1 N2 D12 _ _ _ _ _ _ _ _ _ _ P1' P2' En) as (U1 & U2 & m4 & G4 & W1 & W2 & O4).
      split; [congruence|]. split; [congruence|]. exists m4. split; [exact G4|]. split; [auto|]. split; [auto|]. apply Kp. eapply outside_trans; eauto.
    - destruct (join_loop_ref _ _ R (Z.to_nat (Z.abs c)) t1 t2 N1 N2 D12 _ _ _ _ _ _ _ _ _ _ Y1 Y2 En) as (U1 & U2 & m4 & G4 & W1 & W2 & O4).
      split; [congruence|]. split; [congruence|]. exists m4. split; [exact G4|]. split; [auto|]. split; [auto|].
      split; [destruct O4 as (Z & _); rewrite Z; auto|]. split; [exact (headed_outside _ _ _ _ _ _ O4 Dhb Hd)|]. eapply outside_sub; [|exact O4]. exact Ib. }
  destruct S as (Q1 & Q2 & m1 & -> & P1 & P2 & X1 & Hd1 & O1). cbn [bind].
  destruct r1; cbn [negb] in *.
  2:{ injection H as <- <- <-. split; [reflexivity|]. exists m1. split; [reflexivity|]. split; [|exact O1].
      destruct Hd1 as (U1 & U2 & U3). cbn [rep op_schema op_buf]. do 3 (split; [assumption|]). rewrite Et. auto. }
  apply bind_inv in H as (dst & Ed & H). apply bind_inv in H as (b1 & Eb1 & H). apply bind_inv in H as (b2 & Eb2 & H).
  apply bind_inv in H as (x & Elx & H). apply bind_inv in H as (y & Ely & H). apply bind_inv in H as (dst1 & Ec1 & H). apply bind_inv in H as (dst2 & Ec2 & H). injection H as <- <- <-.
  pose proof (rep_schema _ _ _ P1) as Sd1. rewrite Q1 in Sd1. pose proof (rep_schema _ _ _ P2) as Sd2. rewrite Q2 in Sd2.
  rewrite (schema_at_in _ _ _ Sd1). cbn [bind]. rewrite (schema_at_in _ _ _ Sd2). cbn [bind].
  rewrite (rep_op _ _ _ P1). cbn [bind]. rewrite (rep_op _ _ _ P2). cbn [bind]. rewrite !opr_of_buf.
  pose proof (rep_buf _ _ _ P1) as B1. pose proof (rep_buf _ _ _ P2) as B2.
  destruct (op_buf j1) as [b1'|]; [|discriminate]. injection Eb1 as ->. destruct (op_buf j2) as [b2'|]; [|discriminate]. injection Eb2 as ->.
  rewrite (get_bytes_in _ _ _ B1). cbn [bind]. rewrite Elx. cbn [bind]. rewrite (get_bytes_in _ _ _ B2). cbn [bind]. rewrite Ely. cbn [bind].
  destruct b as [b|]; [|discriminate]. injection Ed as ->. destruct (headed_buf _ _ _ _ Nh Hd1) as (q & Ep & Bb & Iq & Hset). rewrite Ep.
  rewrite (get_bytes_at _ _ _ Bb). cbn [bind]. rewrite Ec1. cbn [bind]. rewrite Ec2. cbn [bind].
  rewrite (store_at _ _ _ _ Bb). cbn [bind]. split; [reflexivity|]. eexists. split; [reflexivity|].
  pose proof (Dhb _ Iq) as Nq. rewrite in_app_iff in Nq. split.
  - destruct (Hset dst2) as (U1 & U2 & U3). cbn [rep op_schema op_buf]. do 3 (split; [assumption|]). rewrite Et.
    split; [rewrite mset_other; [exact X1|intros <-; exact (Dhx _ Iq Est)]|]. split; apply rep_mset; tauto.
  - eapply outside_trans; [exact O1|]. apply outside_mset. apply Ih. exact Iq.
Qed.

Lemma next_agg f grp fns i s b lb us e m t e' o' r : refines (op_next f) (next_h f) -> rep m (OAgg grp fns i s b lb us) t -> NoDup (fp t) ->
  op_next (S f) e (OAgg grp fns i s b lb us) = Ok (e', o', r) ->
  op_schema o' = s /\ exists m', next_h (S f) e m (Some (root t)) = Ok (e', m', r) /\ rep m' o' t /\ outside (fp t) m m'.
Proof.
  intros R Hr ND H. pose proof (hd_fp t) as Ih. pose proof (extra_fp t) as Ix. pose proof (below_fp t) as Ib. apply fp_nodup in ND as ((Nh & Nx & Nl) & Dhx & Dhb & Dxb).
  cbn [rep op_schema op_buf] in Hr. destruct Hr as (R1 & R2 & R3 & R4).
  assert (Hd : headed m t s b) by (split; auto). clear R1 R2 R3. pose proof (headed_get _ _ _ _ Hd) as Ro.
  assert (Gt : exists p st fn ti sp bp lp, t = HAgg p st fn ti sp bp lp) by (destruct t; try contradiction; eauto 10). destruct Gt as (p & st & fn & ti & sp & bp & lp & Et).
  assert (K : (exists n, m_blk m st = Some (BAgg grp (Some fn) lp n us) /\ forall ins, lb <> None -> op_schema i = Some ins -> n = getRecordSizeFromSchema ins) /\
    m_blk m fn = Some (BFns fns) /\ bytes_in m lp lb /\ rep m i ti) by (rewrite Et in R4; exact R4). clear R4. destruct K as ((n & X & Xn) & V & L & Y).
  assert (Eb : below t = fp ti) by (rewrite Et; reflexivity). rewrite Eb in *.
  cbn [op_next] in H. apply bind_inv in H as (ins & Ei & H). apply bind_inv in H as (lastb & El & H). apply bind_inv in H as (fns1 & Ef1 & H). apply bind_inv in H as (fns2 & Ef2 & H).
  apply bind_inv in H as (((((((e1 & i1) & fns3) & lastb3) & us3) & inG) & more) & En & H).
  destruct (op_schema i) as [ins'|] eqn:Hs; [|discriminate]. injection Ei as ->. destruct lb as [lb|]; [|discriminate]. injection El as ->.
  destruct lp as [lp|]; [|contradiction]. cbn [bytes_in] in L.
  assert (En' : n = getRecordSizeFromSchema ins) by (apply Xn; congruence). subst n. clear Xn.
  assert (Ex : extra t = [st; fn; lp]) by (rewrite Et; reflexivity). rewrite Ex in *.
  assert (D3 : st <> fn /\ st <> lp /\ fn <> lp).
  { clear - Nx. rewrite !NoDup_cons_iff in Nx. cbn [In] in Nx. intuition. } destruct D3 as (D1 & D2 & D3).
  assert (Ns : ~ In st (fp ti)) by (apply Dxb; cbn; auto). assert (Nf : ~ In fn (fp ti)) by (apply Dxb; cbn; auto). assert (Nlp : ~ In lp (fp ti)) by (apply Dxb; cbn; auto).
  assert (Hst : ~ In st (hd t)) by (intros Q; apply (Dhx _ Q); cbn; auto). assert (Hfn : ~ In fn (hd t)) by (intros Q; apply (Dhx _ Q); cbn; auto).
  assert (Hlp : ~ In lp (hd t)) by (intros Q; apply (Dhx _ Q); cbn; auto).
  cbn [next_h]. rewrite Ro. cbn [bind]. assert (Ek : o_kind (opr_of t) = KAgg) by (rewrite Et; reflexivity). rewrite Ek.
  assert (Eo : o_state (opr_of t) = Some st /\ o_input (opr_of t) = Some (root ti)) by (rewrite Et; auto). destruct Eo as (-> & ->).
  rewrite (rep_op _ _ _ Y). cbn [bind]. pose proof (rep_schema _ _ _ Y) as Sc. rewrite Hs in Sc. rewrite !opr_of_schema, (schema_at_in _ _ _ Sc). cbn [bind].
  unfold get_agg at 1. rewrite (load_at _ _ _ X). cbn [bind]. unfold get_fns at 1. rewrite (load_at _ _ _ V). cbn [bind]. rewrite Ef1. cbn [bind].
  match goal with |- context [bind ?X _] => assert (E2 : X = Ok fns2) by (destruct us; [rewrite (get_bytes_at _ _ _ L); exact Ef2|exact Ef2]) end.
  rewrite E2. cbn [bind]. clear E2. rewrite (store_at _ _ _ _ V). cbn [bind]. set (m0 := mset m fn (Some (BFns fns2))).
  assert (Z1 : m_blk m0 st = Some (BAgg grp (Some fn) (Some lp) (getRecordSizeFromSchema ins) us)) by (unfold m0; rewrite mset_other by congruence; exact X).
  assert (Z2 : m_blk m0 fn = Some (BFns fns2)) by apply mset_same.
  assert (Z3 : m_blk m0 lp = Some (BBytes lastb)) by (unfold m0; rewrite mset_other by congruence; exact L).
  assert (Z4 : rep m0 i ti) by (apply rep_mset; auto).
  assert (Z5 : headed m0 t s b) by (apply headed_mset; auto).
  assert (Z6 : outside (fp t) m m0) by (apply outside_mset; apply Ix; cbn; auto).
  destruct (agg_loop_ref _ _ R grp ins st fn lp ti Nl Nx Ns Nf Nlp _ _ _ _ _ _ _ _ _ _ _ _ _ _ _ Z4 Hs Z1 Z2 Z3 En) as (Es & m1 & F1 & Y1 & X1 & V1 & L1 & O1 & Hm).
  rewrite F1. cbn [bind].
  assert (Hd1 : headed m1 t s b).
  { refine (headed_outside _ _ _ _ _ _ O1 _ Z5). intros q Hq [<-|[<-|[<-|Q]]]; [auto|auto|auto|exact (Dhb _ Hq Q)]. }
  assert (O2 : outside (fp t) m m1).
  { eapply outside_trans; [exact Z6|]. eapply outside_sub; [|exact O1]. intros q [<-|[<-|[<-|Q]]]; [apply Ix; cbn; auto..|apply Ib; exact Q]. }
  destruct inG; cbn [negb] in *.
  2:{ injection H as <- <- <-. split; [reflexivity|]. exists m1. split; [reflexivity|]. split; [|exact O2].
      destruct Hd1 as (U1 & U2 & U3). cbn [rep op_schema op_buf]. do 3 (split; [assumption|]). rewrite Et. split; [|auto].
      exists (getRecordSizeFromSchema ins). split; [exact X1|]. intros ins0 _ E0. congruence. }
  apply bind_inv in H as (outs & Eu & H). apply bind_inv in H as (dst & Ed & H). apply bind_inv in H as (dst1 & Ec & H). apply bind_inv in H as (src & Er & H).
  apply bind_inv in H as (bs & Els & H). apply bind_inv in H as (lastb4 & El4 & H). injection H as <- <- <-.
  unfold get_agg at 1. rewrite (load_at _ _ _ X1). cbn [bind]. rewrite (store_at _ _ _ _ X1). cbn [bind].
  assert (Hu : (if more then us3 else false) = more) by (destruct more; auto). rewrite Hu. clear Hu.
  set (m2 := mset m1 st (Some (BAgg grp (Some fn) (Some lp) (getRecordSizeFromSchema ins) more))).
  assert (Hd2 : headed m2 t s b) by (apply headed_mset; auto).
  destruct s as [s|]; [|discriminate]. injection Eu as ->. pose proof Hd2 as (_ & Hsc & _). rewrite (schema_at_in _ _ _ Hsc). cbn [bind].
  assert (V2 : m_blk m2 fn = Some (BFns fns3)) by (unfold m2; rewrite mset_other by congruence; exact V1).
  assert (L2 : m_blk m2 lp = Some (BBytes lastb3)) by (unfold m2; rewrite mset_other by congruence; exact L1).
  assert (Y2 : rep m2 i1 ti) by (apply rep_mset; auto).
  unfold get_fns. rewrite (load_at _ _ _ V2). cbn [bind].
  destruct b as [b|]; [|discriminate]. injection Ed as ->. destruct (headed_buf _ _ _ _ Nh Hd2) as (q & Ep & Bb & Iq & Hset). rewrite opr_of_buf, Ep.
  rewrite (get_bytes_at _ _ _ Bb). cbn [bind]. rewrite Ec. cbn [bind]. rewrite (store_at _ _ _ _ Bb). cbn [bind].
  set (m3 := mset m2 q (Some (BBytes dst1))).
  assert (Y3 : rep m3 i1 ti) by (apply rep_mset; auto). rewrite (rep_op _ _ _ Y3). cbn [bind]. rewrite opr_of_buf.
  destruct (op_buf i1) as [src'|] eqn:Hb; [|discriminate]. injection Er as ->.
  pose proof (rep_buf _ _ _ Y3) as B3. rewrite Hb in B3. rewrite (get_bytes_in _ _ _ B3). cbn [bind]. rewrite Els. cbn [bind].
  assert (L3 : m_blk m3 lp = Some (BBytes lastb3)) by (unfold m3; rewrite mset_other by (intros ->; auto); exact L2).
  rewrite (get_bytes_at _ _ _ L3). cbn [bind]. rewrite El4. cbn [bind]. rewrite (store_at _ _ _ _ L3). cbn [bind].
  split; [reflexivity|]. eexists. split; [reflexivity|]. split.
  - assert (Hd4 : headed (mset m3 lp (Some (BBytes lastb4))) t (Some outs) (Some dst1)) by (apply headed_mset; [auto|apply Hset]).
    destruct Hd4 as (U1 & U2 & U3). cbn [rep op_schema op_buf]. do 3 (split; [assumption|]). rewrite Et.
    split; [exists (getRecordSizeFromSchema ins); split; [|intros ins0 _ E0; congruence]|].
    + rewrite mset_other by congruence. unfold m3. rewrite mset_other by (intros ->; auto). apply mset_same.
    + split; [rewrite mset_other by congruence; unfold m3; rewrite mset_other by (intros ->; auto); exact V2|].
      split; [apply mset_same|]. apply rep_mset; auto.
  - eapply outside_trans; [exact O2|]. eapply outside_trans; [|eapply outside_trans]; apply outside_mset; [apply Ix; cbn; auto|apply Ih; exact Iq|apply Ix; cbn; auto].
Qed.

Theorem next_refines : forall f, refines (op_next f) (next_h f).
Proof.
  induction f as [|f IH]; intros e m o t e' o' r Hr ND H; [discriminate|]. destruct o.
  - exact (next_scan _ _ _ _ _ _ _ _ _ _ _ Hr ND H).
  - exact (next_proj _ _ _ _ _ _ _ _ _ _ _ IH Hr ND H).
  - exact (next_sel _ _ _ _ _ _ _ _ _ _ _ _ _ IH Hr ND H).
  - exact (next_agg _ _ _ _ _ _ _ _ _ _ _ _ _ _ IH Hr ND H).
  - exact (next_join _ _ _ _ _ _ _ _ _ _ _ _ IH Hr ND H).
Qed.

(** ** Allocation *)
Lemma alloc_ok m o : m_fail m = [] ->
  alloc m o = (mset (mkM (S (m_next m)) (m_blk m) []) (m_next m) (Some o), Some (m_next m)).
Proof. intros H. unfold alloc. now rewrite H. Qed.

(** The blocks [l] become [l']: new ones are fresh, nothing else changes. *)
Definition grow (l l' : list nat) (m m' : mem) : Prop :=
  mem_ok m' /\ (m_next m <= m_next m')%nat /\ (forall b, ~ In b l' -> m_blk m' b = m_blk m b) /\ incl l l' /\
  (forall b, In b l' -> In b l \/ (m_next m <= b)%nat).
Lemma grow_refl l m : mem_ok m -> grow l l m m.
Proof. intros H. split; [auto|]. split; [auto|]. split; [auto|]. split; [apply incl_refl|auto]. Qed.
Lemma grow_trans l1 l2 l3 m1 m2 m3 : grow l1 l2 m1 m2 -> grow l2 l3 m2 m3 -> grow l1 l3 m1 m3.
Proof.
  intros (A1 & A2 & A3 & A4 & A5) (B1 & B2 & B3 & B4 & B5). split; [auto|]. split; [lia|]. split; [|split].
  - intros b H. rewrite B3, A3; auto.
  - eapply incl_tran; eauto.
  - intros b H. apply B5 in H as [H|H]; [apply A5 in H as [H|H]; auto|right; lia].
Qed.
Lemma live_below m b : mem_ok m -> m_blk m b <> None -> (b < m_next m)%nat.
Proof. intros (A & _) H. destruct (Nat.lt_ge_cases b (m_next m)) as [X|X]; [auto|]. contradict H. auto. Qed.
Lemma grow_outside l m m' : mem_ok m -> (forall b, In b l -> m_blk m b <> None) -> outside l m m' -> grow l l m m'.
Proof.
  intros Hm Hl (A & B & C). split; [|split; [lia|split; [auto|split; [apply incl_refl|auto]]]].
  destruct Hm as (M1 & M2). split; [|congruence]. intros b Hb. rewrite B in Hb. rewrite A; [auto|]. intros Q. exact (Hl _ Q (M1 _ Hb)).
Qed.
Lemma grow_part (l l' rest F F' : list nat) m m' : Permutation F (l ++ rest) -> Permutation F' (l' ++ rest) -> NoDup F -> NoDup l' ->
  (forall q, In q F -> m_blk m q <> None) -> mem_ok m -> grow l l' m m' ->
  NoDup F' /\ grow F F' m m' /\ (forall q, In q rest -> m_blk m' q = m_blk m q /\ ~ In q l').
Proof.
  intros P P' N N' Lv Hm (A1 & A2 & A3 & A4 & A5).
  assert (N2 : NoDup (l ++ rest)) by (eapply Permutation_NoDup; eauto). apply nodup_app in N2 as (Nl & Nr & D).
  assert (D' : forall q, In q rest -> ~ In q l').
  { intros q Hq Q. apply A5 in Q as [Q|Q]; [exact (D _ Q Hq)|]. assert (q < m_next m)%nat; [|lia]. apply live_below; auto. apply Lv.
    eapply Permutation_in; [symmetry; exact P|]. apply in_or_app. auto. }
  split; [|split].
  - eapply Permutation_NoDup; [symmetry; exact P'|]. apply nodup_app. split; [auto|]. split; [auto|]. intros x Hx Hx'. exact (D' _ Hx' Hx).
  - split; [auto|]. split; [auto|]. split; [|split].
    + intros b Hb. apply A3. intros Q. apply Hb. eapply Permutation_in; [symmetry; exact P'|]. apply in_or_app. auto.
    + intros b Hb. eapply Permutation_in; [symmetry; exact P'|]. apply (Permutation_in _ P) in Hb. apply in_app_or in Hb as [Hb|Hb]; apply in_or_app; auto.
    + intros b Hb. apply (Permutation_in _ P') in Hb. apply in_app_or in Hb as [Hb|Hb].
      * apply A5 in Hb as [Hb|Hb]; [left|auto]. eapply Permutation_in; [symmetry; exact P|]. apply in_or_app. auto.
      * left. eapply Permutation_in; [symmetry; exact P|]. apply in_or_app. auto.
  - intros q Hq. split; [apply A3|]; auto.
Qed.

(** A tree with another schema and record buffer at its root. *)
Definition rehead (t : shape) (sp : option (nat * nat)) (bp : ptr) : shape :=
  match t with
  | HScan p st it _ _ => HScan p st it sp bp
  | HProj p st i _ _ => HProj p st i sp bp
  | HSel p st v i _ _ => HSel p st v i sp bp
  | HAgg p st fn i _ _ lp => HAgg p st fn i sp bp lp
  | HJoin p st i1 i2 _ _ => HJoin p st i1 i2 sp bp
  end.
Lemma rehead_same t : rehead t (schp t) (bufp t) = t.
Proof. destruct t; reflexivity. Qed.
Lemma rehead_twice t a b c d : rehead (rehead t a b) c d = rehead t c d.
Proof. destruct t; reflexivity. Qed.
Lemma rehead_sel t a b : root (rehead t a b) = root t /\ schp (rehead t a b) = a /\ bufp (rehead t a b) = b /\ extra (rehead t a b) = extra t /\ below (rehead t a b) = below t.
Proof. destruct t; repeat split. Qed.
Lemma opr_rehead_schema t a : opr_of (rehead t a (bufp t)) = set_schema (opr_of t) (option_map fst a).
Proof. destruct t; reflexivity. Qed.
Lemma opr_rehead_buf t b : opr_of (rehead t (schp t) b) = set_buf (opr_of t) b.
Proof. destruct t; reflexivity. Qed.

Lemma hd_live m t s b q : headed m t s b -> In q (hd t) -> m_blk m q <> None.
Proof.
  intros (A & B & C) [<-|H]; [congruence|]. apply in_app_or in H as [H|H].
  - destruct (schp t) as [(x & y)|], s; try contradiction. destruct B as (B1 & B2), H as [<-|[<-|[]]]; congruence.
  - destruct (bufp t) as [x|], b; try contradiction. destruct H as [<-|[]]. cbn in C. congruence.
Qed.

(** Two fresh blocks for a schema. *)
Definition with_schema (m : mem) (t : shape) (l : schema) : mem :=
  let x := m_next m in
  mset (mset (mset (mkM (S (S x)) (m_blk m) []) x (Some (BSchema (Some (S x))))) (S x) (Some (BCols l)))
    (root t) (Some (BOp (set_schema (opr_of t) (Some x)))).
Definition same_mem (m m' : mem) : Prop := m_next m = m_next m' /\ m_fail m = m_fail m' /\ forall b, m_blk m b = m_blk m' b.
Lemma with_schema_ok m t b l m' : mem_ok m -> NoDup (hd t) -> headed m t None b -> same_mem m' (with_schema m t l) ->
  let t' := rehead t (Some (m_next m, S (m_next m))) (bufp t) in
  headed m' t' (Some l) b /\ NoDup (hd t') /\ grow (hd t) (hd t') m m'.
Proof.
  intros Hm ND Hd (M1 & M2 & M3) t'. pose proof (hd_live _ _ _ _ (root t) Hd (or_introl eq_refl)) as Lr. apply (live_below _ _ Hm) in Lr.
  destruct Hd as (H1 & H2 & H3). destruct (schp t) as [|] eqn:Es; [destruct p; contradiction|].
  assert (Hb : forall q, In q (ol (bufp t)) -> (q < m_next m)%nat /\ q <> root t).
  { intros q Hq. split.
    - apply live_below; [auto|]. eapply (hd_live m t None b); [repeat split; auto; rewrite Es; auto|]. unfold hd. rewrite Es. cbn. auto.
    - unfold hd in ND. rewrite Es in ND. cbn in ND. apply NoDup_cons_iff in ND as (ND & _). congruence. }
  destruct (rehead_sel t (Some (m_next m, S (m_next m))) (bufp t)) as (Er & Esc & Eb & _). fold t' in Er, Esc, Eb.
  assert (Eh : hd t' = root t :: m_next m :: S (m_next m) :: ol (bufp t)) by (unfold hd; rewrite Er, Esc, Eb; reflexivity).
  assert (Eh0 : hd t = root t :: ol (bufp t)) by (unfold hd; rewrite Es; reflexivity).
  split; [|split].
  - split; [|rewrite Esc, Eb; split].
    + rewrite Er, M3. unfold with_schema. rewrite mset_same. unfold t'. now rewrite opr_rehead_schema.
    + cbn [schema_in]. rewrite !M3. unfold with_schema. cbn zeta. rewrite !(mset_other _ (root t)) by lia. rewrite mset_same, mset_other by lia. rewrite mset_same. auto.
    + eapply bytes_agree; [|exact H3]. intros q Hq. apply Hb in Hq as (Q1 & Q2). rewrite M3. unfold with_schema. cbn zeta. rewrite !mset_other by (auto; lia). reflexivity.
  - rewrite Eh. rewrite Eh0, NoDup_cons_iff in ND. destruct ND as (N1 & N2). rewrite !NoDup_cons_iff. cbn [In]. repeat split; auto.
    + intros [Q|[Q|Q]]; [lia|lia|auto].
    + intros [Q|Q]; [lia|]. apply Hb in Q. lia.
    + intros Q. apply Hb in Q. lia.
  - rewrite Eh, Eh0. split; [|split; [rewrite M1; cbn; lia|split; [|split]]].
    + split; [|now rewrite M2]. intros q Hq. rewrite M1 in Hq. cbn in Hq. rewrite M3. unfold with_schema. cbn zeta. rewrite !mset_other by lia. apply Hm. lia.
    + intros q Hq. cbn [In] in Hq. rewrite M3. unfold with_schema. cbn zeta. rewrite !mset_other by (intros ->; tauto). reflexivity.
    + intros q [<-|Hq]; cbn; auto.
    + intros q [<-|[<-|[<-|Hq]]]; cbn; auto.
Qed.
Lemma ensure_schema_new m t b fill l : mem_ok m -> headed m t None b ->
  (forall m2, (forall q, q <> root t -> m_blk m q <> None -> m_blk m2 q = m_blk m q) -> fill m2 = Ok l) ->
  exists m', ensure_schema m (Some (root t)) fill = Ok (m', true) /\ same_mem m' (with_schema m t l).
Proof.
  intros Hm Hd Hf. pose proof (hd_live _ _ _ _ (root t) Hd (or_introl eq_refl)) as Lr. apply (live_below _ _ Hm) in Lr.
  unfold ensure_schema. rewrite (headed_get _ _ _ _ Hd). cbn [bind]. rewrite opr_of_schema. destruct Hd as (H1 & H2 & H3).
  destruct (schp t) as [p|] eqn:Es; [destruct p; contradiction|]. cbn [option_map]. rewrite alloc_ok by apply Hm.
  erewrite store_at by (rewrite mset_other by lia; exact H1). cbn [bind]. rewrite alloc_ok by reflexivity. cbn [m_next m_blk mset].
  rewrite (store_at _ _ (BSchema None)).
  2:{ rewrite mset_other by lia. cbn [m_blk]. destruct (Nat.eqb_spec (m_next m) (root t)); [lia|]. rewrite Nat.eqb_refl. reflexivity. }
  cbn [bind]. rewrite Hf.
  2:{ intros q Q1 Q2. apply (live_below _ _ Hm) in Q2. rewrite !mset_other by lia. cbn [m_blk].
      destruct (Nat.eqb_spec q (root t)); [congruence|]. destruct (Nat.eqb_spec q (m_next m)); [lia|]. reflexivity. }
  cbn [bind]. rewrite (store_at _ _ (BCols [])) by (rewrite mset_other by lia; apply mset_same). cbn [bind].
  eexists. split; [reflexivity|]. split; [reflexivity|]. split; [reflexivity|]. intros q. unfold with_schema. cbn [m_blk mset m_next]. 
  destruct (Nat.eqb_spec q (S (m_next m))); [subst; destruct (Nat.eqb_spec (S (m_next m)) (root t)); [lia|]; reflexivity|].
  destruct (Nat.eqb_spec q (m_next m)); [subst; destruct (Nat.eqb_spec (m_next m) (root t)); [lia|]; reflexivity|]. reflexivity.
Qed.
Lemma copy_schema_new m t b src l : mem_ok m -> headed m t None b ->
  (forall m2, (forall q, q <> root t -> m_blk m q <> None -> m_blk m2 q = m_blk m q) -> schema_at m2 src = Ok l) ->
  exists m', ('(m, c) <- copySchema_h m src ;; store m (Some (root t)) (BOp (set_schema (opr_of t) c))) = Ok m' /\ same_mem m' (with_schema m t l).
Proof.
  intros Hm Hd Hf. pose proof (hd_live _ _ _ _ (root t) Hd (or_introl eq_refl)) as Lr. apply (live_below _ _ Hm) in Lr.
  unfold copySchema_h. rewrite alloc_ok by apply Hm. destruct Hd as (H1 & H2 & H3).
  rewrite Hf. 2:{ intros q Q1 Q2. apply (live_below _ _ Hm) in Q2. rewrite !mset_other by lia. reflexivity. }
  cbn [bind]. rewrite alloc_ok by reflexivity. cbn [m_next m_blk mset].
  rewrite (store_at _ _ (BSchema None)) by (rewrite mset_other by lia; cbn [m_blk]; now rewrite Nat.eqb_refl).
  cbn [bind]. erewrite store_at.
  2:{ rewrite !mset_other by lia. cbn [m_blk]. destruct (Nat.eqb_spec (root t) (m_next m)); [lia|]. exact H1. }
  eexists. split; [reflexivity|]. split; [reflexivity|]. split; [reflexivity|]. intros q. unfold with_schema. cbn [m_blk mset m_next].
  destruct (Nat.eqb_spec q (root t)); [reflexivity|].
  destruct (Nat.eqb_spec q (S (m_next m))); [subst; destruct (Nat.eqb_spec (S (m_next m)) (m_next m)); [lia|]; reflexivity|].
  destruct (q =? m_next m)%nat; reflexivity.
Qed.

(** A fresh record buffer. *)
Lemma with_buf_ok m t s bs : mem_ok m -> NoDup (hd t) -> headed m t s None ->
  let t' := rehead t (schp t) (Some (m_next m)) in
  let m' := mset (mset (mkM (S (m_next m)) (m_blk m) []) (m_next m) (Some (BBytes bs))) (root t) (Some (BOp (set_buf (opr_of t) (Some (m_next m))))) in
  headed m' t' s (Some bs) /\ NoDup (hd t') /\ grow (hd t) (hd t') m m'.
Proof.
  intros Hm ND Hd t' m'. pose proof (hd_live _ _ _ _ (root t) Hd (or_introl eq_refl)) as Lr. apply (live_below _ _ Hm) in Lr.
  assert (Hall : forall q, In q (hd t) -> (q < m_next m)%nat) by (intros q Hq; apply live_below; [auto|]; eapply hd_live; eauto).
  destruct Hd as (H1 & H2 & H3). destruct (bufp t) as [|] eqn:Eb0; [contradiction|].
  destruct (rehead_sel t (schp t) (Some (m_next m))) as (Er & Esc & Eb & _). fold t' in Er, Esc, Eb.
  assert (Eh0 : hd t = root t :: os (schp t)) by (unfold hd; rewrite Eb0; cbn; now rewrite app_nil_r).
  assert (Eh : hd t' = hd t ++ [m_next m]) by (rewrite Eh0; unfold hd; rewrite Er, Esc, Eb; reflexivity).
  split; [|split].
  - split; [|rewrite Esc, Eb; split].
    + rewrite Er. unfold m'. rewrite mset_same. unfold t'. now rewrite opr_rehead_buf.
    + eapply schema_agree; [|exact H2]. intros q Hq. assert (Q1 : (q < m_next m)%nat) by (apply Hall; rewrite Eh0; cbn; auto).
      assert (Q2 : q <> root t) by (rewrite Eh0, NoDup_cons_iff in ND; destruct ND; congruence).
      unfold m'. rewrite !mset_other by (auto; lia). reflexivity.
    + cbn [bytes_in]. unfold m'. rewrite mset_other by lia. apply mset_same.
  - rewrite Eh. apply nodup_app. split; [auto|]. split; [repeat constructor; auto|]. intros q Hq [<-|[]]. apply Hall in Hq. lia.
  - rewrite Eh. split; [|split; [cbn; lia|split; [|split]]].
    + split; [|reflexivity]. intros q Hq. cbn in Hq. unfold m'. rewrite !mset_other by lia. apply Hm. lia.
    + intros q Hq. rewrite in_app_iff in Hq. cbn [In] in Hq. assert (Q1 : q <> m_next m) by (intros ->; tauto). assert (Q2 : q <> root t) by (intros ->; apply Hq; left; rewrite Eh0; cbn; auto).
      unfold m'. rewrite !mset_other by auto. reflexivity.
    + intros q Hq. apply in_or_app. auto.
    + intros q Hq. apply in_app_or in Hq as [Hq|[<-|[]]]; auto.
Qed.
Lemma ensure_buffer_spec m t s b : mem_ok m -> NoDup (hd t) -> headed m t (Some s) b ->
  exists m' bp', ensure_buffer m (Some (root t)) = Ok m' /\ let t' := rehead t (schp t) bp' in
    headed m' t' (Some s) (ensure_buf b s) /\ NoDup (hd t') /\ grow (hd t) (hd t') m m'.
Proof.
  intros Hm ND Hd. unfold ensure_buffer. rewrite (headed_get _ _ _ _ Hd). cbn [bind]. rewrite opr_of_buf, opr_of_schema. pose proof Hd as (H1 & H2 & H3).
  destruct b as [b|]; cbn [ensure_buf].
  - destruct (bufp t) as [bp|] eqn:Eb; [|contradiction]. exists m, (Some bp). split; [reflexivity|]. cbn zeta. rewrite <- Eb, rehead_same. auto using grow_refl.
  - destruct (bufp t) as [bp|] eqn:Eb; [contradiction|]. rewrite (schema_at_in _ _ _ H2). cbn [bind]. rewrite alloc_ok by apply Hm.
    assert (Lr : (root t < m_next m)%nat) by (apply live_below; [auto|congruence]).
    erewrite store_at by (rewrite mset_other by lia; exact H1). eexists. exists (Some (m_next m)). split; [reflexivity|].
    apply with_buf_ok; auto.
Qed.

(** ** init *)
Definition same_ops (t t' : shape) : Prop :=
  root t' = root t /\ structs t' = structs t /\ client t' = client t /\ unreached t' = unreached t /\ height t' = height t.
Definition init_ok (f : nat) (e : env) (o : op) : Prop :=
  forall m t o', rep m o t -> NoDup (fp t) -> mem_ok m -> (height t <= f)%nat -> joins_new o -> op_init e o = Ok o' ->
  exists m' t', init_h f e m (Some (root t)) = Ok m' /\ rep m' o' t' /\ NoDup (fp t') /\ same_ops t t' /\ grow (fp t) (fp t') m m'.

Lemma rep_headed m o t : rep m o t -> headed m t (op_schema o) (op_buf o).
Proof. intros H. split; [now apply rep_root in H|]. split; [now apply rep_schema|now apply rep_buf]. Qed.

Lemma init_scan f e db it s b : init_ok (S f) e (OScan db it s b).
Proof.
  intros m t o' Hr ND Hm _ _ H. pose proof (rep_headed _ _ _ Hr) as Hd. pose proof (fun q => rep_live _ _ _ q Hr) as Lv.
  cbn [rep] in Hr. destruct Hr as (_ & _ & _ & R4). cbn [op_schema op_buf] in Hd.
  assert (Gt : exists p st ip sp bp, t = HScan p st ip sp bp) by (destruct t; try contradiction; eauto 10). destruct Gt as (p & st & ip & sp & bp & Et).
  assert (K : m_blk m st = Some (BScan db (Some ip)) /\ m_blk m ip = Some (BIter it)) by (rewrite Et in R4; exact R4). clear R4. destruct K as (X & Y).
  assert (Stay : exists m' t', Ok m = Ok m' /\ rep m' (OScan db it s b) t' /\ NoDup (fp t') /\ same_ops t t' /\ grow (fp t) (fp t') m m').
  { exists m, t. split; [reflexivity|]. split; [|split; [auto|split; [repeat split|apply grow_refl; auto]]].
    destruct Hd as (A & B & C). cbn [rep]. do 3 (split; [assumption|]). rewrite Et. auto. }
  cbn [init_h op_init] in *. rewrite (headed_get _ _ _ _ Hd). cbn [bind]. assert (Ek : o_kind (opr_of t) = KScan) by (rewrite Et; reflexivity). rewrite Ek.
  pose proof Hd as (_ & Hs & _). rewrite opr_of_schema. destruct (schp t) as [(x & y)|] eqn:Es; [|contradiction]. cbn [option_map fst].
  pose proof (schema_at_in _ _ _ Hs) as Hs'. cbn [option_map fst] in Hs'. rewrite Hs'. cbn [bind].
  destruct (zlen s <? 2); [injection H as <-; exact Stay|].
  assert (Eo : o_state (opr_of t) = Some st) by (rewrite Et; auto). rewrite Eo. unfold get_scan. rewrite (load_at _ _ _ X). cbn [bind]. cbv zeta in *.
  apply bind_inv in H as (c0 & Ec & H). rewrite Ec. cbn [bind].
  destruct ((c0 <=? 0) || negb (Z.abs c0 =? keySize (fst (e db)))); [injection H as <-; exact Stay|].
  destruct (negb (getRecordSizeFromSchema s =? keySize (fst (e db)) + dataSize (fst (e db)))); [injection H as <-; exact Stay|].
  injection H as <-. apply fp_nodup in ND as NDp. destruct NDp as ((Nh & Nx & Nl) & _).
  destruct (ensure_buffer_spec _ _ _ _ Hm Nh Hd) as (m1 & bp1 & E1 & Hd1 & Nh1 & G1). rewrite E1. cbv zeta in *. set (t1 := rehead t (schp t) bp1) in *.
  exists m1, t1. split; [reflexivity|].
  destruct (rehead_sel t (schp t) bp1) as (Er & _ & _ & Exx & Ebb). fold t1 in Er, Exx, Ebb.
  destruct (grow_part _ _ (extra t ++ below t) (fp t) (fp t1) _ _ (fp_perm t) ltac:(rewrite <- Exx, <- Ebb; apply fp_perm) ND Nh1 Lv Hm G1) as (ND1 & G1' & K1).
  split; [|split; [auto|split; [|auto]]].
  - destruct Hd1 as (A & B & C). cbn [rep]. do 3 (split; [assumption|]). unfold t1. rewrite Et. cbn [rehead].
    split; [rewrite (proj1 (K1 st ltac:(rewrite Et; cbn; auto))); exact X|rewrite (proj1 (K1 ip ltac:(rewrite Et; cbn; auto))); exact Y].
  - unfold t1. rewrite Et. repeat split.
Qed.

Lemma init_proj f e cols i s b : init_ok f e i -> init_ok (S f) e (OProj cols i s b).
Proof.
  intros IH m t o' Hr ND Hm Hf Hj H. pose proof (rep_headed _ _ _ Hr) as Hd. pose proof (fun q => rep_live _ _ _ q Hr) as Lv.
  cbn [rep] in Hr. destruct Hr as (_ & _ & _ & R4). cbn [op_schema op_buf] in Hd.
  assert (Gt : exists p st ti sp bp, t = HProj p st ti sp bp) by (destruct t; try contradiction; eauto 10). destruct Gt as (p & st & ti & sp & bp & Et).
  assert (K : m_blk m st = Some (BProj cols) /\ rep m i ti) by (rewrite Et in R4; exact R4). clear R4. destruct K as (X & Y).
  assert (Hf' : (height ti <= f)%nat) by (rewrite Et in Hf; cbn in Hf; lia). cbn [joins_new] in Hj.
  cbn [init_h op_init] in *. rewrite (headed_get _ _ _ _ Hd). cbn [bind]. assert (Ek : o_kind (opr_of t) = KProj) by (rewrite Et; reflexivity). rewrite Ek.
  assert (Eo : o_state (opr_of t) = Some st /\ o_input (opr_of t) = Some (root ti)) by (rewrite Et; auto). destruct Eo as (Eo1 & Eo2). rewrite Eo1, Eo2.
  apply bind_inv in H as (i1 & Ei & H). apply bind_inv in H as (ins & En & H). apply bind_inv in H as (s' & Es & H). injection H as <-.
  apply fp_nodup in ND as NDp. destruct NDp as ((Nh & Nx & Nl) & _).
  assert (Eb : below t = fp ti) by (rewrite Et; reflexivity). rewrite Eb in Nl.
  destruct (IH _ _ _ Y Nl Hm Hf' Hj Ei) as (m1 & ti1 & E1 & Y1 & Nl1 & So & G1). rewrite E1. cbn [bind].
  set (t1 := HProj p st ti1 sp bp).
  assert (Eh1 : hd t1 = hd t) by (rewrite Et; reflexivity). assert (Ex1 : extra t1 = extra t) by (rewrite Et; reflexivity). assert (Er1 : root t1 = root t) by (rewrite Et; reflexivity).
  destruct (grow_part (fp ti) (fp ti1) (hd t ++ extra t) (fp t) (fp t1) _ _ ltac:(rewrite <- Eb, fp_perm, app_assoc; apply Permutation_app_comm)
    ltac:(rewrite fp_perm, app_assoc, <- Eh1, <- Ex1; apply Permutation_app_comm) ND Nl1 Lv Hm G1) as (ND1 & G1' & K1).
  assert (Eopr : opr_of t1 = opr_of t) by (rewrite Et; cbn; destruct So as (-> & _); reflexivity).
  assert (Hd1 : headed m1 t1 s b).
  { assert (Z : headed m1 t s b) by (eapply headed_agree; [|exact Hd]; intros q Hq; apply K1; apply in_or_app; auto).
    destruct Z as (Z1 & Z2 & Z3). rewrite <- Er1, <- Eopr in Z1. rewrite Et in Z2, Z3. repeat split; assumption. }
  assert (X1 : m_blk m1 st = Some (BProj cols)) by (rewrite (proj1 (K1 st ltac:(rewrite in_app_iff, Et; cbn; auto))); exact X).
  unfold get_proj. rewrite (load_at _ _ _ X1). cbn [bind]. destruct So as (So1 & So2 & So3 & So4 & So5). rewrite <- So1, (rep_op _ _ _ Y1). cbn [bind].
  pose proof (rep_schema _ _ _ Y1) as Sc. destruct (op_schema i1) as [ins'|] eqn:Hs1; [|discriminate]. injection En as ->.
  assert (Hm1 : mem_ok m1) by apply G1. assert (Lv1 : forall q, In q (fp ti1) -> m_blk m1 q <> None) by (intros q; eapply rep_live; eauto).
  assert (Nr : ~ In (root t1) (fp ti1)) by (apply K1; rewrite <- Eh1; cbn; auto).
  assert (S : exists m2 sp2, ensure_schema m1 (Some (root t)) (fun m => ins <- schema_at m (o_schema (opr_of ti1)) ;; proj_schema ins cols) = Ok (m2, true) /\
    let t2 := rehead t1 sp2 (bufp t1) in headed m2 t2 (Some s') b /\ NoDup (hd t2) /\ grow (hd t1) (hd t2) m1 m2).
  { rewrite <- Er1. destruct s as [s|].
    - injection Es as ->. exists m1, (schp t1). split.
      + unfold ensure_schema. rewrite (headed_get _ _ _ _ Hd1). cbn [bind]. rewrite opr_of_schema. pose proof Hd1 as (_ & Hs & _). destruct (schp t1) as [(x & y)|]; [reflexivity|contradiction].
      + cbv zeta. rewrite rehead_same. split; [auto|]. split; [rewrite Eh1; auto|apply grow_refl; auto].
    - destruct (ensure_schema_new m1 t1 b (fun m => ins <- schema_at m (o_schema (opr_of ti1)) ;; proj_schema ins cols) s' Hm1 Hd1) as (m2 & E2 & Sm).
      + intros m2 Ag. rewrite opr_of_schema, (schema_at_in m2 (schp ti1) ins); [exact Es|]. eapply schema_agree; [|exact Sc].
        intros q Hq. apply os_fp in Hq. apply Ag; [intros ->; auto|auto].
      + exists m2, (Some (m_next m1, S (m_next m1))). split; [exact E2|]. apply (with_schema_ok _ _ _ _ _ Hm1 ltac:(rewrite Eh1; auto) Hd1 Sm). }
  destruct S as (m2 & sp2 & E2 & Hd2 & Nh2 & G2). rewrite E2. cbn [bind]. cbv zeta in *. set (t2 := rehead t1 sp2 (bufp t1)) in *.
  assert (Hm2 : mem_ok m2) by apply G2. destruct (ensure_buffer_spec _ _ _ _ Hm2 Nh2 Hd2) as (m3 & bp3 & E3 & Hd3 & Nh3 & G3).
  destruct (rehead_sel t1 sp2 (bufp t1)) as (Er2 & Es2 & Eb2 & Ex2 & Ebb2). fold t2 in Er2, Es2, Eb2, Ex2, Ebb2. rewrite Er2, Er1 in E3.
  rewrite E3. cbv zeta in *. set (t3 := rehead t2 (schp t2) bp3) in *.
  destruct (rehead_sel t2 (schp t2) bp3) as (Er3 & Es3 & Eb3 & Ex3 & Ebb3). fold t3 in Er3, Es3, Eb3, Ex3, Ebb3.
  assert (G23 : grow (hd t1) (hd t3) m1 m3) by (eapply grow_trans; eauto).
  destruct (grow_part _ _ (extra t1 ++ below t1) (fp t1) (fp t3) _ _ (fp_perm t1) ltac:(rewrite <- Ebb2, <- Ex2, <- Ebb3, <- Ex3; apply fp_perm) ND1 Nh3
    ltac:(intros q Hq; apply fp_in in Hq as [Q|[Q|Q]]; [exact (hd_live _ _ _ _ _ Hd1 Q)|destruct Q as [<-|[]]; congruence|exact (Lv1 _ Q)]) Hm1 G23) as (ND3 & G3' & K3).
  exists m3, t3. split; [reflexivity|]. split; [|split; [auto|split; [|eapply grow_trans; eauto]]].
  - destruct Hd3 as (A & B & C). cbn [rep op_schema op_buf]. do 3 (split; [assumption|]). unfold t3, t2, t1. cbn [rehead].
    split; [rewrite (proj1 (K3 st ltac:(cbn; auto))); exact X1|]. apply (rep_agree m1); [|exact Y1]. intros q Hq. apply K3. cbn. auto.
  - unfold t3, t2, t1. rewrite Et. cbn [rehead]. repeat split; cbn; congruence.
Qed.

Lemma init_sel f e col oper val i s b : init_ok f e i -> init_ok (S f) e (OSel col oper val i s b).
Proof.
  intros IH m t o' Hr ND Hm Hf Hj H. pose proof (rep_headed _ _ _ Hr) as Hd. pose proof (fun q => rep_live _ _ _ q Hr) as Lv.
  cbn [rep] in Hr. destruct Hr as (_ & _ & _ & R4). cbn [op_schema op_buf] in Hd.
  assert (Gt : exists p st v ti sp bp, t = HSel p st v ti sp bp) by (destruct t; try contradiction; eauto 10). destruct Gt as (p & st & v & ti & sp & bp & Et).
  assert (K : m_blk m st = Some (BSel col oper (Some v)) /\ m_blk m v = Some (BBytes val) /\ rep m i ti) by (rewrite Et in R4; exact R4). clear R4. destruct K as (X & V & Y).
  assert (Hf' : (height ti <= f)%nat) by (rewrite Et in Hf; cbn in Hf; lia). cbn [joins_new] in Hj.
  cbn [init_h op_init] in *. rewrite (headed_get _ _ _ _ Hd). cbn [bind]. assert (Ek : o_kind (opr_of t) = KSel) by (rewrite Et; reflexivity). rewrite Ek.
  assert (Eo2 : o_input (opr_of t) = Some (root ti)) by (rewrite Et; auto). rewrite Eo2.
  apply bind_inv in H as (i1 & Ei & H). apply bind_inv in H as (ins & En & H). injection H as <-.
  apply fp_nodup in ND as NDp. destruct NDp as ((Nh & Nx & Nl) & _).
  assert (Eb : below t = fp ti) by (rewrite Et; reflexivity). rewrite Eb in Nl.
  destruct (IH _ _ _ Y Nl Hm Hf' Hj Ei) as (m1 & ti1 & E1 & Y1 & Nl1 & So & G1). rewrite E1. cbn [bind].
  set (t1 := HSel p st v ti1 sp bp).
  assert (Eh1 : hd t1 = hd t) by (rewrite Et; reflexivity). assert (Ex1 : extra t1 = extra t) by (rewrite Et; reflexivity). assert (Er1 : root t1 = root t) by (rewrite Et; reflexivity).
  destruct (grow_part (fp ti) (fp ti1) (hd t ++ extra t) (fp t) (fp t1) _ _ ltac:(rewrite <- Eb, fp_perm, app_assoc; apply Permutation_app_comm)
    ltac:(rewrite fp_perm, app_assoc, <- Eh1, <- Ex1; apply Permutation_app_comm) ND Nl1 Lv Hm G1) as (ND1 & G1' & K1).
  assert (Eopr : opr_of t1 = opr_of t) by (rewrite Et; cbn; destruct So as (-> & _); reflexivity).
  assert (Hd1 : headed m1 t1 s b).
  { assert (Z : headed m1 t s b) by (eapply headed_agree; [|exact Hd]; intros q Hq; apply K1; apply in_or_app; auto).
    destruct Z as (Z1 & Z2 & Z3). rewrite <- Er1, <- Eopr in Z1. rewrite Et in Z2, Z3. repeat split; assumption. }
  assert (X1 : m_blk m1 st = Some (BSel col oper (Some v))) by (rewrite (proj1 (K1 st ltac:(rewrite in_app_iff, Et; cbn; auto))); exact X).
  assert (V1 : m_blk m1 v = Some (BBytes val)) by (rewrite (proj1 (K1 v ltac:(rewrite in_app_iff, Et; cbn; auto))); exact V).
  destruct So as (So1 & So2 & So3 & So4 & So5). rewrite <- Er1, (headed_get _ _ _ _ Hd1). cbn [bind].
  pose proof (rep_schema _ _ _ Y1) as Sc. destruct (op_schema i1) as [ins'|] eqn:Hs1; [|discriminate]. injection En as ->.
  assert (Hm1 : mem_ok m1) by apply G1. assert (Lv1 : forall q, In q (fp ti1) -> m_blk m1 q <> None) by (intros q; eapply rep_live; eauto).
  assert (Nr : ~ In (root t1) (fp ti1)) by (apply K1; rewrite <- Eh1; cbn; auto).
  set (s' := match s with Some s => s | None => ins end).
  match goal with |- context [bind ?X _] => assert (S : exists m2 sp2, X = Ok m2 /\
    let t2 := rehead t1 sp2 (bufp t1) in headed m2 t2 (Some s') b /\ NoDup (hd t2) /\ grow (hd t1) (hd t2) m1 m2) end.
  { rewrite opr_of_schema. unfold s'. clear s'. pose proof Hd1 as (_ & Hs & _). destruct s as [s|].
    - exists m1, (schp t1). split; [destruct (schp t1) as [(x & y)|]; [reflexivity|contradiction]|].
      cbv zeta. rewrite rehead_same. split; [auto|]. split; [rewrite Eh1; auto|apply grow_refl; auto].
    - destruct (schp t1) as [(x & y)|] eqn:Esp; [contradiction|]. cbn [option_map]. rewrite Eopr, Eo2, <- So1, (rep_op _ _ _ Y1). cbn [bind].
      destruct (copy_schema_new m1 t1 b (o_schema (opr_of ti1)) ins Hm1 Hd1) as (m2 & E2 & Sm).
      + intros m2 Ag. rewrite opr_of_schema, (schema_at_in m2 (schp ti1) ins); [reflexivity|]. eapply schema_agree; [|exact Sc].
        intros q Hq. apply os_fp in Hq. apply Ag; [intros ->; auto|auto].
      + exists m2, (Some (m_next m1, S (m_next m1))). rewrite <- Eopr. split; [exact E2|]. apply (with_schema_ok _ _ _ _ _ Hm1 ltac:(rewrite Eh1; auto) Hd1 Sm). }
  destruct S as (m2 & sp2 & E2 & Hd2 & Nh2 & G2). rewrite E2. cbn [bind]. cbv zeta in *. set (t2 := rehead t1 sp2 (bufp t1)) in *.
  assert (Hm2 : mem_ok m2) by apply G2. destruct (ensure_buffer_spec _ _ _ _ Hm2 Nh2 Hd2) as (m3 & bp3 & E3 & Hd3 & Nh3 & G3).
  destruct (rehead_sel t1 sp2 (bufp t1)) as (Er2 & Es2 & Eb2 & Ex2 & Ebb2). fold t2 in Er2, Es2, Eb2, Ex2, Ebb2. rewrite Er2 in E3.
  rewrite E3. cbv zeta in *. set (t3 := rehead t2 (schp t2) bp3) in *.
  destruct (rehead_sel t2 (schp t2) bp3) as (Er3 & Es3 & Eb3 & Ex3 & Ebb3). fold t3 in Er3, Es3, Eb3, Ex3, Ebb3.
  assert (G23 : grow (hd t1) (hd t3) m1 m3) by (eapply grow_trans; eauto).
  destruct (grow_part _ _ (extra t1 ++ below t1) (fp t1) (fp t3) _ _ (fp_perm t1) ltac:(rewrite <- Ebb2, <- Ex2, <- Ebb3, <- Ex3; apply fp_perm) ND1 Nh3
    ltac:(intros q Hq; apply fp_in in Hq as [Q|[Q|Q]]; [exact (hd_live _ _ _ _ _ Hd1 Q)|destruct Q as [<-|[<-|[]]]; congruence|exact (Lv1 _ Q)]) Hm1 G23) as (ND3 & G3' & K3).
  exists m3, t3. split; [reflexivity|]. split; [|split; [auto|split; [|eapply grow_trans; eauto]]].
  - destruct Hd3 as (A & B & C). cbn [rep op_schema op_buf]. do 3 (split; [assumption|]). unfold t3, t2, t1. cbn [rehead].
    split; [rewrite (proj1 (K3 st ltac:(cbn; auto))); exact X1|]. split; [rewrite (proj1 (K3 v ltac:(cbn; auto))); exact V1|].
    apply (rep_agree m1); [|exact Y1]. intros q Hq. apply K3. cbn. auto.
  - unfold t3, t2, t1. rewrite Et. cbn [rehead]. repeat split; cbn; congruence.
Qed.

Lemma init_join f e i1 i2 s b fst0 : init_ok f e i1 -> init_ok f e i2 -> init_ok (S f) e (OJoin i1 i2 s b fst0).
Proof.
  intros IH1 IH2 m t o' Hr ND Hm Hf Hj H. pose proof (rep_headed _ _ _ Hr) as Hd. pose proof (fun q => rep_live _ _ _ q Hr) as Lv.
  cbn [rep] in Hr. destruct Hr as (_ & _ & _ & R4). cbn [op_schema op_buf] in Hd.
  assert (Gt : exists p st u1 u2 sp bp, t = HJoin p st u1 u2 sp bp) by (destruct t; try contradiction; eauto 10). destruct Gt as (p & st & u1 & u2 & sp & bp & Et).
  assert (K : m_blk m st = Some (BJoin (Some (root u2)) fst0) /\ rep m i1 u1 /\ rep m i2 u2) by (rewrite Et in R4; exact R4). clear R4. destruct K as (X & Y & W).
  assert (Hf1 : (height u1 <= f)%nat) by (rewrite Et in Hf; cbn in Hf; lia). assert (Hf2 : (height u2 <= f)%nat) by (rewrite Et in Hf; cbn in Hf; lia).
  cbn [joins_new] in Hj. destruct Hj as (-> & Hj1 & Hj2).
  cbn [init_h op_init] in *. rewrite (headed_get _ _ _ _ Hd). cbn [bind]. assert (Ek : o_kind (opr_of t) = KJoin) by (rewrite Et; reflexivity). rewrite Ek.
  assert (Eo : o_state (opr_of t) = Some st /\ o_input (opr_of t) = Some (root u1)) by (rewrite Et; auto). destruct Eo as (Eo1 & Eo2). rewrite Eo1, Eo2.
  unfold get_join. rewrite (load_at _ _ _ X). cbn [bind].
  apply bind_inv in H as (j1 & Ei1 & H). apply bind_inv in H as (j2 & Ei2 & H). apply bind_inv in H as (s1 & En1 & H). apply bind_inv in H as (s2 & En2 & H).
  apply bind_inv in H as (c1 & Ec1 & H). apply bind_inv in H as (c2 & Ec2 & H).
  apply fp_nodup in ND as NDp. destruct NDp as ((Nh & Nx & Nl) & Dhx & Dhb & Dxb).
  assert (Eb : below t = fp u1 ++ fp u2) by (rewrite Et; reflexivity). rewrite Eb in *. apply nodup_app in Nl as (N1 & N2 & D12).
  (* first input *)
  destruct (IH1 _ _ _ Y N1 Hm Hf1 Hj1 Ei1) as (m1 & v1 & E1 & Y1 & Nv1 & So1 & G1). rewrite E1. cbn [bind].
  set (t1 := HJoin p st v1 u2 sp bp).
  assert (Eh1 : hd t1 = hd t) by (rewrite Et; reflexivity). assert (Ex1 : extra t1 = extra t) by (rewrite Et; reflexivity). assert (Er1 : root t1 = root t) by (rewrite Et; reflexivity).
  destruct (grow_part (fp u1) (fp v1) (fp u2 ++ hd t ++ extra t) (fp t) (fp t1) _ _
    ltac:(rewrite fp_perm, Eb, app_assoc, (app_assoc (fp u1)); apply Permutation_app_comm)
    ltac:(rewrite fp_perm, app_assoc, <- Eh1, <- Ex1, (app_assoc (fp v1)); apply Permutation_app_comm) ND Nv1 Lv Hm G1) as (ND1 & G1' & K1).
  assert (W1 : rep m1 i2 u2) by (apply (rep_agree m); [|exact W]; intros q Hq; apply K1; apply in_or_app; auto).
  assert (Hm1 : mem_ok m1) by apply G1.
  assert (Lv1 : forall q, In q (fp t1) -> m_blk m1 q <> None).
  { intros q Hq. apply fp_in in Hq as [Q|Q]; [|destruct Q as [Q|Q]; [|cbn in Q; apply in_app_or in Q as [Q|Q]; [exact (rep_live _ _ _ _ Y1 Q)|exact (rep_live _ _ _ _ W1 Q)]]].
    - rewrite Eh1 in Q. rewrite (proj1 (K1 q ltac:(rewrite !in_app_iff; auto))). apply Lv. apply hd_fp. exact Q.
    - rewrite Ex1 in Q. rewrite (proj1 (K1 q ltac:(rewrite !in_app_iff; auto))). apply Lv. apply extra_fp. exact Q. }
  (* second input *)
  destruct (IH2 _ _ _ W1 N2 Hm1 Hf2 Hj2 Ei2) as (m2 & v2 & E2 & W2 & Nv2 & So2 & G2). rewrite E2. cbn [bind].
  set (t2 := HJoin p st v1 v2 sp bp).
  assert (Eh2 : hd t2 = hd t) by (rewrite Et; reflexivity). assert (Ex2 : extra t2 = extra t) by (rewrite Et; reflexivity). assert (Er2 : root t2 = root t) by (rewrite Et; reflexivity).
  assert (P2 : forall a, Permutation ((hd t ++ extra t) ++ fp v1 ++ a) (a ++ fp v1 ++ hd t ++ extra t)).
  { intros a. rewrite Permutation_app_comm, <- (app_assoc (fp v1) a). apply perm_in. }
  destruct (grow_part (fp u2) (fp v2) (fp v1 ++ hd t ++ extra t) (fp t1) (fp t2) _ _
    ltac:(rewrite fp_perm, Eh1, Ex1, app_assoc; apply (P2 (fp u2)))
    ltac:(rewrite fp_perm, Eh2, Ex2, app_assoc; apply (P2 (fp v2))) ND1 Nv2 Lv1 Hm1 G2) as (ND2 & G2' & K2).
  assert (Y2 : rep m2 j1 v1) by (apply (rep_agree m1); [|exact Y1]; intros q Hq; apply K2; apply in_or_app; auto).
  assert (Hm2 : mem_ok m2) by apply G2.
  destruct So1 as (A1 & A2 & A3 & A4 & A5). destruct So2 as (B1 & B2 & B3 & B4 & B5).
  assert (Eopr : opr_of t2 = opr_of t) by (rewrite Et; cbn; rewrite A1; reflexivity).
  assert (Hd2 : headed m2 t2 s None).
  { assert (Z : headed m2 t s None).
    { eapply headed_agree; [|exact Hd]; intros q Hq. rewrite (proj1 (K2 q ltac:(rewrite !in_app_iff; auto))). apply K1; rewrite !in_app_iff; auto. }
    destruct Z as (Z1 & Z2 & Z3). rewrite <- Er2, <- Eopr in Z1. rewrite Et in Z2, Z3. repeat split; assumption. }
  assert (X2 : m_blk m2 st = Some (BJoin (Some (root v2)) fst0)).
  { assert (Q : In st (extra t)) by (rewrite Et; cbn; auto). rewrite (proj1 (K2 st ltac:(rewrite !in_app_iff; auto))), (proj1 (K1 st ltac:(rewrite !in_app_iff; auto))). congruence. }
  rewrite <- A1, (rep_op _ _ _ Y2). cbn [bind]. rewrite <- B1, (rep_op _ _ _ W2). cbn [bind].
  pose proof (rep_schema _ _ _ Y2) as Sc1. pose proof (rep_schema _ _ _ W2) as Sc2.
  destruct (op_schema j1) as [s1'|] eqn:Hs1; [|discriminate]. injection En1 as ->. destruct (op_schema j2) as [s2'|] eqn:Hs2; [|discriminate]. injection En2 as ->.
  rewrite !opr_of_schema, (schema_at_in _ _ _ Sc1). cbn [bind]. rewrite (schema_at_in _ _ _ Sc2). cbn [bind]. rewrite Ec1. cbn [bind]. rewrite Ec2. cbn [bind].
  assert (Lv2 : forall q, In q (fp t2) -> m_blk m2 q <> None).
  { intros q Hq. apply fp_in in Hq as [Q|[Q|Q]]; [exact (hd_live _ _ _ _ _ Hd2 Q)|destruct Q as [<-|[]]; congruence|].
    cbn in Q. apply in_app_or in Q as [Q|Q]; [exact (rep_live _ _ _ _ Y2 Q)|exact (rep_live _ _ _ _ W2 Q)]. }
  assert (So : same_ops t t2) by (rewrite Et; unfold t2; repeat split; cbn; congruence).
  assert (G : grow (fp t) (fp t2) m m2) by (eapply grow_trans; eauto).
  destruct (negb (c1 =? c2) || (c1 <? 0) || (c2 <? 0)).
  { injection H as <-. exists m2, t2. split; [reflexivity|]. split; [|auto]. destruct Hd2 as (Z1 & Z2 & Z3). cbn [rep op_schema op_buf]. do 3 (split; [assumption|]). unfold t2. auto. }
  destruct (zlen s1 + zlen s2 >? 255) eqn:Ez; [discriminate|]. injection H as <-.
  set (s' := match s with Some s => s | None => s1 ++ s2 end).
  assert (S : exists m3 sp3, ensure_schema m2 (Some (root t)) (fun _ => Ok (s1 ++ s2)) = Ok (m3, true) /\
    let t3 := rehead t2 sp3 (bufp t2) in headed m3 t3 (Some s') None /\ NoDup (hd t3) /\ grow (hd t2) (hd t3) m2 m3).
  { unfold s'. clear s'. rewrite <- Er2. destruct s as [s|].
    - exists m2, (schp t2). split.
      + unfold ensure_schema. rewrite (headed_get _ _ _ _ Hd2). cbn [bind]. rewrite opr_of_schema. pose proof Hd2 as (_ & Hs & _). destruct (schp t2) as [(x & y)|]; [reflexivity|contradiction].
      + cbv zeta. rewrite rehead_same. split; [auto|]. split; [rewrite Eh2; auto|apply grow_refl; auto].
    - destruct (ensure_schema_new m2 t2 None (fun _ => Ok (s1 ++ s2)) (s1 ++ s2) Hm2 Hd2) as (m3 & E3 & Sm); [reflexivity|].
      exists m3, (Some (m_next m2, S (m_next m2))). split; [exact E3|]. apply (with_schema_ok _ _ _ _ _ Hm2 ltac:(rewrite Eh2; auto) Hd2 Sm). }
  destruct S as (m3 & sp3 & E3 & Hd3 & Nh3 & G3). rewrite E3. cbn [bind negb]. cbv zeta in *. set (t3 := rehead t2 sp3 (bufp t2)) in *.
  destruct (rehead_sel t2 sp3 (bufp t2)) as (Er3 & Es3 & Eb3 & Ex3 & Ebb3). fold t3 in Er3, Es3, Eb3, Ex3, Ebb3.
  assert (Hm3 : mem_ok m3) by apply G3. rewrite <- Er2, <- Er3, (headed_get _ _ _ _ Hd3). cbn [bind].
  pose proof Hd3 as (H31 & H32 & _). rewrite opr_of_schema, (schema_at_in _ _ _ H32). cbn [bind]. rewrite alloc_ok by apply Hm3.
  assert (Lr : (root t3 < m_next m3)%nat) by (apply live_below; [auto|congruence]).
  erewrite store_at by (rewrite mset_other by lia; exact H31). cbn [bind].
  destruct (with_buf_ok m3 t3 (Some s') (createBufferFromSchema s') Hm3 Nh3 Hd3) as (Hd4 & Nh4 & G4). cbv zeta in *.
  set (m4 := mset (mset (mkM (S (m_next m3)) (m_blk m3) []) (m_next m3) (Some (BBytes (createBufferFromSchema s')))) (root t3) (Some (BOp (set_buf (opr_of t3) (Some (m_next m3)))))) in *.
  set (t4 := rehead t3 (schp t3) (Some (m_next m3))) in *.
  destruct (rehead_sel t3 (schp t3) (Some (m_next m3))) as (Er4 & Es4 & Eb4 & Ex4 & Ebb4). fold t4 in Er4, Es4, Eb4, Ex4, Ebb4.
  assert (G34 : grow (hd t2) (hd t4) m2 m4) by (eapply grow_trans; eauto).
  destruct (grow_part _ _ (extra t2 ++ below t2) (fp t2) (fp t4) _ _ (fp_perm t2) ltac:(rewrite <- Ebb3, <- Ex3, <- Ebb4, <- Ex4; apply fp_perm) ND2 Nh4 Lv2 Hm2 G34) as (ND4 & G4' & K4).
  assert (X4 : m_blk m4 st = Some (BJoin (Some (root v2)) fst0)) by (rewrite (proj1 (K4 st ltac:(cbn; auto))); exact X2).
  assert (Eo4 : o_state (opr_of t3) = Some st) by reflexivity. rewrite Eo4. rewrite (store_at _ _ _ _ X4).
  assert (Nst : ~ In st (hd t4)) by (apply K4; cbn; auto).
  assert (Ist : In st (fp t4)) by (apply extra_fp; rewrite Ex4, Ex3; cbn; auto).
  assert (Nst2 : ~ In st (fp v1 ++ fp v2)).
  { apply fp_nodup in ND2 as (_ & _ & _ & Q). apply Q. cbn. auto. } rewrite in_app_iff in Nst2.
  assert (Y4 : rep m4 j1 v1) by (apply (rep_agree m2); [|exact Y2]; intros q Hq; apply K4; cbn; rewrite in_app_iff; auto).
  assert (W4 : rep m4 j2 v2) by (apply (rep_agree m2); [|exact W2]; intros q Hq; apply K4; cbn; rewrite in_app_iff; auto).
  eexists. exists t4. split; [rewrite B1; reflexivity|]. split; [|split; [auto|split; [|]]].
  - assert (Hd5 : headed (mset m4 st (Some (BJoin (Some (root u2)) true))) t4 (Some s') (Some (createBufferFromSchema s'))) by (apply headed_mset; auto).
    destruct Hd5 as (Z1 & Z2 & Z3). cbn [rep op_schema op_buf]. do 3 (split; [assumption|]). unfold t4, t3, t2. cbn [rehead].
    split; [rewrite mset_same, B1; reflexivity|]. split; apply rep_mset; tauto.
  - destruct So as (So1 & So2 & So3 & So4 & So5). unfold t4, t3, t2 in *. cbn [rehead]. repeat split; cbn in *; congruence.
  - eapply grow_trans; [exact G|]. eapply grow_trans; [exact G4'|]. apply grow_outside; [apply G4'| |apply outside_mset; exact Ist].
    intros q Hq. apply fp_in in Hq as [Q|[Q|Q]]; [exact (hd_live _ _ _ _ _ Hd4 Q)|rewrite Ex4, Ex3 in Q; destruct Q as [<-|[]]; congruence|].
    rewrite Ebb4, Ebb3 in Q. cbn in Q. apply in_app_or in Q as [Q|Q]; [exact (rep_live _ _ _ _ Y4 Q)|exact (rep_live _ _ _ _ W4 Q)].
Qed.

Lemma init_agg f e grp fns i s b lb us : init_ok f e i -> init_ok (S f) e (OAgg grp fns i s b lb us).
Proof.
  intros IH m t o' Hr ND Hm Hf Hj H. pose proof (rep_headed _ _ _ Hr) as Hd. pose proof (fun q => rep_live _ _ _ q Hr) as Lv.
  cbn [rep] in Hr. destruct Hr as (_ & _ & _ & R4). cbn [op_schema op_buf] in Hd.
  assert (Gt : exists p st fn ti sp bp lp, t = HAgg p st fn ti sp bp lp) by (destruct t; try contradiction; eauto 10). destruct Gt as (p & st & fn & ti & sp & bp & lp & Et).
  assert (K : (exists n, m_blk m st = Some (BAgg grp (Some fn) lp n us) /\ forall ins, lb <> None -> op_schema i = Some ins -> n = getRecordSizeFromSchema ins) /\
    m_blk m fn = Some (BFns fns) /\ bytes_in m lp lb /\ rep m i ti) by (rewrite Et in R4; exact R4). clear R4. destruct K as ((n & X & _) & V & L & Y).
  assert (Hf' : (height ti <= f)%nat) by (rewrite Et in Hf; cbn in Hf; lia). cbn [joins_new] in Hj.
  cbn [init_h op_init] in *. rewrite (headed_get _ _ _ _ Hd). cbn [bind]. assert (Ek : o_kind (opr_of t) = KAgg) by (rewrite Et; reflexivity). rewrite Ek.
  assert (Eo : o_state (opr_of t) = Some st /\ o_input (opr_of t) = Some (root ti)) by (rewrite Et; auto). destruct Eo as (Eo1 & Eo2). rewrite Eo1, Eo2.
  apply bind_inv in H as (i1 & Ei & H). apply bind_inv in H as (ins & En & H).
  destruct (zlen fns >? 255) eqn:Ez; [discriminate|]. injection H as <-.
  apply fp_nodup in ND as NDp. destruct NDp as ((Nh & Nx & Nl) & _).
  assert (Eb : below t = fp ti) by (rewrite Et; reflexivity). rewrite Eb in Nl.
  destruct (IH _ _ _ Y Nl Hm Hf' Hj Ei) as (m1 & ti1 & E1 & Y1 & Nl1 & So & G1). rewrite E1. cbn [bind].
  set (t1 := HAgg p st fn ti1 sp bp lp).
  assert (Eh1 : hd t1 = hd t) by (rewrite Et; reflexivity). assert (Ex1 : extra t1 = extra t) by (rewrite Et; reflexivity). assert (Er1 : root t1 = root t) by (rewrite Et; reflexivity).
  destruct (grow_part (fp ti) (fp ti1) (hd t ++ extra t) (fp t) (fp t1) _ _ ltac:(rewrite <- Eb, fp_perm, app_assoc; apply Permutation_app_comm)
    ltac:(rewrite fp_perm, app_assoc, <- Eh1, <- Ex1; apply Permutation_app_comm) ND Nl1 Lv Hm G1) as (ND1 & G1' & K1).
  assert (Eopr : opr_of t1 = opr_of t) by (rewrite Et; cbn; destruct So as (-> & _); reflexivity).
  assert (Hd1 : headed m1 t1 s b).
  { assert (Z : headed m1 t s b) by (eapply headed_agree; [|exact Hd]; intros q Hq; apply K1; apply in_or_app; auto).
    destruct Z as (Z1 & Z2 & Z3). rewrite <- Er1, <- Eopr in Z1. rewrite Et in Z2, Z3. repeat split; assumption. }
  assert (X1 : m_blk m1 st = Some (BAgg grp (Some fn) lp n us)) by (rewrite (proj1 (K1 st ltac:(rewrite in_app_iff, Et; cbn; auto))); exact X).
  assert (V1 : m_blk m1 fn = Some (BFns fns)) by (rewrite (proj1 (K1 fn ltac:(rewrite in_app_iff, Et; cbn; auto))); exact V).
  assert (L1 : bytes_in m1 lp lb) by (eapply bytes_agree; [|exact L]; intros q Hq; apply K1; rewrite in_app_iff, Et; cbn; auto).
  destruct So as (So1 & So2 & So3 & So4 & So5). assert (Hm1 : mem_ok m1) by apply G1.
  unfold get_agg at 1. rewrite (load_at _ _ _ X1). cbn [bind]. rewrite (store_at _ _ _ _ X1). cbn [bind].
  pose proof (rep_schema _ _ _ Y1) as Sc. destruct (op_schema i1) as [ins'|] eqn:Hs1; [|discriminate]. injection En as ->.
  apply fp_nodup in ND1 as NDp. destruct NDp as ((Nh1 & Nx1 & _) & Dhx1 & Dhb1 & Dxb1).
  assert (Hst : ~ In st (hd t1)) by (intros Q; apply (Dhx1 _ Q); cbn; auto). assert (Bst : ~ In st (fp ti1)) by (apply Dxb1; cbn; auto).
  assert (Ds : st <> fn) by (cbn in Nx1; rewrite !NoDup_cons_iff in Nx1; cbn in Nx1; intuition).
  assert (Dl : ~ In st (ol lp)) by (cbn in Nx1; rewrite !NoDup_cons_iff in Nx1; cbn in Nx1; intuition).
  assert (Lv1 : forall q, In q (fp t1) -> m_blk m1 q <> None).
  { intros q Hq. apply fp_in in Hq as [Q|[Q|Q]]; [exact (hd_live _ _ _ _ _ Hd1 Q)| |exact (rep_live _ _ _ _ Y1 Q)].
    destruct Q as [<-|[<-|Q]]; [congruence..|]. cbn in Q. destruct lp as [lp|]; [|contradiction]. destruct Q as [<-|[]]. destruct lb; [|contradiction]. cbn in L1. congruence. }
  set (ma := mset m1 st (Some (BAgg grp (Some fn) lp n false))).
  assert (Ga : grow (fp t1) (fp t1) m1 ma) by (apply grow_outside; auto; apply outside_mset; apply extra_fp; cbn; auto).
  assert (Hda : headed ma t1 s b) by (apply headed_mset; auto). assert (Hma : mem_ok ma) by apply Ga.
  assert (Ya : rep ma i1 ti1) by (apply rep_mset; auto). assert (Va : m_blk ma fn = Some (BFns fns)) by (unfold ma; rewrite mset_other by congruence; exact V1).
  assert (Lva : forall q, In q (fp t1) -> m_blk ma q <> None).
  { intros q Hq. unfold ma. destruct (Nat.eq_dec q st) as [->|Dq]; [rewrite mset_same; discriminate|rewrite mset_other by auto; auto]. }
  set (s' := match s with Some s => s | None => map agg_colsize fns end).
  assert (S : exists m2 sp2, ensure_schema ma (Some (root t)) (fun m => fs <- get_fns m (Some fn) ;; if zlen fs >? 255 then UB else Ok (map agg_colsize fs)) = Ok (m2, true) /\
    let t2 := rehead t1 sp2 (bufp t1) in headed m2 t2 (Some s') b /\ NoDup (hd t2) /\ grow (hd t1) (hd t2) ma m2).
  { unfold s'. clear s'. rewrite <- Er1. destruct s as [s|].
    - exists ma, (schp t1). split.
      + unfold ensure_schema. rewrite (headed_get _ _ _ _ Hda). cbn [bind]. rewrite opr_of_schema. pose proof Hda as (_ & Hs & _). destruct (schp t1) as [(x & y)|]; [reflexivity|contradiction].
      + cbv zeta. rewrite rehead_same. split; [auto|]. split; [auto|apply grow_refl; auto].
    - destruct (ensure_schema_new ma t1 b (fun m => fs <- get_fns m (Some fn) ;; if zlen fs >? 255 then UB else Ok (map agg_colsize fs)) (map agg_colsize fns) Hma Hda) as (m2 & E2 & Sm).
      + intros m2 Ag. unfold get_fns. rewrite (load_at m2 fn (BFns fns)); [cbn [bind]; rewrite Ez; reflexivity|]. rewrite Ag; [exact Va| |congruence].
        intros Q. apply (Dhx1 (root t1)); [cbn; auto|]. rewrite <- Q. cbn. auto.
      + exists m2, (Some (m_next ma, S (m_next ma))). split; [exact E2|]. apply (with_schema_ok _ _ _ _ _ Hma Nh1 Hda Sm). }
  destruct S as (m2 & sp2 & E2 & Hd2 & Nh2 & G2). rewrite E2. cbn [bind negb]. cbv zeta in *. set (t2 := rehead t1 sp2 (bufp t1)) in *.
  destruct (rehead_sel t1 sp2 (bufp t1)) as (Er2 & Es2 & Eb2 & Ex2 & Ebb2). fold t2 in Er2, Es2, Eb2, Ex2, Ebb2.
  destruct (grow_part _ _ (extra t1 ++ below t1) (fp t1) (fp t2) _ _ (fp_perm t1) ltac:(rewrite <- Ebb2, <- Ex2; apply fp_perm) ND1 Nh2 Lva Hma G2) as (ND2 & G2' & K2).
  assert (Y2 : rep m2 i1 ti1) by (apply (rep_agree ma); [|exact Ya]; intros q Hq; apply K2; apply in_or_app; cbn; auto).
  rewrite <- So1, (rep_op _ _ _ Y2). cbn [bind]. pose proof (rep_schema _ _ _ Y2) as Sc2. rewrite Hs1 in Sc2. rewrite opr_of_schema, (schema_at_in _ _ _ Sc2). cbn [bind].
  assert (X2 : m_blk m2 st = Some (BAgg grp (Some fn) lp n false)) by (rewrite (proj1 (K2 st ltac:(cbn; auto))); apply mset_same).
  rewrite (store_at _ _ _ _ X2). cbn [bind]. set (N := getRecordSizeFromSchema ins). set (mb := mset m2 st (Some (BAgg grp (Some fn) lp N false))).
  assert (Hst2 : ~ In st (hd t2)) by (apply K2; cbn; auto).
  assert (Lv2 : forall q, In q (fp t2) -> m_blk m2 q <> None).
  { intros q Hq. apply fp_in in Hq as [Q|[Q|Q]]; [exact (hd_live _ _ _ _ _ Hd2 Q)|rewrite Ex2 in Q|rewrite Ebb2 in Q];
    (rewrite (proj1 (K2 q ltac:(apply in_or_app; auto))); apply Lva; first [apply extra_fp; exact Q|apply below_fp; exact Q]). }
  assert (Gb : grow (fp t2) (fp t2) m2 mb) by (apply grow_outside; [apply G2'|auto|apply outside_mset; apply extra_fp; rewrite Ex2; cbn; auto]).
  assert (Hdb : headed mb t2 (Some s') b) by (apply headed_mset; auto). assert (Hmb : mem_ok mb) by apply Gb.
  assert (Lvb : forall q, In q (fp t2) -> m_blk mb q <> None).
  { intros q Hq. unfold mb. destruct (Nat.eq_dec q st) as [->|Dq]; [rewrite mset_same; discriminate|rewrite mset_other by auto; auto]. }
  destruct (ensure_buffer_spec _ _ _ _ Hmb Nh2 Hdb) as (m3 & bp3 & E3 & Hd3 & Nh3 & G3).
  rewrite Er2, Er1 in E3. rewrite E3. cbn [bind]. cbv zeta in *. set (t3 := rehead t2 (schp t2) bp3) in *.
  destruct (rehead_sel t2 (schp t2) bp3) as (Er3 & Es3 & Eb3 & Ex3 & Ebb3). fold t3 in Er3, Es3, Eb3, Ex3, Ebb3.
  destruct (grow_part _ _ (extra t2 ++ below t2) (fp t2) (fp t3) _ _ (fp_perm t2) ltac:(rewrite <- Ebb3, <- Ex3; apply fp_perm) ND2 Nh3 Lvb Hmb G3) as (ND3 & G3' & K3).
  assert (Rr : root t3 = root t) by congruence. rewrite <- Rr, (headed_get _ _ _ _ Hd3). cbn [bind]. rewrite opr_of_buf.
  assert (Hb3 : exists q, bufp t3 = Some q).
  { destruct Hd3 as (_ & _ & Z). destruct (bufp t3) as [q|]; [eauto|]. destruct b; contradiction. } destruct Hb3 as (q3 & Hb3). rewrite Hb3.
  assert (K23 : forall q, In q (extra t1 ++ below t1) -> m_blk m3 q = m_blk mb q) by (intros q Hq; apply K3; rewrite Ex2, Ebb2; exact Hq).
  assert (X3 : m_blk m3 st = Some (BAgg grp (Some fn) lp N false)) by (rewrite K23 by (cbn; auto); apply mset_same).
  assert (V3 : m_blk m3 fn = Some (BFns fns)).
  { rewrite K23 by (cbn; auto). unfold mb. rewrite mset_other by congruence. rewrite (proj1 (K2 fn ltac:(cbn; auto))). exact Va. }
  assert (L3 : bytes_in m3 lp lb).
  { eapply bytes_agree; [|exact L1]. intros q Hq. rewrite K23 by (cbn; rewrite in_app_iff; auto). assert (q <> st) by (intros ->; auto). unfold mb. rewrite mset_other by auto.
    rewrite (proj1 (K2 q ltac:(cbn; rewrite in_app_iff; auto))). unfold ma. now rewrite mset_other by auto. }
  assert (Y3 : rep m3 i1 ti1).
  { apply (rep_agree m2); [|exact Y2]. intros q Hq. rewrite K23 by (cbn; rewrite in_app_iff; auto). unfold mb. rewrite mset_other by (intros ->; auto). reflexivity. }
  assert (G : grow (fp t) (fp t3) m m3) by (eapply grow_trans; [exact G1'|]; eapply grow_trans; [exact Ga|]; eapply grow_trans; [exact G2'|]; eapply grow_trans; [exact Gb|exact G3']).
  assert (Eo3 : o_state (opr_of t3) = Some st) by reflexivity. rewrite Eo3.
  destruct lp as [lp|], lb as [lb|]; try contradiction.
  { exists m3, t3. split; [reflexivity|]. split; [|split; [auto|split; [|auto]]].
    - destruct Hd3 as (Z1 & Z2 & Z3). cbn [rep op_schema op_buf]. do 3 (split; [assumption|]). unfold t3, t2, t1. cbn [rehead]. split; [|auto].
      exists N. split; [exact X3|]. intros ins0 _ E0. unfold N. congruence.
    - unfold t3, t2, t1. rewrite Et. cbn [rehead]. repeat split; cbn; congruence. }
  assert (Hm3 : mem_ok m3) by apply G3'. rewrite alloc_ok by apply Hm3.
  assert (Lst : (st < m_next m3)%nat) by (apply live_below; [auto|congruence]).
  erewrite store_at by (rewrite mset_other by lia; exact X3).
  match goal with |- exists m' t', Ok ?M = Ok m' /\ _ => set (m4 := M) end. set (x := m_next m3) in *.
  set (t4 := HAgg p st fn ti1 sp2 bp3 (Some x)).
  assert (Et3 : t3 = HAgg p st fn ti1 sp2 bp3 None) by reflexivity.
  assert (Lv3 : forall q, In q (fp t3) -> m_blk m3 q <> None).
  { intros q Hq. apply fp_in in Hq as [Q|[Q|Q]]; [exact (hd_live _ _ _ _ _ Hd3 Q)| |rewrite Ebb3, Ebb2 in Q; exact (rep_live _ _ _ _ Y3 Q)].
    rewrite Ex3, Ex2 in Q. destruct Q as [<-|[<-|[]]]; congruence. }
  assert (Lt3 : forall q, In q (fp t3) -> (q < x)%nat) by (intros q Hq; apply live_below; auto).
  assert (Nx3 : NoDup [st; fn]) by (rewrite <- Ex2 in Nx1; cbn in Nx1; exact Nx1).
  destruct (grow_part [st; fn] [st; fn; x] (hd t3 ++ below t3) (fp t3) (fp t4) m3 m4) as (ND4 & G4 & K4).
  - rewrite Et3, fp_perm. apply (perm_in _ [st; fn]).
  - rewrite fp_perm. change (hd t4) with (hd t3). change (below t4) with (below t3). apply (perm_in _ [st; fn; x]).
  - exact ND3.
  - assert (st < x)%nat by exact Lst. assert (fn < x)%nat by (apply Lt3; rewrite Et3; cbn; auto).
    rewrite !NoDup_cons_iff. cbn. repeat split; auto; [intros [Q|[Q|[]]]; [congruence|lia]|intros [Q|[]]; lia|constructor].
  - exact Lv3.
  - exact Hm3.
  - split; [|split; [cbn; lia|split; [|split]]].
    + split; [|reflexivity]. intros q Hq. cbn in Hq. unfold m4. rewrite !mset_other by lia. apply Hm3. lia.
    + intros q Hq. cbn [In] in Hq. unfold m4. rewrite !mset_other by (intros ->; tauto). reflexivity.
    + intros q [<-|[<-|[]]]; cbn; auto.
    + intros q [<-|[<-|[<-|[]]]]; cbn; auto.
  - exists m4, t4. split; [reflexivity|]. split; [|split; [auto|split; [|eapply grow_trans; eauto]]].
    + assert (Z : headed m4 t3 (Some s') (ensure_buf b s')) by (eapply headed_agree; [|exact Hd3]; intros q Hq; apply K4; apply in_or_app; auto).
      destruct Z as (Z1 & Z2 & Z3). cbn [rep op_schema op_buf]. do 3 (split; [assumption|]). unfold t4. split; [|split; [|split]].
      * exists N. split; [apply mset_same|]. intros ins0 _ E0. unfold N. congruence.
      * unfold m4. assert (fn < x)%nat by (apply Lt3; rewrite Et3; cbn; auto). rewrite !mset_other by (auto; lia). exact V3.
      * cbn [bytes_in]. unfold m4. rewrite mset_other by lia. apply mset_same.
      * apply (rep_agree m3); [|exact Y3]. intros q Hq. apply K4. apply in_or_app. auto.
    + unfold t4. rewrite Et. repeat split; cbn; congruence.
Qed.

Theorem init_spec e : forall o f, init_ok f e o.
Proof.
  assert (H0 : forall o, init_ok 0 e o).
  { intros o m t o' _ _ _ H. destruct t; cbn in H; lia. }
  induction o; intros [|f]; try apply H0.
  - apply init_scan.
  - apply init_proj. apply IHo.
  - apply init_sel. apply IHo.
  - apply init_agg. apply IHo.
  - apply init_join; auto.
Qed.

(** ** close *)

(** Operator block [p] becomes [o], the blocks [l] are freed, nothing else changes. *)
Definition freed (p : nat) (o : opr) (l : list nat) (m m' : mem) : Prop :=
  m_blk m' p = Some (BOp o) /\ (forall b, In b l -> m_blk m' b = None) /\ (forall b, b <> p -> ~ In b l -> m_blk m' b = m_blk m b) /\
  m_next m' = m_next m /\ m_fail m' = m_fail m.
Lemma freed_trans p o1 l1 o2 l2 m m1 m2 : ~ In p l1 -> freed p o1 l1 m m1 -> freed p o2 l2 m1 m2 -> freed p o2 (l1 ++ l2) m m2.
Proof.
  intros N (A1 & A2 & A3 & A4 & A5) (B1 & B2 & B3 & B4 & B5). split; [auto|]. split; [|split; [|split; congruence]].
  - intros b Hb. destruct (in_dec Nat.eq_dec b l2) as [Q|Q]; [auto|]. apply in_app_or in Hb as [Hb|Hb]; [|contradiction].
    rewrite B3; auto. congruence.
  - intros b Hb Hn. rewrite in_app_iff in Hn. rewrite B3, A3; auto.
Qed.

Lemma drop_schema_at m p o sp s : m_blk m p = Some (BOp o) -> schema_in m sp s -> o_schema o = option_map fst sp -> NoDup (os sp) -> ~ In p (os sp) ->
  exists m', drop_schema m (Some p) = Ok m' /\ freed p (set_schema o None) (os sp) m m'.
Proof.
  intros H Hs Ho N Np. unfold drop_schema. rewrite (get_op_at _ _ _ H). cbn [bind]. rewrite Ho. destruct sp as [(x & y)|]; cbn [option_map fst freeSchema_h].
  - destruct s as [s|]; [|contradiction]. destruct Hs as (S1 & S2). cbn [os] in *. rewrite !NoDup_cons_iff in N. cbn [In] in *.
    assert (D1 : x <> y) by intuition. assert (D2 : x <> p) by intuition. assert (D3 : y <> p) by intuition.
    rewrite (load_at _ _ _ S1). cbn [bind]. rewrite (release_at _ _ _ S2). cbn [bind]. erewrite release_at by (rewrite mset_other by congruence; exact S1). cbn [bind].
    erewrite get_op_at by (rewrite !mset_other by congruence; exact H). cbn [bind]. erewrite store_at by (rewrite !mset_other by congruence; exact H).
    eexists. split; [reflexivity|]. split; [apply mset_same|]. split; [|split; [|split; reflexivity]].
    + intros b [<-|[<-|[]]]; rewrite mset_other by congruence; [apply mset_same|rewrite mset_other by congruence; apply mset_same].
    + intros b Hb Hn. cbn in Hn. rewrite !mset_other by intuition. reflexivity.
  - cbn [bind]. rewrite (get_op_at _ _ _ H). cbn [bind]. erewrite store_at by exact H. eexists. split; [reflexivity|].
    split; [apply mset_same|]. split; [intros b []|]. split; [|split; reflexivity]. intros b Hb _. now rewrite mset_other.
Qed.
Lemma drop_buf_at m p o bp s : m_blk m p = Some (BOp o) -> bytes_in m bp s -> o_buf o = bp -> ~ In p (ol bp) ->
  exists m', drop_buf m (Some p) = Ok m' /\ freed p (set_buf o None) (ol bp) m m'.
Proof.
  intros H Hs Ho Np. unfold drop_buf. rewrite (get_op_at _ _ _ H). cbn [bind]. rewrite Ho. destruct bp as [x|].
  - destruct s as [s|]; [|contradiction]. cbn [bytes_in ol In] in *. assert (D2 : x <> p) by intuition.
    rewrite (release_at _ _ _ Hs). cbn [bind].
    erewrite get_op_at by (rewrite !mset_other by congruence; exact H). cbn [bind]. erewrite store_at by (rewrite !mset_other by congruence; exact H).
    eexists. split; [reflexivity|]. split; [apply mset_same|]. split; [|split; [|split; reflexivity]].
    + intros b [<-|[]]; rewrite mset_other by congruence; apply mset_same.
    + intros b Hb Hn. cbn in Hn. rewrite !mset_other by intuition. reflexivity.
  - cbn [release bind]. rewrite (get_op_at _ _ _ H). cbn [bind]. erewrite store_at by exact H. eexists. split; [reflexivity|].
    split; [apply mset_same|]. split; [intros b []|]. split; [|split; reflexivity]. intros b Hb _. now rewrite mset_other.
Qed.
Lemma drop_state_at m p o st x : m_blk m p = Some (BOp o) -> m_blk m st = Some x -> o_state o = Some st -> p <> st ->
  exists m', drop_state m (Some p) = Ok m' /\ freed p (set_state o None) [st] m m'.
Proof.
  intros H Hs Ho Np. unfold drop_state. rewrite (get_op_at _ _ _ H). cbn [bind]. rewrite Ho. rewrite (release_at _ _ _ Hs). cbn [bind].
  erewrite get_op_at by (rewrite !mset_other by congruence; exact H). cbn [bind]. erewrite store_at by (rewrite !mset_other by congruence; exact H).
  eexists. split; [reflexivity|]. split; [apply mset_same|]. split; [|split; [|split; reflexivity]].
  - intros b [<-|[]]; rewrite mset_other by congruence; apply mset_same.
  - intros b Hb Hn. cbn in Hn. rewrite !mset_other by intuition. reflexivity.
Qed.

Lemma freed_schema p o l m m' sp s : freed p o l m m' -> ~ In p (os sp) -> (forall b, In b (os sp) -> ~ In b l) -> schema_in m sp s -> schema_in m' sp s.
Proof. intros (_ & _ & A & _) Np N. apply schema_agree. intros b Hb. apply A; [congruence|auto]. Qed.
Lemma freed_bytes p o l m m' sp s : freed p o l m m' -> ~ In p (ol sp) -> (forall b, In b (ol sp) -> ~ In b l) -> bytes_in m sp s -> bytes_in m' sp s.
Proof. intros (_ & _ & A & _) Np N. apply bytes_agree. intros b Hb. apply A; [congruence|auto]. Qed.

(** Dropping schema, state and buffer, in both orders used by the code. *)
Section DropAll.
  Variables (m : mem) (p st : nat) (o : opr) (sp : option (nat * nat)) (bp : ptr) (s : option schema) (b : option (list Z)) (x : obj).
  Hypothesis Ho : m_blk m p = Some (BOp o).
  Hypothesis Hs : schema_in m sp s.
  Hypothesis Hb : bytes_in m bp b.
  Hypothesis Hx : m_blk m st = Some x.
  Hypothesis Os : o_schema o = option_map fst sp.
  Hypothesis Ob : o_buf o = bp.
  Hypothesis Ot : o_state o = Some st.
  Hypothesis ND : NoDup (p :: st :: os sp ++ ol bp).

  Lemma drop_nd : p <> st /\ ~ In p (os sp) /\ ~ In p (ol bp) /\ NoDup (os sp) /\ ~ In st (os sp) /\ ~ In st (ol bp) /\ (forall q, In q (ol bp) -> ~ In q (os sp)).
  Proof.
    pose proof ND as N. rewrite !NoDup_cons_iff, nodup_app in N. cbn [In] in N. rewrite !in_app_iff in N. destruct N as (N1 & N2 & N3 & N4 & N5).
    repeat split; auto. intros q Q1 Q2. exact (N5 _ Q2 Q1).
  Qed.
  Definition gone (o : opr) : opr := mkOpr (o_kind o) None (o_input o) None None.
  Lemma drop_ssb : exists m', (m <- drop_schema m (Some p) ;; m <- drop_state m (Some p) ;; drop_buf m (Some p)) = Ok m' /\ freed p (gone o) (st :: os sp ++ ol bp) m m'.
  Proof.
    destruct drop_nd as (N1 & N2 & N3 & N4 & N5 & N6 & N7).
    destruct (drop_schema_at _ _ _ _ _ Ho Hs Os N4 N2) as (m1 & E1 & F1). rewrite E1. cbn [bind].
    assert (X1 : m_blk m1 st = Some x) by (destruct F1 as (_ & _ & A & _); rewrite A; auto).
    destruct (drop_state_at m1 p (set_schema o None) st x (proj1 F1) X1 Ot N1) as (m2 & E2 & F2). rewrite E2. cbn [bind].
    assert (B2 : bytes_in m2 bp b).
    { apply (freed_bytes _ _ _ _ _ _ _ F2 N3); [intros q Hq [<-|[]]; auto|]. apply (freed_bytes _ _ _ _ _ _ _ F1 N3); auto. }
    destruct (drop_buf_at m2 p (set_state (set_schema o None) None) bp b (proj1 F2) B2 Ob N3) as (m3 & E3 & F3). exists m3. split; [exact E3|].
    assert (F12 := freed_trans _ _ _ _ _ _ _ _ N2 F1 F2). assert (N12 : ~ In p (os sp ++ [st])) by (rewrite in_app_iff; cbn; intuition).
    assert (F := freed_trans _ _ _ _ _ _ _ _ N12 F12 F3). destruct F as (A1 & A2 & A3 & A4). split; [exact A1|].
    split; [|split; [|exact A4]]; intros q; [intros Hq; apply A2|intros Hq Hn; apply A3; [exact Hq|]]; cbn [In] in *; rewrite !in_app_iff in *; cbn [In] in *; tauto.
  Qed.
  Lemma drop_sbs : exists m', (m <- drop_schema m (Some p) ;; m <- drop_buf m (Some p) ;; drop_state m (Some p)) = Ok m' /\ freed p (gone o) (st :: os sp ++ ol bp) m m'.
  Proof.
    destruct drop_nd as (N1 & N2 & N3 & N4 & N5 & N6 & N7).
    destruct (drop_schema_at _ _ _ _ _ Ho Hs Os N4 N2) as (m1 & E1 & F1). rewrite E1. cbn [bind].
    assert (B1 : bytes_in m1 bp b) by (apply (freed_bytes _ _ _ _ _ _ _ F1 N3); auto).
    destruct (drop_buf_at m1 p (set_schema o None) bp b (proj1 F1) B1 Ob N3) as (m2 & E2 & F2). rewrite E2. cbn [bind].
    assert (X2 : m_blk m2 st = Some x).
    { destruct F1 as (_ & _ & A & _), F2 as (_ & _ & B & _). rewrite B by auto. rewrite A; auto. }
    destruct (drop_state_at m2 p (set_buf (set_schema o None) None) st x (proj1 F2) X2 Ot N1) as (m3 & E3 & F3). exists m3. split; [exact E3|].
    assert (F12 := freed_trans _ _ _ _ _ _ _ _ N2 F1 F2). assert (N12 : ~ In p (os sp ++ ol bp)) by (rewrite in_app_iff; intuition).
    assert (F := freed_trans _ _ _ _ _ _ _ _ N12 F12 F3). destruct F as (A1 & A2 & A3 & A4). split; [exact A1|].
    split; [|split; [|exact A4]]; intros q; [intros Hq; apply A2|intros Hq Hn; apply A3; [exact Hq|]]; cbn [In] in *; rewrite !in_app_iff in *; cbn [In] in *; tauto.
  Qed.
End DropAll.

(** What is left of a tree after close: its operators. *)
Definition closed_opr (t : shape) : opr :=
  match t with
  | HScan _ _ _ _ _ => mkOpr KScan None None None None
  | HProj _ _ i _ _ => mkOpr KProj None (Some (root i)) None None
  | HSel _ _ _ i _ _ => mkOpr KSel None (Some (root i)) None None
  | HAgg _ _ _ _ _ _ _ => mkOpr KAgg None None None None
  | HJoin _ _ i1 _ _ _ => mkOpr KJoin None (Some (root i1)) None None
  end.
Fixpoint closed (m : mem) (t : shape) : Prop :=
  m_blk m (root t) = Some (BOp (closed_opr t)) /\
  match t with
  | HScan _ _ _ _ _ => True
  | HProj _ _ i _ _ | HSel _ _ _ i _ _ | HAgg _ _ _ i _ _ _ => closed m i
  | HJoin _ _ i1 i2 _ _ => closed m i1 /\ closed m i2
  end.
Lemma structs_fp t : incl (structs t) (fp t).
Proof.
  induction t; intros b; cbn [structs fp]; intros H; cbn [In] in *; rewrite ?in_app_iff in *.
  - tauto.
  - specialize (IHt b). tauto.
  - specialize (IHt b). tauto.
  - specialize (IHt b). tauto.
  - specialize (IHt1 b). specialize (IHt2 b). tauto.
Qed.
Lemma client_fp t : incl (client t) (fp t).
Proof.
  induction t; intros b; cbn [client fp]; intros H; cbn [In] in *; rewrite ?in_app_iff in *.
  - tauto.
  - specialize (IHt b). tauto.
  - specialize (IHt b). tauto.
  - specialize (IHt b). tauto.
  - specialize (IHt1 b). specialize (IHt2 b). tauto.
Qed.
Lemma closed_agree m m' : forall t, agree (structs t) m m' -> closed m t -> closed m' t.
Proof.
  induction t; cbn [closed structs root]; intros A (H & K); (split; [rewrite A by (cbn; auto); exact H|]).
  - auto.
  - apply IHt; [|auto]. intros b Hb. apply A. cbn. auto.
  - apply IHt; [|auto]. intros b Hb. apply A. cbn. auto.
  - apply IHt; [|auto]. intros b Hb. apply A. cbn. auto.
  - destruct K as (K1 & K2). split; [apply IHt1|apply IHt2]; auto; intros b Hb; apply A; cbn; rewrite in_app_iff; auto.
Qed.
(** [m'] after closing [t] in [m]. *)
Definition closes (t : shape) (m m' : mem) : Prop :=
  closed m' t /\ (forall b, ~ In b (fp t) -> m_blk m' b = m_blk m b) /\ (forall b, In b (client t) -> m_blk m' b = m_blk m b) /\
  (forall b, In b (fp t) -> ~ In b (structs t) -> ~ In b (client t) -> m_blk m' b = None) /\ m_next m' = m_next m /\ m_fail m' = m_fail m.

Lemma nd_scan p st it sp bp : NoDup (fp (HScan p st it sp bp)) -> NoDup (p :: st :: os sp ++ ol bp) /\ ~ In it (p :: st :: os sp ++ ol bp).
Proof.
  cbn [fp]. intros H. rewrite !NoDup_cons_iff in H. cbn [In] in *. rewrite !in_app_iff in *. rewrite !NoDup_cons_iff. cbn [In]. rewrite !in_app_iff.
  destruct H as (H1 & H2 & H3 & H4). split; [|intuition]. repeat split; auto; intuition.
Qed.

Definition close_ok (o : op) : Prop := forall f m t, rep m o t -> NoDup (fp t) -> (height t <= f)%nat -> exists m', close_h f m (Some (root t)) = Ok m' /\ closes t m m'.

Lemma close_scan db it s b : close_ok (OScan db it s b).
Proof.
  intros f m t Hr ND Hf. pose proof (rep_headed _ _ _ Hr) as (Hd1 & Hd2 & Hd3). cbn [rep] in Hr. destruct Hr as (_ & _ & _ & R4).
  destruct t as [p st ip sp bp| | | |]; try contradiction. destruct R4 as (X & Y). destruct f as [|f]; [cbn in Hf; lia|].
  cbn [close_h root] in *. rewrite (get_op_at _ _ _ Hd1). cbn [bind opr_of o_kind]. apply nd_scan in ND as (N & Ni).
  destruct (drop_sbs m p st _ sp bp _ _ _ Hd1 Hd2 Hd3 X eq_refl eq_refl eq_refl N) as (m' & E & F1 & F2 & F3 & F4). exists m'. split; [exact E|].
  split; [split; [exact F1|exact I]|]. split; [|split; [|split; [|exact F4]]].
  - intros q Hq. apply F3; intros Q; apply Hq; [subst; cbn; auto|]. cbn [fp In] in *. tauto.
  - intros q [<-|[]]. apply F3; cbn [In] in *; intuition.
  - intros q Hq Hs Hc. apply F2. cbn [fp structs client In] in *. intuition.
Qed.

(** Closing an operator with one input. *)
Lemma closes_up (t i : shape) (l : list nat) o m m1 m' : closes i m m1 -> freed (root t) o l m1 m' -> NoDup (fp t) ->
  o = closed_opr t -> structs t = root t :: structs i ->
  (closed m' t <-> m_blk m' (root t) = Some (BOp (closed_opr t)) /\ closed m' i) ->
  (forall b, In b (fp t) <-> b = root t \/ In b l \/ In b (fp i) \/ In b (client t)) ->
  (forall b, In b (client t) <-> In b (client i) \/ In b (client t) /\ ~ In b (fp i)) ->
  ~ In (root t) l -> ~ In (root t) (fp i) -> (forall b, In b l -> ~ In b (fp i) /\ ~ In b (client t)) -> ~ In (root t) (client t) ->
  closes t m m'.
Proof.
  intros (C1 & C2 & C3 & C4 & C5 & C6) (F1 & F2 & F3 & F4 & F5) ND -> Hst Hc Hfp Hcl Nl Ni Nli Nc.
  split; [apply Hc; split; [exact F1|]|].
  { eapply closed_agree; [|exact C1]. intros b Hb. apply structs_fp in Hb. apply F3; [intros ->; auto|]. intros Q. apply Nli in Q. tauto. }
  split; [|split; [|split; [|split; congruence]]].
  - intros b Hb. rewrite Hfp in Hb. rewrite F3, C2; tauto.
  - intros b Hb. assert (b <> root t) by congruence. assert (~ In b l) by (intros Q; apply Nli in Q; tauto). rewrite F3 by auto.
    apply Hcl in Hb as [Hb|(_ & Hb)]; auto.
  - intros b Hb Hs Hb'. rewrite Hst in Hs. cbn [In] in Hs. destruct (in_dec Nat.eq_dec b l) as [Q|Q]; [auto|].
    rewrite F3 by auto. apply Hfp in Hb as [->|[Hb|[Hb|Hb]]]; try tauto. apply C4; auto. intros Q'. apply Hb'. apply Hcl. auto.
Qed.

Lemma close_proj cols i s b : close_ok i -> close_ok (OProj cols i s b).
Proof.
  intros IH f m t Hr ND Hf. pose proof (rep_headed _ _ _ Hr) as (Hd1 & Hd2 & Hd3). cbn [rep] in Hr. destruct Hr as (_ & _ & _ & R4).
  destruct t as [|p st ti sp bp| | |]; try contradiction. destruct R4 as (X & Y). destruct f as [|f]; [cbn in Hf; lia|]. cbn [height] in Hf.
  cbn [close_h root schp bufp] in *. rewrite (get_op_at _ _ _ Hd1). cbn [bind opr_of o_kind o_input].
  apply fp_nodup in ND as NDp. destruct NDp as ((Nh & Nx & Nl) & Dhx & Dhb & Dxb). cbn [below extra] in *.
  destruct (IH f m ti Y Nl ltac:(lia)) as (m1 & E1 & C1). rewrite E1. cbn [bind]. pose proof C1 as (_ & K & _).
  unfold hd in *. cbn [root schp bufp] in *.
  assert (N : NoDup (p :: st :: os sp ++ ol bp)).
  { rewrite NoDup_cons_iff in Nh. destruct Nh as (N1 & N2). constructor; [|constructor; [|exact N2]].
    - intros [Q|Q]; [|auto]. subst. apply (Dhx p); cbn; auto.
    - intros Q. apply (Dhx st); cbn; auto. }
  destruct (drop_ssb m1 p st (opr_of (HProj p st ti sp bp)) sp bp (op_schema (OProj cols i s b)) (op_buf (OProj cols i s b)) (BProj cols)) as (m' & E & F); try reflexivity; try exact N.
  - rewrite K; [exact Hd1|]. apply Dhb. cbn. auto.
  - eapply schema_agree; [|exact Hd2]. intros q Hq. apply K. apply Dhb. cbn. rewrite in_app_iff. auto.
  - eapply bytes_agree; [|exact Hd3]. intros q Hq. apply K. apply Dhb. cbn. rewrite in_app_iff. auto.
  - rewrite K; [exact X|]. apply Dxb. cbn. auto.
  - exists m'. split; [exact E|]. pose proof N as N'. rewrite NoDup_cons_iff in N'.
    apply (closes_up (HProj p st ti sp bp) ti (st :: os sp ++ ol bp) _ m m1 m' C1 F ND); try reflexivity; cbn [root client].
    + intros q. cbn [fp In client]. rewrite !in_app_iff. pose proof (client_fp ti q). intuition.
    + intros q. pose proof (client_fp ti q). tauto.
    + apply N'.
    + apply Dhb. cbn. auto.
    + intros q Hq. assert (Q : ~ In q (fp ti)) by (destruct Hq as [<-|Hq]; [apply Dxb; cbn; auto|apply Dhb; cbn; auto]).
      split; [exact Q|]. intros Q'. apply Q. apply client_fp. exact Q'.
    + intros Q. apply (Dhb p); [cbn; auto|]. apply client_fp. exact Q.
Qed.

Lemma close_sel col oper val i s b : close_ok i -> close_ok (OSel col oper val i s b).
Proof.
  intros IH f m t Hr ND Hf. pose proof (rep_headed _ _ _ Hr) as (Hd1 & Hd2 & Hd3). cbn [rep] in Hr. destruct Hr as (_ & _ & _ & R4).
  destruct t as [| |p st v ti sp bp| |]; try contradiction. destruct R4 as (X & V & Y). destruct f as [|f]; [cbn in Hf; lia|]. cbn [height] in Hf.
  cbn [close_h root schp bufp] in *. rewrite (get_op_at _ _ _ Hd1). cbn [bind opr_of o_kind o_input].
  apply fp_nodup in ND as NDp. destruct NDp as ((Nh & Nx & Nl) & Dhx & Dhb & Dxb). cbn [below extra] in *.
  destruct (IH f m ti Y Nl ltac:(lia)) as (m1 & E1 & C1). rewrite E1. cbn [bind]. pose proof C1 as (_ & K & _).
  unfold hd in *. cbn [root schp bufp] in *.
  assert (N : NoDup (p :: st :: os sp ++ ol bp)).
  { rewrite NoDup_cons_iff in Nh. destruct Nh as (N1 & N2). constructor; [|constructor; [|exact N2]].
    - intros [Q|Q]; [|auto]. subst. apply (Dhx p); cbn; auto.
    - intros Q. apply (Dhx st); cbn; auto. }
  assert (Nv : ~ In v (p :: st :: os sp ++ ol bp)).
  { intros [<-|[<-|Q]].
    - apply (Dhx p); cbn; auto.
    - rewrite NoDup_cons_iff in Nx. cbn in Nx. intuition.
    - apply (Dhx v); cbn; auto. }
  destruct (drop_ssb m1 p st (opr_of (HSel p st v ti sp bp)) sp bp (op_schema (OSel col oper val i s b)) (op_buf (OSel col oper val i s b)) (BSel col oper (Some v))) as (m' & E & F); try reflexivity; try exact N.
  - rewrite K; [exact Hd1|]. apply Dhb. cbn. auto.
  - eapply schema_agree; [|exact Hd2]. intros q Hq. apply K. apply Dhb. cbn. rewrite in_app_iff. auto.
  - eapply bytes_agree; [|exact Hd3]. intros q Hq. apply K. apply Dhb. cbn. rewrite in_app_iff. auto.
  - rewrite K; [exact X|]. apply Dxb. cbn. auto.
  - exists m'. split; [exact E|]. pose proof N as N'. rewrite NoDup_cons_iff in N'. cbn [In] in Nv.
    apply (closes_up (HSel p st v ti sp bp) ti (st :: os sp ++ ol bp) _ m m1 m' C1 F ND); try reflexivity; cbn [root client].
    + intros q. cbn [fp In client]. rewrite !in_app_iff. pose proof (client_fp ti q). intuition.
    + intros q. pose proof (client_fp ti q). assert (Q : ~ In v (fp ti)) by (apply Dxb; cbn; auto). cbn [In]. split; [|tauto].
      intros [<-|H']; [right; auto|auto].
    + apply N'.
    + apply Dhb. cbn. auto.
    + intros q Hq. assert (Q : ~ In q (fp ti)) by (destruct Hq as [<-|Hq]; [apply Dxb; cbn; auto|apply Dhb; cbn; auto]).
      split; [exact Q|]. intros [->|Q']; [cbn [In] in Hq; tauto|]. apply Q. apply client_fp. exact Q'.
    + intros [->|Q]; [tauto|]. apply (Dhb p); [cbn; auto|]. apply client_fp. exact Q.
Qed.

Lemma close_agg grp fns i s b lb us : close_ok i -> close_ok (OAgg grp fns i s b lb us).
Proof.
  intros IH f m t Hr ND Hf. pose proof (rep_headed _ _ _ Hr) as (Hd1 & Hd2 & Hd3). cbn [rep] in Hr. destruct Hr as (_ & _ & _ & R4).
  destruct t as [| | |p st fn ti sp bp lp|]; try contradiction. destruct R4 as ((n & X & _) & V & L & Y). destruct f as [|f]; [cbn in Hf; lia|]. cbn [height] in Hf.
  cbn [close_h root schp bufp] in *. rewrite (get_op_at _ _ _ Hd1). cbn [bind opr_of o_kind o_input].
  apply fp_nodup in ND as NDp. destruct NDp as ((Nh & Nx & Nl) & Dhx & Dhb & Dxb). cbn [below extra] in *.
  destruct (IH f m ti Y Nl ltac:(lia)) as (m1 & E1 & C1). rewrite E1. cbn [bind]. pose proof C1 as (_ & K & _).
  unfold hd in *. cbn [root schp bufp] in *.
  assert (N : NoDup (p :: st :: os sp ++ ol bp)).
  { rewrite NoDup_cons_iff in Nh. destruct Nh as (N1 & N2). constructor; [|constructor; [|exact N2]].
    - intros [Q|Q]; [|auto]. subst. apply (Dhx p); cbn; auto.
    - intros Q. apply (Dhx st); cbn; auto. }
  assert (Nv : ~ In fn (p :: st :: os sp ++ ol bp)).
  { intros [<-|[<-|Q]].
    - apply (Dhx p); cbn; auto.
    - rewrite NoDup_cons_iff in Nx. cbn in Nx. intuition.
    - apply (Dhx fn); cbn; auto. }
  assert (NL : forall q, In q (ol lp) -> ~ In q (p :: st :: os sp ++ ol bp) /\ q <> fn /\ ~ In q (fp ti)).
  { intros q Hq. rewrite !NoDup_cons_iff in Nx. cbn [In] in Nx. split; [|split].
    - intros [<-|[<-|Q]]; [apply (Dhx p); cbn; auto|intuition|apply (Dhx q); cbn; auto].
    - intros ->. intuition.
    - apply Dxb. cbn. auto. }
  assert (H1 : m_blk m1 p = Some (BOp (opr_of (HAgg p st fn ti sp bp lp)))) by (rewrite K; [exact Hd1|]; apply Dhb; cbn; auto).
  rewrite (get_op_at _ _ _ H1). cbn [bind]. erewrite store_at by exact H1. cbn [bind].
  match goal with |- context [mset m1 p (Some (BOp ?O))] => set (o2 := O) end. set (m2 := mset m1 p (Some (BOp o2))).
  pose proof N as N'. rewrite !NoDup_cons_iff, nodup_app in N'. cbn [In] in N'. rewrite !in_app_iff in N'. destruct N' as (N1 & N2 & N3 & N4 & N5).
  assert (Nps : p <> st) by intuition. assert (NpS : ~ In p (os sp)) by tauto. assert (NpB : ~ In p (ol bp)) by tauto.
  assert (NsS : ~ In st (os sp)) by tauto. assert (NsB : ~ In st (ol bp)) by tauto.
  (* schema *)
  destruct (drop_schema_at m2 p o2 sp (op_schema (OAgg grp fns i s b lb us))) as (m3 & E3 & F3).
  - apply mset_same.
  - apply schema_mset; [intuition|]. eapply schema_agree; [|exact Hd2]. intros q Hq. apply K. apply Dhb. cbn. rewrite in_app_iff. auto.
  - reflexivity.
  - exact N3.
  - intuition.
  - rewrite E3. cbn [bind o_state opr_of].
    assert (X2 : m_blk m2 st = Some (BAgg grp (Some fn) lp n us)).
    { unfold m2. rewrite mset_other by intuition. rewrite K; [exact X|]. apply Dxb. cbn. auto. }
    assert (L2 : bytes_in m2 lp lb).
    { apply bytes_mset; [intros Q; apply NL in Q as (Q & _); cbn in Q; tauto|]. eapply bytes_agree; [|exact L]. intros q Hq. apply K. apply NL in Hq. tauto. }
    assert (X3 : m_blk m3 st = Some (BAgg grp (Some fn) lp n us)) by (destruct F3 as (_ & _ & Z & _); rewrite Z; auto; intuition).
    unfold get_agg. rewrite (load_at _ _ _ X3). cbn [bind].
    (* last record buffer *)
    assert (S : exists m4, release m3 lp = Ok m4 /\ freed p (set_schema o2 None) (ol lp) m3 m4).
    { assert (L3 : bytes_in m3 lp lb).
      { eapply freed_bytes; [exact F3| | |exact L2]; [intros Q; apply NL in Q as (Q & _); cbn in Q; tauto|].
        intros q Hq Hq'. apply NL in Hq as (Hq & _). cbn in Hq. rewrite in_app_iff in Hq. tauto. }
      destruct lp as [lp|].
      - destruct lb as [lb|]; [|contradiction]. cbn in L3. rewrite (release_at _ _ _ L3). eexists. split; [reflexivity|].
        destruct (NL lp ltac:(cbn; auto)) as (Q & _). cbn in Q. split; [rewrite mset_other by intuition; apply F3|].
        split; [intros q [<-|[]]; apply mset_same|]. split; [|split; reflexivity]. intros q Hq Hn. rewrite mset_other; [reflexivity|]. cbn in Hn. intuition.
      - cbn. exists m3. split; [reflexivity|]. split; [apply F3|]. split; [intros q []|]. split; [auto|split; reflexivity]. }
    destruct S as (m4 & E4 & F4). rewrite E4. cbn [bind].
    assert (X4 : m_blk m4 st = Some (BAgg grp (Some fn) lp n us)).
    { destruct F4 as (_ & _ & Z & _). rewrite Z; [exact X3|intuition|]. intros Q. apply NL in Q as (Q & _). cbn in Q. tauto. }
    destruct (drop_state_at m4 p (set_schema o2 None) st _ (proj1 F4) X4 eq_refl Nps) as (m5 & E5 & F5). rewrite E5. cbn [bind].
    assert (F34 := freed_trans _ _ _ _ _ _ _ _ NpS F3 F4).
    assert (Np1 : ~ In p (os sp ++ ol lp)) by (rewrite in_app_iff; intros [Q|Q]; [intuition|apply NL in Q as (Q & _); cbn in Q; tauto]).
    assert (F345 := freed_trans _ _ _ _ _ _ _ _ Np1 F34 F5).
    assert (B5 : bytes_in m5 bp (op_buf (OAgg grp fns i s b lb us))).
    { eapply freed_bytes; [exact F345|intuition| |].
      - intros q Hq. rewrite !in_app_iff. cbn [In]. intros [[Q|Q]|[Q|[]]]; [exact (N5 _ Q Hq)|apply NL in Q as (Q & _); cbn in Q; rewrite in_app_iff in Q; tauto|subst; intuition].
      - apply bytes_mset; [intuition|]. eapply bytes_agree; [|exact Hd3]. intros q Hq. apply K. apply Dhb. cbn. rewrite in_app_iff. auto. }
    destruct (drop_buf_at m5 p _ bp _ (proj1 F5) B5 eq_refl NpB) as (m6 & E6 & F6). exists m6. split; [exact E6|].
    assert (Np2 : ~ In p ((os sp ++ ol lp) ++ [st])) by (rewrite in_app_iff; cbn; intuition).
    assert (F := freed_trans _ _ _ _ _ _ _ _ Np2 F345 F6).
    assert (F' : freed p (closed_opr (HAgg p st fn ti sp bp lp)) (((os sp ++ ol lp) ++ [st]) ++ ol bp) m1 m6).
    { destruct F as (A1 & A2 & A3 & A4 & A5). split; [exact A1|]. split; [exact A2|]. split; [|auto]. intros q Hq Hn. rewrite A3 by auto. unfold m2. now rewrite mset_other. }
    cbn [In] in Nv. rewrite in_app_iff in Nv.
    apply (closes_up (HAgg p st fn ti sp bp lp) ti _ _ m m1 m6 C1 F' ND); try reflexivity; cbn [root client].
    + intros q. cbn [fp In client]. rewrite !in_app_iff. cbn [In]. pose proof (client_fp ti q). intuition.
    + intros q. pose proof (client_fp ti q). assert (Q : ~ In fn (fp ti)) by (apply Dxb; cbn; auto). cbn [In]. split; [|tauto].
      intros [<-|H']; [right; auto|auto].
    + rewrite in_app_iff. tauto.
    + apply Dhb. cbn. auto.
    + intros q. rewrite !in_app_iff. cbn [In]. intros Hq.
      assert (Q : ~ In q (fp ti)) by (destruct Hq as [[[Hq|Hq]|[<-|[]]]|Hq]; [apply Dhb; cbn; rewrite in_app_iff; auto|apply NL; auto|apply Dxb; cbn; auto|apply Dhb; cbn; rewrite in_app_iff; auto]).
      split; [exact Q|]. intros [->|Q']; [|apply Q; apply client_fp; exact Q'].
      destruct Hq as [[[Hq|Hq]|[Hq|[]]]|Hq]; [tauto|apply NL in Hq; tauto|intuition|tauto].
    + intros [->|Q]; [tauto|]. apply (Dhb p); [cbn; auto|]. apply client_fp. exact Q.
Qed.

Lemma close_join i1 i2 s b fst0 : close_ok i1 -> close_ok i2 -> close_ok (OJoin i1 i2 s b fst0).
Proof.
  intros IH1 IH2 f m t Hr ND Hf. pose proof (rep_headed _ _ _ Hr) as (Hd1 & Hd2 & Hd3). cbn [rep] in Hr. destruct Hr as (_ & _ & _ & R4).
  destruct t as [| | | |p st u1 u2 sp bp]; try contradiction. destruct R4 as (X & Y & W). destruct f as [|f]; [cbn in Hf; lia|]. cbn [height] in Hf.
  cbn [close_h root schp bufp] in *. rewrite (get_op_at _ _ _ Hd1). cbn [bind opr_of o_kind o_input o_state].
  apply fp_nodup in ND as NDp. destruct NDp as ((Nh & Nx & Nl) & Dhx & Dhb & Dxb). cbn [below extra] in *.
  apply nodup_app in Nl as (Nl1 & Nl2 & D12). assert (D21 : forall q, In q (fp u2) -> ~ In q (fp u1)) by (intros q Q1 Q2; exact (D12 _ Q2 Q1)).
  assert (Dhb1 : forall q, In q (hd (HJoin p st u1 u2 sp bp)) -> ~ In q (fp u1)) by (intros q Q1 Q2; apply (Dhb _ Q1); apply in_or_app; auto).
  assert (Dhb2 : forall q, In q (hd (HJoin p st u1 u2 sp bp)) -> ~ In q (fp u2)) by (intros q Q1 Q2; apply (Dhb _ Q1); apply in_or_app; auto).
  assert (Nst : ~ In st (fp u1) /\ ~ In st (fp u2)) by (pose proof (Dxb st ltac:(cbn; auto)) as Q; rewrite in_app_iff in Q; tauto). destruct Nst as (Ns1 & Ns2).
  unfold get_join. rewrite (load_at _ _ _ X). cbn [bind].
  destruct (IH1 f m u1 Y Nl1 ltac:(lia)) as (m1 & E1 & C1). rewrite E1. cbn [bind]. pose proof C1 as (_ & K1 & _).
  assert (W1 : rep m1 i2 u2) by (apply (rep_agree m); [|exact W]; intros q Hq; apply K1; auto).
  destruct (IH2 f m1 u2 W1 Nl2 ltac:(lia)) as (m2 & E2 & C2). rewrite E2. cbn [bind]. pose proof C2 as (_ & K2 & _).
  unfold hd in *. cbn [root schp bufp] in *.
  assert (N : NoDup (p :: st :: os sp ++ ol bp)).
  { rewrite NoDup_cons_iff in Nh. destruct Nh as (N1 & N2). constructor; [|constructor; [|exact N2]].
    - intros [Q|Q]; [|auto]. subst. apply (Dhx p); cbn; auto.
    - intros Q. apply (Dhx st); cbn; auto. }
  assert (K : forall q, In q (p :: os sp ++ ol bp) -> m_blk m2 q = m_blk m q) by (intros q Hq; rewrite K2, K1; auto).
  destruct (drop_ssb m2 p st (opr_of (HJoin p st u1 u2 sp bp)) sp bp (op_schema (OJoin i1 i2 s b fst0)) (op_buf (OJoin i1 i2 s b fst0)) (BJoin (Some (root u2)) fst0)) as (m' & E & F); try reflexivity; try exact N.
  - rewrite K; [exact Hd1|cbn; auto].
  - eapply schema_agree; [|exact Hd2]. intros q Hq. apply K. cbn. rewrite in_app_iff. auto.
  - eapply bytes_agree; [|exact Hd3]. intros q Hq. apply K. cbn. rewrite in_app_iff. auto.
  - rewrite K2, K1 by auto. exact X.
  - exists m'. split; [exact E|]. destruct F as (F1 & F2 & F3 & F4 & F5).
    assert (Nl1' : forall q, In q (fp u1) -> q <> p /\ ~ In q (st :: os sp ++ ol bp)).
    { intros q Hq. split; [intros ->; apply (Dhb1 p); cbn; auto|]. intros [<-|Q]; [auto|]. apply (Dhb1 q); cbn; auto. }
    assert (Nl2' : forall q, In q (fp u2) -> q <> p /\ ~ In q (st :: os sp ++ ol bp)).
    { intros q Hq. split; [intros ->; apply (Dhb2 p); cbn; auto|]. intros [<-|Q]; [auto|]. apply (Dhb2 q); cbn; auto. }
    destruct C1 as (C11 & C12 & C13 & C14 & C15 & C16), C2 as (C21 & C22 & C23 & C24 & C25 & C26).
    split; [split; [exact F1|split]|].
    + eapply closed_agree; [|exact C11]. intros q Hq. apply structs_fp in Hq. destruct (Nl1' _ Hq). rewrite F3, C22 by auto. reflexivity.
    + eapply closed_agree; [|exact C21]. intros q Hq. apply structs_fp in Hq. destruct (Nl2' _ Hq). rewrite F3 by auto. reflexivity.
    + split; [|split; [|split; [|split; congruence]]]; cbn [fp client structs In]; intros q; rewrite ?in_app_iff.
      * intros Hq. rewrite F3, C22, C12; [reflexivity|tauto|tauto|intuition|]. cbn [In]. rewrite in_app_iff. tauto.
      * intros [Hq|Hq]; pose proof (client_fp _ _ Hq) as Hq'.
        { destruct (Nl1' _ Hq'). rewrite F3, C22 by auto. auto. }
        { destruct (Nl2' _ Hq'). rewrite F3, C23 by auto. auto. }
      * intros Hq Hs Hc. destruct (in_dec Nat.eq_dec q (st :: os sp ++ ol bp)) as [Q|Q]; [auto|].
        assert (Hq' : In q (fp u1) \/ In q (fp u2)) by (cbn [In] in Q; rewrite in_app_iff in Q; tauto). rewrite F3 by (try intuition; exact Q).
        destruct Hq' as [Hq'|Hq']; [rewrite C22 by auto; apply C14; tauto|apply C24; tauto].
Qed.

Theorem close_spec : forall o, close_ok o.
Proof.
  induction o; [apply close_scan|apply close_proj|apply close_sel|apply close_agg|apply close_join]; auto.
Qed.

(** ** free *)
Lemma unreached_structs t : incl (unreached t) (structs t).
Proof.
  induction t; intros b; cbn [structs unreached In]; rewrite ?in_app_iff; intros H.
  - tauto.
  - specialize (IHt b). tauto.
  - specialize (IHt b). tauto.
  - tauto.
  - specialize (IHt1 b). tauto.
Qed.
Lemma root_structs t : In (root t) (structs t).
Proof. destruct t; cbn; auto. Qed.
Lemma root_reached t : NoDup (structs t) -> ~ In (root t) (unreached t).
Proof.
  destruct t; cbn [structs unreached root]; rewrite ?NoDup_cons_iff, ?nodup_app; intros N H; try tauto.
  - apply unreached_structs in H. tauto.
  - apply unreached_structs in H. tauto.
  - destruct N as (N & _). apply N. rewrite in_app_iff in *. destruct H as [H|H]; [apply unreached_structs in H|]; auto.
Qed.
Definition frees (t : shape) (m m' : mem) : Prop :=
  (forall b, In b (structs t) -> ~ In b (unreached t) -> m_blk m' b = None) /\
  (forall b, ~ In b (structs t) \/ In b (unreached t) -> m_blk m' b = m_blk m b) /\ m_next m' = m_next m /\ m_fail m' = m_fail m.
Lemma free_spec : forall t f m, closed m t -> NoDup (structs t) -> (height t <= f)%nat ->
  exists m', free_h f m (Some (root t)) = Ok m' /\ frees t m m'.
Proof.
  (* an operator whose input has been freed *)
  assert (Last : forall m p k, m_blk m p = Some (BOp (mkOpr k None None None None)) ->
    (op <- get_op m (Some p) ;;
      m <- (match o_state op with None => Ok m | Some _ => drop_state m (Some p) end) ;;
      op <- get_op m (Some p) ;;
      m <- (match o_schema op with None => Ok m | Some _ => drop_schema m (Some p) end) ;;
      op <- get_op m (Some p) ;;
      m <- (match o_buf op with None => Ok m | Some _ => drop_buf m (Some p) end) ;;
      release m (Some p)) = Ok (mset m p None)).
  { intros m p k H. do 3 (rewrite (get_op_at _ _ _ H); cbn [bind o_state o_schema o_buf]). exact (release_at _ _ _ H). }
  assert (Chain : forall t i k f m, m_blk m (root t) = Some (BOp (mkOpr k None (Some (root i)) None None)) -> closed m i -> NoDup (structs i) -> (height i <= f)%nat ->
    (forall f m, closed m i -> NoDup (structs i) -> (height i <= f)%nat -> exists m', free_h f m (Some (root i)) = Ok m' /\ frees i m m') ->
    ~ In (root t) (structs i) ->
    exists m', free_h (S f) m (Some (root t)) = Ok m' /\
      m_blk m' (root t) = None /\ (forall b, In b (structs i) -> ~ In b (unreached i) -> m_blk m' b = None) /\
      (forall b, b <> root t -> ~ In b (structs i) \/ In b (unreached i) -> m_blk m' b = m_blk m b) /\ m_next m' = m_next m /\ m_fail m' = m_fail m).
  { intros t i k f m H C N Hf IH Nr. cbn [free_h]. rewrite (get_op_at _ _ _ H). cbn [bind o_input].
    destruct (IH f m C N Hf) as (m1 & E1 & A1 & A2 & A3 & A4). rewrite E1. cbn [bind].
    assert (H1 : m_blk m1 (root t) = Some (BOp (mkOpr k None (Some (root i)) None None))) by (rewrite A2; auto).
    rewrite (get_op_at _ _ _ H1). cbn [bind]. erewrite store_at by exact H1. cbn [bind].
    rewrite (Last _ _ k) by apply mset_same. eexists. split; [reflexivity|]. split; [apply mset_same|].
    assert (Q : forall b, b <> root t -> m_blk (mset (mset m1 (root t) (Some (BOp (set_input (mkOpr k None (Some (root i)) None None) None)))) (root t) None) b = m_blk m1 b)
      by (intros b Hb; now rewrite !mset_other).
    split; [intros b Hb Hu; rewrite Q; [auto|intros ->; auto]|]. split; [intros b Hb Hu; rewrite Q; auto|split; assumption]. }
  induction t; intros f m C N Hf; cbn [closed] in C; destruct C as (C1 & C2); cbn [structs] in N; rewrite ?NoDup_cons_iff, ?nodup_app in N;
    (destruct f as [|f]; [cbn in Hf; lia|]); cbn [height] in Hf; cbn [closed_opr root] in *.
  - cbn [free_h]. rewrite (get_op_at _ _ _ C1). cbn [bind o_input]. rewrite (Last _ _ _ C1). eexists. split; [reflexivity|].
    split; [intros b [<-|[]] _; apply mset_same|]. split; [|split; reflexivity]. intros b [Hb|[]]. cbn in Hb. rewrite mset_other; intuition.
  - destruct N as (N1 & N2). destruct (Chain (HProj p st t sp bp) t _ f m C1 C2 N2 ltac:(lia) IHt N1) as (m' & E & A1 & A2 & A3 & A4). exists m'. split; [exact E|].
    cbn [root] in *. split; [|split; [|exact A4]]; cbn [structs unreached In].
    + intros b [<-|Hb] Hu; auto.
    + intros b Hb. assert (b <> p) by (intros ->; destruct Hb as [Hb|Hb]; [tauto|apply unreached_structs in Hb; auto]). apply A3; tauto.
  - destruct N as (N1 & N2). destruct (Chain (HSel p st v t sp bp) t _ f m C1 C2 N2 ltac:(lia) IHt N1) as (m' & E & A1 & A2 & A3 & A4). exists m'. split; [exact E|].
    cbn [root] in *. split; [|split; [|exact A4]]; cbn [structs unreached In].
    + intros b [<-|Hb] Hu; auto.
    + intros b Hb. assert (b <> p) by (intros ->; destruct Hb as [Hb|Hb]; [tauto|apply unreached_structs in Hb; auto]). apply A3; tauto.
  - destruct N as (N1 & N2). cbn [free_h]. rewrite (get_op_at _ _ _ C1). cbn [bind o_input]. rewrite (Last _ _ _ C1). eexists. split; [reflexivity|].
    split; [|split; [|split; reflexivity]]; cbn [structs unreached In].
    + intros b [<-|Hb] Hu; [apply mset_same|tauto].
    + intros b Hb. rewrite mset_other; [reflexivity|]. intros ->. tauto.
  - destruct C2 as (C2 & C3). destruct N as (N1 & N2 & N3 & N4). rewrite in_app_iff in N1.
    destruct (Chain (HJoin p st t1 t2 sp bp) t1 _ f m C1 C2 N2 ltac:(lia) IHt1 ltac:(tauto)) as (m' & E & A1 & A2 & A3 & A4). exists m'. split; [exact E|].
    cbn [root] in *. split; [|split; [|exact A4]]; cbn [structs unreached In]; intros b; rewrite !in_app_iff.
    + intros [<-|[Hb|Hb]] Hu; [auto|apply A2; tauto|tauto].
    + intros Hb. assert (b <> p) by (intros ->; destruct Hb as [Hb|[Hb|Hb]]; [tauto|apply unreached_structs in Hb; tauto|tauto]). apply A3; [auto|].
      destruct Hb as [Hb|[Hb|Hb]]; [tauto|tauto|]. left. intros Q. exact (N4 _ Q Hb).
Qed.

Lemma free_each_spec : forall l m, NoDup l -> (forall b, In b l -> m_blk m b <> None) ->
  exists m', free_each m l = Ok m' /\ (forall b, In b l -> m_blk m' b = None) /\ (forall b, ~ In b l -> m_blk m' b = m_blk m b).
Proof.
  induction l as [|x l IH]; intros m N H; cbn [free_each].
  - exists m. split; [reflexivity|]. split; [intros b []|auto].
  - rewrite NoDup_cons_iff in N. destruct N as (N1 & N2). destruct (m_blk m x) as [y|] eqn:E; [|exfalso; apply (H x); cbn; auto].
    rewrite (release_at _ _ _ E). cbn [bind]. destruct (IH (mset m x None) N2) as (m' & E' & A & B).
    + intros b Hb. rewrite mset_other by congruence. apply H. cbn. auto.
    + exists m'. split; [exact E'|]. split.
      * intros b [<-|Hb]; [|auto]. rewrite B by auto. apply mset_same.
      * intros b Hb. cbn in Hb. rewrite B by tauto. apply mset_other. intros ->. tauto.
Qed.

(** ** create *)
Fixpoint plan_height (p : plan) : nat :=
  match p with
  | PScan _ _ _ => 1
  | PSel _ _ _ p | PProj _ p | PAgg _ _ p => S (plan_height p)
  | PJoin p1 p2 => S (Nat.max (plan_height p1) (plan_height p2))
  end.
Definition made (p : plan) (o : op) (t : shape) (m m' : mem) : Prop :=
  rep m' o t /\ NoDup (fp t) /\ joins_new o /\ length (structs t) = plan_ops p /\ length (client t) = plan_client p /\
  length (unreached t) = plan_unreached p /\ height t = plan_height p /\ grow [] (fp t) m m'.

Lemma client_new_ok m x : client_new m x = (mset (mkM (S (m_next m)) (m_blk m) (m_fail m)) (m_next m) (Some x), m_next m).
Proof. reflexivity. Qed.

(** A fresh block on top of a tree. *)
Lemma grow_new l m m' x : (forall b, In b l -> (b < m_next m')%nat) -> grow [] l m m' ->
  grow [] (m_next m' :: l) m (mset (mkM (S (m_next m')) (m_blk m') []) (m_next m') (Some x)).
Proof.
  intros Hl (A1 & A2 & A3 & A4 & A5). split; [|split; [cbn; lia|split; [|split]]].
  - split; [|reflexivity]. intros b Hb. cbn in Hb. rewrite mset_other by lia. apply A1. lia.
  - intros b Hb. cbn [In] in Hb. rewrite mset_other by intuition. cbn. apply A3. tauto.
  - intros b [].
  - intros b [<-|Hb]; [right; lia|]. apply A5 in Hb as [[]|Hb]. auto.
Qed.
Lemma grow_perm l l' m m' : Permutation l l' -> grow [] l m m' -> grow [] l' m m'.
Proof.
  intros P (A1 & A2 & A3 & A4 & A5). split; [auto|]. split; [auto|]. split; [|split].
  - intros b Hb. apply A3. intros Q. apply Hb. eapply Permutation_in; eauto.
  - intros b [].
  - intros b Hb. apply A5. eapply Permutation_in; [symmetry|]; eauto.
Qed.
Lemma rep_fresh m o t : mem_ok m -> rep m o t -> forall b, In b (fp t) -> (b < m_next m)%nat.
Proof. intros Hm Hr b Hb. apply live_below; [auto|]. eapply rep_live; eauto. Qed.

(** What createProjectionOperator and the others add to a tree. *)
Lemma create_h_ok m k ip x : mem_ok m ->
  create_h m k ip x = Ok (mset (mset (mkM (S (S (m_next m))) (m_blk m) []) (m_next m) (Some x)) (S (m_next m)) (Some (BOp (mkOpr k (Some (m_next m)) ip None None))), Some (S (m_next m))).
Proof.
  intros Hm. unfold create_h. rewrite alloc_ok by apply Hm. rewrite alloc_ok by reflexivity. reflexivity.
Qed.

Theorem create_spec e : forall p m o, mem_ok m -> create e p = Ok o -> exists m' t, create_plan e m p = Ok (m', Some (root t)) /\ made p o t m m'.
Proof.
  induction p; intros m o Hm H; cbn [create create_plan] in *.
  - apply bind_inv in H as (it & Ei & H). injection H as <-. rewrite Ei. cbn [bind]. rewrite !client_new_ok. cbn [m_next m_blk m_fail mset].
    destruct Hm as (M1 & M2). set (n := m_next m) in *.
    unfold createTableScan_h. rewrite alloc_ok by exact M2. cbn [m_next m_blk m_fail mset]. rewrite alloc_ok by reflexivity. cbn [m_next m_blk m_fail mset].
    unfold copySchema_h. rewrite alloc_ok by reflexivity. cbn [m_next m_blk m_fail mset].
    assert (Neq : forall a b, (a < b)%nat -> (a =? b)%nat = false) by (intros; apply Nat.eqb_neq; lia).
    match goal with |- context [schema_at ?M (Some (S (S n)))] => assert (Es : schema_at M (Some (S (S n))) = Ok s) end.
    { unfold schema_at, get_cols, load. cbn [m_blk mset]. rewrite !Neq by lia. rewrite !Nat.eqb_refl. cbn [bind]. rewrite !Neq by lia. rewrite !Nat.eqb_refl. reflexivity. }
    rewrite Es. cbn [bind]. rewrite alloc_ok by reflexivity. cbn [m_next m_blk m_fail mset].
    erewrite (store_at _ (S (S (S (S (S n)))))).
    2:{ cbn [m_blk mset]. rewrite !Neq by lia. rewrite !Nat.eqb_refl. reflexivity. }
    cbn [bind]. erewrite (store_at _ (S (S (S n)))).
    2:{ cbn [m_blk mset]. rewrite !Neq by lia. rewrite !Nat.eqb_refl. reflexivity. }
    cbn [bind]. unfold freeSchema_h. erewrite (load_at _ (S (S n))).
    2:{ cbn [m_blk mset]. rewrite !Neq by lia. rewrite !Nat.eqb_refl. reflexivity. }
    cbn [bind]. erewrite (release_at _ (S n)).
    2:{ cbn [m_blk mset]. rewrite !Neq by lia. rewrite !Nat.eqb_refl. reflexivity. }
    cbn [bind]. erewrite (release_at _ (S (S n))).
    2:{ cbn [m_blk mset]. rewrite ?(proj2 (Nat.eqb_neq (S (S n)) (S n))) by lia. rewrite !Neq by lia. rewrite !Nat.eqb_refl. reflexivity. }
    cbn [bind].
    set (t := HScan (S (S (S n))) (S (S (S (S n)))) n (Some (S (S (S (S (S n)))), S (S (S (S (S (S n))))))) None).
    eexists. exists t. split; [reflexivity|].
    assert (Gt : forall a b, (b < a)%nat -> (a =? b)%nat = false) by (intros; apply Nat.eqb_neq; lia).
    split; [|split; [|split; [exact I|do 4 (split; [reflexivity|])]]].
    + cbn [rep root schp bufp op_schema op_buf schema_in bytes_in opr_of t m_blk mset option_map fst].
      repeat split; repeat match goal with |- context [Nat.eqb ?a ?b] => destruct (Nat.eqb_spec a b); [exfalso; lia|] || (destruct (Nat.eqb_spec a b); [|exfalso; lia]) end; reflexivity.
    + cbn. rewrite !NoDup_cons_iff. cbn [In]. repeat split; try lia. constructor.
    + split; [|split; [cbn; lia|split; [|split]]].
      * split; [|reflexivity]. intros b Hb. cbn [m_next mset] in Hb. cbn [m_blk mset]. rewrite !Gt by lia. apply M1. lia.
      * intros b Hb. cbn [fp t In os ol app] in Hb. cbn [m_blk mset]. destruct (Nat.eqb_spec b (S (S n))); [rewrite M1; [reflexivity|lia]|].
        destruct (Nat.eqb_spec b (S n)); [rewrite M1; [reflexivity|lia]|].
        repeat match goal with |- context [Nat.eqb b ?x] => destruct (Nat.eqb_spec b x); [exfalso; lia|] end. reflexivity.
      * intros b [].
      * intros b Hb. right. cbn [fp t In os ol app] in Hb. fold n. lia.
  - apply bind_inv in H as (i & Ei & H). injection H as <-. destruct (IHp m i Hm Ei) as (m1 & ti & E1 & R & N & J & L1 & L2 & L3 & L4 & G). rewrite E1. cbn [bind].
    assert (Hm1 : mem_ok m1) by apply G. rewrite client_new_ok, (proj2 Hm1). pose proof (rep_fresh _ _ _ Hm1 R) as Fr.
    set (v := m_next m1) in *. set (m2 := mset (mkM (S v) (m_blk m1) []) v (Some (BBytes val))).
    pose proof (grow_new _ _ _ (BBytes val) Fr G) as G2. fold v m2 in G2.
    unfold createSelection_h. rewrite create_h_ok by apply G2. change (m_next m2) with (S v).
    set (t := HSel (S (S v)) (S v) v ti None None). eexists. exists t. split; [reflexivity|].
    assert (Fr2 : forall b, In b (v :: fp ti) -> (b < m_next m2)%nat) by (intros b [<-|Hb]; cbn; [lia|specialize (Fr _ Hb); lia]).
    pose proof (grow_new _ _ _ (BSel col oper (Some v)) Fr2 G2) as G3. set (m3 := mset (mkM (S (m_next m2)) (m_blk m2) []) (m_next m2) (Some (BSel col oper (Some v)))) in *.
    assert (Fr3 : forall b, In b (m_next m2 :: v :: fp ti) -> (b < m_next m3)%nat) by (intros b [<-|Hb]; [cbn; lia|specialize (Fr2 _ Hb); cbn in *; lia]).
    pose proof (grow_new _ _ _ (BOp (mkOpr KSel (Some (S v)) (Some (root ti)) None None)) Fr3 G3) as G4.
    split; [|split; [|split; [exact J|]]].
    + cbn [rep op_schema op_buf]. split; [apply mset_same|]. split; [exact I|]. split; [exact I|]. unfold t.
      split; [rewrite mset_other by lia; apply mset_same|]. split; [rewrite !mset_other by lia; cbn; rewrite Nat.eqb_refl; reflexivity|].
      apply (rep_agree m1); [|exact R]. intros b Hb. apply Fr in Hb. rewrite !mset_other by lia. cbn. destruct (Nat.eqb_spec b v); [lia|reflexivity].
    + cbn. rewrite !NoDup_cons_iff. cbn [In]. assert (Q : forall b, (v <= b)%nat -> ~ In b (fp ti)) by (intros b Hb Q; apply Fr in Q; lia).
      repeat split; auto; (intros [Q'|Q']; [lia|]; try (destruct Q' as [Q'|Q']; [lia|]); revert Q'; apply Q; lia).
    + cbn [structs client unreached height plan_ops plan_client plan_unreached plan_height length t]. rewrite L1, L2, L3, L4. do 4 (split; [reflexivity|]).
      exact G4.
  - apply bind_inv in H as (i & Ei & H). injection H as <-. destruct (IHp m i Hm Ei) as (m1 & ti & E1 & R & N & J & L1 & L2 & L3 & L4 & G). rewrite E1. cbn [bind].
    assert (Hm1 : mem_ok m1) by apply G. pose proof (rep_fresh _ _ _ Hm1 R) as Fr. unfold createProjection_h. rewrite create_h_ok by exact Hm1.
    set (v := m_next m1) in *. set (t := HProj (S v) v ti None None). eexists. exists t. split; [reflexivity|].
    pose proof (grow_new _ _ _ (BProj cols) Fr G) as G3. fold v in G3. set (m3 := mset (mkM (S v) (m_blk m1) []) v (Some (BProj cols))) in *.
    assert (Fr3 : forall b, In b (v :: fp ti) -> (b < m_next m3)%nat) by (intros b [<-|Hb]; [cbn; lia|specialize (Fr _ Hb); cbn in *; lia]).
    pose proof (grow_new _ _ _ (BOp (mkOpr KProj (Some v) (Some (root ti)) None None)) Fr3 G3) as G4.
    split; [|split; [|split; [exact J|]]].
    + cbn [rep op_schema op_buf]. split; [apply mset_same|]. split; [exact I|]. split; [exact I|]. unfold t.
      split; [rewrite mset_other by lia; apply mset_same|].
      apply (rep_agree m1); [|exact R]. intros b Hb. apply Fr in Hb. rewrite !mset_other by lia. reflexivity.
    + cbn. rewrite !NoDup_cons_iff. cbn [In]. assert (Q : forall b, (v <= b)%nat -> ~ In b (fp ti)) by (intros b Hb Q; apply Fr in Q; lia).
      repeat split; auto. intros [Q'|Q']; [lia|]. revert Q'; apply Q; lia.
    + cbn [structs client unreached height plan_ops plan_client plan_unreached plan_height length t]. rewrite L1, L2, L3, L4. do 4 (split; [reflexivity|]).
      exact G4.
  - apply bind_inv in H as (i & Ei & H). injection H as <-. destruct (IHp m i Hm Ei) as (m1 & ti & E1 & R & N & J & L1 & L2 & L3 & L4 & G). rewrite E1. cbn [bind].
    assert (Hm1 : mem_ok m1) by apply G. rewrite client_new_ok, (proj2 Hm1). pose proof (rep_fresh _ _ _ Hm1 R) as Fr.
    set (v := m_next m1) in *. set (x := BFns (map afun_make fs)). set (m2 := mset (mkM (S v) (m_blk m1) []) v (Some x)).
    pose proof (grow_new _ _ _ x Fr G) as G2. fold v m2 in G2.
    unfold createAggregate_h. rewrite create_h_ok by apply G2. change (m_next m2) with (S v).
    set (t := HAgg (S (S v)) (S v) v ti None None None). eexists. exists t. split; [reflexivity|].
    assert (Fr2 : forall b, In b (v :: fp ti) -> (b < m_next m2)%nat) by (intros b [<-|Hb]; cbn; [lia|specialize (Fr _ Hb); lia]).
    pose proof (grow_new _ _ _ (BAgg grp (Some v) None 0 false) Fr2 G2) as G3. set (m3 := mset (mkM (S (m_next m2)) (m_blk m2) []) (m_next m2) (Some (BAgg grp (Some v) None 0 false))) in *.
    assert (Fr3 : forall b, In b (m_next m2 :: v :: fp ti) -> (b < m_next m3)%nat) by (intros b [<-|Hb]; [cbn; lia|specialize (Fr2 _ Hb); cbn in *; lia]).
    pose proof (grow_new _ _ _ (BOp (mkOpr KAgg (Some (S v)) (Some (root ti)) None None)) Fr3 G3) as G4.
    split; [|split; [|split; [exact J|]]].
    + cbn [rep op_schema op_buf]. split; [apply mset_same|]. split; [exact I|]. split; [exact I|]. unfold t.
      split; [exists 0; split; [rewrite mset_other by lia; apply mset_same|congruence]|]. split; [rewrite !mset_other by lia; cbn; rewrite Nat.eqb_refl; reflexivity|].
      split; [exact I|].
      apply (rep_agree m1); [|exact R]. intros b Hb. apply Fr in Hb. rewrite !mset_other by lia. cbn. destruct (Nat.eqb_spec b v); [lia|reflexivity].
    + cbn. rewrite !NoDup_cons_iff. cbn [In]. assert (Q : forall b, (v <= b)%nat -> ~ In b (fp ti)) by (intros b Hb Q; apply Fr in Q; lia).
      repeat split; auto; (intros [Q'|Q']; [lia|]; try (destruct Q' as [Q'|Q']; [lia|]); revert Q'; apply Q; lia).
    + cbn [structs client unreached height plan_ops plan_client plan_unreached plan_height length t]. rewrite L1, L2, L4. do 4 (split; [reflexivity|]).
      exact G4.
  - apply bind_inv in H as (i1 & Ei1 & H). apply bind_inv in H as (i2 & Ei2 & H). injection H as <-.
    destruct (IHp1 m i1 Hm Ei1) as (m1 & t1 & E1 & R1 & N1 & J1 & A1 & A2 & A3 & A4 & G1). rewrite E1. cbn [bind]. assert (Hm1 : mem_ok m1) by apply G1.
    destruct (IHp2 m1 i2 Hm1 Ei2) as (m2 & t2 & E2 & R2 & N2 & J2 & B1 & B2 & B3 & B4 & G2). rewrite E2. cbn [bind]. assert (Hm2 : mem_ok m2) by apply G2.
    pose proof (rep_fresh _ _ _ Hm1 R1) as F1. pose proof (rep_fresh _ _ _ Hm2 R2) as F2.
    assert (F12 : forall b, In b (fp t2) -> (m_next m1 <= b)%nat) by (intros b Hb; apply G2 in Hb as [[]|Hb]; auto).
    assert (R1' : rep m2 i1 t1) by (apply (rep_agree m1); [|exact R1]; intros b Hb; apply G2; intros Q; apply F12 in Q; apply F1 in Hb; lia).
    assert (G12 : grow [] (fp t1 ++ fp t2) m m2).
    { destruct G1 as (U1 & U2 & U3 & U4 & U5), G2 as (V1 & V2 & V3 & V4 & V5). split; [auto|]. split; [lia|]. split; [|split; [intros b []|]].
      - intros b Hb. rewrite in_app_iff in Hb. rewrite V3, U3; tauto.
      - intros b Hb. apply in_app_or in Hb as [Hb|Hb]; [apply U5 in Hb as [[]|Hb]|apply V5 in Hb as [[]|Hb]]; right; lia. }
    unfold createKeyJoin_h. rewrite alloc_ok by apply Hm2. rewrite alloc_ok by reflexivity. cbn [m_next m_blk m_fail mset]. set (v := m_next m2) in *.
    erewrite (store_at _ v). 2:{ rewrite mset_other by lia. cbn [m_blk]. rewrite Nat.eqb_refl. reflexivity. }
    cbn [bind]. set (t := HJoin v (S v) t1 t2 None None). eexists. exists t. split; [reflexivity|].
    assert (Fr : forall b, In b (fp t1 ++ fp t2) -> (b < v)%nat).
    { intros b Hb. apply in_app_or in Hb as [Hb|Hb]; [apply F1 in Hb|apply F2 in Hb]; auto. assert (m_next m1 <= v)%nat by apply G2. lia. }
    assert (Ag : forall l, incl l (fp t1 ++ fp t2) -> agree l m2
      (mset (mset (mkM (S (S v)) (fun x => if Nat.eqb x v then Some (BOp (mkOpr KJoin None (Some (root t1)) None None)) else m_blk m2 x) []) (S v) (Some (BJoin (Some (root t2)) true))) v
         (Some (BOp (mkOpr KJoin (Some (S v)) (Some (root t1)) None None))))).
    { intros l Hl b Hb. apply Hl, Fr in Hb. rewrite !mset_other by lia. cbn. destruct (Nat.eqb_spec b v); [lia|reflexivity]. }
    split; [|split; [|split; [split; [reflexivity|auto]|]]].
    + cbn [rep op_schema op_buf]. split; [apply mset_same|]. split; [exact I|]. split; [exact I|]. unfold t. split; [rewrite mset_other by lia; apply mset_same|].
      split; [apply (rep_agree m2); [|exact R1']|apply (rep_agree m2); [|exact R2]]; apply Ag; intros b Hb; apply in_or_app; auto.
    + cbn. rewrite !NoDup_cons_iff, nodup_app. cbn [In]. assert (Q : forall b, (v <= b)%nat -> ~ In b (fp t1 ++ fp t2)) by (intros b Hb Q; apply Fr in Q; lia).
      split; [intros [Q'|Q']; [lia|]; revert Q'; apply Q; lia|]. split; [apply Q; lia|]. split; [auto|]. split; [auto|].
      intros b Q1 Q2. apply F1 in Q1. apply F12 in Q2. lia.
    + cbn [structs client unreached height plan_ops plan_client plan_unreached plan_height length t]. rewrite !app_length, A1, A2, A3, A4, B1, B2, B4. do 4 (split; [reflexivity|]).
      destruct G12 as (U1 & U2 & U3 & U4 & U5). fold v in U2. split; [|split; [cbn; lia|split; [|split]]].
      * split; [|reflexivity]. intros b Hb. cbn [m_next mset] in Hb. rewrite !mset_other by lia. cbn. destruct (Nat.eqb_spec b v); [lia|]. apply Hm2. fold v. lia.
      * intros b Hb. cbn [fp t In os ol app] in Hb. rewrite !mset_other by intuition. cbn. destruct (Nat.eqb_spec b v); [intuition congruence|]. apply U3. tauto.
      * intros b [].
      * intros b Hb. right. cbn [fp t In os ol app] in Hb. destruct Hb as [<-|[<-|Hb]]; [lia|lia|]. apply U5 in Hb as [[]|Hb]. exact Hb.
Qed.

(** ** Whole queries *)
Lemma fetch_spec f : forall n e m o t e' xs, rep m o t -> NoDup (fp t) -> fetch f n e o = Ok (e', xs) ->
  exists m' o', fetch_h f n e m (Some (root t)) = Ok (e', m', xs) /\ rep m' o' t /\ outside (fp t) m m'.
Proof.
  induction n as [|n IH]; intros e m o t e' xs Hr ND H; [discriminate|]. cbn [fetch fetch_h] in *.
  apply bind_inv in H as (((e1 & o1) & r) & E & H). destruct (next_refines f _ _ _ _ _ _ _ Hr ND E) as (_ & m1 & E1 & R1 & O1). rewrite E1. cbn [bind].
  destruct r; cbn [negb] in *.
  - apply bind_inv in H as (b & Eb & H). apply bind_inv in H as ((e2 & ys) & Ef & H). injection H as <- <-.
    destruct (op_buf o1) as [b'|] eqn:Ob; [|discriminate]. injection Eb as ->. rewrite (rep_op _ _ _ R1). cbn [bind].
    pose proof (rep_buf _ _ _ R1) as B. rewrite Ob in B. rewrite opr_of_buf, (get_bytes_in _ _ _ B). cbn [bind].
    destruct (IH _ _ _ _ _ _ R1 ND Ef) as (m2 & o2 & E2 & R2 & O2). rewrite E2. cbn [bind]. exists m2, o2. split; [reflexivity|]. split; [auto|]. eapply outside_trans; eauto.
  - injection H as <- <-. eauto.
Qed.

Lemma nodup_structs t : NoDup (fp t) -> NoDup (structs t).
Proof.
  induction t; intros N; apply fp_nodup in N as ((N1 & N2 & N3) & D1 & D2 & D3); cbn [structs below] in *.
  - repeat constructor. intros [].
  - constructor; [|auto]. intros Q. apply (D2 p); [cbn; auto|]. apply structs_fp. exact Q.
  - constructor; [|auto]. intros Q. apply (D2 p); [cbn; auto|]. apply structs_fp. exact Q.
  - constructor; [|auto]. intros Q. apply (D2 p); [cbn; auto|]. apply structs_fp. exact Q.
  - apply nodup_app in N3 as (M1 & M2 & M3). constructor.
    + intros Q. apply (D2 p); [cbn; auto|]. apply in_or_app. apply in_app_or in Q as [Q|Q]; [left|right]; apply structs_fp; exact Q.
    + apply nodup_app. split; [auto|]. split; [auto|]. intros q Q1 Q2. apply structs_fp in Q1, Q2. exact (M3 _ Q1 Q2).
Qed.
Lemma client_structs t : NoDup (fp t) -> NoDup (client t) /\ forall b, In b (structs t) -> ~ In b (client t).
Proof.
  induction t; intros N; apply fp_nodup in N as ((N1 & N2 & N3) & D1 & D2 & D3); cbn [structs client below extra] in *.
  - split; [repeat constructor; intros []|]. intros b [<-|[]] [Q|[]]. subst. apply (D1 p); cbn; auto.
  - destruct (IHt N3) as (A & B). split; [auto|]. intros b [<-|Q]; [|auto]. intros Q. apply (D2 p); [cbn; auto|]. apply client_fp. exact Q.
  - destruct (IHt N3) as (A & B). split; [constructor; [|auto]; intros Q; apply (D3 v); [cbn; auto|apply client_fp; exact Q]|].
    intros b [<-|Q] [Q'|Q'].
    + subst. apply (D1 p); cbn; auto.
    + apply (D2 p); [cbn; auto|]. apply client_fp. exact Q'.
    + subst. apply (D3 b); [cbn; auto|apply structs_fp; exact Q].
    + exact (B _ Q Q').
  - destruct (IHt N3) as (A & B). split; [constructor; [|auto]; intros Q; apply (D3 fn); [cbn; auto|apply client_fp; exact Q]|].
    intros b [<-|Q] [Q'|Q'].
    + subst. apply (D1 p); cbn; auto.
    + apply (D2 p); [cbn; auto|]. apply client_fp. exact Q'.
    + subst. apply (D3 b); [cbn; auto|apply structs_fp; exact Q].
    + exact (B _ Q Q').
  - apply nodup_app in N3 as (M1 & M2 & M3). destruct (IHt1 M1) as (A1 & B1), (IHt2 M2) as (A2 & B2). split.
    + apply nodup_app. split; [auto|]. split; [auto|]. intros q Q1 Q2. apply client_fp in Q1, Q2. exact (M3 _ Q1 Q2).
    + intros b [<-|Q] Q'.
      * apply (D2 p); [cbn; auto|]. apply in_or_app. apply in_app_or in Q' as [Q'|Q']; [left|right]; apply client_fp; exact Q'.
      * apply in_app_or in Q as [Q|Q]; apply in_app_or in Q' as [Q'|Q']; [exact (B1 _ Q Q')| | |exact (B2 _ Q Q')];
          apply structs_fp in Q; apply client_fp in Q'; [exact (M3 _ Q Q')|exact (M3 _ Q' Q)].
Qed.
Lemma nodup_unreached t : NoDup (structs t) -> NoDup (unreached t).
Proof.
  induction t; cbn [structs unreached]; rewrite ?NoDup_cons_iff, ?nodup_app; intros N; try tauto.
  destruct N as (N1 & N2 & N3 & N4). split; [auto|]. split; [auto|]. intros b Q. apply N4. apply unreached_structs. exact Q.
Qed.

Theorem run_plan_h_spec f n e e' xs p m0 : mem_ok m0 -> (plan_height p <= f)%nat -> run_plan f n e p = Ok (e', xs) ->
  exists m r ops cl rest m1 m2 m3,
    run_plan_h f n e m0 p = Ok (e', m, Some r, xs) /\
    (forall b, live m0 b -> m_blk m b = m_blk m0 b) /\
    NoDup (ops ++ cl) /\ length ops = plan_ops p /\ length cl = plan_client p /\
    (forall b, In b (ops ++ cl) -> ~ live m0 b) /\
    close_h f m (Some r) = Ok m1 /\
    (forall b, live m1 b <-> live m0 b \/ In b (ops ++ cl)) /\ (forall b, live m0 b -> m_blk m1 b = m_blk m0 b) /\
    free_each m1 ops = Ok m2 /\
    (forall b, live m2 b <-> live m0 b \/ In b cl) /\ (forall b, live m0 b -> m_blk m2 b = m_blk m0 b) /\
    free_h f m1 (Some r) = Ok m3 /\
    NoDup rest /\ incl rest ops /\ length rest = plan_unreached p /\
    (forall b, live m3 b <-> live m0 b \/ In b (rest ++ cl)) /\ (forall b, live m0 b -> m_blk m3 b = m_blk m0 b).
Proof.
  intros Hm Hf H. unfold run_plan in H. apply bind_inv in H as (o & Ec & H). apply bind_inv in H as (o1 & Ei & H).
  destruct (create_spec e p m0 o Hm Ec) as (ma & t & Ea & R & N & J & L1 & L2 & L3 & L4 & G). unfold run_plan_h. rewrite Ea. cbn [bind].
  destruct (init_spec e o f ma t o1 R N (proj1 G) ltac:(lia) J Ei) as (mb & t' & Eb & Rb & Nb & (S1 & S2 & S3 & S4 & S5) & Gb). rewrite Eb. cbn [bind].
  rewrite <- S1. destruct (fetch_spec f n e mb o1 t' e' xs Rb Nb H) as (m & o2 & Ef & Rf & Of). rewrite Ef. cbn [bind].
  destruct (close_spec o2 f m t' Rf Nb ltac:(lia)) as (m1 & E1 & C1 & C2 & C3 & C4 & C5 & C6).
  destruct (free_spec t' f m1 C1 (nodup_structs _ Nb) ltac:(lia)) as (m3 & E3 & D1 & D2 & _).
  assert (G0 : grow [] (fp t') m0 mb) by (destruct (grow_trans _ _ _ _ _ _ G Gb) as (A1 & A2 & A3 & A4 & A5); repeat split; auto; apply A1).
  destruct G0 as (A1 & A2 & A3 & _ & A5). destruct (client_structs _ Nb) as (Ncl & Dsc).
  assert (New : forall b, In b (fp t') -> ~ live m0 b).
  { intros b Hb Hl. apply A5 in Hb as [[]|Hb]. apply Hl. apply Hm. exact Hb. }
  assert (Old : forall b, live m0 b -> m_blk m b = m_blk m0 b).
  { intros b Hl. destruct Of as (O1 & _). rewrite O1, A3; auto; intros Q; exact (New _ Q Hl). }
  assert (Lv : forall b, In b (fp t') -> live m b) by (intros b Hb; exact (rep_live _ _ _ _ Rf Hb)).
  assert (Dead : forall b, ~ In b (fp t') -> m_blk m b = m_blk m0 b).
  { intros b Hb. destruct Of as (O1 & _). rewrite O1, A3; auto. }
  assert (Lst : forall b, In b (structs t') -> live m1 b).
  { intros b Hb. clear - C1 Hb. revert Hb. induction t'; cbn [structs closed root] in *; destruct C1 as (C1 & K); unfold live.
    - intros [<-|[]]. congruence.
    - intros [<-|Hb]; [congruence|]. apply IHt'; auto.
    - intros [<-|Hb]; [congruence|]. apply IHt'; auto.
    - intros [<-|Hb]; [congruence|]. apply IHt'; auto.
    - intros [<-|Hb]; [congruence|]. destruct K as (K1 & K2). apply in_app_or in Hb as [Hb|Hb]; [apply IHt'1|apply IHt'2]; auto. }
  assert (Lcl : forall b, In b (client t') -> live m1 b) by (intros b Hb; unfold live; rewrite C3 by exact Hb; apply Lv; apply client_fp; exact Hb).
  assert (Old1 : forall b, live m0 b -> m_blk m1 b = m_blk m0 b).
  { intros b Hl. rewrite C2; [auto|]. intros Q. exact (New _ Q Hl). }
  assert (Liv1 : forall b, live m1 b <-> live m0 b \/ In b (structs t' ++ client t')).
  { intros b. rewrite in_app_iff. split.
    - intros Hl. destruct (in_dec Nat.eq_dec b (structs t')) as [Q|Q]; [auto|]. destruct (in_dec Nat.eq_dec b (client t')) as [Q'|Q']; [auto|]. left.
      destruct (in_dec Nat.eq_dec b (fp t')) as [Q''|Q'']; [contradict Hl; unfold live; rewrite C4 by auto; tauto|].
      unfold live in *. rewrite C2, Dead in Hl by exact Q''. exact Hl.
    - intros [Hl|[Q|Q]]; [unfold live; rewrite Old1 by exact Hl; exact Hl|auto|auto]. }
  destruct (free_each_spec (structs t') m1 (nodup_structs _ Nb) Lst) as (m2 & E2 & F1 & F2).
  exists m, (root t'), (structs t'), (client t'), (unreached t'), m1, m2, m3. rewrite S2, S3, S4 in *.
  split; [reflexivity|]. split; [exact Old|]. split; [|split; [exact L1|split; [exact L2|]]].
  { apply nodup_app. split; [rewrite <- S2; apply nodup_structs; exact Nb|auto]. }
  split.
  { intros b Hb. apply New. apply in_app_or in Hb as [Hb|Hb]; [apply structs_fp; rewrite S2; exact Hb|apply client_fp; rewrite S3; exact Hb]. }
  split; [exact E1|]. split; [exact Liv1|]. split; [exact Old1|]. split; [exact E2|].
  assert (NS : forall b, live m0 b -> ~ In b (structs t)) by (intros b Hl Q; apply (New b); [apply structs_fp; rewrite S2|]; auto).
  split.
  { intros b. unfold live at 1. destruct (in_dec Nat.eq_dec b (structs t)) as [Q|Q].
    - rewrite F1 by exact Q. split; [tauto|]. intros [Hl|Hc]; [exact (fun _ => NS _ Hl Q)|]. exfalso. exact (Dsc _ Q Hc).
    - rewrite F2 by exact Q. fold (live m1 b). rewrite Liv1, in_app_iff. tauto. }
  split; [intros b Hl; rewrite F2 by auto; auto|]. split; [exact E3|].
  assert (NSt : NoDup (structs t)) by (rewrite <- S2; apply nodup_structs; exact Nb).
  assert (Us : incl (unreached t) (structs t)) by apply unreached_structs.
  split; [apply nodup_unreached; exact NSt|]. split; [exact Us|]. split; [exact L3|]. split.
  { intros b. unfold live at 1. destruct (in_dec Nat.eq_dec b (structs t)) as [Q|Q]; [destruct (in_dec Nat.eq_dec b (unreached t)) as [Q'|Q']|].
    - rewrite D2 by auto. fold (live m1 b). rewrite Liv1, !in_app_iff. tauto.
    - rewrite D1 by auto. rewrite in_app_iff. split; [tauto|]. intros [Hl|[Hc|Hc]]; [exact (fun _ => NS _ Hl Q)|tauto|]. exfalso. exact (Dsc _ Q Hc).
    - rewrite D2 by auto. fold (live m1 b). rewrite Liv1, !in_app_iff. split; [tauto|]. intros [Hl|[Hc|Hc]]; auto. }
  intros b Hl. rewrite D2 by auto. auto.
Qed.

(** ** free without close *)
Section FreeOpen.
  Variables (m : mem) (p st : nat) (x : obj) (o : opr) (sp : option (nat * nat)) (bp : ptr) (s : option schema) (b : option (list Z)).
  Hypothesis Ho : m_blk m p = Some (BOp o).
  Hypothesis Ox : m_blk m st = Some x.
  Hypothesis Ot : o_state o = Some st.
  Hypothesis Hs : schema_in m sp s.
  Hypothesis Os : o_schema o = option_map fst sp.
  Hypothesis Hb : bytes_in m bp b.
  Hypothesis Ob : o_buf o = bp.
  Hypothesis ND : NoDup (p :: st :: os sp ++ ol bp).
  Lemma free_open_last : exists m',
    (op <- get_op m (Some p) ;;
      m <- (match o_state op with None => Ok m | Some _ => drop_state m (Some p) end) ;;
      op <- get_op m (Some p) ;;
      m <- (match o_schema op with None => Ok m | Some _ => drop_schema m (Some p) end) ;;
      op <- get_op m (Some p) ;;
      m <- (match o_buf op with None => Ok m | Some _ => drop_buf m (Some p) end) ;;
      release m (Some p)) = Ok m' /\
    (forall q, In q (p :: st :: os sp ++ ol bp) -> m_blk m' q = None) /\
    (forall q, ~ In q (p :: st :: os sp ++ ol bp) -> m_blk m' q = m_blk m q).
  Proof.
    pose proof ND as N. rewrite !NoDup_cons_iff, nodup_app in N. cbn [In] in N. rewrite !in_app_iff in N. destruct N as (N1 & N2 & N3 & N4 & N5).
    rewrite (get_op_at _ _ _ Ho). cbn [bind]. rewrite Ot.
    destruct (drop_state_at m p o st x Ho Ox Ot ltac:(intuition)) as (m1 & E1 & F1). rewrite E1. cbn [bind].
    rewrite (get_op_at _ _ _ (proj1 F1)). cbn [bind o_schema set_state].
    assert (S1 : schema_in m1 sp s).
    { eapply schema_agree; [|exact Hs]. intros q Hq. destruct F1 as (_ & _ & A & _). apply A; [intros ->; tauto|]. intros [<-|[]]. tauto. }
    assert (B1 : bytes_in m1 bp b).
    { eapply bytes_agree; [|exact Hb]. intros q Hq. destruct F1 as (_ & _ & A & _). apply A; [intros ->; tauto|]. intros [<-|[]]. tauto. }
    assert (X2 : exists m2, match o_schema o with None => Ok m1 | Some _ => drop_schema m1 (Some p) end = Ok m2 /\ freed p (set_schema (set_state o None) None) (os sp) m1 m2).
    { destruct (o_schema o) eqn:Eo.
      - destruct (drop_schema_at m1 p (set_state o None) sp s (proj1 F1) S1) as (m2 & E2 & F2); [cbn; congruence|exact N3|tauto|]. eauto.
      - destruct sp as [?|]; [discriminate|]. exists m1. split; [reflexivity|]. destruct F1 as (A & _). split; [|split; [intros q []|split; [auto|split; reflexivity]]].
        rewrite A. f_equal. f_equal. destruct o; cbn in *. now subst. }
    destruct X2 as (m2 & E2 & F2). rewrite E2. cbn [bind].
    rewrite (get_op_at _ _ _ (proj1 F2)). cbn [bind o_buf set_schema set_state].
    assert (B2 : bytes_in m2 bp b).
    { eapply bytes_agree; [|exact B1]. intros q Hq. destruct F2 as (_ & _ & A & _). apply A; [intros ->; tauto|]. intros Q. exact (N5 _ Q Hq). }
    assert (X3 : exists m3, match o_buf o with None => Ok m2 | Some _ => drop_buf m2 (Some p) end = Ok m3 /\ freed p (set_buf (set_schema (set_state o None) None) None) (ol bp) m2 m3).
    { destruct (o_buf o) eqn:Eb.
      - destruct (drop_buf_at m2 p _ bp b (proj1 F2) B2) as (m3 & E3 & F3); [cbn; congruence|tauto|]. eauto.
      - exists m2. split; [reflexivity|]. rewrite <- Ob. destruct F2 as (A & _). split; [|split; [intros q []|split; [auto|split; reflexivity]]].
        rewrite A. f_equal. f_equal. destruct o; cbn in *. now subst. }
    destruct X3 as (m3 & E3 & F3). rewrite E3. cbn [bind]. rewrite (release_at _ _ _ (proj1 F3)). eexists. split; [reflexivity|].
    destruct F1 as (P1 & P2 & P3 & _), F2 as (Q1 & Q2 & Q3 & _), F3 as (R1 & R2 & R3 & _). split.
    - intros q Hq. destruct (Nat.eq_dec q p) as [->|Nq]; [apply mset_same|]. rewrite mset_other by auto.
      destruct (in_dec Nat.eq_dec q (ol bp)) as [Z3|Z3]; [auto|]. rewrite R3 by auto. destruct (in_dec Nat.eq_dec q (os sp)) as [Z2|Z2]; [auto|]. rewrite Q3 by auto.
      apply P2. cbn [In] in Hq |- *. rewrite in_app_iff in Hq. destruct Hq as [Q|[Q|[Q|Q]]]; [congruence|auto|tauto|tauto].
    - intros q Hq. cbn [In] in Hq. rewrite in_app_iff in Hq. assert (Nq : q <> p) by (intros ->; tauto). rewrite mset_other by auto. rewrite R3 by tauto. rewrite Q3 by tauto.
      apply P3; [auto|]. intros [Q|[]]. tauto.
  Qed.
End FreeOpen.

Lemma left_fp t : incl (left_open t) (fp t).
Proof.
  induction t; intros q Hq; apply fp_in; unfold hd; cbn [left_open extra below root schp bufp In] in *; rewrite ?in_app_iff in *.
  - tauto.
  - specialize (IHt q). tauto.
  - specialize (IHt q). cbn [In]. tauto.
  - specialize (IHt q). cbn [In]. rewrite ?in_app_iff. tauto.
  - specialize (IHt1 q). tauto.
Qed.
Definition frees_open (t : shape) (m m' : mem) : Prop :=
  (forall b, In b (fp t) -> ~ In b (left_open t) -> m_blk m' b = None) /\ (forall b, ~ In b (fp t) \/ In b (left_open t) -> m_blk m' b = m_blk m b).

Lemma free_open_spec : forall o t f m, rep m o t -> NoDup (fp t) -> (height t <= f)%nat -> exists m', free_h f m (Some (root t)) = Ok m' /\ frees_open t m m'.
Proof.
  (* an operator with one input that is freed *)
  assert (Chain : forall o t i f m st x, rep m o t -> NoDup (fp t) -> o_input (opr_of t) = Some (root i) -> o_state (opr_of t) = Some st -> m_blk m st = Some x ->
    In st (extra t) -> incl (fp i) (below t) ->
    (exists m1, free_h f m (Some (root i)) = Ok m1 /\ frees_open i m m1) ->
    exists m', free_h (S f) m (Some (root t)) = Ok m' /\
      (forall q, In q (st :: hd t) -> m_blk m' q = None) /\ (forall q, In q (fp i) -> ~ In q (left_open i) -> m_blk m' q = None) /\
      (forall q, ~ In q (st :: hd t) -> ~ In q (fp i) \/ In q (left_open i) -> m_blk m' q = m_blk m q)).
  { intros o t i f m st x R N Ei Es Hst Ist Ib (m1 & E1 & A1 & A2). apply fp_nodup in N as ((Nh & Nx & Nb) & D1 & D2 & D3).
    pose proof (rep_headed _ _ _ R) as (H1 & H2 & H3). assert (Io : forall q, In q (st :: hd t) -> ~ In q (fp i)).
    { intros q [<-|Hq] Hi; [exact (D3 _ Ist (Ib _ Hi))|exact (D2 _ Hq (Ib _ Hi))]. }
    assert (K : forall q, In q (st :: hd t) -> m_blk m1 q = m_blk m q) by (intros q Hq; apply A2; left; apply Io; exact Hq).
    cbn [free_h]. rewrite (get_op_at _ _ _ H1). cbn [bind]. rewrite Ei, E1. cbn [bind].
    assert (K1 : m_blk m1 (root t) = Some (BOp (opr_of t))) by (rewrite K; [exact H1|cbn; auto]).
    rewrite (get_op_at _ _ _ K1). cbn [bind]. erewrite store_at by exact K1. cbn [bind]. set (m2 := mset m1 (root t) (Some (BOp (set_input (opr_of t) None)))).
    assert (Nst : st <> root t) by (intros Q; apply (D1 (root t)); [cbn; auto|rewrite <- Q; exact Ist]).
    assert (K2 : forall q, q <> root t -> m_blk m2 q = m_blk m1 q) by (intros q Hq; apply mset_other; exact Hq).
    unfold hd in Nh. rewrite NoDup_cons_iff in Nh. destruct Nh as (Nr & Nh).
    destruct (free_open_last m2 (root t) st x (set_input (opr_of t) None) (schp t) (bufp t) (op_schema o) (op_buf o)) as (m3 & E3 & B1 & B2).
    - apply mset_same.
    - rewrite K2, K; [exact Hst|cbn; auto|auto].
    - exact Es.
    - eapply schema_agree; [|exact H2]. intros q Hq. rewrite K2, K; [reflexivity|right; unfold hd; right; apply in_or_app; auto|]. intros ->. apply Nr. apply in_or_app. auto.
    - cbn. apply opr_of_schema.
    - eapply bytes_agree; [|exact H3]. intros q Hq. rewrite K2, K; [reflexivity|right; unfold hd; right; apply in_or_app; auto|]. intros ->. apply Nr. apply in_or_app. auto.
    - cbn. apply opr_of_buf.
    - constructor; [|constructor; [|exact Nh]].
      + intros [Q|Q]; [auto|]. auto.
      + intros Q. apply (D1 st); [unfold hd; cbn; auto|exact Ist].
    - exists m3. split; [exact E3|].
      assert (P : forall q, In q (st :: hd t) <-> In q (root t :: st :: os (schp t) ++ ol (bufp t))) by (intros q; unfold hd; cbn [In]; tauto).
      split; [intros q Hq; apply B1; apply P; exact Hq|]. split.
      + intros q Hq Hl. rewrite B2 by (intros Q; apply P in Q; exact (Io _ Q Hq)). rewrite K2; [auto|]. intros ->. apply (Io (root t)); [cbn; auto|exact Hq].
      + intros q Hq Hl. rewrite B2 by (intros Q; apply P in Q; auto). rewrite K2; [auto|]. intros ->. apply Hq. cbn. auto. }
  induction o; intros t f m R N Hf; pose proof R as R'; cbn [rep] in R'; destruct R' as (R1 & R2 & R3 & R4); destruct t; try contradiction; (destruct f as [|f]; [cbn in Hf; lia|]); cbn [height] in Hf.
  - destruct R4 as (X & Y). pose proof N as N'. apply fp_nodup in N' as ((Nh & Nx & _) & D1 & _). cbn [free_h]. rewrite (get_op_at _ _ _ R1). cbn [bind o_input opr_of].
    unfold hd in *. cbn [root schp bufp extra] in *. rewrite NoDup_cons_iff in Nh.
    destruct (free_open_last m p st _ _ sp bp _ _ R1 X eq_refl R2 eq_refl R3 eq_refl) as (m3 & E3 & B1 & B2).
    + constructor; [|constructor; [|apply Nh]].
      * intros [Q|Q]; [|tauto]. apply (D1 p); cbn; auto.
      * intros Q. apply (D1 st); cbn; auto.
    + exists m3. split; [exact E3|]. split.
      * intros q Hq Hl. apply B1. cbn [fp left_open In] in *. tauto.
      * intros q Hq. apply B2. cbn [fp left_open In] in *. intros Q. destruct Hq as [Hq|[<-|[]]]; [tauto|]. rewrite !NoDup_cons_iff in Nx.
        destruct Q as [Q|[Q|Q]]; [apply (D1 it0); cbn; auto|cbn in Nx; intuition|apply (D1 it0); cbn; auto].
  - destruct R4 as (X & Y). destruct (Chain _ _ t f m st _ R N eq_refl eq_refl X) as (m' & E & A1 & A2 & A3).
    + cbn; auto.
    + intros q Hq; exact Hq.
    + apply IHo; [auto| |lia]. apply fp_nodup in N as ((_ & _ & N) & _). exact N.
    + exists m'. split; [exact E|]. pose proof (left_fp t) as LF. apply fp_nodup in N as ((Nh & Nx & Nb) & D1 & D2 & D3). cbn [below extra] in *. split.
      * intros q Hq Hl. apply fp_in in Hq. cbn [below extra left_open In] in *. destruct (in_dec Nat.eq_dec q (fp t)); [auto|]. apply A1. cbn [In]. tauto.
      * intros q Hq. rewrite fp_in in Hq. cbn [below extra left_open In] in *. apply A3.
        -- intros Q. specialize (LF q). specialize (D2 q). specialize (D3 q). cbn [In] in *. tauto.
        -- specialize (LF q). tauto.
  - destruct R4 as (X & V & Y). destruct (Chain _ _ t f m st _ R N eq_refl eq_refl X) as (m' & E & A1 & A2 & A3).
    + cbn; auto.
    + intros q Hq; exact Hq.
    + apply IHo; [auto| |lia]. apply fp_nodup in N as ((_ & _ & N) & _). exact N.
    + exists m'. split; [exact E|]. pose proof (left_fp t) as LF. apply fp_nodup in N as ((Nh & Nx & Nb) & D1 & D2 & D3). cbn [below extra] in *. split.
      * intros q Hq Hl. apply fp_in in Hq. cbn [below extra left_open In] in *. destruct (in_dec Nat.eq_dec q (fp t)); [apply A2; tauto|]. apply A1. cbn [In]. tauto.
      * intros q Hq. rewrite fp_in in Hq. cbn [below extra left_open In] in *. rewrite !NoDup_cons_iff in Nx. cbn [In] in Nx. apply A3.
        -- intros Q. specialize (LF q). pose proof (D1 q). specialize (D2 q). specialize (D3 q). cbn [In] in *. destruct Hq as [Hq|[<-|Hq]]; [tauto| |tauto]. intuition.
        -- specialize (LF q). specialize (D3 q). cbn [In] in D3. destruct Hq as [Hq|[<-|Hq]]; tauto.
  - destruct R4 as ((n & X & _) & V & L & Y). destruct (Chain _ _ t f m st _ R N eq_refl eq_refl X) as (m' & E & A1 & A2 & A3).
    + cbn; auto.
    + intros q Hq; exact Hq.
    + apply IHo; [auto| |lia]. apply fp_nodup in N as ((_ & _ & N) & _). exact N.
    + exists m'. split; [exact E|]. pose proof (left_fp t) as LF. apply fp_nodup in N as ((Nh & Nx & Nb) & D1 & D2 & D3). cbn [below extra] in *. split.
      * intros q Hq Hl. apply fp_in in Hq. cbn [below extra left_open In] in *. rewrite in_app_iff in Hl. destruct (in_dec Nat.eq_dec q (fp t)); [apply A2; tauto|]. apply A1. cbn [In]. tauto.
      * intros q Hq. rewrite fp_in in Hq. cbn [below extra left_open In] in *. rewrite in_app_iff in Hq. rewrite !NoDup_cons_iff in Nx. cbn [In] in Nx. apply A3.
        -- intros Q. specialize (LF q). pose proof (D1 q). specialize (D2 q). specialize (D3 q). cbn [In] in *. destruct Q as [<-|Q]; [intuition congruence|]. tauto.
        -- specialize (LF q). specialize (D3 q). cbn [In] in D3. tauto.
  - destruct R4 as (X & Y & W). destruct (Chain _ _ t1 f m st _ R N eq_refl eq_refl X) as (m' & E & A1 & A2 & A3).
    + cbn; auto.
    + intros q Hq. cbn. apply in_or_app. auto.
    + apply IHo1; [auto| |lia]. apply fp_nodup in N as ((_ & _ & N) & _). cbn [below] in N. apply nodup_app in N. tauto.
    + exists m'. split; [exact E|]. pose proof (left_fp t1) as LF. apply fp_nodup in N as ((Nh & Nx & Nb) & D1 & D2 & D3). cbn [below extra] in *. apply nodup_app in Nb as (_ & _ & D4). split.
      * intros q Hq Hl. apply fp_in in Hq. cbn [below extra left_open In] in *. rewrite in_app_iff in *. destruct (in_dec Nat.eq_dec q (fp t1)); [apply A2; tauto|]. apply A1. cbn [In]. tauto.
      * intros q Hq. rewrite fp_in in Hq. cbn [below extra left_open In] in *. rewrite !in_app_iff in Hq. specialize (D2 q). specialize (D3 q). specialize (D4 q). specialize (LF q). rewrite in_app_iff in D2, D3. cbn [In] in *.
        apply A3; [tauto|]. tauto.
Qed.

(** ** Closing and freeing any tree *)
Lemma closed_live m t : closed m t -> forall b, In b (structs t) -> live m b.
Proof.
  intros C1 b. induction t; cbn [structs closed root] in *; destruct C1 as (C1 & K); unfold live.
  - intros [<-|[]]. congruence.
  - intros [<-|Hb]; [congruence|]. apply IHt; auto.
  - intros [<-|Hb]; [congruence|]. apply IHt; auto.
  - intros [<-|Hb]; [congruence|]. apply IHt; auto.
  - intros [<-|Hb]; [congruence|]. destruct K as (K1 & K2). apply in_app_or in Hb as [Hb|Hb]; [apply IHt1|apply IHt2]; auto.
Qed.
Theorem close_free_spec f m o t : rep m o t -> NoDup (fp t) -> (height t <= f)%nat ->
  exists m1 m2 m3, close_h f m (Some (root t)) = Ok m1 /\
    (forall b, In b (fp t) -> (live m1 b <-> In b (structs t ++ client t))) /\
    free_each m1 (structs t) = Ok m2 /\
    (forall b, In b (fp t) -> (live m2 b <-> In b (client t))) /\
    free_h f m1 (Some (root t)) = Ok m3 /\
    (forall b, In b (fp t) -> (live m3 b <-> In b (unreached t ++ client t))) /\
    (forall b, ~ In b (fp t) \/ In b (client t) -> m_blk m1 b = m_blk m b /\ m_blk m2 b = m_blk m b /\ m_blk m3 b = m_blk m b).
Proof.
  intros R N Hf. destruct (close_spec o f m t R N Hf) as (m1 & E1 & C1 & C2 & C3 & C4 & _).
  destruct (free_spec t f m1 C1 (nodup_structs _ N) Hf) as (m3 & E3 & D1 & D2 & _).
  destruct (client_structs _ N) as (Ncl & Dsc). pose proof (closed_live _ _ C1) as Lst.
  destruct (free_each_spec (structs t) m1 (nodup_structs _ N) Lst) as (m2 & E2 & F1 & F2).
  assert (Lcl : forall b, In b (client t) -> live m1 b) by (intros b Hb; unfold live; rewrite C3 by exact Hb; apply (rep_live _ _ _ _ R); apply client_fp; exact Hb).
  pose proof (unreached_structs t) as Us. pose proof (structs_fp t) as Sf.
  assert (L1 : forall b, In b (fp t) -> (live m1 b <-> In b (structs t ++ client t))).
  { intros b Hb. rewrite in_app_iff. split; [|intros [Q|Q]; auto]. intros Hl.
    destruct (in_dec Nat.eq_dec b (structs t)) as [Q|Q]; [auto|]. destruct (in_dec Nat.eq_dec b (client t)) as [Q'|Q']; [auto|]. contradict Hl. unfold live. rewrite C4 by auto. tauto. }
  exists m1, m2, m3. split; [exact E1|]. split; [exact L1|]. split; [exact E2|]. split; [|split; [exact E3|split]].
  - intros b Hb. unfold live. destruct (in_dec Nat.eq_dec b (structs t)) as [Q|Q].
    + rewrite F1 by exact Q. split; [tauto|]. intros Hc. exfalso. exact (Dsc _ Q Hc).
    + rewrite F2 by exact Q. fold (live m1 b). rewrite (L1 _ Hb), in_app_iff. tauto.
  - intros b Hb. unfold live. rewrite in_app_iff. specialize (L1 _ Hb). rewrite in_app_iff in L1. specialize (Us b). specialize (Dsc b).
    destruct (in_dec Nat.eq_dec b (structs t)) as [Q|Q]; [destruct (in_dec Nat.eq_dec b (unreached t)) as [Q'|Q']|].
    + rewrite D2 by auto. fold (live m1 b). tauto.
    + rewrite D1 by auto. split; tauto.
    + rewrite D2 by auto. fold (live m1 b). tauto.
  - intros b Hb. specialize (Dsc b). specialize (Sf b). assert (X : ~ In b (structs t)) by (destruct Hb as [Hb|Hb]; tauto).
    assert (Y : m_blk m1 b = m_blk m b) by (destruct Hb as [Hb|Hb]; auto). rewrite F2, D2 by auto. auto.
Qed.

Theorem free_open_live f m o t : rep m o t -> NoDup (fp t) -> (height t <= f)%nat ->
  exists m', free_h f m (Some (root t)) = Ok m' /\ (forall b, In b (fp t) -> (live m' b <-> In b (left_open t))) /\
    (forall b, ~ In b (fp t) \/ In b (left_open t) -> m_blk m' b = m_blk m b).
Proof.
  intros R N Hf. destruct (free_open_spec o t f m R N Hf) as (m' & E & A & B). exists m'. split; [exact E|]. split; [|exact B].
  intros b Hb. unfold live. destruct (in_dec Nat.eq_dec b (left_open t)) as [Q|Q].
  - rewrite B by auto. split; [auto|]. intros _. exact (rep_live _ _ _ _ R Hb).
  - rewrite A by auto. tauto.
Qed.

Theorem queries_on_heap (KB PB : nat -> Z) (Ls : nat -> log) (e : env) p m0 :
  (forall n, table (KB n) (PB n) (e n) (Ls n)) -> plan_ok (fun n => (fst (e n), Ls n)) KB p -> mem_ok m0 ->
  exists F, forall f n, (F <= f)%nat -> (length (denote (fun n => (fst (e n), Ls n)) p) < n)%nat ->
  exists e' m r ops cl rest m1 m2 m3,
    run_plan_h f n e m0 p = Ok (e', m, Some r, denote (fun n => (fst (e n), Ls n)) p) /\
    (forall b, live m0 b -> m_blk m b = m_blk m0 b) /\
    NoDup (ops ++ cl) /\ length ops = plan_ops p /\ length cl = plan_client p /\
    (forall b, In b (ops ++ cl) -> ~ live m0 b) /\
    close_h f m (Some r) = Ok m1 /\
    (forall b, live m1 b <-> live m0 b \/ In b (ops ++ cl)) /\ (forall b, live m0 b -> m_blk m1 b = m_blk m0 b) /\
    free_each m1 ops = Ok m2 /\
    (forall b, live m2 b <-> live m0 b \/ In b cl) /\ (forall b, live m0 b -> m_blk m2 b = m_blk m0 b) /\
    free_h f m1 (Some r) = Ok m3 /\
    NoDup rest /\ incl rest ops /\ length rest = plan_unreached p /\
    (forall b, live m3 b <-> live m0 b \/ In b (rest ++ cl)) /\ (forall b, live m0 b -> m_blk m3 b = m_blk m0 b).
Proof.
  intros T Hp Hm. destruct (plan_correct KB PB Ls e p T Hp) as (F & H). exists (Nat.max F (plan_height p)). intros f n Hf Hn.
  destruct (H f n ltac:(lia) Hn) as (e' & E). exists e'. exact (run_plan_h_spec f n e e' _ p m0 Hm ltac:(lia) E).
Qed.

Theorem init_on_heap e o f m t o' : rep m o t -> NoDup (fp t) -> mem_ok m -> (height t <= f)%nat -> joins_new o -> op_init e o = Ok o' ->
  exists m' t', init_h f e m (Some (root t)) = Ok m' /\ rep m' o' t' /\ NoDup (fp t') /\
    root t' = root t /\ structs t' = structs t /\ client t' = client t /\ unreached t' = unreached t /\ height t' = height t /\
    incl (fp t) (fp t') /\ (forall b, In b (fp t') -> In b (fp t) \/ ~ live m b) /\
    (forall b, ~ In b (fp t') -> m_blk m' b = m_blk m b) /\ mem_ok m'.
Proof.
  intros R N Hm Hf J E. destruct (init_spec e o f m t o' R N Hm Hf J E) as (m' & t' & A & B & C & (S1 & S2 & S3 & S4 & S5) & G1 & G2 & G3 & G4 & G5).
  exists m', t'. repeat (split; [assumption|]). split; [|split; assumption].
  intros b Hb. apply G5 in Hb as [Hb|Hb]; [auto|]. right. intros L. apply L. apply Hm. exact Hb.
Qed.
Theorem next_on_heap f e o m t e' o' r : rep m o t -> NoDup (fp t) -> op_next f e o = Ok (e', o', r) ->
  exists m', next_h f e m (Some (root t)) = Ok (e', m', r) /\ rep m' o' t /\ (forall b, ~ In b (fp t) -> m_blk m' b = m_blk m b) /\
    m_next m' = m_next m.
Proof.
  intros R N H. destruct (next_refines f _ _ _ _ _ _ _ R N H) as (_ & m' & A & B & C). exists m'. split; [exact A|]. split; [exact B|]. destruct C as (C1 & C2 & _). auto.
Qed.

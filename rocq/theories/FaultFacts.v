(** Calls under storage faults. *)
From Verif Require Import Base BaseFacts Config Spline Storage DB Recovery Spec SpecSpline SplineFacts
  SpecPage SpecStore Run SpecRun SpecFault LogFacts PageFacts SearchFacts StoreFacts PutFacts GetFacts ReachFacts.
Open Scope Z_scope.
Ltac Zify.zify_post_hook ::= ZifyBool.elim_bool_cstr.
Ltac Zify.zify_convert_to_euclidean_division_equations_flag ::= constr:(false).

Definition healo (o : io) : io := mkIO [] (fD o) (fI o) (fV o) (trace o).
Definition used (o o' : io) (p : list bool) : Prop := faults o = p ++ faults o'.

Lemma heal_eq s : heal s = set_io s (healo (sio s)).
Proof. reflexivity. Qed.

Lemma used_nil o : used o o [].
Proof. reflexivity. Qed.
Lemma used_app o1 o2 o3 p q : used o1 o2 p -> used o2 o3 q -> used o1 o3 (p ++ q).
Proof. unfold used. intros -> ->. apply app_assoc. Qed.

(** ** Storage operations *)
Lemma io_write_used c w n q o o' ok : io_write c w n q o = (o', ok) ->
  exists p, used o o' p /\ (In true p -> ok = false) /\ (~ In true p -> io_write c w n q (healo o) = (healo o', ok)).
Proof.
  unfold io_write, take_fault, used. cbn [faults healo]. destruct (faults o) as [|b bs] eqn:E.
  - intros H. injection H as <- <-. exists []. split; [|split; [intros []|intros _]].
    + destruct w; cbn [putF faults]; now rewrite E.
    + destruct w; reflexivity.
  - destruct b; intros H; injection H as <- <-.
    + exists [true]. split; [reflexivity|]. split; [auto|]. intros N. destruct N. now left.
    + exists [false]. split; [destruct w; reflexivity|]. split; [intros [X|[]]; discriminate|intros _].
      destruct w; reflexivity.
Qed.
Lemma io_erase_used c w a b o o' ok : io_erase c w a b o = (o', ok) ->
  exists p, used o o' p /\ (In true p -> ok = false) /\ (~ In true p -> io_erase c w a b (healo o) = (healo o', ok)).
Proof.
  unfold io_erase, take_fault, used. cbn [faults healo]. destruct (faults o) as [|b0 bs] eqn:E.
  - intros H. injection H as <- <-. exists []. split; [|split; [intros []|intros _]].
    + destruct w; cbn [putF faults]; now rewrite E.
    + destruct w; reflexivity.
  - destruct b0; intros H; injection H as <- <-.
    + exists [true]. split; [reflexivity|]. split; [auto|]. intros N. destruct N. now left.
    + exists [false]. split; [destruct w; reflexivity|]. split; [intros [X|[]]; discriminate|intros _].
      destruct w; reflexivity.
Qed.
Lemma io_read_used w n o o' r : io_read w n o = (o', r) ->
  exists p, used o o' p /\ (In true p -> r = None) /\ (~ In true p -> io_read w n (healo o) = (healo o', r)).
Proof.
  unfold io_read, take_fault, used. cbn [faults healo]. destruct (faults o) as [|b bs] eqn:E.
  - intros H. injection H as <- <-. exists []. split; [|split; [intros []|intros _]].
    + now rewrite E.
    + destruct w; reflexivity.
  - destruct b; intros H; injection H as <- <-.
    + exists [true]. split; [reflexivity|]. split; [auto|]. intros N. destruct N. now left.
    + exists [false]. split; [reflexivity|]. split; [intros [X|[]]; discriminate|intros _]. destruct w; reflexivity.
Qed.

(** ** Calls that report every failure of storage *)
Definition tracks {A} (bad : A -> Prop) (f : state -> res (state * A)) : Prop :=
  forall s s' a, f s = Ok (s', a) ->
  exists p, used (sio s) (sio s') p /\ (In true p -> bad a) /\ (~ In true p -> f (heal s) = Ok (heal s', a)).

Lemma tracks_bind {A B} (bad : A -> Prop) (bad' : B -> Prop) f (g : A -> state -> res (state * B)) :
  tracks bad f -> (forall a, tracks bad' (g a)) -> (forall a s s' b, bad a -> g a s = Ok (s', b) -> bad' b) ->
  tracks bad' (fun s => bind (f s) (fun x => g (snd x) (fst x))).
Proof.
  intros Hf Hg Hb s s' b H. apply bind_inv in H as ((s1 & a) & E & H). cbn [fst snd] in H.
  destruct (Hf _ _ _ E) as (p & U & T & N). destruct (Hg a _ _ _ H) as (q & U' & T' & N').
  exists (p ++ q). split; [eapply used_app; eauto|]. split.
  - intros I. apply in_app_or in I as [I|I]; eauto.
  - intros I. rewrite N by (intros X; apply I, in_or_app; auto). cbn [bind fst snd].
    apply N'. intros X; apply I, in_or_app; auto.
Qed.

(** A step that does not touch storage. *)
Lemma tracks_pure {A} (bad : A -> Prop) (f : state -> res (state * A)) :
  (forall s s' a, f s = Ok (s', a) -> sio s' = sio s /\ f (heal s) = Ok (heal s', a)) -> tracks bad f.
Proof. intros H s s' a E. destruct (H _ _ _ E) as (X & Y). exists []. rewrite X. split; [apply used_nil|]. split; [intros []|auto]. Qed.

Definition isnopage (z : Z) : Prop := z = NOPAGE.

Ltac st := cbn [set_io set_d set_i set_v sio sd si sv d_next d_wbuf d_avail d_spl d_rbuf d_rlc wbuf rbuf availD minD nextD bufD
  nextRLC rlcStart spl i_next i_wbuf i_avail i_rbuf iwbuf irbuf availI minI nextI bufI
  v_wbuf v_rbuf v_avail v_next v_minrec v_loc v_has vwbuf vrbuf availV nextV minVarRec curVarLoc bufV hasVar negb].
Ltac sth H := cbn [set_io set_d set_i set_v sio sd si sv d_next d_wbuf d_avail d_spl d_rbuf d_rlc wbuf rbuf availD minD nextD bufD
  nextRLC rlcStart spl i_next i_wbuf i_avail i_rbuf iwbuf irbuf availI minI nextI bufI
  v_wbuf v_rbuf v_avail v_next v_minrec v_loc v_has vwbuf vrbuf availV nextV minVarRec curVarLoc bufV hasVar negb bind] in H.
(** Both operations of a page write: the union of what they consume. *)
Lemma no_app (p q : list bool) : ~ In true (p ++ q) -> ~ In true p /\ ~ In true q.
Proof. intros H. split; intros X; apply H, in_or_app; auto. Qed.

Lemma writePage_tracks c : tracks isnopage (writePage c).
Proof.
  intros s s' r H. rewrite !heal_eq. destruct s as [o d i v]. unfold writePage in *. cbv zeta in *. st. sth H.
  apply bind_inv in H as (w & E & H). rewrite E. cbn [bind]. st. sth H.
  destruct (availD d <=? 0).
  - destruct (io_erase c WD _ _ o) as (o1 & ok) eqn:Ee. destruct (io_erase_used _ _ _ _ _ _ _ Ee) as (p & U & T & N).
    sth H. destruct ok.
    2: { sth H. injection H as <- <-. exists p. st. split; [auto|]. split; [reflexivity|]. intros I. rewrite (N I). reflexivity. }
    assert (NT : ~ In true p) by (intros X; now discriminate (T X)). specialize (N NT). rewrite N. st.
    destruct (noClean c).
    + sth H. destruct (io_write c WD _ w o1) as (o2 & ok2) eqn:Ew. destruct (io_write_used _ _ _ _ _ _ _ Ew) as (q & U2 & T2 & N2).
      sth H. exists (p ++ q). destruct ok2; sth H; injection H as <- <-; st.
      * split; [eapply used_app; eauto|]. split; [intros I; apply in_app_or in I as [I|I]; [tauto|discriminate (T2 I)]|].
        intros I. apply no_app in I as (_ & I). cbn [bind]. st. rewrite (N2 I). reflexivity.
      * split; [eapply used_app; eauto|]. split; [reflexivity|].
        intros I. apply no_app in I as (_ & I). cbn [bind]. st. rewrite (N2 I). reflexivity.
    + destruct (spl d) as [sp|]; [|discriminate].
      sth H. destruct (io_write c WD _ w o1) as (o2 & ok2) eqn:Ew. destruct (io_write_used _ _ _ _ _ _ _ Ew) as (q & U2 & T2 & N2).
      sth H. exists (p ++ q). destruct ok2; sth H; injection H as <- <-; st.
      * split; [eapply used_app; eauto|]. split; [intros I; apply in_app_or in I as [I|I]; [tauto|discriminate (T2 I)]|].
        intros I. apply no_app in I as (_ & I). cbn [bind]. st. rewrite (N2 I). reflexivity.
      * split; [eapply used_app; eauto|]. split; [reflexivity|].
        intros I. apply no_app in I as (_ & I). cbn [bind]. st. rewrite (N2 I). reflexivity.
  - sth H. destruct (io_write c WD _ w o) as (o2 & ok2) eqn:Ew. destruct (io_write_used _ _ _ _ _ _ _ Ew) as (q & U2 & T2 & N2).
    sth H. exists q. destruct ok2; sth H; injection H as <- <-; st.
    + split; [auto|]. split; [intros I; discriminate (T2 I)|]. intros I. cbn [bind]. st. rewrite (N2 I). reflexivity.
    + split; [auto|]. split; [reflexivity|]. intros I. cbn [bind]. st. rewrite (N2 I). reflexivity.
Qed.

Lemma writeIndexPage_tracks c : tracks isnopage (writeIndexPage c).
Proof.
  intros s s' r H. rewrite !heal_eq. destruct s as [o d i v]. unfold writeIndexPage in *. cbv zeta in *. st. sth H.
  apply bind_inv in H as (w & E & H). rewrite E. cbn [bind]. st. sth H.
  destruct (availI i <=? 0).
  - destruct (io_erase c WI _ _ o) as (o1 & ok) eqn:Ee. destruct (io_erase_used _ _ _ _ _ _ _ Ee) as (p & U & T & N).
    sth H. destruct ok.
    2: { sth H. injection H as <- <-. exists p. st. split; [auto|]. split; [reflexivity|]. intros I. rewrite (N I). reflexivity. }
    assert (NT : ~ In true p) by (intros X; now discriminate (T X)). specialize (N NT). rewrite N. st. sth H.
    destruct (io_write c WI _ w o1) as (o2 & ok2) eqn:Ew. destruct (io_write_used _ _ _ _ _ _ _ Ew) as (q & U2 & T2 & N2).
    sth H. exists (p ++ q). destruct ok2; sth H; injection H as <- <-; st.
    + split; [eapply used_app; eauto|]. split; [intros I; apply in_app_or in I as [I|I]; [tauto|discriminate (T2 I)]|].
      intros I. apply no_app in I as (_ & I). cbn [bind]. st. rewrite (N2 I). reflexivity.
    + split; [eapply used_app; eauto|]. split; [reflexivity|].
      intros I. apply no_app in I as (_ & I). cbn [bind]. st. rewrite (N2 I). reflexivity.
  - sth H. destruct (io_write c WI _ w o) as (o2 & ok2) eqn:Ew. destruct (io_write_used _ _ _ _ _ _ _ Ew) as (q & U2 & T2 & N2).
    sth H. exists q. destruct ok2; sth H; injection H as <- <-; st.
    + split; [auto|]. split; [intros I; discriminate (T2 I)|]. intros I. cbn [bind]. st. rewrite (N2 I). reflexivity.
    + split; [auto|]. split; [reflexivity|]. intros I. cbn [bind]. st. rewrite (N2 I). reflexivity.
Qed.

Lemma readVariablePage_used s n s' r : readVariablePage s n = (s', r) ->
  exists p, used (sio s) (sio s') p /\ (In true p -> r = -1) /\ (~ In true p -> readVariablePage (heal s) n = (heal s', r)).
Proof.
  intros H. rewrite !heal_eq. unfold readVariablePage in *. destruct s as [o d i v]. st. sth H.
  destruct (n =? bufV v).
  - injection H as <- <-. exists []. split; [apply used_nil|]. split; [intros []|reflexivity].
  - destruct (io_read WV n o) as (o1 & x) eqn:E. destruct (io_read_used _ _ _ _ _ E) as (p & U & T & N).
    exists p. destruct x; sth H; injection H as <- <-; st.
    + split; [auto|]. split; [intros I; discriminate (T I)|]. intros I. now rewrite (N I).
    + split; [auto|]. split; [reflexivity|]. intros I. now rewrite (N I).
Qed.

Lemma writeVariablePage_tracks c : tracks isnopage (writeVariablePage c).
Proof.
  intros s s' r H. rewrite !heal_eq. destruct s as [o d i v]. unfold writeVariablePage in *.
  destruct (numVar c =? 0); [discriminate|]. cbv zeta in *. st. sth H.
  destruct (availV v <=? 0).
  - destruct (io_erase c WV _ _ o) as (o1 & ok) eqn:Ee. destruct (io_erase_used _ _ _ _ _ _ _ Ee) as (p & U & T & N).
    sth H. destruct ok.
    2: { sth H. injection H as <- <-. exists p. st. split; [auto|]. split; [reflexivity|]. intros I. rewrite (N I). reflexivity. }
    assert (NT : ~ In true p) by (intros X; now discriminate (T X)). specialize (N NT). rewrite N. st. sth H.
    match type of H with context[readVariablePage ?x ?n] => destruct (readVariablePage x n) as (s1 & r1) eqn:Er end.
    destruct (readVariablePage_used _ _ _ _ Er) as (p1 & U1 & T1 & N1). st. rewrite !heal_eq in N1. sth N1. sth U1.
    match goal with |- context[readVariablePage ?x _] => match type of N1 with context [readVariablePage ?y _] => change x with y end end.
    destruct (Z.eqb_spec r1 0) as [E1|E1].
    2: { sth H. injection H as <- <-. exists (p ++ p1). st. split; [eapply used_app; eauto|]. split; [reflexivity|].
         intros I. apply no_app in I as (_ & I). rewrite (N1 I). destruct (Z.eqb_spec r1 0); [congruence|reflexivity]. }
    subst r1. assert (NT1 : ~ In true p1) by (intros X; now discriminate (T1 X)). specialize (N1 NT1). rewrite N1. clear Er.
    destruct s1 as [o2 d2 i2 v2]. st. sth H. sth U1. cbn [Z.eqb bind] in *. st. sth H.
    apply bind_inv in H as ((s3 & ok3) & H & H3). apply bind_inv in H as (k & Ek & H). injection H as <- <-. rewrite Ek.
    cbn [bind]. st. sth H3. apply bind_inv in H3 as (w & Ew & H3). rewrite Ew. cbn [bind]. st. sth H3.
    destruct (io_write c WV _ w o2) as (o3 & ok2) eqn:Ex. destruct (io_write_used _ _ _ _ _ _ _ Ex) as (q & U2 & T2 & N2).
    sth H3. exists ((p ++ p1) ++ q). destruct ok2; sth H3; injection H3 as <- <-; st.
    + split; [eapply used_app; [eapply used_app|]; eauto|]. split.
      * intros I. rewrite !in_app_iff in I. destruct I as [[I|I]|I]; [tauto|tauto|discriminate (T2 I)].
      * intros I. apply no_app in I as (_ & I). rewrite (N2 I). reflexivity.
    + split; [eapply used_app; [eapply used_app|]; eauto|]. split; [reflexivity|].
      intros I. apply no_app in I as (_ & I). rewrite (N2 I). reflexivity.
  - sth H. apply bind_inv in H as (w & E & H). cbn [bind]. st. rewrite E. cbn [bind]. st. sth H.
    destruct (io_write c WV _ w o) as (o2 & ok2) eqn:Ew. destruct (io_write_used _ _ _ _ _ _ _ Ew) as (q & U2 & T2 & N2).
    sth H. exists q. destruct ok2; sth H; injection H as <- <-; st.
    + split; [auto|]. split; [intros I; discriminate (T2 I)|]. intros I. rewrite (N2 I). reflexivity.
    + split; [auto|]. split; [reflexivity|]. intros I. rewrite (N2 I). reflexivity.
Qed.

Definition minus1 (z : Z) : Prop := z = -1.
Lemma flushVar_tracks c : tracks minus1 (embedDBFlushVar c).
Proof.
  intros s s' r H. unfold embedDBFlushVar in *. change (sv (heal s)) with (sv s).
  destruct (curVarLoc (sv s) mod pageSize c =? varHdr c).
  - injection H as <- <-. exists []. split; [apply used_nil|]. split; [intros []|reflexivity].
  - apply bind_inv in H as ((s1 & r1) & E & H). destruct (writeVariablePage_tracks c _ _ _ E) as (p & U & T & N).
    exists p. destruct (Z.eqb_spec r1 NOPAGE) as [E1|E1].
    + injection H as <- <-. split; [auto|]. split; [reflexivity|]. intros I. rewrite (N I). cbn [bind].
      destruct (Z.eqb_spec r1 NOPAGE); [reflexivity|congruence].
    + assert (~ In true p) by (intros X; now apply E1, T). cbv zeta in H. injection H as <- <-. split; [auto|]. split; [tauto|].
      intros I. rewrite (N I). cbn [bind]. destruct (Z.eqb_spec r1 NOPAGE); [congruence|reflexivity].
Qed.

Lemma indexPage_heal c s n s' : indexPage c s n = Ok s' -> sio s' = sio s /\ indexPage c (heal s) n = Ok (heal s').
Proof.
  unfold indexPage. change (sd (heal s)) with (sd s). destruct (useBinary c).
  - intros H. injection H as <-. auto.
  - destruct (spl (sd s)); [|discriminate]. intros H. apply bind_inv in H as (k & E & H). rewrite E. injection H as <-. auto.
Qed.
Lemma idx_append_heal c s n s' : idx_append c s n = Ok s' -> sio s' = sio s /\ idx_append c (heal s) n = Ok (heal s').
Proof.
  unfold idx_append. change (sd (heal s)) with (sd s). change (si (heal s)) with (si s). intros H.
  apply bind_inv in H as (b & E & H). rewrite E. cbn [bind]. apply bind_inv in H as (bm & E1 & H). rewrite E1. cbn [bind].
  apply bind_inv in H as (b2 & E2 & H). rewrite E2. injection H as <-. auto.
Qed.

(** embedDBFlush reports every failing storage operation, in every state and mode. *)
Lemma flush_tracks c : tracks minus1 (embedDBFlush c).
Proof.
  intros s s' r H. unfold embedDBFlush in *. change (sd (heal s)) with (sd s).
  apply bind_inv in H as (n & En & H). rewrite En. cbn [bind].
  destruct (n <? 1).
  - injection H as <- <-. exists []. split; [apply used_nil|]. split; [intros []|reflexivity].
  - apply bind_inv in H as ((s1 & pn) & E1 & H). destruct (writePage_tracks c _ _ _ E1) as (p & U & T & N).
    destruct (Z.eqb_spec pn NOPAGE) as [Ep|Ep].
    { injection H as <- <-. exists p. split; [auto|]. split; [reflexivity|]. intros I. rewrite (N I). cbn [bind].
      destruct (Z.eqb_spec pn NOPAGE); [reflexivity|congruence]. }
    assert (NT : ~ In true p) by (intros X; now apply Ep, T). rewrite (N NT). cbn [bind].
    destruct (Z.eqb_spec pn NOPAGE) as [|_]; [congruence|].
    apply bind_inv in H as (s2 & E2 & H). destruct (indexPage_heal _ _ _ _ E2) as (U2 & E2h). rewrite E2h. cbn [bind].
    apply bind_inv in H as ((s3 & ok) & E3 & H).
    assert (X : exists q, used (sio s2) (sio s3) q /\ (In true q -> ok = false) /\ (~ In true q ->
      (if useIndex c then
         idxcount <- get_count (iwbuf (si (heal s2))) ;;
         s <- idx_append c (heal s2) idxcount ;;
         '(s, r) <- writeIndexPage c s ;;
         if r =? NOPAGE then Ok (s, false)
         else b <- init_page c ;; Ok (set_i s (i_wbuf (si s) b), true)
       else Ok (heal s2, true)) = Ok (heal s3, ok))).
    { destruct (useIndex c).
      - change (si (heal s2)) with (si s2). apply bind_inv in E3 as (ic & Ei & E3). rewrite Ei. cbn [bind].
        apply bind_inv in E3 as (s4 & E4 & E3). destruct (idx_append_heal _ _ _ _ E4) as (U4 & E4h). rewrite E4h. cbn [bind].
        apply bind_inv in E3 as ((s5 & r5) & E5 & E3). destruct (writeIndexPage_tracks c _ _ _ E5) as (q & U5 & T5 & N5).
        exists q. rewrite <- U4. destruct (Z.eqb_spec r5 NOPAGE) as [Er|Er].
        + injection E3 as <- <-. split; [auto|]. split; [reflexivity|]. intros I. rewrite (N5 I). cbn [bind].
          destruct (Z.eqb_spec r5 NOPAGE); [reflexivity|congruence].
        + apply bind_inv in E3 as (b & Eb & E3). injection E3 as <- <-. split; [exact U5|]. split; [intros I; destruct (Er (T5 I))|].
          intros I. rewrite (N5 I). cbn [bind]. destruct (Z.eqb_spec r5 NOPAGE); [congruence|]. rewrite Eb. reflexivity.
      - injection E3 as <- <-. exists []. split; [apply used_nil|]. split; [intros []|reflexivity]. }
    destruct X as (q & Uq & Tq & Nq). rewrite U2 in Uq.
    destruct ok; cbn [negb] in H.
    2: { injection H as <- <-. exists (p ++ q). split; [eapply used_app; eauto|]. split; [reflexivity|].
         intros I. apply no_app in I as (_ & I). rewrite (Nq I). reflexivity. }
    assert (NTq : ~ In true q) by (intros X; now discriminate (Tq X)). rewrite (Nq NTq). cbn [bind negb].
    apply bind_inv in H as (b & Eb & H). rewrite Eb. cbn [bind]. cbv zeta in *.
    destruct (useVar c).
    + apply bind_inv in H as ((s5 & r5) & E5 & H). destruct (flushVar_tracks c _ _ _ E5) as (u & U5 & T5 & N5).
      exists ((p ++ q) ++ u). assert (Us : sio s' = sio s5) by (destruct (r5 =? 0); injection H as <- <-; reflexivity). rewrite Us.
      split; [eapply used_app; [eapply used_app; eauto|exact U5]|]. split.
      * intros I. rewrite !in_app_iff in I. destruct I as [[I|I]|I]; [tauto|tauto|]. rewrite (T5 I) in H. now injection H as <- <-.
      * intros I. apply no_app in I as (_ & I). specialize (N5 I).
        change (set_d (heal s3) (d_wbuf (sd (heal s3)) b)) with (heal (set_d s3 (d_wbuf (sd s3) b))). rewrite N5. cbn [bind].
        destruct (r5 =? 0); injection H as <- <-; reflexivity.
    + injection H as <- <-. exists (p ++ q). split; [eapply used_app; eauto|]. split.
      * intros I. rewrite !in_app_iff in I. tauto.
      * intros I. reflexivity.
Qed.

(** ** What a failed flush leaves *)
Section Keep.
  Variable c : cfg.
  Variables KB PB : Z.
  Hypothesis G : setting c KB PB.

  (** A record in the write buffer is found there, whatever else the state is. *)
  Lemma get_buffered s l r : maxRec c <= 255 -> holds c (wbuf (sd s)) l -> ascending l -> Forall (rec_ok c KB) l -> In r l ->
    embedDBGet c s (rkey r) = Ok (s, 0, Some (rdata r)).
  Proof.
    intros Hn Hh Ha Hr Hi. pose proof (g_lay _ _ _ G) as L0. pose proof (g_KB _ _ _ G) as GK. pose proof (g_cmp _ _ _ G) as GC.
    assert (Rr : rec_ok c KB r) by (rewrite Forall_forall in Hr; auto). pose proof (proj1 Rr) as Hk.
    pose proof (searchBuffer_ok c KB L0 (proj2 GK) GC _ _ (rkey r) Hn Hh Ha Hr Hk) as S.
    assert (F : find_key (rkey r) l = Some r) by (apply find_key_some; auto). rewrite F in S. destruct S as (i & E & Ni).
    unfold embedDBGet. rewrite E. cbn [bind]. destruct (Z.eqb_spec i (-1)) as [|_]; [congruence|]. cbn [negb].
    destruct (nextD (sd s) =? 0); [reflexivity|]. rewrite (get_count_ok c L0 _ _ Hh). cbn [bind].
    destruct l as [|a l]; [destruct Hi|].
    destruct (Z.eqb_spec (zlen (a :: l)) 0) as [Z0|_]; [rewrite zlen_cons in Z0; pose proof (zlen_nonneg l); lia|]. cbn [negb].
    destruct (exists_last (l := a :: l)) as (l' & b & El'); [discriminate|].
    assert (Ib : In b (a :: l)) by (rewrite El'; apply in_or_app; right; now left).
    rewrite Forall_forall in Hr.
    assert (Mx : max_key c (wbuf (sd s)) = Ok (rkey b)).
    { rewrite El' in Hh. eapply (max_key_ok c L0); eauto. apply GK. }
    rewrite Mx. cbn [bind].
    rewrite (min_key_ok c L0 _ a l KB (proj2 GK) Hh) by (apply Hr; now left). cbn [bind].
    assert (Cb : rkey a <= rkey r <= rkey b).
    { split.
      - rewrite asc_cons in Ha. destruct Ha as [Ca _]. destruct Hi as [<-|Hi]; [lia|]. specialize (Ca _ Hi). lia.
      - eapply last_key_max; eauto. rewrite El'. apply last_key_app. }
    rewrite Z.gtb_ltb, Z.geb_leb.
    destruct (Z.ltb_spec (rkey b) (rkey r)); [lia|]. destruct (Z.leb_spec (rkey a) (rkey r)); [|lia].
    reflexivity.
  Qed.

  Lemma writePage_wbuf s s' r l : holds c (wbuf (sd s)) l -> 0 <= nextD (sd s) < 2 ^ 32 ->
    writePage c s = Ok (s', r) -> holds c (wbuf (sd s')) l.
  Proof.
    intros Hh Hn H. destruct s as [o d i v]. unfold writePage in *. cbv zeta in *. st. sth H. st.
    destruct (set_pid_ok c (g_lay _ _ _ G) _ _ (nextD d) Hh) as (w & E & Hw & _); [exact Hn|]. sth E. rewrite E in H. sth H.
    apply bind_inv in H as ((s1 & ok) & E1 & H). 
    assert (X : holds c (wbuf (sd s1)) l).
    { destruct (availD d <=? 0).
      - destruct (io_erase c WD _ _ o) as (o1 & k1). destruct k1; sth E1; [|injection E1 as <- <-; exact Hw].
        destruct (noClean c); [injection E1 as <- <-; exact Hw|].
        destruct (spl d); [|discriminate]. injection E1 as <- <-. exact Hw.
      - injection E1 as <- <-. exact Hw. }
    destruct ok; cbn [negb] in H; [|injection H as <- <-; exact X].
    destruct (io_write c WD _ _ (sio s1)) as (o2 & k2). destruct k2; injection H as <- <-; exact X.
  Qed.

  Lemma flush_failed_wbuf s s' r l : useVar c = false -> holds c (wbuf (sd s)) l -> 0 <= nextD (sd s) < 2 ^ 32 ->
    embedDBFlush c s = Ok (s', r) -> r <> 0 -> holds c (wbuf (sd s')) l.
  Proof.
    intros NV Hh Hn H Hr. unfold embedDBFlush in H. apply bind_inv in H as (n & En & H).
    destruct (n <? 1); [injection H as <- <-; exact Hh|].
    apply bind_inv in H as ((s1 & pn) & E1 & H). pose proof (writePage_wbuf _ _ _ _ Hh Hn E1) as H1.
    destruct (pn =? NOPAGE); [injection H as <- <-; exact H1|].
    apply bind_inv in H as (s2 & E2 & H).
    assert (H2 : holds c (wbuf (sd s2)) l).
    { unfold indexPage in E2. destruct (useBinary c); [injection E2 as <-; exact H1|]. destruct (spl (sd s1)); [|discriminate].
      apply bind_inv in E2 as (k & _ & E2). injection E2 as <-. exact H1. }
    apply bind_inv in H as ((s3 & ok) & E3 & H). rewrite NV in H.
    destruct ok; cbn [negb] in H.
    { apply bind_inv in H as (b & _ & H). injection H as <- <-. congruence. }
    injection H as <- <-. destruct (useIndex c); [|discriminate].
    apply bind_inv in E3 as (ic & _ & E3). apply bind_inv in E3 as (s4 & E4 & E3).
    assert (W4 : sd s4 = sd s2).
    { unfold idx_append in E4. apply bind_inv in E4 as (b & _ & E4). apply bind_inv in E4 as (bm & _ & E4).
      apply bind_inv in E4 as (b2 & _ & E4). injection E4 as <-. reflexivity. }
    apply bind_inv in E3 as ((s5 & r5) & E5 & E3).
    assert (W5 : sd s5 = sd s4).
    { unfold writeIndexPage in E5. cbv zeta in E5. apply bind_inv in E5 as (w & _ & E5).
      match type of E5 with (let '(_, _) := ?e in _) = _ => destruct e as (s6 & k6) eqn:E6 end.
      assert (W6 : sd s6 = sd s4).
      { match type of E6 with (if ?b then _ else _) = _ => destruct b end; [|injection E6 as <- <-; reflexivity].
        match type of E6 with context [io_erase ?a ?b ?d ?e ?f] => destruct (io_erase a b d e f) as (o1 & k1) end.
        destruct k1; injection E6 as <- <-; reflexivity. }
      destruct k6; cbn [negb] in E5; [|injection E5 as <- <-; exact W6].
      match type of E5 with context [io_write ?a ?b ?d ?e ?f] => destruct (io_write a b d e f) as (o1 & k1) end.
      destruct k1; injection E5 as <- <-; exact W6. }
    destruct (r5 =? NOPAGE).
    - injection E3 as <-. now rewrite W5, W4.
    - apply bind_inv in E3 as (b & _ & E3). discriminate.
  Qed.
End Keep.

Lemma c30_keeps c KB PB disk h s xs fs s' ret :
  scenario c KB PB h -> reached c disk h s xs -> embedDBFlush c (with_faults s fs) = Ok (s', ret) -> ret <> 0 ->
  forall r, In r (cur (log_of c h)) -> embedDBGet c s' (rkey r) = Ok (s', 0, Some (rdata r)).
Proof.
  intros S R E N r Hr. destruct (reach_inv c KB PB h S disk s xs R) as [I _].
  pose proof (sc_set _ _ _ _ S) as G. pose proof (sc_modes _ _ _ _ S) as M. pose proof (i_wf _ _ _ _ _ _ _ _ I) as W.
  eapply (get_buffered c KB PB G s' (cur (log_of c h))); auto; [apply M| |eapply cur_asc; eauto|eapply cur_recs; eauto].
  eapply (flush_failed_wbuf c KB PB G _ _ _ _ (m_var _ M)); [| |exact E|exact N].
  - apply (i_w _ _ _ _ _ _ _ _ I).
  - change (sd (with_faults s fs)) with (sd s). rewrite (i_nextD _ _ _ _ _ _ _ _ I). pose proof (zlen_nonneg (pages (log_of c h))).
    pose proof (i_PB _ _ _ _ _ _ _ _ I). pose proof (g_PB _ _ _ G). pose proof (g_err _ _ _ G). lia.
Qed.

Lemma io_write_there c n p o o' : io_write c WD n p o = (o', true) -> fpg (fD o') n = p /\ n < flen (fD o').
Proof.
  unfold io_write. destruct (take_fault o) as (b & o1). destruct b; [discriminate|]. intros E. injection E as <-.
  cbn [putF fD file_write flen fpg]. rewrite Z.eqb_refl. split; [auto|lia].
Qed.
(** With record-level consistency, a put that returns 0 has the write buffer on storage. *)
Lemma c30_rlc c s k d s' : useRLC c = true -> embedDBPut c s k d = Ok (s', 0) -> on_storage (fD (sio s')) (wbuf (sd s')).
Proof.
  intros U H. unfold embedDBPut in H. rewrite U in H. apply bind_inv in H as (n & _ & H).
  apply bind_inv in H as ((s1 & rej) & _ & H). destruct rej; [discriminate|].
  apply bind_inv in H as (((s2 & n2) & wrote) & _ & H). apply bind_inv in H as (w & _ & H). cbv zeta in H.
  apply bind_inv in H as (s3 & _ & H). unfold writeTemporaryPage in H. cbv zeta in H. apply bind_inv in H as (w3 & _ & H).
  match type of H with context [io_write c WD ?a ?b ?e] => destruct (io_write c WD a b e) as (o & ok) eqn:E end.
  injection H as Es Hr. destruct ok; [|discriminate Hr]. apply io_write_there in E as (E1 & E2). subst s'.
  eexists. split; [exact E2|exact E1].
Qed.

(** Opening with record-level consistency on storage with any contents: proofs. *)
From Verif Require Import Base BaseFacts Config Spline Storage DB VarData Recovery Spec SpecPage PageFacts SpecFlash SpecTerm TermFacts SpecAny AnyFacts SpecAnyRlc.
Ltac Zify.zify_post_hook ::= ZifyBool.elim_bool_cstr.
Ltac Zify.zify_convert_to_euclidean_division_equations_flag ::= constr:(false).
Open Scope Z_scope.

(** [P] of the result, if there is one. *)
Definition post {A} (P : A -> Prop) (r : res A) : Prop := match r with Ok a => P a | _ => True end.
Lemma post_bind {A B} (Q : A -> Prop) (P : B -> Prop) m (f : A -> res B) :
  post Q m -> (forall a, Q a -> post P (f a)) -> post P (bind m f).
Proof. destruct m; cbn; auto. Qed.
Lemma post_nub {A} (P : A -> Prop) m : nub P m -> post P m.
Proof. destruct m; cbn; tauto. Qed.
Lemma post_imp {A} (P Q : A -> Prop) m : post P m -> (forall a, P a -> Q a) -> post Q m.
Proof. destruct m; cbn; auto. Qed.
Lemma post_any {A} (P : A -> Prop) m : (forall a, P a) -> post P m.
Proof. destruct m; cbn; auto. Qed.

Lemma pid_post p : post (fun id => id = numbered p) (get_pid p).
Proof. unfold get_pid, ldz, ld. destruct (_ && _); cbn; auto. Qed.
Lemma cnt_post p : post (fun id => id = claims p) (get_count p).
Proof. unfold get_count, ldz, ld. destruct (_ && _); cbn; auto. Qed.

Section Rlc.
Variable c : cfg.
Hypothesis B1 : 1 <= eraseSize c.
Hypothesis N4 : 4 * eraseSize c <= numData c.
Hypothesis NP : numData c < NOPAGE.
Let fine (p : page) : Prop := 0 <= claims p <= maxRec c.

(** The read buffer is empty or holds a page of the file; the write buffer is fine. *)
Definition coh (s : state) : Prop :=
  bufD (sd s) = NOPAGE \/ file_read (fD (sio s)) (bufD (sd s)) = Some (rbuf (sd s)).
Definition same (s s' : state) : Prop := fD (sio s') = fD (sio s) /\ wbuf (sd s') = wbuf (sd s).
Lemma same_refl s : same s s. Proof. split; reflexivity. Qed.
Lemma same_trans a b d : same a b -> same b d -> same a d.
Proof. unfold same. intros [A A'] [D D']. split; congruence. Qed.
Lemma take_fD o b o' : take_fault o = (b, o') -> fD o' = fD o.
Proof. unfold take_fault. destruct (faults o); intros H; injection H as <- <-; reflexivity. Qed.
Lemma read_same s n s' r : readPage s n = (s', r) -> same s s'.
Proof.
  unfold readPage, io_read. destruct (_ =? _); [intros H; injection H as <- <-; apply same_refl|].
  destruct (take_fault (sio s)) as [b o] eqn:T. apply take_fD in T.
  destruct b; [|destruct (file_read (getF WD o) n) as [p|]]; intros H; injection H as <- <-; split; cbn; auto.
Qed.
Lemma read_coh s n s' r : readPage s n = (s', r) -> n <> NOPAGE -> (bufD (sd s) = n -> coh s) ->
  same s s' /\ (coh s -> coh s') /\ (r = 0 -> coh s' /\ file_read (fD (sio s')) n = Some (rbuf (sd s'))).
Proof.
  intros H Hn C. split; [eapply read_same; eauto|]. revert H. unfold readPage, io_read.
  destruct (Z.eqb_spec n (bufD (sd s))) as [E|E].
  - intros H. injection H as <- <-. split; [auto|]. intros _. specialize (C (eq_sym E)). split; [exact C|]. destruct C as [C|C]; [congruence|].
    now rewrite E.
  - destruct (take_fault (sio s)) as [b o] eqn:T. apply take_fD in T. destruct b.
    + intros H. injection H as <- <-. split; [|discriminate]. unfold coh. cbn. now rewrite T.
    + destruct (file_read (getF WD o) n) as [p|] eqn:F; intros H; injection H as <- <-; cbn [getF] in F.
      * assert (X : coh (mkS o (d_rbuf (sd s) p n) (si s) (sv s))) by (right; exact F). split; [auto|]. intros _. split; [exact X|exact F].
      * split; [|discriminate]. unfold coh. cbn. now rewrite T.
Qed.

(** The scans of the first phase. *)
Definition okid (id : Z) : Prop := u32 (id + 1) <> NOPAGE.
Definition plaus (f : file) : Prop := forall n p, file_read f n = Some p -> page_plausible c p.
Definition at_ (s : state) (more : bool) (n : Z) : Prop := more = true -> file_read (fD (sio s)) n = Some (rbuf (sd s)).
Lemma first_post s0 tries : plaus (fD (sio s0)) -> forall s more count,
  same s0 s -> coh s -> at_ s more count -> 0 <= count -> count + Z.of_nat tries * eraseSize c <= numData c ->
  post (fun '(s', more', count', found) => same s0 s' /\ coh s' /\
    forall mx, found = Some mx -> okid mx /\ at_ s' more' count' /\ 0 <= count' <= numData c) (rec_first c s more tries count).
Proof.
  intros PL. induction tries as [|t IH]; intros s more count S0 C A C0 CN; cbn [rec_first].
  - cbn. split; [exact S0|split; [exact C|discriminate]].
  - destruct more; [|cbn; split; [exact S0|split; [exact C|discriminate]]].
    assert (PP : page_plausible c (rbuf (sd s))) by (apply (PL count); rewrite <- (proj1 S0); apply A; reflexivity).
    apply (post_bind (fun '(id, _) => okid id)).
    { unfold hdr_ok. eapply post_bind; [apply pid_post|]. intros id ->. eapply post_bind; [apply cnt_post|]. intros n _. apply PP. }
    assert (NB : eraseSize c <= Z.of_nat (S t) * eraseSize c) by nia.
    intros [id ok] OK. destruct ok.
    + destruct (readPage s (count + 1)) as [s1 r] eqn:R. destruct (read_coh _ _ _ _ R) as (S1 & C1 & C2); [lia|auto|].
      cbn. split; [eapply same_trans; eauto|split; [auto|]]. intros mx E. injection E as <-. split; [exact OK|].
      split; [|lia]. intros E. apply Z.eqb_eq in E. apply C2; exact E.
    + destruct (readPage s (count + eraseSize c)) as [s1 r] eqn:R. destruct (read_coh _ _ _ _ R) as (S1 & C1 & C2); [lia|auto|].
      apply IH; [eapply same_trans; eauto|auto| |lia|lia]. intros E. apply Z.eqb_eq in E. apply C2; exact E.
Qed.
Lemma scan_post s0 fuel : plaus (fD (sio s0)) -> forall s more count mx,
  same s0 s -> coh s -> at_ s more count -> 0 <= count <= numData c -> okid mx ->
  post (fun '(s', _, count', mx') => same s0 s' /\ coh s' /\ 0 <= count' <= numData c /\ okid mx') (rec_scan c s fuel more count mx).
Proof.
  intros PL. induction fuel as [|f IH]; intros s more count mx S0 C A CN OK; cbn [rec_scan]; [exact I|].
  destruct (more && (count <? numData c)) eqn:M; [|cbn; auto].
  apply andb_true_iff in M as [-> M]. apply Z.ltb_lt in M.
  assert (PP : page_plausible c (rbuf (sd s))) by (apply (PL count); rewrite <- (proj1 S0); apply A; reflexivity).
  eapply post_bind; [apply pid_post|]. intros id ->.
  destruct (_ && _); [|cbn; auto].
  destruct (readPage s (count + 1)) as [s1 r] eqn:R. destruct (read_coh _ _ _ _ R) as (S1 & C1 & C2); [lia|auto|].
  apply IH; [eapply same_trans; eauto|auto| |lia|apply PP]. intros E. apply Z.eqb_eq in E. apply C2; exact E.
Qed.

(** The search for the newest temporary page. *)
Lemma rlc_scan_post s0 start want perm : plaus (fD (sio s0)) -> want <> NOPAGE -> forall n s more phys idx best,
  same s0 s -> (more = true -> coh s) -> at_ s more phys -> phys = (start + idx) mod numData c ->
  (forall m i, best = Some (m, i) -> exists p, file_read (fD (sio s0)) ((start + i) mod numData c) = Some p /\ fine p) ->
  (best <> None -> coh s) ->
  post (fun '(s', best') => same s0 s' /\
    forall m i, best' = Some (m, i) -> coh s' /\ exists p, file_read (fD (sio s0)) ((start + i) mod numData c) = Some p /\ fine p)
    (rlc_scan c s n more phys idx want perm best).
Proof.
  intros PL WN. induction n as [|n IH]; intros s more phys idx best S0 C A PH HB CB; cbn [rlc_scan].
  - cbn. split; [exact S0|]. intros m i E. split; [apply CB; congruence|eauto].
  - destruct more; [|cbn; split; [exact S0|]; intros m i E; split; [apply CB; congruence|eauto]].
    specialize (C eq_refl). specialize (A eq_refl). pose proof A as A'. rewrite (proj1 S0) in A'.
    destruct (PL _ _ A') as [P1 P2].
    eapply post_bind; [apply pid_post|]. intros id ->. eapply post_bind; [apply cnt_post|]. intros nr ->. cbv zeta.
    destruct (readPage s _) as [s1 r] eqn:R.
    destruct (read_coh _ _ _ _ R) as (S1 & C1 & C2); [pose proof (Z.mod_pos_bound (phys + 1) (numData c)); lia|auto|].
    apply IH.
    + eapply same_trans; eauto.
    + intros _. auto.
    + intros E. apply Z.eqb_eq in E. apply C2; exact E.
    + rewrite PH, Zplus_mod_idemp_l. f_equal. lia.
    + assert (X : (numbered (rbuf (sd s)) =? want) || (numbered (rbuf (sd s)) =? 0) && negb perm = true -> fine (rbuf (sd s))).
      { intros H. destruct P2 as [P2|P2]; [|exact P2]. exfalso. rewrite P2 in H.
        apply orb_true_iff in H as [H|H]; [apply Z.eqb_eq in H; congruence|]. apply andb_true_iff in H as [H _]. discriminate H. }
      intros m i E. destruct (_ || _); [|eauto]. specialize (X eq_refl). rewrite PH in A'.
      destruct best as [[m0 i0]|].
      * destruct (_ >? _); [|eauto]. injection E as <- <-. eauto.
      * injection E as <- <-. eauto.
    + intros _. auto.
Qed.

(** The rest leaves the write buffer alone. *)
Lemma spline_post n : forall s pg, post (fun s' => wbuf (sd s') = wbuf (sd s)) (spline_from_file c s n pg).
Proof.
  induction n as [|n IH]; intros s pg; cbn [spline_from_file]; [reflexivity|].
  destruct (readPage s _) as [s1 r] eqn:R. apply read_same in R as [_ R].
  eapply post_bind; [apply (post_any (fun _ => True)); auto|]. intros k _. destruct (spl (sd s1)); [|exact I].
  eapply post_imp; [apply IH|]. intros a E. cbv beta in E. cbn in E. congruence.
Qed.
Lemma finish_post s small mx rv : post (fun x => wbuf (sd (fst x)) = wbuf (sd s)) (rec_finish c s small mx rv).
Proof.
  unfold rec_finish. cbv zeta. set (s1 := set_d s _). assert (K1 : wbuf (sd s1) = wbuf (sd s)) by reflexivity. clearbody s1.
  destruct (readPage s1 _) as [s2 r2] eqn:R2. apply read_same in R2 as [_ R2].
  eapply post_bind; [apply pid_post|]. intros m _. set (s3 := set_d s2 _). assert (K3 : wbuf (sd s3) = wbuf (sd s2)) by reflexivity. clearbody s3.
  destruct (readPage s3 _) as [s4 r4] eqn:R4. apply read_same in R4 as [_ R4].
  destruct (useBinary c); [cbn; congruence|]. eapply post_bind; [apply spline_post|]. intros s5 E. cbn. congruence.
Qed.

Lemma erase_plaus f a b : plaus f -> (forall x, eraseFill c = Some x \/ x = holeFill c -> page_plausible c (repeat x (psz c))) ->
  plaus (file_erase c f a b).
Proof.
  intros P Q n p. unfold file_erase, file_read. destruct (eraseFill c) as [x|] eqn:E; [|exact (P n p)]. cbn [flen fpg].
  destruct ((0 <=? n) && (n <? Z.max (flen f) b)) eqn:R; [|discriminate]. intros H. injection H as <-.
  destruct ((a <=? n) && (n <? b)) eqn:J; [apply Q; auto|].
  destruct (n <? flen f) eqn:F; [|apply Q; auto]. apply (P n). unfold file_read.
  replace ((0 <=? n) && (n <? flen f)) with true by lia. reflexivity.
Qed.
Lemma erase_out f a b n p : file_read f n = Some p -> ~ (a <= n < b) -> file_read (file_erase c f a b) n = Some p.
Proof.
  unfold file_erase. destruct (eraseFill c); [|auto]. unfold file_read. cbn [flen fpg]. intros H O.
  destruct ((0 <=? n) && (n <? flen f)) eqn:R; [|discriminate]. replace ((0 <=? n) && (n <? Z.max (flen f) b)) with true by lia.
  replace ((a <=? n) && (n <? b)) with false by lia.
  now replace (n <? flen f) with true by lia.
Qed.

Lemma fromFileRLC_post s : contents_plausible c (fD (sio s)) -> bufD (sd s) = NOPAGE -> fine (wbuf (sd s)) ->
  post (fun x => fine (wbuf (sd (fst x)))) (initDataFromFileRLC c s).
Proof.
  intros [PL FL] BD FW. assert (C0 : coh s) by (left; exact BD). unfold initDataFromFileRLC. cbv zeta.
  destruct (readPage s 0) as [s1 r1] eqn:R1. destruct (read_coh _ _ _ _ R1) as (S1 & C1 & D1); [discriminate|auto|].
  eapply post_bind.
  { apply (first_post s); [exact PL|exact S1|auto| |lia|change (Z.of_nat 4) with 4; lia]. intros E. apply Z.eqb_eq in E. apply D1; exact E. }
  intros [[[s2 more] count] found] (S2 & C2 & D2).
  apply (post_bind (fun '(s3, count3, mx3) => same s s3 /\ coh s3 /\ 0 <= count3 <= numData c /\ okid mx3)).
  { destruct found as [mx|].
    - destruct (D2 mx eq_refl) as (OK & A & CN). eapply post_bind; [apply (scan_post s); eauto|].
      intros [[[s3 m3] c3] mx3] H. exact H.
    - cbn. split; [exact S2|split; [exact C2|split; [lia|]]]. discriminate. }
  intros [[s3 count3] mx3] (S3 & C3 & CN & OK).
  set (start := (count3 + (eraseSize c - count3 mod eraseSize c)) mod numData c).
  assert (H : exists s4 ok, (if eraseSize c - count3 mod eraseSize c =? eraseSize c then
       let '(o, ok) := io_erase c WD count3 (count3 + eraseSize c) (sio s3) in (set_io s3 o, ok) else (s3, true)) = (s4, ok)
       /\ wbuf (sd s4) = wbuf (sd s) /\ plaus (fD (sio s4)) /\ (bufD (sd s4) = start -> coh s4)).
  { destruct (Z.eqb_spec (eraseSize c - count3 mod eraseSize c) (eraseSize c)) as [E|E].
    - unfold io_erase. destruct (take_fault (sio s3)) as [b o] eqn:T. apply take_fD in T.
      destruct b; do 2 eexists; (split; [reflexivity|]); cbn [set_io sd sio putF getF fD bufD].
      + split; [apply S3|]. split; [rewrite T, (proj1 S3); exact PL|]. intros _. unfold coh. cbn. now rewrite T.
      + split; [apply S3|]. rewrite T, (proj1 S3). split; [apply erase_plaus; auto|].
        intros X. right. cbn [set_io sd sio putF getF fD bufD rbuf]. rewrite <- (proj1 S3). destruct C3 as [C3|C3].
        { exfalso. rewrite C3 in X. subst start. pose proof (Z.mod_pos_bound (count3 + (eraseSize c - count3 mod eraseSize c)) (numData c)). lia. }
        apply erase_out; [exact C3|]. rewrite X. subst start. rewrite E.
        destruct (Z.lt_ge_cases (count3 + eraseSize c) (numData c)) as [LT|GE].
        * rewrite Z.mod_small by lia. lia.
        * replace (count3 + eraseSize c) with (count3 + eraseSize c - numData c + 1 * numData c) by lia.
          rewrite Z.mod_add, Z.mod_small by lia. lia.
    - do 2 eexists; (split; [reflexivity|]). split; [apply S3|]. split; [rewrite (proj1 S3); exact PL|auto]. }
  destruct H as (s4 & ok & -> & W4 & PL4 & C4). destruct ok; cbn [negb]; [|cbn; rewrite W4; exact FW].
  set (s5 := set_d s4 _). assert (H5 : wbuf (sd s5) = wbuf (sd s) /\ plaus (fD (sio s5)) /\ (bufD (sd s5) = start -> coh s5))
    by (split; [exact W4|split; [exact PL4|exact C4]]). clearbody s5. clear C4 PL4 W4. destruct H5 as (W5 & PL5 & C5).
  destruct (readPage s5 start) as [s6 r6] eqn:R6.
  assert (NS : 0 <= start < numData c) by (apply Z.mod_pos_bound; lia).
  destruct (read_coh _ _ _ _ R6) as (S6 & _ & D6); [lia|auto|].
  eapply post_bind.
  { apply (rlc_scan_post s5 start (u32 (mx3 + 1)) (match found with Some _ => true | None => false end) PL5 OK
      (Z.to_nat (eraseSize c * 2)) s6 (r6 =? 0) start 0 None).
    - exact S6.
    - intros E. apply Z.eqb_eq in E. apply D6; exact E.
    - intros E. apply Z.eqb_eq in E. apply D6; exact E.
    - rewrite Z.add_0_r, Z.mod_small by lia. reflexivity.
    - discriminate.
    - congruence. }
  intros [s7 best] (S7 & D7).
  apply (post_bind (fun '(s8, _, _, _) => fine (wbuf (sd s8)))).
  { destruct best as [[m idx]|]; [|cbn; rewrite (proj2 S7), W5; exact FW].
    destruct (D7 m idx eq_refl) as (C7 & p & Ep & Fp). set (s8 := set_d s7 _).
    assert (H8 : coh s8 /\ same s5 s8) by (split; [exact C7|exact S7]). clearbody s8. destruct H8 as [C8 S8].
    destruct (readPage s8 _) as [s9 r9] eqn:R9.
    destruct (read_coh _ _ _ _ R9) as (S9 & _ & D9); [pose proof (Z.mod_pos_bound (start + idx) (numData c)); lia|auto|].
    destruct (Z.eqb_spec r9 0) as [Z9|Z9]; cbn [negb].
    - cbn. destruct (D9 Z9) as [_ E9]. rewrite (proj1 S9), (proj1 S8), Ep in E9. injection E9 as <-. exact Fp.
    - cbn. rewrite (proj2 S9), (proj2 S8), W5. exact FW. }
  intros [[[s8 err] es] nb] F8. destruct err; [exact F8|].
  destruct (shift_erase c nb es (sio s8)) as [o k]. set (s9 := set_io s8 o). assert (F9 : fine (wbuf (sd s9))) by exact F8. clearbody s9.
  destruct (negb k); [exact F9|]. destruct (negb _); [exact F9|].
  destruct (readPage s9 _) as [s10 r10] eqn:R10. apply read_same in R10 as [_ R10].
  eapply post_bind; [apply (post_any (fun _ => True)); auto|]. intros small _.
  eapply post_imp; [apply finish_post|]. intros a E. cbv beta in E. rewrite E, R10. exact F9.
Qed.
End Rlc.

Lemma initData_post c s f : 1 <= eraseSize c -> 4 * eraseSize c <= numData c -> numData c < NOPAGE ->
  useRLC c = true -> bufD (sd s) = NOPAGE ->
  (forall x, f = Some x -> contents_plausible c x) -> 0 <= claims (wbuf (sd s)) <= maxRec c ->
  post (fun x => 0 <= claims (wbuf (sd (fst x))) <= maxRec c) (initData c s f).
Proof.
  intros B1 N4 NP R BD PL FW. unfold initData, open_r. rewrite R. cbv zeta. destruct (useReset c); [exact FW|].
  destruct f as [fl|]; [|exact FW]. apply fromFileRLC_post; auto.
Qed.

(** embedDBInit. *)
Lemma init_post c k fs : workable c -> disk_sized c k -> useRLC c = true -> numData c < NOPAGE ->
  (forall f, kD k = Some f -> contents_plausible c f) ->
  post (fun x => snd x = 0 -> 0 <= claims (wbuf (sd (fst x))) <= maxRec c) (embedDBInit c k fs).
Proof.
  intros W D R NP PL. pose proof (wk_erase _ W). pose proof (l_fit _ (wk_layout _ W)) as MR.
  assert (G : zlen (gpage c) = pageSize c) by (unfold zlen; rewrite (wk_buf _ W); apply psz_z; exact W).
  assert (NO : forall s, post (fun x => snd x = 0 -> 0 <= claims (wbuf (sd (fst x))) <= maxRec c) (Ok (s, -1))) by (intros s; cbn; discriminate).
  unfold embedDBInit. cbv zeta. set (s0 := mkS _ _ _ _).
  destruct (_ >? _); [apply NO|]. destruct (_ =? 0); [exact I|].
  destruct (negb _); [apply NO|]. rewrite R. destruct (Z.ltb_spec (numData c) (4 * eraseSize c)) as [|N4]; [apply NO|].
  destruct (_ && _); [apply NO|]. destruct (_ && _); [apply NO|].
  destruct (_ =? 0); [exact I|].
  eapply post_bind; [apply post_nub; apply (init_nub c W)|]. intros w [Lw Cw].
  destruct (_ <? _); [apply NO|]. destruct (_ && _) eqn:EB; [apply NO|].
  set (s1 := if useBinary c then _ else _).
  assert (F1 : buffers_fit c s1).
  { subst s1 s0. destruct (useBinary c) eqn:B; constructor; try exact G; try exact Lw; try apply sized_empty; intros X; [congruence|discriminate]. }
  assert (K1 : wbuf (sd s1) = w /\ bufD (sd s1) = NOPAGE) by (subst s1; destruct (useBinary c); split; reflexivity). clearbody s1. clear s0 EB.
  destruct K1 as [K1 K1'].
  eapply (post_bind (fun x => buffers_fit c (fst x) /\ 0 <= claims (wbuf (sd (fst x))) <= maxRec c)).
  { pose proof (initData_post c s1 (kD k) H N4 NP R K1' PL) as X. rewrite K1, Cw in X. specialize (X ltac:(lia)).
    pose proof (initData_nub c W s1 (kD k) F1 (fun x E => D x (or_introl E))) as Y.
    destruct (initData c s1 (kD k)); cbn in *; [|exact I|exact I]. split; [apply Y|exact X]. }
  intros [s2 r2] [F2 C2]. cbn [fst snd] in *.
  destruct (Z.eqb_spec r2 0) as [Z2|Z2]; cbn [negb]; [|cbn; intros X; contradiction].
  eapply (post_bind (fun x => buffers_fit c (fst x) /\ 0 <= claims (wbuf (sd (fst x))) <= maxRec c)).
  { destruct (useIndex c) eqn:UI; [|cbn; auto].
    destruct (_ <? _); [cbn; auto|].
    eapply post_imp; [apply post_nub, (initIndex_nub c W); [exact UI|exact F2|intros x E; apply D; auto]|].
    intros a (A & B & C & E). split; [auto|]. rewrite C. exact C2. }
  intros [s3 r3] [F3 C3]. cbn [fst snd] in *.
  destruct (Z.eqb_spec r3 0) as [Z3|Z3]; cbn [negb]; [|cbn; intros X; contradiction].
  destruct (useVar c) eqn:UV; [|cbn; auto].
  destruct (_ <? _); [apply NO|]. eapply post_imp; [apply post_nub, (initVar_nub c W); [exact UV|exact F3|intros x E; apply D; auto]|].
  intros a (A & B & C & E) _. rewrite C. exact C3.
Qed.

Lemma opening_rlc c k fs : workable c -> disk_sized c k -> numData c < NOPAGE ->
  (forall f, kD k = Some f -> contents_plausible c f) ->
  exists s r, embedDBInit c k fs = Ok (s, r) /\ (r = 0 \/ r = -1) /\ (r = 0 -> buffers_fit c s /\ counts_fit c s).
Proof.
  intros W D NP PL. destruct (opening_any c k fs W D) as (s & r & E & Hr & H). exists s, r. split; [exact E|split; [exact Hr|]].
  intros Z0. destruct (H Z0) as (F & C & I). split; [exact F|]. destruct (useRLC c) eqn:R; [|auto].
  pose proof (init_post c k fs W D R NP PL) as X. rewrite E in X. cbn in X. constructor; [auto|].
  intros U. rewrite (I U). pose proof (maxIdx_fit c W U). lia.
Qed.
Lemma session_rlc c k fs os : workable c -> disk_sized c k -> numData c < NOPAGE -> (useBinary c = true -> noClean c = true) ->
  (forall f, kD k = Some f -> contents_plausible c f) ->
  (forall s, Forall (fun o => write_ok c s o /\ (o = CFlush -> useIndex c = false)) os) ->
  exists s r, embedDBInit c k fs = Ok (s, r) /\ (r = 0 \/ r = -1) /\
  (r = 0 -> exists s', calls c s os = Ok s' /\ buffers_fit c s' /\ counts_fit c s').
Proof.
  intros W D NP NC PL HO. destruct (opening_rlc c k fs W D NP PL) as (s & r & E & Hr & H). exists s, r. split; [exact E|split; [exact Hr|]].
  intros Z0. destruct (H Z0) as [F C]. apply writes_any; auto.
Qed.

(** Iterating over records with variable data on storage with any contents: proofs. *)
From Verif Require Import Base BaseFacts Config Spline Storage DB VarData Recovery Spec SpecPage PageFacts Run SpecIter SpecFlash SpecTerm TermFacts SpecAny AnyFacts SpecAnyRlc AnyRlcFacts SpecAnyVar AnyVarFacts AnyScanFacts SpecAnyNext.
Ltac Zify.zify_post_hook ::= ZifyBool.elim_bool_cstr.
Ltac Zify.zify_convert_to_euclidean_division_equations_flag ::= constr:(false).
Open Scope Z_scope.

(** The data file and the data buffers are not changed. *)
Definition dkept (s s' : state) : Prop := sd s' = sd s /\ fD (sio s') = fD (sio s).
Lemma dkept_trans a b d : dkept a b -> dkept b d -> dkept a d.
Proof. intros [A B] [C D]. split; congruence. Qed.
Lemma vread_kept s n s' r : readVariablePage s n = (s', r) -> dkept s s'.
Proof.
  unfold readVariablePage, io_read. destruct (_ =? _); [intros H; injection H as <- <-; split; reflexivity|].
  destruct (take_fault (sio s)) as [b o] eqn:T. apply take_fD in T.
  destruct b; [|destruct (file_read (getF WV o) n) as [p|]]; intros H; injection H as <- <-; split; cbn; auto.
Qed.
Lemma iread_kept s n s' r : readIndexPage s n = (s', r) -> dkept s s'.
Proof.
  unfold readIndexPage, io_read. destruct (_ =? _); [intros H; injection H as <- <-; split; reflexivity|].
  destruct (take_fault (sio s)) as [b o] eqn:T. apply take_fD in T.
  destruct b; [|destruct (file_read (getF WI o) n) as [p|]]; intros H; injection H as <- <-; split; cbn; auto.
Qed.
Lemma verase_fD c a b o o' ok : io_erase c WV a b o = (o', ok) -> fD o' = fD o.
Proof.
  unfold io_erase. destruct (take_fault o) as [x o1] eqn:T. apply take_fD in T.
  destruct x; intros H; injection H as <- <-; cbn; auto.
Qed.
Lemma vwrite_fD c n p o o' ok : io_write c WV n p o = (o', ok) -> fD o' = fD o.
Proof.
  unfold io_write. destruct (take_fault o) as [x o1] eqn:T. apply take_fD in T.
  destruct x; intros H; injection H as <- <-; cbn; auto.
Qed.
Lemma writeVar_kept c s : post (fun x => dkept s (fst x)) (writeVariablePage c s).
Proof.
  unfold writeVariablePage. destruct (_ =? 0); [exact I|]. cbv zeta.
  apply (post_bind (fun x => dkept s (fst x))).
  { destruct (_ <=? 0); [|split; reflexivity]. destruct (io_erase _ _ _ _ _) as [o ok] eqn:E. apply verase_fD in E.
    destruct ok; cbn [negb]; [|split; [reflexivity|exact E]].
    set (s1 := set_v (set_io s o) _). assert (K1 : dkept s s1) by (split; [reflexivity|exact E]). clearbody s1.
    destruct (readVariablePage s1 _) as [s2 r] eqn:R. pose proof (dkept_trans _ _ _ K1 (vread_kept _ _ _ _ R)) as K2.
    destruct (negb _); [exact K2|]. eapply post_bind; [apply post_eq|]. intros k _. exact K2. }
  intros [s1 ok] K1. cbn [fst] in K1. destruct ok; cbn [negb]; [|exact K1].
  eapply post_bind; [apply post_eq|]. intros w _. set (s2 := set_v s1 _). assert (K2 : dkept s s2) by exact K1. clearbody s2.
  destruct (io_write _ _ _ _ _) as [o k] eqn:E. apply vwrite_fD in E.
  assert (K3 : dkept s (set_io s2 o)) by (eapply dkept_trans; [exact K2|]; split; [reflexivity|exact E]).
  destruct k; exact K3.
Qed.
Lemma flushVar_kept c s : post (fun x => dkept s (fst x)) (embedDBFlushVar c s).
Proof.
  unfold embedDBFlushVar. destruct (_ =? _); [split; reflexivity|].
  eapply post_bind; [apply writeVar_kept|]. intros [s1 r] K. cbn [fst] in K. destruct (_ =? _); exact K.
Qed.
Lemma setup_kept c s key n : post (fun x => dkept s (fst (fst x))) (setupVarDataStream c s key n).
Proof.
  unfold setupVarDataStream. eapply post_bind; [apply post_eq|]. intros a _.
  destruct (_ =? NOVAR); [split; reflexivity|]. destruct (_ <? 0); [split; reflexivity|]. destruct (_ =? 0); [exact I|]. cbv zeta.
  destruct (readVariablePage s _) as [s1 r] eqn:R. pose proof (vread_kept _ _ _ _ R) as K.
  destruct (negb _); [exact K|]. eapply post_bind; [apply post_eq|]. intros len _. exact K.
Qed.
Lemma skip_kept c s it : post (fun x => dkept s (fst x)) (next_skip c s it).
Proof.
  unfold next_skip. destruct (itBM it); [|split; reflexivity]. destruct (_ =? 0); [|split; reflexivity]. destruct (_ || _); [exact I|]. cbv zeta.
  destruct (_ && _); [|split; reflexivity]. destruct (readIndexPage s _) as [s1 r] eqn:R. pose proof (iread_kept _ _ _ _ R) as K.
  destruct (negb _); [exact K|]. eapply post_bind; [apply post_eq|]. intros b _. exact K.
Qed.
Lemma read_wbuf s n s' r : readPage s n = (s', r) -> wbuf (sd s') = wbuf (sd s).
Proof.
  unfold readPage. destruct (_ =? _); [intros H; injection H as <- <-; reflexivity|].
  destruct (io_read _ _ _) as [o [p|]]; intros H; injection H as <- <-; reflexivity.
Qed.

(** The record a scan stops at is one of the page. *)
Lemma recs_rec c p n fuel : n < 65536 -> forall it out, 0 <= itRec it ->
  post (fun '(it', r, _) => r <> None -> 1 <= itRec it' <= n) (next_recs c p n fuel it out).
Proof.
  intros Hn. induction fuel as [|f IH]; intros it out H; cbn [next_recs]; [exact I|].
  destruct (Z.ltb_spec (itRec it) n) as [G|G]; [|cbn; congruence].
  eapply post_bind; [apply post_eq|]. intros k _. eapply post_bind; [apply post_eq|]. intros dt _. cbv zeta.
  rewrite u16_id by lia.
  destruct (it_check c it k dt); [cbn; lia| |cbn; lia]. apply IH. cbn. lia.
Qed.
Lemma loop_rec c (P : page -> Prop) w : (forall p, P p -> claims p <= maxRec c) -> maxRec c < 65536 -> P w ->
  forall fuel s sw it out, keeps P s -> wbuf (sd s) = w -> 0 <= itRec it ->
  post (fun '(s', it', r, _) => keeps P s' /\ wbuf (sd s') = w /\ (r <> 0 -> 1 <= itRec it' <= maxRec c)) (next_loop c s fuel sw it out).
Proof.
  intros HP HM Pw. induction fuel as [|f IH]; intros s sw it out K Ew Hr; cbn [next_loop]; [exact I|].
  destruct (_ >? _); [cbn; split; [exact K|split; [exact Ew|congruence]]|]. cbv zeta. set (sw1 := if _ =? nextD _ then true else sw). clearbody sw1.
  eapply post_bind; [apply skip_kept|]. intros [s1 sk] [D1 D2]. cbn [fst] in D1, D2.
  assert (K1 : keeps P s1) by (unfold keeps in *; rewrite D1, D2; exact K). assert (E1 : wbuf (sd s1) = w) by (rewrite D1; exact Ew).
  destruct sk as [[]|]; [apply (IH s1 sw1 (it_page it _ _)); auto| |cbn; split; [exact K1|split; [exact E1|congruence]]].
  assert (X : exists s2 r, (if sw1 then (s1, 0) else readPage s1 (itPage it mod numData c)) = (s2, r) /\ keeps P s2 /\ wbuf (sd s2) = w).
  { destruct sw1; [eauto|]. destruct (readPage s1 _) as [s2 r] eqn:E. exists s2, r. split; [auto|].
    split; [exact (read_keeps P _ _ _ _ E K1)|]. rewrite (read_wbuf _ _ _ _ E). exact E1. }
  destruct X as (s2 & r & -> & K2 & E2). destruct (negb _); [cbn; split; [exact K2|split; [exact E2|congruence]]|].
  set (p := if sw1 then _ else _). assert (Pp : P p) by (subst p; destruct sw1; [rewrite E2; exact Pw|apply K2]). clearbody p. apply HP in Pp.
  eapply post_bind; [apply cnt_post|]. intros n ->.
  eapply post_bind; [apply (recs_rec c p (claims p)); [lia|exact Hr]|]. intros [[it2 r2] out2] H2; destruct r2 as [r2|].
  - cbn. split; [exact K2|split; [exact E2|]]. intros _. specialize (H2 ltac:(discriminate)). lia.
  - apply (IH s2 sw1 (it_page it2 _ 0)); auto. cbn. lia.
Qed.

Section Next.
Variable c : cfg.
Hypothesis W : workable c.
Hypothesis UV : useVar c = true.
Hypothesis M : maxRec c < 65536.
Let L : layout c := wk_layout _ W.
(** The state between calls. *)
Record walking (s : state) : Prop := {
  wk_f : buffers_fit c s;
  wk_s : pages_sane c s;
  wk_l : all_located c s;
  wk_c : 0 <= claims (wbuf (sd s)) <= maxRec c
}.
Lemma walking_kept s s' : walking s -> buffers_fit c s' -> dkept s s' -> walking s'.
Proof.
  intros [F [S1 S2] [A1 A2 A3] C] F' [E1 E2]. constructor; [exact F'|constructor; rewrite ?E1, ?E2; auto|constructor; rewrite ?E1, ?E2; auto|rewrite E1; exact C].
Qed.
Lemma setup_walk s key i : walking s -> 0 <= i < maxRec c ->
  nub (fun x => walking (fst (fst x))) (setupVarDataStream c s key i).
Proof.
  intros K Hi. pose proof K as [F _ [_ A _] _].
  assert (X : nub (fun x => buffers_fit c (fst (fst x))) (setupVarDataStream c s key i)).
  { unfold setupVarDataStream. pose proof (rec_range c W i ltac:(lia)) as (R1 & R2 & R3 & R4). specialize (R4 UV).
    pose proof (l_ks _ L). pose proof (l_ds _ L).
    rewrite ldz_ok by (rewrite ?(bf_r _ _ F); lia). cbn [bind].
    assert (E : le_dec (zrd (rbuf (sd s)) (rec_off c i + keySize c + dataSize c) 4) = location c (rbuf (sd s)) i) by reflexivity.
    rewrite E. destruct (A i Hi) as [N|N].
    { rewrite N, Z.eqb_refl. exact F. }
    destruct (_ =? NOVAR); [exact F|]. destruct (_ <? 0); [exact F|].
    pose proof (wk_var _ W UV). destruct (Z.eqb_spec (numVar c) 0); [lia|]. cbv zeta.
    destruct (readVariablePage s _) as [s1 r] eqn:R. destruct (readVar_fit c _ _ _ _ R F) as [F1 _].
    destruct (negb _); [exact F1|]. pose proof (ps_lo c W).
    rewrite ldz_ok; [exact F1| |rewrite (bf_vr _ _ F1); exact N]. apply Z.mod_pos_bound. lia. }
  eapply nub_imp; [apply nub_post; [exact X|apply setup_kept]|]. intros [[s1 r] vs] [F1 K1]. cbn [fst] in *. exact (walking_kept s s1 K F1 K1).
Qed.
Lemma nextVar_walk s it : walking s -> 0 <= itRec it -> (itBM it <> None -> useIndex c = true) ->
  nub (fun '(s', it', _, _, _) => walking s' /\ 0 <= itRec it' /\ itBM it' = itBM it) (embedDBNextVar c s it).
Proof.
  intros K Hr Hb. pose proof K as [F [S1 S2] [A1 A2 A3] Cw]. unfold embedDBNextVar. rewrite UV. cbn [negb].
  set (P := fun p => slots_located c p /\ 0 <= claims p <= maxRec c).
  eapply nub_bind; [apply nub_post; [apply nub_post; [apply (next_nub c W s it (conj F (Build_pages_sane _ _ S1 S2)) Cw Hr Hb)|apply loop_post; exact Hr]|
    apply (loop_rec c P (wbuf (sd s))); [intros p [_ X]; lia|exact M|split; auto| |reflexivity|exact Hr]]|].
  { split; [split; [exact A2|destruct S1; lia]|]. intros n p R. split; [exact (A3 n p R)|]. pose proof (S2 n p R) as []. lia. }
  intros [[[s1 it1] r] out] [[[[F1 [S1' S2']] [E1 _]] [H1 B1]] [[K1 K1'] [_ Hi]]]. cbn [fst] in *.
  assert (W1 : walking s1).
  { constructor; [exact F1|constructor; auto| |rewrite E1; exact Cw]. constructor; [rewrite E1; exact A1|apply K1|]. intros n p R. apply (K1' n p R). }
  assert (Z0 : nub (fun '(s', it', _, _, _) => walking s' /\ 0 <= itRec it' /\ itBM it' = itBM it) (Ok (s1, it1, 0, out, @None stream))) by (cbn; auto).
  assert (GO : forall key, r <> 0 -> nub (fun '(s', it', _, _, _) => walking s' /\ 0 <= itRec it' /\ itBM it' = itBM it)
    (n <- get_count (wbuf (sd s1)) ;;
     s <- (if (itPage it1 =? 0) && (n >? 0) then '(s, _) <- embedDBFlushVar c (readToWriteBuf s1) ;; Ok s else Ok s1) ;;
     '(s, r, vs) <- setupVarDataStream c s key (u16 (itRec it1 - 1)) ;;
     Ok (s, it1, (if (r =? 0) || (r =? 1) then 1 else 0), out, vs))).
  { intros key R0. specialize (Hi R0). eapply nub_bind; [apply (count_nub c W); apply F1|]. intros n ->.
    apply (nub_bind walking).
    - destruct ((itPage it1 =? 0) && (claims (wbuf (sd s1)) >? 0)) eqn:G; [|exact W1]. apply andb_prop in G as [_ G].
      assert (W2 : walking (readToWriteBuf s1)).
      { destruct W1 as [X1 [X2 X3] [X4 X5 X6] X7]. constructor.
        - destruct X1. constructor; cbn; auto.
        - constructor; cbn; auto. unfold page_sane. change (le_dec (bytes_at (wbuf (sd s1)) 4 2)) with (claims (wbuf (sd s1))). lia.
        - constructor; cbn; auto.
        - exact X7. }
      eapply nub_bind; [apply nub_post; [apply (flushVar_nub c W); [exact UV|apply W2]|apply flushVar_kept]|].
      intros [s2 r2] [[F2 _] K2]. cbn [fst] in *. cbn [nub]. exact (walking_kept _ _ W2 F2 K2).
    - intros s2 W2. rewrite u16_id by lia. eapply nub_bind; [apply setup_walk; [exact W2|lia]|].
      intros [[s3 r3] vs] W3. cbn [fst] in W3. cbn [nub]. auto. }
  destruct r as [|q|q]; [exact Z0| |]; (destruct out as [[key dt]|]; [apply GO; discriminate|exact Z0]).
Qed.
Lemma walk_any n : forall s it, walking s -> 0 <= itRec it -> (itBM it <> None -> useIndex c = true) ->
  nub (fun _ => True) (walk_var c s it n).
Proof.
  induction n as [|n IH]; intros s it K Hr Hb; cbn [walk_var]; [exact I|].
  eapply nub_bind; [apply nextVar_walk; eauto|]. intros [[[[s1 it1] r] out] vs] (K1 & H1 & B1).
  destruct (_ =? 0); [exact I|]. eapply nub_bind; [apply IH; [exact K1|exact H1|rewrite B1; exact Hb]|]. intros [s2 l] _. exact I.
Qed.
Lemma walk_thm s it n : buffers_fit c s -> pages_sane c s -> all_located c s -> 0 <= claims (wbuf (sd s)) <= maxRec c ->
  0 <= itRec it -> (itBM it <> None -> useIndex c = true) -> walk_var c s it n <> UB.
Proof. intros A1 A2 A3 A4 Hr Hb E. pose proof (walk_any n s it (Build_walking _ A1 A2 A3 A4) Hr Hb) as X. rewrite E in X. exact X. Qed.
End Next.

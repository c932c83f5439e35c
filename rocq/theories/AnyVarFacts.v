(** Payload lookups on storage with any contents: proofs. *)
From Verif Require Import Base BaseFacts Config Spline Storage DB VarData Recovery Spec SpecPage PageFacts SpecFlash SpecTerm TermFacts SpecAny AnyFacts SpecAnyRlc AnyRlcFacts SpecAnyVar.
Ltac Zify.zify_post_hook ::= ZifyBool.elim_bool_cstr.
Ltac Zify.zify_convert_to_euclidean_division_equations_flag ::= constr:(false).
Open Scope Z_scope.

Lemma nub_post {A} (P Q : A -> Prop) m : nub P m -> post Q m -> nub (fun a => P a /\ Q a) m.
Proof. destruct m; cbn; auto. Qed.
Lemma post_eq {A} (m : res A) : post (fun a => m = Ok a) m.
Proof. destruct m; cbn; auto. Qed.

Section Keep.
Variable c : cfg.
Variable P : page -> Prop.
Definition keeps (s : state) : Prop := P (rbuf (sd s)) /\ forall n p, file_read (fD (sio s)) n = Some p -> P p.
Lemma read_keeps s n s' r : readPage s n = (s', r) -> keeps s -> keeps s'.
Proof.
  unfold readPage, io_read, keeps. intros H [R D]. destruct (_ =? _); [injection H as <- <-; auto|].
  destruct (take_fault (sio s)) as [b o] eqn:T. apply take_fD in T.
  destruct b; [|destruct (file_read (getF WD o) n) as [p|] eqn:F]; injection H as <- <-; cbn [sd sio set_io rbuf d_rbuf]; rewrite T; auto.
  split; [|exact D]. apply (D n). rewrite <- T. exact F.
Qed.
Lemma linear_keeps key fuel : forall s pageId low high, keeps s ->
  post (fun x => keeps (fst x)) (linearSearch c s key fuel pageId low high).
Proof.
  induction fuel as [|f IH]; intros s pageId low high K; cbn [linearSearch]; [exact I|].
  destruct (_ || _); [exact K|]. destruct (readPage s _) as [s1 r] eqn:E. pose proof (read_keeps _ _ _ _ E K) as K1.
  destruct (negb _); [exact K1|]. eapply post_bind; [apply post_eq|]. intros mk _.
  destruct (_ <? 0); [apply IH; exact K1|]. eapply post_bind; [apply post_eq|]. intros xk _.
  destruct (_ >? 0); [apply IH; exact K1|exact K1].
Qed.
Lemma binary_keeps key fuel : forall s first last pageId, keeps s ->
  post (fun x => keeps (fst x)) (binary_loop c s key fuel first last pageId).
Proof.
  induction fuel as [|f IH]; intros s first last pageId K; cbn [binary_loop]; [exact I|].
  destruct (readPage s _) as [s1 r] eqn:E. pose proof (read_keeps _ _ _ _ E K) as K1.
  destruct (negb _); [exact K1|]. destruct (_ >=? _); [exact K1|]. eapply post_bind; [apply post_eq|]. intros mk _. cbv zeta.
  destruct (_ <? 0); [apply IH; exact K1|]. eapply post_bind; [apply post_eq|]. intros xk _.
  destruct (_ >? 0); [apply IH; exact K1|exact K1].
Qed.
(** A lookup that finds nothing in the write buffer and returns 0 has found the key in the page
    in the read buffer. *)
Lemma get_keeps s key dt0 : keeps s -> searchBuffer c (wbuf (sd s)) key = Ok (-1, dt0) ->
  post (fun '(s', r, _) => keeps s' /\ (r = 0 -> exists i, embedDBSearchNode c (rbuf (sd s')) key = Ok (Some i)))
       (embedDBGet c s key).
Proof.
  intros K E. unfold embedDBGet. rewrite E. destruct (_ =? 0); [cbn; split; [exact K|discriminate]|].
  eapply post_bind; [apply post_eq|]. intros n _.
  apply (post_bind (fun stop => forall r dt, stop = Some (r, dt) -> r <> 0)).
  { destruct (negb _); [|cbn; discriminate]. eapply post_bind; [apply post_eq|]. intros mx _. eapply post_bind; [apply post_eq|]. intros mn _.
    destruct (_ >? _); [cbn; intros r dt X; injection X as <- <-; discriminate|]. destruct (_ >=? _); [|cbn; discriminate].
    cbn. intros r dt X. injection X as <- <-. discriminate. }
  intros stop HS. destruct stop as [[r dt]|]; [cbn; split; [exact K|]; intros ->; exfalso; apply (HS 0 dt); reflexivity|].
  apply (post_bind (fun x => keeps (fst x))).
  { destruct (useBinary c).
    - unfold binarySearch. cbv zeta. eapply post_bind; [apply binary_keeps; exact K|]. intros [s1 r] K1.
      destruct r; [exact K1|]. destruct (fallthru c); [exact K1|exact I].
    - unfold splineSearch. destruct (spl (sd s)); [|exact I]. eapply post_bind; [apply post_eq|]. intros [[loc low] high] _.
      destruct (_ <? _); [exact K|]. destruct (if _ <? _ then _ else _) as [loc2 low2].
      eapply post_bind; [apply post_eq|]. intros hit _. destruct hit; [exact K|].
      eapply post_bind; [apply linear_keeps; exact K|]. intros [s1 r] K1. destruct (_ =? -1); exact K1. }
  intros [s1 r] K1. cbn [fst] in K1. destruct (negb _); [cbn; split; [exact K1|discriminate]|].
  destruct (embedDBSearchNode c (rbuf (sd s1)) key) as [[i|]| |] eqn:EN; cbn [bind]; try exact I.
  - eapply post_bind; [apply post_eq|]. intros dt _. cbn. split; [exact K1|eauto].
  - cbn. split; [exact K1|discriminate].
Qed.
End Keep.

(** The search stays among the records that the page claims to hold. *)
Lemma search_last c p key fuel : forall first last middle hi, last <= hi -> (first <= last -> middle <= last) ->
  post (fun r => forall i, r = Some i -> i <= hi) (search_loop c p key fuel first last middle).
Proof.
  induction fuel as [|f IH]; intros first last middle hi H1 H2; cbn [search_loop]; [exact I|].
  destruct (Z.leb_spec first last) as [G|G]; [|cbn; discriminate]. specialize (H2 G).
  eapply post_bind; [apply post_eq|]. intros mk _. cbv zeta.
  destruct (_ <? 0).
  { apply IH; [lia|]. intros G2. apply Z.quot_le_upper_bound; lia. }
  destruct (_ =? 0); [cbn; intros i E; injection E as <-; lia|].
  apply IH; [lia|]. intros G2. apply Z.quot_le_upper_bound; lia.
Qed.
Lemma node_last c p key : 0 <= claims p <= 32767 ->
  post (fun r => forall i, r = Some i -> i < claims p) (embedDBSearchNode c p key).
Proof.
  intros Hc. unfold embedDBSearchNode. eapply post_bind; [apply cnt_post|]. intros n ->. cbv zeta. rewrite i16_id by lia.
  eapply post_imp; [apply (search_last c p key _ _ _ _ (claims p - 1)); [lia|]|].
  - intros G. set (m := if (_ || _)%bool then _ else _). destruct (Z.gtb_spec m (claims p - 1)); lia.
  - intros r H i E. specialize (H i E). lia.
Qed.

Section Var.
Variable c : cfg.
Hypothesis W : workable c.
Hypothesis UV : useVar c = true.
Hypothesis M : maxRec c <= 127.
Let L : layout c := wk_layout _ W.

Lemma node_all p key : zlen p = pageSize c -> 0 <= claims p <= maxRec c ->
  nub (fun r => forall i, r = Some i -> 0 <= i < claims p /\ i < maxRec c) (embedDBSearchNode c p key).
Proof.
  intros Hp Hc. eapply nub_imp; [apply nub_post; [apply (node_nub c W); eauto|apply node_last; lia]|].
  intros r [A B] i E. specialize (A i E). specialize (B i E). lia.
Qed.
Lemma setup_nub s key i : buffers_fit c s -> page_located c (rbuf (sd s)) -> 0 <= i < claims (rbuf (sd s)) -> i < maxRec c ->
  nub (fun _ => True) (setupVarDataStream c s key (u32 i)).
Proof.
  intros F PL Hi Hm. unfold setupVarDataStream. rewrite u32_id by lia.
  pose proof (rec_range c W i ltac:(lia)) as (R1 & R2 & R3 & R4). specialize (R4 UV).
  pose proof (l_ks _ L). pose proof (l_ds _ L).
  rewrite ldz_ok by (rewrite ?(bf_r _ _ F); lia). cbn [bind].
  assert (E : le_dec (zrd (rbuf (sd s)) (rec_off c i + keySize c + dataSize c) 4) = location c (rbuf (sd s)) i) by reflexivity.
  rewrite E. destruct (PL i Hi) as [N|N].
  { rewrite N, Z.eqb_refl. exact I. }
  destruct (_ =? NOVAR); [exact I|]. destruct (_ <? 0); [exact I|].
  pose proof (wk_var _ W UV). destruct (Z.eqb_spec (numVar c) 0); [lia|]. cbv zeta.
  destruct (readVariablePage s _) as [s1 r] eqn:R. destruct (readVar_fit c _ _ _ _ R F) as [F1 _].
  destruct (negb _); [exact I|]. pose proof (ps_lo c W).
  rewrite ldz_ok; [exact I| |rewrite (bf_vr _ _ F1); exact N]. apply Z.mod_pos_bound. lia.
Qed.
Lemma getVar_any s key : buffers_fit c s -> pages_sane c s -> pages_located c s -> 0 <= claims (wbuf (sd s)) <= maxRec c ->
  lookup_defined c s key -> embedDBGetVar c s key <> UB.
Proof.
  intros F PS PL Cw LD. enough (X : nub (fun _ => True) (embedDBGetVar c s key)) by (intros E; rewrite E in X; exact X).
  unfold embedDBGetVar. rewrite UV. cbn [negb].
  assert (SB : nub (fun '(r, dt) => (r = -1 /\ searchBuffer c (wbuf (sd s)) key = Ok (-1, dt)) \/ 0 <= r < claims (wbuf (sd s)) /\ r < maxRec c)
    (searchBuffer c (wbuf (sd s)) key)).
  { unfold searchBuffer at 2. pose proof (eq_refl (searchBuffer c (wbuf (sd s)) key)) as E0. unfold searchBuffer at 1 in E0.
    destruct (get_count (wbuf (sd s))) as [n| |] eqn:En.
    2,3: pose proof (count_nub c W (wbuf (sd s)) (bf_w _ _ F)) as X; rewrite En in X; cbn in X |- *; tauto.
    cbn [bind] in E0 |- *. destruct (n =? 0); [cbn; left; split; [reflexivity|symmetry; exact E0]|].
    pose proof (node_all (wbuf (sd s)) key (bf_w _ _ F) Cw) as X.
    destruct (embedDBSearchNode c (wbuf (sd s)) key) as [[i|]| |]; cbn [bind] in E0 |- *; [|cbn; left; split; [reflexivity|symmetry; exact E0]|exact X|exact I].
    specialize (X i eq_refl). eapply nub_bind; [apply (data_nub c W); [apply F|lia]|]. intros dt _. cbn. right. rewrite i8_id by lia. lia. }
  eapply nub_bind; [exact SB|]. intros [recNum dt] HR.
  apply (nub_bind (fun '(s', found, _) => forall n, found = Some n -> buffers_fit c s' /\ page_located c (rbuf (sd s')) /\
    0 <= n < claims (rbuf (sd s')) /\ n < maxRec c)).
  - destruct (Z.eqb_spec recNum (-1)) as [E|E]; cbn [negb].
    + destruct HR as [[_ HR]|HR]; [|lia].
      eapply nub_bind; [apply nub_post; [apply (get_nub c W s key (conj F PS) Cw LD)|]|].
      { apply (get_keeps c (page_located c) s key dt); [split; [apply PL|apply PL]|exact HR]. }
      intros [[s1 r] dt1] [[[F1 P1] _] [[K1 _] G]]. cbn [fst] in *.
      destruct (Z.eqb_spec r 0) as [Z0|Z0]; [|cbn; discriminate]. destruct (G Z0) as [i Ei].
      pose proof (ps_r _ _ P1) as PR. unfold page_sane in PR.
      pose proof (node_all (rbuf (sd s1)) key (bf_r _ _ F1) ltac:(lia)) as X. rewrite Ei in X |- *. cbn in X |- *. specialize (X i eq_refl).
      intros n En. injection En as <-. rewrite i8_id by lia. auto.
    + destruct HR as [[HR _]|HR]; [contradiction|].
      eapply nub_bind; [apply (flushVar_nub c W); [exact UV|exact F]|]. intros [s1 r] [F1 [S1 _]]. cbn [fst] in *.
      cbn. intros n En. injection En as <-. unfold readToWriteBuf. cbn. rewrite S1. split; [|split; [apply PL|exact HR]].
      destruct F1. rewrite S1 in *. constructor; cbn; auto.
  - intros [[s1 found] dt1] H. destruct found as [n|]; [|exact I]. destruct (H n eq_refl) as (F1 & P1 & H1 & H2).
    eapply nub_bind; [apply setup_nub; eauto|]. intros [[s2 r] vs] _. exact I.
Qed.
End Var.

(** Termination of every call in every state, and bounds on its storage calls. *)
From Verif Require Import Base Config Spline Storage DB VarData Recovery SpecFlash SpecTerm BaseFacts.
From Coq Require Import Lia ZifyBool.
Open Scope Z_scope.
Ltac Zify.zify_post_hook ::= ZifyBool.elim_bool_cstr.
Ltac Zify.zify_convert_to_euclidean_division_equations_flag ::= constr:(false).

Definition noF {A} (m : res A) : Prop := m <> Fuel.

Lemma noF_Ok A (a : A) : noF (Ok a). Proof. discriminate. Qed.
Lemma noF_UB A : noF (@UB A). Proof. discriminate. Qed.
Lemma noF_bind A B (m : res A) (f : A -> res B) :
  noF m -> (forall a, m = Ok a -> noF (f a)) -> noF (bind m f).
Proof. destruct m as [a| |]; cbn; intros H1 H2; [auto|discriminate|contradiction]. Qed.
Lemma noF_if A (b : bool) (x y : res A) : noF x -> noF y -> noF (if b then x else y).
Proof. destruct b; auto. Qed.

Create HintDb nof.
Global Hint Resolve noF_Ok noF_UB : nof.

(** Split a computation until only known calls are left. *)
Ltac nof1 :=
  match goal with
  | |- noF (Ok _) => apply noF_Ok
  | |- noF UB => apply noF_UB
  | |- noF (bind _ _) => apply noF_bind; [|let a := fresh "a" in let H := fresh "E" in intros a H; cbn beta in *]
  | |- noF (let '_ := ?x in _) => destruct x eqn:?
  | |- noF (if ?b then _ else _) => destruct b eqn:?
  | |- noF (match ?x with _ => _ end) => destruct x eqn:?
  | |- noF _ => solve [eauto with nof]
  end.
Ltac nof := cbv zeta; repeat (nof1; cbv zeta).

Ltac nif := match goal with |- noF (if ?b then _ else _) => destruct b eqn:? end.

Lemma ld_nf p o n : noF (ld p o n). Proof. unfold ld. nof. Qed.
Lemma st_nf p o b : noF (st p o b). Proof. unfold st. nof. Qed.
Global Hint Resolve ld_nf st_nf : nof.
Lemma ldz_nf p o n : noF (ldz p o n). Proof. unfold ldz. nof. Qed.
Global Hint Resolve ldz_nf : nof.
Lemma get_count_nf p : noF (get_count p). Proof. unfold get_count. nof. Qed.
Lemma get_pid_nf p : noF (get_pid p). Proof. unfold get_pid. nof. Qed.
Lemma set_pid_nf p i : noF (set_pid p i). Proof. unfold set_pid. nof. Qed.
Global Hint Resolve get_count_nf get_pid_nf set_pid_nf : nof.
Lemma inc_count_nf p : noF (inc_count p). Proof. unfold inc_count. nof. Qed.
Lemma init_page_nf c : noF (init_page c). Proof. unfold init_page. nof. Qed.
Lemma rec_key_nf c p i : noF (rec_key c p i). Proof. unfold rec_key. nof. Qed.
Lemma rec_data_nf c p i : noF (rec_data c p i). Proof. unfold rec_data. nof. Qed.
Global Hint Resolve inc_count_nf init_page_nf rec_key_nf rec_data_nf : nof.
Lemma min_key_nf c p : noF (min_key c p). Proof. unfold min_key. nof. Qed.
Lemma max_key_nf c p : noF (max_key c p). Proof. unfold max_key. nof. Qed.
Global Hint Resolve min_key_nf max_key_nf : nof.

Lemma writePage_nf c s : noF (writePage c s). Proof. unfold writePage. nof. Qed.
Lemma writeTemp_nf c s : noF (writeTemporaryPage c s). Proof. unfold writeTemporaryPage. nof. Qed.
Lemma shiftRLC_nf c s : noF (shiftRLC c s). Proof. unfold shiftRLC. nof. Qed.
Lemma writeIndex_nf c s : noF (writeIndexPage c s). Proof. unfold writeIndexPage. nof. Qed.
Lemma writeVar_nf c s : noF (writeVariablePage c s). Proof. unfold writeVariablePage. nof. Qed.
Lemma indexPage_nf c s p : noF (indexPage c s p). Proof. unfold indexPage. nof. Qed.
Lemma idx_append_nf c s n : noF (idx_append c s n). Proof. unfold idx_append. nof. Qed.
Global Hint Resolve writePage_nf writeTemp_nf shiftRLC_nf writeIndex_nf writeVar_nf indexPage_nf idx_append_nf : nof.
Lemma put_index_nf c s p : noF (put_index c s p). Proof. unfold put_index. nof. Qed.
Lemma put_maxmin_nf c p n k d : noF (put_maxmin c p n k d). Proof. unfold put_maxmin. nof. Qed.
Lemma put_bitmap_nf c p d : noF (put_bitmap c p d). Proof. unfold put_bitmap. nof. Qed.
Global Hint Resolve put_index_nf put_maxmin_nf put_bitmap_nf : nof.
Lemma put_record_nf c p n k d v : noF (put_record c p n k d v). Proof. unfold put_record. nof. Qed.
Global Hint Resolve put_record_nf : nof.
Lemma put_nf c s k d : noF (embedDBPut c s k d). Proof. unfold embedDBPut. nof. Qed.
Lemma flushVar_nf c s : noF (embedDBFlushVar c s). Proof. unfold embedDBFlushVar. nof. Qed.
Global Hint Resolve put_nf flushVar_nf : nof.
Lemma flush_nf c s : noF (embedDBFlush c s). Proof. unfold embedDBFlush. nof. Qed.

(** Searching a page. *)
Lemma search_nf c p key fuel : forall first last middle,
  0 <= first -> Z.max (last - first + 1) 0 < Z.of_nat fuel ->
  (first <= last -> first <= middle <= last) ->
  noF (search_loop c p key fuel first last middle).
Proof.
  induction fuel as [|f IH]; intros first last middle H0 H1 H2; [lia|].
  cbn [search_loop]. destruct (Z.leb_spec first last); [|apply noF_Ok].
  specialize (H2 H). apply noF_bind; [apply rec_key_nf|]. intros mk _. cbv zeta.
  destruct (_ <? _); [|destruct (_ =? _); [apply noF_Ok|]]; apply IH; try lia; intros Hm.
  - rewrite Z.quot_div_nonneg by lia. split; [apply Z.div_le_lower_bound|apply Z.div_le_upper_bound]; lia.
  - rewrite Z.quot_div_nonneg by lia. split; [apply Z.div_le_lower_bound|apply Z.div_le_upper_bound]; lia.
Qed.
Lemma searchNode_nf c p key : noF (embedDBSearchNode c p key).
Proof.
  unfold embedDBSearchNode. apply noF_bind; [apply get_count_nf|]. intros n _. cbv zeta.
  set (m := i16 (est c p key)). set (cnt := i16 n). clearbody m cnt.
  apply search_nf; [lia|lia|]. intros H. cbn [Z.add].
  destruct ((m >=? cnt) || (m <=? 0)) eqn:E.
  - rewrite Z.quot_div_nonneg by lia.
    assert (0 <= (cnt - 1) / 2) by (apply Z.div_le_lower_bound; lia).
    assert ((cnt - 1) / 2 <= cnt - 1) by (apply Z.div_le_upper_bound; lia).
    destruct (_ >? _); lia.
  - destruct (_ >? _); lia.
Qed.
Global Hint Resolve searchNode_nf : nof.
Lemma searchBuffer_nf c p key : noF (searchBuffer c p key).
Proof. unfold searchBuffer. nof. Qed.
Global Hint Resolve searchBuffer_nf : nof.

(** Reading a page. *)
Definition keeps (s s' : state) : Prop :=
  minD (sd s') = minD (sd s) /\ nextD (sd s') = nextD (sd s) /\ spl (sd s') = spl (sd s) /\
  wbuf (sd s') = wbuf (sd s).
Lemma cam_refl s : calls_at_most 0 s s. Proof. unfold calls_at_most. lia. Qed.
Lemma cam_le a b s t : calls_at_most a s t -> a <= b -> calls_at_most b s t.
Proof. unfold calls_at_most. lia. Qed.
Lemma cam_trans a b s t u : calls_at_most a s t -> calls_at_most b t u -> calls_at_most (a + b) s u.
Proof. unfold calls_at_most. lia. Qed.
Lemma io_read_cam w n o o' r : io_read w n o = (o', r) -> zlen (faults o) <= zlen (faults o') + 1.
Proof.
  unfold io_read, take_fault. destruct (faults o) as [|b l] eqn:E; intros H.
  - injection H as <- _. rewrite E. lia.
  - destruct b; injection H as <- _; cbn [faults]; unfold zlen; cbn [length]; lia.
Qed.
Lemma readPage_cam s n s' r : readPage s n = (s', r) -> calls_at_most 1 s s' /\ keeps s s'.
Proof.
  unfold readPage, keeps, calls_at_most. destruct (_ =? _); [intros H; injection H as <- _; split; auto; lia|].
  destruct (io_read _ _ _) as [o x] eqn:E. apply io_read_cam in E. destruct x; intros H; injection H as <- _; cbn; auto.
Qed.
Lemma readIndexPage_cam s n s' r : readIndexPage s n = (s', r) -> calls_at_most 1 s s' /\ keeps s s'.
Proof.
  unfold readIndexPage, keeps, calls_at_most. destruct (_ =? _); [intros H; injection H as <- _; split; auto; lia|].
  destruct (io_read _ _ _) as [o x] eqn:E. apply io_read_cam in E. destruct x; intros H; injection H as <- _; cbn; auto.
Qed.
Lemma keeps_refl s : keeps s s. Proof. unfold keeps; auto. Qed.
Lemma keeps_trans s t u : keeps s t -> keeps t u -> keeps s u.
Proof. unfold keeps. intros (A & B & C & D) (A' & B' & C' & D'). repeat split; congruence. Qed.

(** A bound for a computation: no fuel is missing, and the storage calls are counted. *)
Definition bounded {A} (n : Z) (s : state) (f : A -> state) (m : res A) : Prop :=
  noF m /\ forall a, m = Ok a -> calls_at_most n s (f a) /\ keeps s (f a).

Lemma linear_bd c key fuel : forall s pageId low high,
  Z.max (high - low + 1) 0 < Z.of_nat fuel ->
  bounded (Z.max 0 (Z.min high (nextD (sd s) - 1) - Z.max low (minD (sd s)) + 1)) s fst
          (linearSearch c s key fuel pageId low high).
Proof.
  induction fuel as [|f IH]; intros s pageId low high H; [lia|]. cbn [linearSearch].
  set (b := Z.max 0 _).
  assert (Z0 : bounded b s fst (Ok (s, -1))).
  { split; [apply noF_Ok|]. intros a [= <-]. split; [|apply keeps_refl]. eapply cam_le; [apply cam_refl|lia]. }
  destruct (_ || _) eqn:E; [exact Z0|].
  destruct (readPage _ _) as [s1 r] eqn:R. apply readPage_cam in R. destruct R as [R K]. pose proof K as K0.
  destruct K0 as (K1 & K2 & _).
  assert (B1 : 1 <= b) by (unfold b; lia).
  assert (Z1 : forall v : Z, bounded b s fst (Ok (s1, v))).
  { intros v. split; [apply noF_Ok|]. intros a [= <-]. split; [|exact K]. eapply cam_le; [exact R|lia]. }
  destruct (negb _); [apply Z1|].
  assert (Step : forall p l h, Z.max (h - l + 1) 0 < Z.of_nat f ->
    Z.max 0 (Z.min h (nextD (sd s) - 1) - Z.max l (minD (sd s)) + 1) <= b - 1 ->
    bounded b s fst (linearSearch c s1 key f p l h)).
  { intros p l h H1 H2. specialize (IH s1 p l h H1). rewrite K1, K2 in IH. destruct IH as [I1 I2]. split; [exact I1|].
    intros a Ha. destruct (I2 a Ha) as [I3 I4]. split; [|eapply keeps_trans; eauto].
    eapply cam_le; [eapply cam_trans; [exact R|exact I3]|lia]. }
  destruct (min_key c (rbuf (sd s1))) as [mk| |] eqn:Em; cbn [bind]; [|split; discriminate|exfalso; exact (min_key_nf _ _ Em)].
  destruct (_ <? 0); [apply Step; unfold b; lia|].
  destruct (max_key c (rbuf (sd s1))) as [xk| |] eqn:Ex; cbn [bind]; [|split; discriminate|exfalso; exact (max_key_nf _ _ Ex)].
  destruct (_ >? 0); [apply Step; unfold b; lia|apply Z1].
Qed.

Lemma bounded_le A m n s (f : A -> state) x : bounded m s f x -> m <= n -> bounded n s f x.
Proof. intros [H1 H2] L. split; [exact H1|]. intros a Ha. destruct (H2 a Ha). split; [eapply cam_le; eauto|auto]. Qed.
Lemma binary_short c key fuel s first last pid : first >= last ->
  bounded 1 s fst (binary_loop c s key (S fuel) first last pid).
Proof.
  intros H. cbn [binary_loop]. destruct (readPage _ _) as [s1 r] eqn:R. apply readPage_cam in R.
  destruct (negb _); [split; [apply noF_Ok|intros a [= <-]; exact R]|].
  destruct (Z.geb_spec first last); [|lia]. split; [apply noF_Ok|intros a [= <-]; exact R].
Qed.
Lemma binary_bd c key (k : nat) : forall fuel s first last,
  (S k < fuel)%nat -> 0 < first -> first < 2 ^ 31 -> last < 2 ^ 31 -> last - first < 2 ^ Z.of_nat k -> 0 <= last ->
  bounded (Z.of_nat k + 1) s fst (binary_loop c s key fuel first last (u32 (first + last) / 2)).
Proof.
  induction k as [|k IH]; intros fuel s first last Hf H0 H1 H2 H3 H4.
  - destruct fuel as [|fuel]; [lia|]. cbn [binary_loop].
    destruct (readPage _ _) as [s1 r] eqn:R. apply readPage_cam in R. destruct R as [R K].
    assert (Z1 : forall v, bounded (Z.of_nat 0 + 1) s fst (@Ok (state * option Z) (s1, v))).
    { intros v. split; [apply noF_Ok|]. intros a [= <-]. split; [exact R|exact K]. }
    destruct (negb _); [apply Z1|]. change (2 ^ Z.of_nat 0) with 1 in H3.
    destruct (Z.geb_spec first last); [apply Z1|lia].
  - destruct fuel as [|fuel]; [lia|]. cbn [binary_loop]. rewrite Nat2Z.inj_succ in *.
    rewrite Z.pow_succ_r in H3 by lia.
    destruct (readPage _ _) as [s1 r] eqn:R. apply readPage_cam in R. destruct R as [R K].
    assert (Z1 : forall v, bounded (Z.succ (Z.of_nat k) + 1) s fst (@Ok (state * option Z) (s1, v))).
    { intros v. split; [apply noF_Ok|]. intros a [= <-]. split; [|exact K]. eapply cam_le; [exact R|lia]. }
    destruct (negb _); [apply Z1|]. destruct (Z.geb_spec first last); [apply Z1|].
    rewrite (u32_id (first + last)) by lia. set (pid := (first + last) / 2).
    assert (P1 : first <= pid) by (apply Z.div_le_lower_bound; lia).
    assert (P2 : 2 * pid <= first + last < 2 * pid + 2).
    { unfold pid. pose proof (Z.div_mod (first + last) 2 ltac:(lia)). pose proof (Z.mod_pos_bound (first + last) 2 ltac:(lia)). lia. }
    clearbody pid.
    assert (Step : forall p l, 0 < p -> p < 2 ^ 31 -> l < 2 ^ 31 -> 0 <= l -> l - p < 2 ^ Z.of_nat k ->
      bounded (Z.succ (Z.of_nat k) + 1) s fst (binary_loop c s1 key fuel p l (u32 (p + l) / 2))).
    { intros p l G1 G2 G3 G4 G5. destruct (IH fuel s1 p l ltac:(lia) G1 G2 G3 G5 G4) as [I1 I2]. split; [exact I1|].
      intros a Ha. destruct (I2 a Ha) as [I3 I4]. split; [|eapply keeps_trans; eauto].
      eapply cam_le; [eapply cam_trans; [exact R|exact I3]|lia]. }
    destruct (min_key c (rbuf (sd s1))) as [mk| |] eqn:Em; cbn [bind]; [|split; discriminate|exfalso; exact (min_key_nf _ _ Em)].
    destruct (_ <? 0); [rewrite u32_id by lia; apply Step; lia|].
    destruct (max_key c (rbuf (sd s1))) as [xk| |] eqn:Ex; cbn [bind]; [|split; discriminate|exfalso; exact (max_key_nf _ _ Ex)].
    destruct (_ >? 0); [rewrite u32_id by lia; apply Step; lia|apply Z1].
Qed.

Lemma bsearch_nf cmp s key fuel : forall low high,
  0 <= low -> Z.max (high - low + 1) 0 < Z.of_nat fuel -> noF (spl_bsearch cmp s fuel low high key).
Proof.
  induction fuel as [|f IH]; intros low high H0 H; [lia|]. cbn [spl_bsearch].
  destruct (Z.geb_spec high low); [|nof].
  assert (M : low <= low + Z.quot (high - low) 2 <= high).
  { rewrite Z.quot_div_nonneg by lia.
    assert (0 <= (high - low) / 2) by (apply Z.div_le_lower_bound; lia).
    assert ((high - low) / 2 <= high - low) by (apply Z.div_le_upper_bound; lia). lia. }
  destruct (_ =? 0); [apply noF_Ok|]. cbv zeta. destruct (_ && _); [apply noF_Ok|].
  destruct (_ >? 0); apply IH; lia.
Qed.
Lemma find_nf cmp sp key : noF (spl_find cmp sp key).
Proof.
  unfold spl_find. cbv zeta. destruct (_ || _) eqn:E; [apply noF_Ok|]. destruct (_ >? 0); [apply noF_Ok|].
  apply noF_bind; [|intros; nof]. apply bsearch_nf; lia.
Qed.
Global Hint Resolve find_nf : nof.

Lemma bounded_bind A B n s (f : A -> state) (g : B -> state) (m : res A) (h : A -> res B) :
  bounded n s f m -> (forall a, m = Ok a -> noF (h a) /\ forall b, h a = Ok b -> g b = f a) ->
  bounded n s g (bind m h).
Proof.
  intros [N C] H. split.
  - apply noF_bind; [exact N|]. intros a E. exact (proj1 (H a E)).
  - intros b E. apply bind_inv in E. destruct E as (a & E1 & E2). rewrite (proj2 (H a E1) b E2). exact (C a E1).
Qed.

Lemma search_bd c s key : numbers_fit c s -> nextD (sd s) <> 0 ->
  bounded (get_reads c s) s fst (if useBinary c then binarySearch c s key else splineSearch c s key).
Proof.
  intros [Np Nm Nn _ Nb] Hn. unfold get_reads. case_eq (useBinary c); intros Eb.
  - specialize (Nb Eb). unfold binarySearch. cbv zeta.
    assert (Hk : exists k : nat, Z.of_nat k = Z.log2 (nextD (sd s) - minD (sd s)) + 1 /\ (k < 33)%nat /\
                  nextD (sd s) - minD (sd s) < 2 ^ Z.of_nat k).
    { pose proof (Z.log2_nonneg (nextD (sd s) - minD (sd s))).
      exists (Z.to_nat (Z.log2 (nextD (sd s) - minD (sd s)) + 1)).
      assert (Z.log2 (nextD (sd s) - minD (sd s)) <= Z.log2 (2 ^ 31)) by (apply Z.log2_le_mono; lia).
      rewrite Z.log2_pow2 in * by lia. split; [lia|]. split; [lia|]. rewrite Z2Nat.id by lia.
      destruct (Z_lt_ge_dec 0 (nextD (sd s) - minD (sd s))).
      - exact (proj2 (Z.log2_spec _ l)).
      - assert (0 < 2 ^ (Z.log2 (nextD (sd s) - minD (sd s)) + 1)) by (apply Z.pow_pos_nonneg; lia). lia. }
    destruct Hk as (k & Hk & Hk2 & Hk3).
    replace (Z.log2 _ + 2) with (Z.of_nat k + 1) by lia.
    destruct (Z_lt_ge_dec (minD (sd s)) (2 ^ 31)) as [Hm|Hm].
    + eapply bounded_bind; [apply (binary_bd c key k); try lia; rewrite u32_id by lia; lia|].
      intros [s1 r] _. cbn beta iota. split; [nof|]. intros b. destruct r; [intros [= <-]; reflexivity|].
      destruct (fallthru c); [intros [= <-]; reflexivity|discriminate].
    + eapply bounded_bind with (f := fst).
      * rewrite (u32_id (nextD (sd s) - 1)) by lia. eapply bounded_le; [apply binary_short; lia|lia].
      * intros [s1 r] _. cbn beta iota. split; [nof|]. intros b. destruct r; [intros [= <-]; reflexivity|].
        destruct (fallthru c); [intros [= <-]; reflexivity|discriminate].
  - unfold splineSearch. destruct (spl (sd s)) as [sp|]; [|split; discriminate].
    destruct (spl_find (cmpK c) sp key) as [[[loc low] high]| |] eqn:Ef; cbn [bind];
      [|split; discriminate|exfalso; exact (find_nf _ _ _ Ef)].
    assert (Z0 : forall v, bounded (Z.max 0 (nextD (sd s) - minD (sd s))) s fst (@Ok (state * Z) (s, v))).
    { intros v. split; [apply noF_Ok|]. intros a [= <-]. split; [|apply keeps_refl]. eapply cam_le; [apply cam_refl|lia]. }
    destruct (_ <? _); [apply Z0|]. destruct (if low <? _ then _ else _) as [loc' low'].
    match goal with |- bounded _ _ _ (bind ?m _) => assert (Nh : noF m) by nof; destruct m as [hit| |]; cbn [bind];
       [|split; discriminate|exfalso; exact (Nh eq_refl)] end.
    destruct hit; [apply Z0|].
    eapply bounded_bind.
    + destruct (linear_bd c key (Z.to_nat (Z.max (high - low') 0 + 3)) s loc' low' high) as [B1 B2]; [lia|].
      split; [exact B1|]. intros a Ha. destruct (B2 a Ha) as [B3 B4]. split; [|exact B4].
      eapply cam_le; [exact B3|]. lia.
    + intros [s1 r] _. cbn beta iota. split; [nof|]. intros b. destruct (_ =? _); intros [= <-]; reflexivity.
Qed.

Definition fst3 {A B C} (x : A * B * C) : A := fst (fst x).
Lemma get_bd c s key : numbers_fit c s -> bounded (get_reads c s) s fst3 (embedDBGet c s key).
Proof.
  intros F. unfold embedDBGet.
  assert (P : 0 <= get_reads c s).
  { unfold get_reads. pose proof (Z.log2_nonneg (nextD (sd s) - minD (sd s))). destruct (useBinary c); lia. }
  assert (Z0 : forall v w, bounded (get_reads c s) s fst3 (@Ok (state * Z * option (list Z)) (s, v, w))).
  { intros v w. split; [apply noF_Ok|]. intros a [= <-]. split; [|apply keeps_refl]. eapply cam_le; [apply cam_refl|lia]. }
  destruct (Z.eqb_spec (nextD (sd s)) 0) as [E|E].
  - destruct (searchBuffer _ _ _) as [[r dt]| |] eqn:Es; cbn [bind]; [apply Z0|split; discriminate|exfalso; exact (searchBuffer_nf _ _ _ Es)].
  - destruct (get_count _) as [n| |] eqn:En; cbn [bind]; [|split; discriminate|exfalso; exact (get_count_nf _ En)].
    match goal with |- bounded _ _ _ (bind ?m _) => assert (Nh : noF m) by nof; destruct m as [hit| |]; cbn [bind];
       [|split; discriminate|exfalso; exact (Nh eq_refl)] end.
    destruct hit as [[r dt]|]; [apply Z0|].
    eapply bounded_bind; [apply search_bd; auto|]. intros [s1 r] _. cbn beta iota. split; [nof|].
    intros b. destruct (negb _); [intros [= <-]; reflexivity|]. intros H. apply bind_inv in H. destruct H as (i & _ & H).
    destruct i; [apply bind_inv in H; destruct H as (dt & _ & H)|]; injection H as <-; reflexivity.
Qed.

(** Scanning. *)
Lemma recs_nf c p n fuel : forall it out, 0 <= itRec it -> n < 2 ^ 16 -> Z.max (n - itRec it) 0 < Z.of_nat fuel ->
  noF (next_recs c p n fuel it out).
Proof.
  induction fuel as [|f IH]; intros it out H0 H1 H2; [lia|]. cbn [next_recs].
  destruct (Z.ltb_spec (itRec it) n); [|apply noF_Ok].
  apply noF_bind; [apply rec_key_nf|]. intros k _. apply noF_bind; [apply rec_data_nf|]. intros dt _. cbv zeta.
  destruct (it_check _ _ _ _); try apply noF_Ok. apply IH; cbn [itRec it_rec]; rewrite ?u16_id by lia; lia.
Qed.
Lemma skip_bd c s it : bounded 1 s fst (next_skip c s it).
Proof.
  assert (Z0 : forall v, bounded 1 s fst (@Ok (state * option bool) (s, v))).
  { intros v. split; [apply noF_Ok|]. intros a [= <-]. split; [|apply keeps_refl]. eapply cam_le; [apply cam_refl|lia]. }
  unfold next_skip. destruct (itBM it); [|apply Z0]. destruct (_ =? _); [|apply Z0]. destruct (_ || _); [split; discriminate|].
  cbv zeta. destruct (_ && _); [|apply Z0]. destruct (readIndexPage _ _) as [s1 r] eqn:R. apply readIndexPage_cam in R.
  destruct (negb _); [split; [apply noF_Ok|intros a [= <-]; exact R]|].
  destruct (ld _ _ _) eqn:El; cbn [bind]; [|split; discriminate|exfalso; exact (ld_nf _ _ _ El)].
  split; [apply noF_Ok|intros b [= <-]; exact R].
Qed.

Definition fst4 {A B C D} (x : A * B * C * D) : A := fst (fst (fst x)).
Lemma count_small p n : get_count p = Ok n -> Forall (fun b => 0 <= b < 256) p -> 0 <= n < 2 ^ 16.
Proof.
  unfold get_count, ldz, ld. destruct (_ && _); cbn [bind]; [|discriminate]. intros [= <-] H.
  assert (B : bytes (rd p (Z.to_nat 4) 2)).
  { unfold bytes, rd. rewrite <- (firstn_skipn (Z.to_nat 4) p) in H. apply Forall_app in H. destruct H as [_ H].
    rewrite <- (firstn_skipn 2 (skipn (Z.to_nat 4) p)) in H. apply Forall_app in H. exact (proj1 H). }
  pose proof (le_dec_range _ B) as R.
  assert (L : zlen (rd p (Z.to_nat 4) 2) <= 2) by (unfold zlen, rd; rewrite firstn_length; lia).
  assert (256 ^ zlen (rd p (Z.to_nat 4) 2) <= 256 ^ 2) by (apply Z.pow_le_mono_r; lia).
  change (Pos.to_nat 4) with (Z.to_nat 4). change (256 ^ 2) with (2 ^ 16) in H0. lia.
Qed.
Lemma io_read_D n o o' r : io_read WD n o = (o', r) ->
  fD o' = fD o /\ (forall p, r = Some p -> file_read (fD o) n = Some p).
Proof.
  unfold io_read, take_fault. destruct (faults o) as [|b l]; [|destruct b]; intros [= <- <-]; cbn; split; auto; discriminate.
Qed.
Lemma readPage_bytes s n s' r : readPage s n = (s', r) -> holds_bytes s -> holds_bytes s'.
Proof.
  unfold readPage. destruct (_ =? _); [intros [= <- _]; auto|]. destruct (io_read _ _ _) as [o x] eqn:E.
  apply io_read_D in E. destruct E as [E1 E2]. intros H (B1 & B2 & B3). destruct x; injection H as <- _; unfold holds_bytes; cbn;
  rewrite E1; repeat split; eauto.
Qed.
Lemma skip_bytes c s it a : next_skip c s it = Ok a -> holds_bytes s -> holds_bytes (fst a).
Proof.
  unfold next_skip. destruct (itBM it); [|intros [= <-]; auto]. destruct (_ =? _); [|intros [= <-]; auto].
  destruct (_ || _); [discriminate|]. cbv zeta. destruct (_ && _); [|intros [= <-]; auto].
  assert (R : forall n s1 r, readIndexPage s n = (s1, r) -> holds_bytes s -> holds_bytes s1).
  { intros n s1 r. unfold readIndexPage. destruct (_ =? _); [intros [= <- _]; auto|]. unfold io_read, take_fault.
    destruct (faults (sio s)) as [|b l0]; [|destruct b]; cbn [fst snd];
    try (destruct (file_read _ _)); intros [= <- _]; unfold holds_bytes; cbn; auto. }
  destruct (readIndexPage _ _) as [s1 r] eqn:E. intros H B. specialize (R _ _ _ E B).
  destruct (negb _); [injection H as <-; exact R|]. apply bind_inv in H. destruct H as (x & _ & H). injection H as <-. exact R.
Qed.

Lemma loop_bd c fuel : forall s sw it out, holds_bytes s -> 0 <= itPage it -> 0 <= itRec it -> nextD (sd s) < 2 ^ 31 ->
  Z.max (nextD (sd s) - itPage it + 1) 0 < Z.of_nat fuel ->
  bounded (2 * Z.max (nextD (sd s) - itPage it + 1) 0) s fst4 (next_loop c s fuel sw it out).
Proof.
  induction fuel as [|f IH]; intros s sw it out B P Q N H; [lia|]. cbn [next_loop].
  set (b := 2 * Z.max _ _).
  destruct (Z.gtb_spec (itPage it) (nextD (sd s))) as [G|G].
  { split; [apply noF_Ok|]. intros a [= <-]. split; [|apply keeps_refl]. eapply cam_le; [apply cam_refl|lia]. }
  set (sw' := if itPage it =? nextD (sd s) then true else sw).
  destruct (skip_bd c s it) as [S1 S2].
  destruct (next_skip c s it) as [[s1 sk]| |] eqn:Es; cbn [bind]; [|split; discriminate|exfalso; exact (S1 eq_refl)].
  destruct (S2 _ eq_refl) as [S3 S4]. cbn [fst] in *. pose proof (skip_bytes _ _ _ _ Es B) as B1. cbn [fst] in B1.
  assert (Step : forall n t p r sw o, (n = 1 \/ n = 2) -> calls_at_most n s t -> keeps s t -> holds_bytes t ->
    p = itPage it + 1 -> 0 <= r -> bounded b s fst4 (next_loop c t f sw (it_page it p r) o)).
  { intros n t p r sw0 o0 Hn C K Bt -> Hr. pose proof K as (_ & K2 & _).
    destruct (IH t sw0 (it_page it (itPage it + 1) r) o0) as [I1 I2]; auto; cbn [itPage itRec it_page]; try lia.
    split; [exact I1|]. intros a Ha. destruct (I2 a Ha) as [I3 I4]. split; [|eapply keeps_trans; eauto].
    cbn [itPage it_page] in I3. eapply cam_le; [eapply cam_trans; [exact C|exact I3]|]. unfold b. rewrite K2. lia. }
  assert (Fin : forall n t x y z, (n = 1 \/ n = 2) -> calls_at_most n s t -> keeps s t ->
    bounded b s fst4 (@Ok (state * iter * Z * option (Z * list Z)) (t, x, y, z))).
  { intros n t x y z Hn C K. split; [apply noF_Ok|]. intros a [= <-]. split; [|exact K]. eapply cam_le; [exact C|]. unfold b. lia. }
  destruct sk as [[|]|].
  - rewrite u32_id by lia. eapply (Step 1); eauto.
  - assert (R : exists s2 r, (if sw' then (s1, 0) else readPage s1 (itPage it mod numData c)) = (s2, r) /\
              calls_at_most 2 s s2 /\ keeps s s2 /\ holds_bytes s2).
    { destruct sw'.
      - exists s1, 0. split; [reflexivity|]. split; [eapply cam_le; [exact S3|lia]|auto].
      - destruct (readPage _ _) as [s2 r] eqn:R. exists s2, r. split; [reflexivity|].
        pose proof (readPage_bytes _ _ _ _ R B1). apply readPage_cam in R. destruct R as [R1 R2].
        split; [exact (cam_trans 1 1 _ _ _ S3 R1)|]. split; [eapply keeps_trans; eauto|auto]. }
    destruct R as (s2 & r & -> & R1 & R2 & R3). destruct (negb _); [eapply (Fin 2); eauto|].
    set (p := if sw' then _ else _).
    assert (Bp : Forall (fun b => 0 <= b < 256) p) by (destruct R3 as (? & ? & _); unfold p; destruct sw'; auto).
    destruct (get_count p) as [n| |] eqn:En; cbn [bind]; [|split; discriminate|exfalso; exact (get_count_nf _ En)].
    pose proof (count_small _ _ En Bp) as Cn.
    assert (Nr : noF (next_recs c p n (Z.to_nat (n + 1)) it out)) by (apply recs_nf; lia).
    destruct (next_recs c p n (Z.to_nat (n + 1)) it out) as [[[it' rr] o]| |] eqn:Er; cbn [bind];
      [|split; discriminate|exfalso; exact (Nr eq_refl)].
    destruct rr; [eapply (Fin 2); eauto|].
    assert (Ei : forall r', it_page it' (u32 (itPage it' + 1)) r' = it_page it (itPage it + 1) r').
    { intros r'. assert (X : forall fu it1 o1, next_recs c p n fu it1 o1 = Ok (it', None, o) ->
        itPage it' = itPage it1 /\ itMinK it' = itMinK it1 /\ itMaxK it' = itMaxK it1 /\ itMinD it' = itMinD it1 /\
        itMaxD it' = itMaxD it1 /\ itBM it' = itBM it1).
      { clear. induction fu as [|fu IHf]; intros it1 o1; cbn [next_recs]; [discriminate|].
        destruct (_ <? _); [|intros [= <- _]; auto 6].
        intros H. apply bind_inv in H. destruct H as (k & _ & H). apply bind_inv in H. destruct H as (dt & _ & H).
        destruct (it_check _ _ _ _); try discriminate. apply IHf in H. exact H. }
      destruct (X _ _ _ Er) as (X1 & X2 & X3 & X4 & X5 & X6). unfold it_page. rewrite X1, X2, X3, X4, X5, X6, u32_id by lia. reflexivity. }
    rewrite Ei. eapply (Step 2); eauto. lia.
  - eapply (Fin 1); eauto.
Qed.
Lemma next_bd c s it : numbers_fit c s -> 0 <= itPage it -> 0 <= itRec it ->
  bounded (2 * Z.max (nextD (sd s) - itPage it + 1) 0) s fst4 (embedDBNext c s it).
Proof. intros [Np Nm Nn Nb _] P Q. unfold embedDBNext. apply loop_bd; auto; lia. Qed.

(** Variable data. *)
Lemma var_set_key_nf c s k : noF (var_set_key c s k). Proof. unfold var_set_key. nof. Qed.
Global Hint Resolve var_set_key_nf : nof.
Lemma var_roll_nf c s k : noF (var_roll c s k). Proof. unfold var_roll. nof. Qed.
Global Hint Resolve var_roll_nf : nof.
Lemma putvar_loop_nf c key (Hp : 0 < pageSize c < 2 ^ 16) fuel : forall s bs, (length bs < fuel)%nat ->
  noF (putvar_loop c s key fuel bs).
Proof.
  induction fuel as [|f IH]; intros s bs H; [lia|]. cbn [putvar_loop].
  destruct (Z.gtb_spec (zlen bs) 0) as [G|G]; [|apply noF_Ok]. cbv zeta.
  pose proof (Z.mod_pos_bound (curVarLoc (sv s)) (pageSize c) ltac:(lia)) as M.
  assert (A : 0 < u16 (Z.min (pageSize c - curVarLoc (sv s) mod pageSize c) (zlen bs))) by (rewrite u16_id; lia).
  set (amt := u16 _) in *. clearbody amt.
  apply noF_bind; [apply st_nf|]. intros w _. apply noF_bind; [nof|]. intros s1 _. apply IH.
  rewrite skipn_length. unfold zlen in G. lia.
Qed.
Lemma putVar_nf c s k d v : 0 < pageSize c < 2 ^ 16 -> noF (embedDBPutVar c s k d v).
Proof.
  intros Hp. unfold embedDBPutVar. pose proof (fun s bs => putvar_loop_nf c k Hp (S (length bs)) s bs ltac:(lia)).
  nof.
Qed.
Lemma setup_nf c s k n : noF (setupVarDataStream c s k n). Proof. unfold setupVarDataStream. nof. Qed.
Global Hint Resolve setup_nf : nof.
Lemma getVar_nf c s k : numbers_fit c s -> noF (embedDBGetVar c s k).
Proof.
  intros F. unfold embedDBGetVar. pose proof (proj1 (get_bd c s k F)). nof.
Qed.
Lemma nextVar_nf c s it : numbers_fit c s -> 0 <= itPage it -> 0 <= itRec it -> noF (embedDBNextVar c s it).
Proof.
  intros F P Q. unfold embedDBNextVar. pose proof (proj1 (next_bd c s it F P Q)). nof.
Qed.
Lemma stream_nf c (Hp : 0 < pageSize c < 2 ^ 16) fuel : forall s t pg len acc, Z.max len 0 < Z.of_nat fuel ->
  noF (stream_loop c s fuel t pg len acc).
Proof.
  induction fuel as [|f IH]; intros s t pg len acc H; [lia|]. cbn [stream_loop].
  destruct (_ && _) eqn:E; [|apply noF_Ok]. cbv zeta.
  pose proof (Z.mod_pos_bound (fileOffset t) (pageSize c) ltac:(lia)) as M.
  rewrite (u16_id (fileOffset t mod pageSize c)) by lia.
  set (amt := Z.min _ _). assert (0 < amt) by (unfold amt; lia). clearbody amt.
  apply noF_bind; [apply ld_nf|]. intros bs _. nif.
  - destruct (readVariablePage _ _). destruct (negb _); [apply noF_Ok|]. apply IH. lia.
  - apply IH. lia.
Qed.
Lemma read_nf c s t n : 0 < pageSize c < 2 ^ 16 -> 0 <= n -> noF (embedDBVarDataStreamRead c s t n).
Proof.
  intros Hp Hn. unfold embedDBVarDataStreamRead. destruct (_ =? 0); [apply noF_UB|]. cbv zeta.
  destruct (readVariablePage _ _). destruct (negb _); [apply noF_Ok|]. apply (stream_nf c Hp). lia.
Qed.

Lemma every_call_terminates c s o : numbers_fit c s -> args_unsigned o -> call_step c s o <> Fuel.
Proof.
  intros F A. change (noF (call_step c s o)). pose proof (nf_page _ _ F) as Hp.
  destruct o; cbn [call_step args_unsigned] in *.
  - nof.
  - pose proof (putVar_nf c s k d v Hp). nof.
  - pose proof (flush_nf c s). nof.
  - nof.
  - pose proof (proj1 (get_bd c s k F)). nof.
  - pose proof (getVar_nf c s k F). nof.
  - destruct A. pose proof (proj1 (next_bd c s it F H H0)). nof.
  - destruct A. pose proof (nextVar_nf c s it F H H0). nof.
  - pose proof (read_nf c s t n Hp A). nof.
Qed.

(** Opening. *)
Lemma hdr_nf c p n : noF (hdr_ok c p n). Proof. unfold hdr_ok. nof. Qed.
Global Hint Resolve hdr_nf : nof.
Lemma rec_first_nf c n : forall s more count, noF (rec_first c s more n count).
Proof.
  induction n as [|n IH]; intros; cbn [rec_first]; nof.
Qed.
Global Hint Resolve rec_first_nf : nof.
Lemma rec_first_count c n (He : 0 <= eraseSize c) : forall s more count a, 0 <= count ->
  rec_first c s more n count = Ok a -> 0 <= snd (fst a).
Proof.
  induction n as [|n IH]; intros s more count a H; cbn [rec_first]; [intros [= <-]; exact H|].
  destruct more; [|intros [= <-]; exact H]. intros E. apply bind_inv in E. destruct E as ([id ok] & _ & E).
  destruct ok; destruct (readPage _ _); [injection E as <-; cbn; lia|]. apply IH in E; [exact E|lia].
Qed.
Lemma rec_scan_nf c fuel : forall s more count mx, Z.max (numData c - count) 0 < Z.of_nat fuel ->
  noF (rec_scan c s fuel more count mx).
Proof.
  induction fuel as [|f IH]; intros s more count mx H; [lia|]. cbn [rec_scan]. destruct (_ && _) eqn:E; [|apply noF_Ok].
  apply noF_bind; [apply get_pid_nf|]. intros id _. nif; [|apply noF_Ok]. destruct (readPage _ _). apply IH. lia.
Qed.
Lemma spline_nf c n : forall s pg, noF (spline_from_file c s n pg).
Proof. induction n as [|n IH]; intros; cbn [spline_from_file]; nof. Qed.
Global Hint Resolve spline_nf : nof.
Lemma rec_finish_nf c s a b d : noF (rec_finish c s a b d). Proof. unfold rec_finish. nof. Qed.
Global Hint Resolve rec_finish_nf : nof.
Lemma rlc_scan_nf c n : forall s more phys idx want perm best, noF (rlc_scan c s n more phys idx want perm best).
Proof. induction n as [|n IH]; intros; cbn [rlc_scan]; nof. Qed.
Global Hint Resolve rlc_scan_nf : nof.
Lemma initData_nf c s f : 0 <= eraseSize c -> 0 <= numData c -> noF (initData c s f).
Proof.
  intros He Hn. unfold initData. cbv zeta. destruct (useReset c); [apply noF_Ok|]. destruct (open_r f); [|apply noF_Ok].
  destruct (useRLC c).
  - unfold initDataFromFileRLC. destruct (readPage _ _). apply noF_bind; [apply rec_first_nf|].
    intros [[[s1 more] count] found] E. apply (rec_first_count c 4 He) in E; [|lia]. cbn [fst snd] in E.
    apply noF_bind.
    + destruct found; [|apply noF_Ok]. apply noF_bind; [apply rec_scan_nf; lia|intros; nof].
    + intros; nof.
  - unfold initDataFromFile. destruct (readPage _ _). apply noF_bind; [apply rec_first_nf|].
    intros [[[s1 more] count] found] E. apply (rec_first_count c 2 He) in E; [|lia]. cbn [fst snd] in E.
    destruct found; [|apply noF_Ok]. apply noF_bind; [apply rec_scan_nf; lia|intros; nof].
Qed.
Lemma idx_scan_nf c fuel : forall s more count mx, Z.max (numIndex c - count) 0 < Z.of_nat fuel ->
  noF (idx_scan c s fuel more count mx).
Proof.
  induction fuel as [|f IH]; intros s more count mx H; [lia|]. cbn [idx_scan]. destruct (_ && _) eqn:E; [|apply noF_Ok].
  apply noF_bind; [apply get_pid_nf|]. intros id _. nif; [|apply noF_Ok]. destruct (readIndexPage _ _). apply IH. lia.
Qed.
Lemma initIndex_nf c s f : 0 <= numIndex c -> noF (initIndex c s f).
Proof.
  intros H. unfold initIndex, initIndexFromFile.
  pose proof (fun s b => idx_scan_nf c (Z.to_nat (numIndex c + 1)) s b 0 0 ltac:(lia)). nof.
Qed.
Lemma var_scan_nf c fuel : forall s more count mx, Z.max (numVar c - count) 0 < Z.of_nat fuel ->
  noF (var_scan c s fuel more count mx).
Proof.
  induction fuel as [|f IH]; intros s more count mx H; [lia|]. cbn [var_scan]. destruct (_ && _) eqn:E; [|apply noF_Ok].
  apply noF_bind; [apply get_pid_nf|]. intros id _. nif; [|apply noF_Ok]. destruct (readVariablePage _ _). apply IH. lia.
Qed.
(** Only page 0 can be passed over without counting a block. *)
Lemma var_first_nf c (He : 0 < eraseSize c) fuel : forall s more i count, 0 <= i -> 0 <= count ->
  (if count =? 0 then 3 else 2) - i < Z.of_nat fuel -> (0 < fuel)%nat ->
  noF (var_first c s fuel more i count).
Proof.
  induction fuel as [|f IH]; intros s more i count H0 H1 H2 H3; [lia|]. cbn [var_first].
  destruct (_ && _) eqn:E; [|apply noF_Ok]. apply noF_bind; [apply get_pid_nf|]. intros id _.
  destruct (Z.eqb_spec (numVar c) 0) as [|Hv]; [apply noF_UB|].
  destruct (Z.eqb_spec (id mod numVar c) count) as [Ei|Ei].
  - apply noF_bind; [apply ldz_nf|]. intros k _. destruct (readVariablePage _ _). match goal with |- noF (if ?b then _ else _) => destruct b eqn:Eo end; [apply noF_Ok|].
    assert (id = 0) by lia. subst id. rewrite Z.mod_0_l in Ei by exact Hv. subst count. cbn [Z.eqb] in H2.
    change (0 + 1) with 1. apply IH; try lia. change (1 =? 0) with false. cbn iota. lia.
  - cbv zeta. destruct (readVariablePage _ _).
    pose proof (Z.mod_pos_bound count (eraseSize c) He).
    apply IH; try lia.
    + destruct (Z.eqb_spec (count + (eraseSize c - count mod eraseSize c)) 0); [lia|].
      destruct (count =? 0); lia.
    + destruct (count =? 0); lia.
Qed.
Lemma var_first_count c (He : 0 < eraseSize c) fuel : forall s more i count a, 0 <= count ->
  var_first c s fuel more i count = Ok a -> 0 <= snd (fst a).
Proof.
  induction fuel as [|n IH]; intros s more i count a H; cbn [var_first]; [discriminate|].
  destruct (_ && _); [|intros [= <-]; exact H]. intros E. apply bind_inv in E. destruct E as (id & _ & E).
  destruct (_ =? 0); [discriminate|]. destruct (_ =? _).
  - apply bind_inv in E. destruct E as (k & _ & E). destruct (readVariablePage _ _). destruct (_ || _).
    + injection E as <-. cbn. lia.
    + apply IH in E; [exact E|lia].
  - cbv zeta in E. destruct (readVariablePage _ _). pose proof (Z.mod_pos_bound count (eraseSize c) He).
    apply IH in E; [exact E|lia].
Qed.
Lemma var_finish_nf c s a b : noF (var_finish c s a b). Proof. unfold var_finish. nof. Qed.
Global Hint Resolve var_finish_nf : nof.
Lemma initVar_nf c s f : 0 < eraseSize c -> 0 <= numVar c -> noF (initVarData c s f).
Proof.
  intros He Hn. unfold initVarData, initVarDataFromFile. cbv zeta.
  match goal with |- noF (match ?x with _ => _ end) => destruct x end; [|apply noF_Ok].
  destruct (readVariablePage _ _). apply noF_bind; [apply (var_first_nf c He); try lia; cbn; lia|].
  intros [[[s1 more] count] found] E. apply (var_first_count c He) in E; [|lia]. cbn [fst snd] in E.
  destruct found; [|apply noF_Ok]. apply noF_bind; [apply var_scan_nf; lia|intros; nof].
Qed.
Lemma init_terminates c k fs : 0 <= eraseSize c -> 0 <= numData c -> 0 <= numIndex c -> 0 <= numVar c ->
  embedDBInit c k fs <> Fuel.
Proof.
  intros He Hd Hi Hv. change (noF (embedDBInit c k fs)). unfold embedDBInit. cbv zeta.
  destruct (_ >? 8); [apply noF_Ok|]. destruct (Z.eqb_spec (eraseSize c) 0); [apply noF_UB|].
  pose proof (fun s f => initData_nf c s f He Hd). pose proof (fun s f => initIndex_nf c s f Hi).
  pose proof (fun s f => initVar_nf c s f ltac:(lia) Hv). nof.
Qed.

Lemma get_calls c s key s' r d : numbers_fit c s -> embedDBGet c s key = Ok (s', r, d) -> calls_at_most (get_reads c s) s s'.
Proof. intros F E. exact (proj1 (proj2 (get_bd c s key F) _ E)). Qed.
Lemma next_calls c s it s' it' r o : numbers_fit c s -> 0 <= itPage it -> 0 <= itRec it ->
  embedDBNext c s it = Ok (s', it', r, o) -> calls_at_most (2 * Z.max (nextD (sd s) - itPage it + 1) 0) s s'.
Proof. intros F P Q E. exact (proj1 (proj2 (next_bd c s it F P Q) _ E)). Qed.

(** The number of storage calls of a put and of a flush is constant. *)
Lemma io_write_cam c w n p o o' r : io_write c w n p o = (o', r) -> zlen (faults o) <= zlen (faults o') + 1.
Proof.
  unfold io_write, take_fault. destruct (faults o) as [|b l] eqn:E; intros H.
  - injection H as <- _. destruct w; cbn [putF faults]; rewrite ?E; lia.
  - destruct b; injection H as <- _; [|destruct w]; cbn [putF faults]; unfold zlen; cbn [length]; lia.
Qed.
Lemma io_erase_cam c w a b o o' r : io_erase c w a b o = (o', r) -> zlen (faults o) <= zlen (faults o') + 1.
Proof.
  unfold io_erase, take_fault. destruct (faults o) as [|x l] eqn:E; intros H.
  - injection H as <- _. destruct w; cbn [putF faults]; rewrite ?E; lia.
  - destruct x; injection H as <- _; [|destruct w]; cbn [putF faults]; unfold zlen; cbn [length]; lia.
Qed.
Lemma shift_erase_cam c n : forall st o o' r, shift_erase c n st o = (o', r) -> zlen (faults o) <= zlen (faults o') + Z.of_nat n.
Proof.
  induction n as [|n IH]; intros st o o' r; cbn [shift_erase]; [intros [= <- _]; lia|].
  destruct (io_erase _ _ _ _ _) as [o1 ok] eqn:E. apply io_erase_cam in E. destruct ok.
  - intros H. apply IH in H. lia.
  - intros [= <- _]. lia.
Qed.
Lemma readVar_cam s n s' r : readVariablePage s n = (s', r) -> zlen (faults (sio s)) <= zlen (faults (sio s')) + 1.
Proof.
  unfold readVariablePage. destruct (_ =? _); [intros H; injection H as <- _; lia|].
  destruct (io_read _ _ _) as [o x] eqn:E. apply io_read_cam in E. destruct x; intros H; injection H as <- _; cbn; auto.
Qed.

(** Inverting a successful computation. *)
Ltac inv1 :=
  match goal with
  | H : Ok _ = Ok _ |- _ => injection H; clear H; intros; subst
  | H : UB = Ok _ |- _ => discriminate H
  | H : bind _ _ = Ok _ |- _ => let a := fresh "a" in let E := fresh "E" in
      apply bind_inv in H; destruct H as (a & E & H); cbv beta in E, H
  | H : (let x := _ in _) = Ok _ |- _ => cbv zeta in H
  | H : (match ?x with _ => _ end) = Ok _ |- _ => destruct x eqn:?; try discriminate H
  end.
Ltac inv H := repeat inv1.
Definition cnt (s : state) : Z := zlen (faults (sio s)).
Ltac cams :=
  repeat match goal with
  | H : io_write _ _ _ _ _ = _ |- _ => apply io_write_cam in H
  | H : io_erase _ _ _ _ _ = _ |- _ => apply io_erase_cam in H
  | H : shift_erase _ _ _ _ = _ |- _ => apply shift_erase_cam in H
  | H : readVariablePage _ _ = _ |- _ => apply readVar_cam in H
  | H : readPage _ _ = _ |- _ => apply readPage_cam in H; destruct H as [H _]; unfold calls_at_most in H
  | H : (_, _) = (_, _) |- _ => injection H; clear H; intros; subst
  | H : (if ?b then _ else _) = (_, _) |- _ => destruct b eqn:?
  | H : (let '_ := ?x in _) = (_, _) |- _ => destruct x eqn:?
  end;
  unfold cnt in *; cbn [sio set_io set_d set_i set_v fst snd] in *; try lia.
Ltac cam_inv H := inv H; cams.
Lemma writePage_cam c s s' r : writePage c s = Ok (s', r) -> cnt s <= cnt s' + 2.
Proof. unfold writePage. intros H. cam_inv H. Qed.
Lemma writeTemp_cam c s s' r : writeTemporaryPage c s = Ok (s', r) -> cnt s <= cnt s' + 2.
Proof.
  unfold writeTemporaryPage. intros H. apply bind_inv in H. destruct H as (w & _ & H). cbv zeta in H.
  match type of H with context [set_io ?a (fst ?x)] => destruct x as [oe be] eqn:Ee end. cbn [fst] in H.
  apply io_erase_cam in Ee. inv H; cams; destruct (_ =? 1); cams.
Qed.
Lemma shiftRLC_cam c s s' r : shiftRLC c s = Ok (s', r) -> cnt s <= cnt s' + 3.
Proof.
  unfold shiftRLC. intros H. cbv zeta in H. destruct (shift_erase _ _ _ _) as [o ok] eqn:E. apply shift_erase_cam in E.
  assert (zlen (faults (sio s)) <= zlen (faults o) + 3) by (destruct (_ =? _) in E; lia). clear E.
  cam_inv H.
Qed.
Lemma writeIndex_cam c s s' r : writeIndexPage c s = Ok (s', r) -> cnt s <= cnt s' + 2.
Proof. unfold writeIndexPage. intros H. cam_inv H. Qed.
Lemma writeVar_cam c s s' r : writeVariablePage c s = Ok (s', r) -> cnt s <= cnt s' + 3.
Proof. unfold writeVariablePage. intros H. cam_inv H. Qed.
Lemma indexPage_cam c s n s' : indexPage c s n = Ok s' -> cnt s' = cnt s.
Proof. unfold indexPage. intros H. cam_inv H; reflexivity. Qed.
Lemma idx_append_cam c s n s' : idx_append c s n = Ok s' -> cnt s' = cnt s.
Proof. unfold idx_append. intros H. cam_inv H; reflexivity. Qed.
Lemma put_index_cam c s n s' : put_index c s n = Ok s' -> cnt s <= cnt s' + 2.
Proof.
  unfold put_index. intros H. inv H; cams;
  repeat match goal with E : idx_append _ _ _ = Ok _ |- _ => apply idx_append_cam in E | E : writeIndexPage _ _ = Ok _ |- _ => apply writeIndex_cam in E end; cams.
Qed.
Ltac more_cams :=
  repeat match goal with
  | E : idx_append _ _ _ = Ok _ |- _ => apply idx_append_cam in E
  | E : writeIndexPage _ _ = Ok _ |- _ => apply writeIndex_cam in E
  | E : put_index _ _ _ = Ok _ |- _ => apply put_index_cam in E
  | E : indexPage _ _ _ = Ok _ |- _ => apply indexPage_cam in E
  | E : writePage _ _ = Ok _ |- _ => apply writePage_cam in E
  | E : writeVariablePage _ _ = Ok _ |- _ => apply writeVar_cam in E
  | E : shiftRLC _ _ = Ok _ |- _ => apply shiftRLC_cam in E
  | E : writeTemporaryPage _ _ = Ok _ |- _ => apply writeTemp_cam in E
  end; cams.
Lemma put_cam c s k d s' r : embedDBPut c s k d = Ok (s', r) -> cnt s <= cnt s' + (if useRLC c then 10 else 5).
Proof. unfold embedDBPut. intros H. inv H; more_cams; destruct (useRLC c); lia. Qed.
Lemma flushVar_cam c s s' r : embedDBFlushVar c s = Ok (s', r) -> cnt s <= cnt s' + 3.
Proof. unfold embedDBFlushVar. intros H. inv H; more_cams. Qed.
Lemma flush_cam c s s' r : embedDBFlush c s = Ok (s', r) -> cnt s <= cnt s' + 7.
Proof.
  unfold embedDBFlush. intros H. inv H; repeat match goal with E : embedDBFlushVar _ _ = Ok _ |- _ => apply flushVar_cam in E end; more_cams.
Qed.

Lemma put_calls c s k d s' r : embedDBPut c s k d = Ok (s', r) -> calls_at_most (if useRLC c then 10 else 5) s s'.
Proof. exact (put_cam c s k d s' r). Qed.
Lemma flush_calls c s s' r : embedDBFlush c s = Ok (s', r) -> calls_at_most 7 s s'.
Proof. exact (flush_cam c s s' r). Qed.

(** Checking the hypothesis on a concrete state. *)
Definition byteb (b : Z) : bool := (0 <=? b) && (b <? 256).
Definition holds_bytesb (s : state) : bool :=
  forallb byteb (wbuf (sd s)) && forallb byteb (rbuf (sd s)) &&
  forallb (fun i => forallb byteb (fpg (fD (sio s)) (Z.of_nat i))) (seq 0 (Z.to_nat (flen (fD (sio s))))).
Lemma holds_bytes_check s : holds_bytesb s = true -> holds_bytes s.
Proof.
  assert (B : forall l, forallb byteb l = true -> Forall (fun b => 0 <= b < 256) l).
  { intros l H. apply Forall_forall. intros x Hx. rewrite forallb_forall in H. specialize (H x Hx). unfold byteb in H. lia. }
  unfold holds_bytesb. intros H. apply andb_prop in H as [H H3]. apply andb_prop in H as [H1 H2]. split; [auto|]. split; [auto|].
  intros n p. unfold file_read. destruct (_ && _) eqn:E; [|discriminate]. intros [= <-]. apply B.
  rewrite forallb_forall in H3. specialize (H3 (Z.to_nat n)). rewrite Z2Nat.id in H3 by lia. apply H3. apply in_seq. lia.
Qed.
Definition numbers_fitb (c : cfg) (s : state) : bool :=
  (0 <? pageSize c) && (pageSize c <? 2 ^ 16) && (0 <=? minD (sd s)) && (0 <=? nextD (sd s)) && (nextD (sd s) <? 2 ^ 31) &&
  holds_bytesb s && (negb (useBinary c) || (0 <? minD (sd s))).
Lemma numbers_fit_check c s : numbers_fitb c s = true -> numbers_fit c s.
Proof.
  unfold numbers_fitb. intros H. repeat (apply andb_prop in H as [H ?]). apply holds_bytes_check in H1.
  constructor; [lia|lia|lia|exact H1|]. intros E. rewrite E in H0. cbn in H0. lia.
Qed.

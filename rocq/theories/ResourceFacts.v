(** Lemmas for C43: ownership of blocks through programs of client calls. *)
From Verif Require Import Base Config Spline Storage DB VarData Recovery Run Resource SpecResource.
From Coq Require Import Lia Permutation.
Open Scope Z_scope.

(** [m] is [m0] and the blocks of [L], all made after [m0]. *)
Definition holds (m0 m : rmem) (L : list (nat * blk)) : Prop :=
  NoDup (map fst L) /\ (r_next m0 <= r_next m)%nat /\
  (forall b o, In (b, o) L -> (r_next m0 <= b < r_next m)%nat /\ r_blk m b = Some o) /\
  (forall b, ~ In b (map fst L) -> r_blk m b = r_blk m0 b).

Lemma holds_perm : forall m0 m L L', Permutation L L' -> holds m0 m L -> holds m0 m L'.
Proof.
  intros m0 m L L' P (A & B & C & D).
  repeat split; try (apply (C b o); eapply Permutation_in; [apply Permutation_sym, P | exact H]).
  - eapply Permutation_NoDup; [apply Permutation_map, P | exact A].
  - exact B.
  - intros b H. apply D. intro H'. apply H. eapply Permutation_in; [apply Permutation_map, P | exact H'].
Qed.

Lemma holds_load : forall m0 m L b o, holds m0 m L -> In (b, o) L -> rload m (At b) = Ok o.
Proof. intros m0 m L b o (_ & _ & C & _) H. cbn. destruct (C b o H) as (_ & E). rewrite E. reflexivity. Qed.

Lemma holds_new : forall m0 m L o m' p, holds m0 m L -> rnew m o = (m', p) ->
  exists b, p = At b /\ holds m0 m' ((b, o) :: L) /\ r_fail m' = r_fail m.
Proof.
  intros m0 m L o m' p (A & B & C & D) E. unfold rnew in E. inversion E; subst m' p; clear E.
  exists (r_next m). split; [reflexivity|]. split; [|reflexivity].
  assert (N : ~ In (r_next m) (map fst L)).
  { intro H. apply in_map_iff in H. destruct H as ((b & o') & E & H). cbn in E. subst b.
    destruct (C _ _ H) as (H' & _). lia. }
  unfold rset. cbn. repeat split.
  - cbn. constructor; assumption.
  - cbn. lia.
  - destruct H as [H | H]; [inversion H; subst; exact B | apply C in H; lia].
  - cbn. destruct H as [H | H]; [inversion H; subst; lia | apply C in H; lia].
  - cbn. destruct H as [H | H].
    + inversion H; subst. rewrite Nat.eqb_refl. reflexivity.
    + destruct (C _ _ H) as (H1 & H2). destruct (Nat.eqb_spec b (r_next m)); [lia | exact H2].
  - cbn. intros b H. destruct (Nat.eqb_spec b (r_next m)); [exfalso; apply H; left; lia |].
    apply D. intro; apply H; right; assumption.
Qed.

Lemma holds_free : forall m0 m L b o, (forall b, (r_next m0 <= b)%nat -> r_blk m0 b = None) ->
  holds m0 m ((b, o) :: L) -> holds m0 (rset m b None) L /\ r_fail (rset m b None) = r_fail m.
Proof.
  intros m0 m L b o F (A & B & C & D). split; [|reflexivity]. cbn in A. inversion A as [|? ? A1 A2]; subst.
  unfold rset. repeat split; cbn.
  - exact A2.
  - exact B.
  - apply (C b0 o0). right; assumption.
  - apply (C b0 o0). right; assumption.
  - destruct (Nat.eqb_spec b0 b) as [->|N].
    + exfalso. apply A1. apply in_map_iff. exists (b, o0). split; [reflexivity | assumption].
    + apply (C b0 o0). right; assumption.
  - intros b' H. destruct (Nat.eqb_spec b' b) as [->|N].
    + symmetry. apply F. apply (C b o). left; reflexivity.
    + apply D. cbn. intros [E | E]; [congruence | contradiction].
Qed.

Lemma holds_set : forall m0 m L b o o', holds m0 m ((b, o) :: L) ->
  holds m0 (rset m b (Some o')) ((b, o') :: L) /\ r_fail (rset m b (Some o')) = r_fail m.
Proof.
  intros m0 m L b o o' (A & B & C & D). split; [|reflexivity].
  cbn in A. inversion A as [|? ? A1 A2]; subst.
  unfold rset. repeat split; cbn.
  - exact A.
  - exact B.
  - destruct H as [H|H]; [inversion H; subst; apply (C b0 o); left; reflexivity | apply (C b0 o0); right; assumption].
  - destruct H as [H|H]; [inversion H; subst; apply (C b0 o); left; reflexivity | apply (C b0 o0); right; assumption].
  - destruct H as [H|H].
    + inversion H; subst. rewrite Nat.eqb_refl. reflexivity.
    + destruct (Nat.eqb_spec b0 b) as [->|N].
      * exfalso. apply A1. apply in_map_iff. exists (b, o0). split; [reflexivity | assumption].
      * apply (C b0 o0). right; assumption.
  - intros b' H. destruct (Nat.eqb_spec b' b) as [->|N]; [exfalso; apply H; left; reflexivity |].
    apply D. exact H.
Qed.

(** malloc. *)
Lemma holds_malloc : forall m0 m L o, holds m0 m L -> falls (r_fail m) = false ->
  exists m' b, rmalloc m o = (m', At b) /\ holds m0 m' ((b, o) :: L) /\ r_fail m' = tl (r_fail m).
Proof.
  intros m0 m L o H F. unfold rmalloc.
  assert (H' : holds m0 (mkRM (r_next m) (r_blk m) (tl (r_fail m))) L).
  { destruct H as (A & B & C & D). repeat split; try assumption; apply (C b o0); assumption. }
  destruct (r_fail m) as [|[|] l] eqn:E; [|discriminate F|].
  - destruct (rnew (mkRM (r_next m) (r_blk m) (tl [])) o) as [m' p] eqn:G.
    destruct (holds_new _ _ _ _ _ _ H' G) as (b & -> & H2 & R). exists m', b. split; [reflexivity | split; assumption].
  - destruct (rnew (mkRM (r_next m) (r_blk m) (tl (false :: l))) o) as [m' p] eqn:G.
    destruct (holds_new _ _ _ _ _ _ H' G) as (b & -> & H2 & R). exists m', b. split; [reflexivity | split; assumption].
Qed.
Lemma malloc_fails : forall m0 m L o, holds m0 m L -> falls (r_fail m) = true ->
  exists m', rmalloc m o = (m', Null) /\ holds m0 m' L /\ r_fail m' = tl (r_fail m).
Proof.
  intros m0 m L o (A & B & C & D) F. unfold rmalloc. destruct (r_fail m) as [|[|] l]; try discriminate F.
  eexists. split; [reflexivity|]. split; [|reflexivity].
  repeat split; try assumption; apply (C b o0); assumption.
Qed.

Lemma load_live : forall m p o, rload m p = Ok o -> live m p = true.
Proof. intros m p o E. unfold live. rewrite E. reflexivity. Qed.

(** The blocks of an open database. *)
Inductive fown : bool -> fref -> list (nat * blk) -> Prop :=
| fo_no : fown false FNull []
| fo_yes b : fown true (FInfo (At b)) [(b, KFile)].
Inductive sown : bool -> wptr -> list (nat * blk) -> Prop :=
| so_no p : sown false p []
| so_yes b a1 a2 a3 a4 a5 :
    sown true (At b) ((b, KSpline (At a1) (At a2) (At a3) (At a4) (At a5)) ::
                      [(a1, KPart); (a2, KPart); (a3, KPart); (a4, KPart); (a5, KPart)]).
Definition owns (c : cfg) (q : core) (L : list (nat * blk)) : Prop :=
  exists Ld Li Lv Ls, L = Ld ++ Li ++ Lv ++ Ls /\
    fown true (k_dat q) Ld /\ fown (useIndex c) (k_idx q) Li /\ fown (useVar c) (k_var q) Lv /\
    sown (negb (useBinary c)) (k_spl q) Ls.
(** A database not open: the client's files are there. *)
Definition shut (q : core) : Prop :=
  k_dat q = FInfo Null /\
  (k_idx q = FInfo Null \/ k_idx q = FNull \/ k_idx q = FUnset) /\
  (k_var q = FInfo Null \/ k_var q = FNull \/ k_var q = FUnset).

Lemma owns_usable : forall m0 m c q L R, owns c q L -> holds m0 m (L ++ R) -> usable c m q = true.
Proof.
  intros m0 m c q L R (Ld & Li & Lv & Ls & -> & D & I & V & S) H.
  assert (Ldr : forall b o, In (b, o) (Ld ++ Li ++ Lv ++ Ls) -> rload m (At b) = Ok o).
  { intros b o Hi. apply (holds_load _ _ _ b o H). apply in_or_app. left. exact Hi. }
  unfold usable.
  assert (FD : match k_dat q with FInfo p => live m p | _ => false end = true).
  { inversion D as [|b E1 E2 E3]; subst. eapply load_live. apply Ldr. left. reflexivity. }
  rewrite FD. cbn [andb].
  assert (FI : negb (useIndex c) || match k_idx q with FInfo p => live m p | _ => false end = true).
  { inversion I as [E1 E2 E3|b E1 E2 E3]; subst; [reflexivity|]. cbn [negb orb]. eapply load_live. apply Ldr.
    apply in_or_app; right. left. reflexivity. }
  rewrite FI. cbn [andb].
  assert (FV : negb (useVar c) || match k_var q with FInfo p => live m p | _ => false end = true).
  { inversion V as [E1 E2 E3|b E1 E2 E3]; subst; [reflexivity|]. cbn [negb orb]. eapply load_live. apply Ldr.
    apply in_or_app; right. apply in_or_app; right. left. reflexivity. }
  rewrite FV. cbn [andb].
  inversion S as [p E1 E2 E3|b a1 a2 a3 a4 a5 E1 E2 E3]; subst.
  - destruct (useBinary c); [reflexivity | discriminate E1].
  - destruct (useBinary c); [reflexivity|]. cbn [orb].
    assert (LS : forall x o, In (x, o) ((b, KSpline (At a1) (At a2) (At a3) (At a4) (At a5)) ::
                      [(a1, KPart); (a2, KPart); (a3, KPart); (a4, KPart); (a5, KPart)]) -> rload m (At x) = Ok o).
    { intros x o Hi. apply Ldr. apply in_or_app; right. apply in_or_app; right. apply in_or_app; right. exact Hi. }
    rewrite (LS b (KSpline (At a1) (At a2) (At a3) (At a4) (At a5)) ltac:(left; reflexivity)).
    rewrite (load_live m (At a1) KPart) by (apply LS; cbn; auto 10).
    rewrite (load_live m (At a2) KPart) by (apply LS; cbn; auto 10).
    rewrite (load_live m (At a3) KPart) by (apply LS; cbn; auto 10).
    rewrite (load_live m (At a4) KPart) by (apply LS; cbn; auto 10).
    rewrite (load_live m (At a5) KPart) by (apply LS; cbn; auto 10).
    reflexivity.
Qed.

Lemma free_one : forall m0 m L b o, (forall b, (r_next m0 <= b)%nat -> r_blk m0 b = None) ->
  holds m0 m ((b, o) :: L) -> o <> KFile ->
  exists m', rfree m (At b) = Ok m' /\ holds m0 m' L /\ r_fail m' = r_fail m.
Proof.
  intros m0 m L b o F H N. unfold rfree. rewrite (holds_load _ _ _ b o H) by (left; reflexivity). cbn [bind].
  destruct (holds_free _ _ _ _ _ F H) as (H1 & H2).
  exists (rset m b None). split; [destruct o; congruence | split; assumption].
Qed.

Lemma close_file : forall m0 m u f L R, (forall b, (r_next m0 <= b)%nat -> r_blk m0 b = None) ->
  fown u f L -> holds m0 m (L ++ R) ->
  exists m' f', close_one m f = Ok (m', f') /\ holds m0 m' R /\ r_fail m' = r_fail m /\
    f' = (if u then FInfo Null else FNull).
Proof.
  intros m0 m u f L R F O H. inversion O; subst.
  - exists m, FNull. split; [reflexivity|]. split; [exact H|]. split; reflexivity.
  - unfold close_one, file_close. cbn [app] in H. rewrite (holds_load _ _ _ b KFile H) by (left; reflexivity). cbn [bind].
    destruct (holds_free _ _ _ _ _ F H) as (H1 & H2).
    exists (rset m b None), (FInfo Null). split; [reflexivity|]. split; [exact H1|]. split; [exact H2 | reflexivity].
Qed.

Lemma close_spline : forall m0 m p L R, (forall b, (r_next m0 <= b)%nat -> r_blk m0 b = None) ->
  sown true p L -> holds m0 m (L ++ R) ->
  exists m', (m <- splineClose m p ;; rfree m p) = Ok m' /\ holds m0 m' R /\ r_fail m' = r_fail m.
Proof.
  intros m0 m p L R F O H. inversion O; subst. unfold splineClose. cbn [app] in H.
  rewrite (holds_load _ _ _ b _ H) by (left; reflexivity). cbn [bind].
  assert (P : Permutation ((b, KSpline (At a1) (At a2) (At a3) (At a4) (At a5)) :: (a1, KPart) :: (a2, KPart) :: (a3, KPart) :: (a4, KPart) :: (a5, KPart) :: R)
                ((a1, KPart) :: (a2, KPart) :: (a3, KPart) :: (a4, KPart) :: (a5, KPart) :: (b, KSpline (At a1) (At a2) (At a3) (At a4) (At a5)) :: R)).
  { apply (Permutation_middle [(a1, KPart); (a2, KPart); (a3, KPart); (a4, KPart); (a5, KPart)] R). }
  apply (holds_perm _ _ _ _ P) in H. clear P.
  destruct (free_one _ _ _ _ _ F H ltac:(discriminate)) as (m1 & -> & H1 & R1). cbn [bind].
  destruct (free_one _ _ _ _ _ F H1 ltac:(discriminate)) as (m2 & -> & H2 & R2). cbn [bind].
  destruct (free_one _ _ _ _ _ F H2 ltac:(discriminate)) as (m3 & -> & H3 & R3). cbn [bind].
  destruct (free_one _ _ _ _ _ F H3 ltac:(discriminate)) as (m4 & -> & H4 & R4). cbn [bind].
  destruct (free_one _ _ _ _ _ F H4 ltac:(discriminate)) as (m5 & -> & H5 & R5). cbn [bind].
  destruct (free_one _ _ _ _ _ F H5 ltac:(discriminate)) as (m6 & -> & H6 & R6).
  exists m6. split; [reflexivity|]. split; [exact H6 | congruence].
Qed.

Lemma close_ok : forall m0 m c q L R, (forall b, (r_next m0 <= b)%nat -> r_blk m0 b = None) ->
  owns c q L -> holds m0 m (L ++ R) ->
  exists m' q', kclose c m q = Ok (m', q') /\ holds m0 m' R /\ shut q' /\ r_fail m' = r_fail m.
Proof.
  intros m0 m c q L R F (Ld & Li & Lv & Ls & -> & D & I & V & S) H. rewrite <- !app_assoc in H.
  unfold kclose.
  destruct (close_file _ _ _ _ _ _ F D H) as (m1 & fd & -> & H1 & R1 & Ed). cbn [bind].
  destruct (close_file _ _ _ _ _ _ F I H1) as (m2 & fi & -> & H2 & R2 & Ei). cbn [bind].
  destruct (close_file _ _ _ _ _ _ F V H2) as (m3 & fv & -> & H3 & R3 & Ev). cbn [bind].
  assert (SH : forall p, shut (mkCore p fd fi fv)).
  { intro p. unfold shut. cbn. split; [exact Ed|]. split; [destruct (useIndex c); auto | destruct (useVar c); auto]. }
  destruct (useBinary c) eqn:U.
  - inversion S; subst. exists m3. eexists. split; [reflexivity|]. split; [exact H3|]. split; [apply SH | congruence].
  - destruct (close_spline _ _ _ _ _ F S H3) as (m4 & E4 & H4 & R4).
    assert (E : (m <- splineClose m3 (k_spl q);; m <- rfree m (k_spl q);; Ok (m, mkCore Null fd fi fv)) = Ok (m4, mkCore Null fd fi fv)).
    { destruct (splineClose m3 (k_spl q)) as [mm| |]; cbn [bind] in E4 |- *; try discriminate E4. rewrite E4. reflexivity. }
    rewrite E. exists m4. eexists. split; [reflexivity|]. split; [exact H4|]. split; [apply SH | congruence].
Qed.

Lemma enough_step : forall n l, existsb id (firstn (S n) l) = false ->
  falls l = false /\ existsb id (firstn n (tl l)) = false.
Proof.
  intros n l E. destruct l as [|x l]; [destruct n; split; reflexivity|].
  cbn [firstn existsb] in E. apply Bool.orb_false_iff in E. destruct E as (E1 & E2). unfold id in E1. subst x.
  split; [reflexivity | exact E2].
Qed.
Lemma skipn_tl : forall {A} n (l : list A), skipn (S n) l = skipn n (tl l).
Proof. intros A n l. destruct l; [destruct n; reflexivity | reflexivity]. Qed.

Lemma spline_ok : forall m0 m R, holds m0 m R -> existsb id (firstn 6 (r_fail m)) = false ->
  exists m' p L, spline_new m = Ok (m', p) /\ sown true p L /\ holds m0 m' (L ++ R) /\ r_fail m' = skipn 6 (r_fail m).
Proof.
  intros m0 m R H E0. unfold spline_new.
  destruct (enough_step _ _ E0) as (F1 & E1).
  destruct (holds_malloc m0 m R (KSpline Wild Wild Wild Wild Wild) H F1) as (m1 & b & -> & H1 & R1).
  rewrite <- R1 in E1. destruct (enough_step _ _ E1) as (F2 & E2).
  destruct (holds_malloc _ _ _ KPart H1 F2) as (m2 & a1 & -> & H2 & R2).
  rewrite <- R2 in E2. destruct (enough_step _ _ E2) as (F3 & E3).
  destruct (holds_malloc _ _ _ KPart H2 F3) as (m3 & a2 & -> & H3 & R3).
  rewrite <- R3 in E3. destruct (enough_step _ _ E3) as (F4 & E4).
  destruct (holds_malloc _ _ _ KPart H3 F4) as (m4 & a3 & -> & H4 & R4).
  rewrite <- R4 in E4. destruct (enough_step _ _ E4) as (F5 & E5).
  destruct (holds_malloc _ _ _ KPart H4 F5) as (m5 & a4 & -> & H5 & R5).
  rewrite <- R5 in E5. destruct (enough_step _ _ E5) as (F6 & E6).
  destruct (holds_malloc _ _ _ KPart H5 F6) as (m6 & a5 & -> & H6 & R6).
  assert (P : Permutation ((a5, KPart) :: (a4, KPart) :: (a3, KPart) :: (a2, KPart) :: (a1, KPart) :: (b, KSpline Wild Wild Wild Wild Wild) :: R)
                ((b, KSpline Wild Wild Wild Wild Wild) :: (a1, KPart) :: (a2, KPart) :: (a3, KPart) :: (a4, KPart) :: (a5, KPart) :: R)).
  { apply Permutation_trans with (((b, KSpline Wild Wild Wild Wild Wild) :: [(a5, KPart); (a4, KPart); (a3, KPart); (a2, KPart); (a1, KPart)]) ++ R).
    - cbn [app]. apply Permutation_sym.
      apply (Permutation_middle [(a5, KPart); (a4, KPart); (a3, KPart); (a2, KPart); (a1, KPart)] R).
    - cbn [app]. apply perm_skip.
      apply (Permutation_app_tail R (l := [(a5, KPart); (a4, KPart); (a3, KPart); (a2, KPart); (a1, KPart)])
               (l' := [(a1, KPart); (a2, KPart); (a3, KPart); (a4, KPart); (a5, KPart)])).
      apply (Permutation_sym (Permutation_rev [(a1, KPart); (a2, KPart); (a3, KPart); (a4, KPart); (a5, KPart)])). }
  apply (holds_perm _ _ _ _ P) in H6. clear P.
  unfold rstore. rewrite (holds_load _ _ _ b _ H6) by (left; reflexivity). cbn [bind].
  destruct (holds_set _ _ _ _ _ (KSpline (At a1) (At a2) (At a3) (At a4) (At a5)) H6) as (H7 & R7).
  exists (rset m6 b (Some (KSpline (At a1) (At a2) (At a3) (At a4) (At a5)))), (At b).
  eexists. split; [reflexivity|]. split; [apply so_yes|]. split; [exact H7|].
  rewrite R7, R6, R5, R4, R3, R2, R1. rewrite !skipn_tl. reflexivity.
Qed.

Lemma open_file : forall m0 m R p, holds m0 m R ->
  exists m' f L, file_open m (FInfo p) = Ok (m', f) /\ fown true f L /\ holds m0 m' (L ++ R) /\ r_fail m' = r_fail m.
Proof.
  intros m0 m R p H. unfold file_open. destruct (rnew m KFile) as [m' x] eqn:E.
  destruct (holds_new _ _ _ _ _ _ H E) as (b & -> & H1 & R1).
  exists m', (FInfo (At b)). eexists. split; [reflexivity|]. split; [apply fo_yes|]. split; [exact H1 | exact R1].
Qed.

Lemma initIndex_small : forall c s f s' r,
  (numIndex c <? eraseSize c * 2) || negb (numIndex c mod eraseSize c =? 0) = true ->
  initIndex c s f = Ok (s', r) -> r = -1.
Proof.
  intros c s f s' r H E. unfold initIndex in E. destruct (bitmapSize c =? 0); [discriminate E|].
  destruct (init_page c) as [b| |]; cbn [bind] in E; try discriminate E.
  destruct (st b 8 (le_enc 4 (nextD (sd s)))) as [b'| |]; cbn [bind] in E; try discriminate E.
  destruct (numIndex c <? eraseSize c * 2); [inversion E; reflexivity|].
  cbn [orb] in H. rewrite H in E. inversion E; reflexivity.
Qed.

Lemma initData_missing : forall c s s' r, useReset c = false -> initData c s None = Ok (s', r) -> r = -1.
Proof. intros c s s' r H E. unfold initData in E. rewrite H in E. cbn [open_r] in E. inversion E; reflexivity. Qed.

(** The answer of embedDBInit without addresses. *)
Definition bare (r : res (rmem * core * state * Z)) : res (state * Z) :=
  match r with Ok (_, _, s, r) => Ok (s, r) | UB => UB | Fuel => Fuel end.

Lemma init_ok : forall m0 m c k fs q R,
  holds m0 m R -> enough c (r_fail m) = true ->
  k_dat q = FInfo Null -> (useIndex c = true -> k_idx q = FInfo Null) -> (useVar c = true -> k_var q = FInfo Null) ->
  bare (kinit c k fs m q) = embedDBInit c k fs /\
  (forall m' q' s, kinit c k fs m q = Ok (m', q', s, 0) ->
     exists L, owns c q' L /\ holds m0 m' (L ++ R) /\ r_fail m' = after_init c (r_fail m)).
Proof.
  intros m0 m c k fs q R H E Qd Qi Qv. unfold kinit, embedDBInit.
  set (s0 := mkS _ _ _ _). clearbody s0.
  assert (Bad : forall mm qq ss z (X : Prop), z = -1 ->
    bare (Ok (mm, qq, ss, z)) = Ok (ss, z) /\
    (forall m' q' s, Ok (mm, qq, ss, z) = Ok (m', q', s, 0) -> X)).
  { intros mm qq ss z X ->. split; [reflexivity|]. intros. congruence. }
  Local Ltac bad B := split; [apply (B _ _ _ _ True eq_refl) | let H := fresh in intros ? ? ? H; exfalso; congruence].
  destruct (keySize c >? 8); [bad Bad|].
  destruct (eraseSize c =? 0); [split; [reflexivity | intros; congruence]|].
  destruct (negb (numData c mod eraseSize c =? 0)); [bad Bad|].
  destruct (numData c <? (if useRLC c then 4 else 2) * eraseSize c); [bad Bad|].
  destruct (useVar c && negb (numVar c mod eraseSize c =? 0)); [bad Bad|].
  destruct (useIndex c && negb (numIndex c mod eraseSize c =? 0)) eqn:EI; [bad Bad|].
  destruct (recordSize c =? 0); [split; [reflexivity | intros; congruence]|].
  destruct (init_page c) as [w| |]; cbn [bind]; [|split; [reflexivity | intros; congruence]|split; [reflexivity | intros; congruence]].
  destruct (numData c <? ((if useIndex c then 1 else 0) * 2 + 2) * eraseSize c); [bad Bad|].
  destruct (negb (useBinary c) && (numSplinePts c <? 4)); [bad Bad|].
  assert (SP : exists m1 p L s1,
    (if useBinary c then Ok (m, k_spl q, set_d s0 (d_wbuf (sd s0) w))
     else '(m, p) <- spline_new m ;;
          Ok (m, p, set_d (set_d s0 (d_wbuf (sd s0) w)) (d_spl (sd (set_d s0 (d_wbuf (sd s0) w))) (Some (spl_init (numSplinePts c) (maxErr c) (gpoint c))))))
      = Ok (m1, p, s1) /\
    s1 = (if useBinary c then set_d s0 (d_wbuf (sd s0) w)
          else set_d (set_d s0 (d_wbuf (sd s0) w)) (d_spl (sd (set_d s0 (d_wbuf (sd s0) w))) (Some (spl_init (numSplinePts c) (maxErr c) (gpoint c))))) /\
    sown (negb (useBinary c)) p L /\ holds m0 m1 (L ++ R) /\ r_fail m1 = after_init c (r_fail m)).
  { unfold enough in E. unfold after_init. destruct (useBinary c).
    - exists m, (k_spl q), [], (set_d s0 (d_wbuf (sd s0) w)).
      split; [reflexivity|]. split; [reflexivity|]. split; [apply so_no|]. split; [exact H | reflexivity].
    - cbn [orb] in E. apply Bool.negb_true_iff in E.
      destruct (spline_ok _ _ _ H E) as (m1 & p & L & -> & S & H1 & R1). cbn [bind].
      exists m1, p, L. eexists. split; [reflexivity|]. split; [reflexivity|]. split; [exact S|]. split; [exact H1 | exact R1]. }
  destruct SP as (m1 & p & Ls & s1 & -> & <- & S & H1 & R1). cbn [bind].
  cbn [k_dat k_idx k_var k_spl]. rewrite Qd.
  assert (FD : exists m2 fd Ld,
    (if useReset c || (if kD k then true else false) then file_open m1 (FInfo Null) else Ok (m1, FInfo Null)) = Ok (m2, fd) /\
    ((useReset c = false /\ kD k = None) \/ (fown true fd Ld /\ holds m0 m2 (Ld ++ Ls ++ R) /\ r_fail m2 = after_init c (r_fail m)))).
  { destruct (useReset c || (if kD k then true else false)) eqn:ER.
    - destruct (open_file _ _ _ Null H1) as (m2 & fd & Ld & -> & O & H2 & R2).
      exists m2, fd, Ld. split; [reflexivity|]. right. split; [exact O|]. split; [exact H2 | congruence].
    - exists m1, (FInfo Null), []. split; [reflexivity|]. left. apply Bool.orb_false_iff in ER. destruct ER as (E1 & E2).
      split; [exact E1|]. destruct (kD k); [discriminate E2 | reflexivity]. }
  destruct FD as (m2 & fd & Ld & -> & FD). cbn [bind k_dat k_idx k_var k_spl].
  destruct (initData c s1 (kD k)) as [[s2 r]| |] eqn:ED; cbn [bind]; [|split; [reflexivity | intros; congruence]|split; [reflexivity | intros; congruence]].
  destruct (negb (r =? 0)) eqn:Er.
  { split; [reflexivity|]. intros m' q' s X. exfalso. inversion X; subst. discriminate Er. }
  apply Bool.negb_false_iff in Er. apply Z.eqb_eq in Er. subst r.
  destruct FD as [(E1 & E2)|(Od & H2 & R2)].
  { rewrite E2 in ED. apply initData_missing in ED; [discriminate ED | exact E1]. }
  assert (FI :
    ((exists s3 r m3 q3,
       (if useIndex c then
          if bufBlocks c <? 4 then Ok (m2, mkCore p fd (k_idx q) (k_var q), s2, -1)
          else '(s, r) <- initIndex c s2 (kI k) ;;
               if (numIndex c <? eraseSize c * 2) || negb (numIndex c mod eraseSize c =? 0)
               then Ok (m2, mkCore p fd (k_idx q) (k_var q), s, r)
               else '(m, fi) <- file_open m2 (k_idx q) ;; Ok (m, mkCore p fd fi (k_var q), s, r)
        else Ok (m2, mkCore p fd FNull (k_var q), s2, 0)) = Ok (m3, q3, s3, r) /\
       (if useIndex c then if bufBlocks c <? 4 then Ok (s2, -1) else initIndex c s2 (kI k) else Ok (s2, 0)) = Ok (s3, r) /\
       (r = 0 -> exists fi Li, q3 = mkCore p fd fi (k_var q) /\ fown (useIndex c) fi Li /\
                 holds m0 m3 (Li ++ Ld ++ Ls ++ R) /\ r_fail m3 = after_init c (r_fail m))) \/
     (exists e, e <> Ok (s2, 0) /\ (forall x, e <> Ok x) /\
       (if useIndex c then if bufBlocks c <? 4 then Ok (s2, -1) else initIndex c s2 (kI k) else Ok (s2, 0)) = e /\
       (if useIndex c then
          if bufBlocks c <? 4 then Ok (m2, mkCore p fd (k_idx q) (k_var q), s2, -1)
          else '(s, r) <- initIndex c s2 (kI k) ;;
               if (numIndex c <? eraseSize c * 2) || negb (numIndex c mod eraseSize c =? 0)
               then Ok (m2, mkCore p fd (k_idx q) (k_var q), s, r)
               else '(m, fi) <- file_open m2 (k_idx q) ;; Ok (m, mkCore p fd fi (k_var q), s, r)
        else Ok (m2, mkCore p fd FNull (k_var q), s2, 0)) = match e with UB => UB | _ => Fuel end))).
  { destruct (useIndex c) eqn:UI.
    - destruct (bufBlocks c <? 4).
      + left. exists s2, (-1), m2. eexists. split; [reflexivity|]. split; [reflexivity|]. intro X; discriminate X.
      + destruct (initIndex c s2 (kI k)) as [[s3 r]| |] eqn:EX; cbn [bind].
        * left. destruct ((numIndex c <? eraseSize c * 2) || negb (numIndex c mod eraseSize c =? 0)) eqn:EN.
          -- exists s3, r, m2. eexists. split; [reflexivity|]. split; [reflexivity|].
             intros ->. apply (initIndex_small _ _ _ _ _ EN) in EX. discriminate EX.
          -- rewrite (Qi eq_refl). destruct (open_file _ _ _ Null H2) as (m3 & fi & Li & -> & O & H3 & R3). cbn [bind].
             exists s3, r, m3. eexists. split; [reflexivity|]. split; [reflexivity|]. intros _.
             exists fi, Li. split; [reflexivity|]. split; [exact O|]. split; [exact H3 | congruence].
        * right. exists UB. split; [discriminate|]. split; [discriminate|]. split; reflexivity.
        * right. exists Fuel. split; [discriminate|]. split; [discriminate|]. split; reflexivity.
    - left. exists s2, 0, m2. eexists. split; [reflexivity|]. split; [reflexivity|]. intros _.
      exists FNull, []. split; [reflexivity|]. split; [apply fo_no|]. split; [exact H2 | exact R2]. }
  destruct FI as [(s3 & r & m3 & q3 & -> & -> & FI)|(e & _ & Ne & -> & ->)].
  2:{ destruct e as [x| |]; cbn [bind]; [exfalso; apply (Ne x); reflexivity | split; [reflexivity | intros; congruence] | split; [reflexivity | intros; congruence]]. }
  cbn [bind]. destruct (negb (r =? 0)) eqn:Er.
  { split; [reflexivity|]. intros m' q' s X. exfalso. inversion X; subst. discriminate Er. }
  apply Bool.negb_false_iff in Er. apply Z.eqb_eq in Er. subst r.
  destruct (FI eq_refl) as (fi & Li & -> & Oi & H3 & R3). cbn [k_dat k_idx k_var k_spl].
  assert (Fin : forall m4 fv Lv, fown (useVar c) fv Lv -> holds m0 m4 (Lv ++ Li ++ Ld ++ Ls ++ R) ->
    exists L, owns c (mkCore p fd fi fv) L /\ holds m0 m4 (L ++ R)).
  { intros m4 fv Lv Ov H4. exists (Ld ++ Li ++ Lv ++ Ls). split.
    - exists Ld, Li, Lv, Ls. split; [reflexivity|]. cbn. auto.
    - eapply holds_perm; [|exact H4]. rewrite !app_assoc. apply Permutation_app_tail.
      apply Permutation_app_tail.
      apply Permutation_trans with (Ld ++ Lv ++ Li).
      + rewrite <- app_assoc. rewrite app_assoc. apply Permutation_app_comm.
      + rewrite <- app_assoc. apply Permutation_app_head. apply Permutation_app_comm. }
  destruct (useVar c) eqn:UV.
  - destruct (bufBlocks c <? 4 + (if useIndex c then 2 else 0)); [bad Bad|].
    destruct (initVarData c s3 (kV k)) as [[s4 r]| |]; cbn [bind]; [|split; [reflexivity | intros; congruence]|split; [reflexivity | intros; congruence]].
    rewrite (Qv eq_refl). destruct (open_file _ _ _ Null H3) as (m4 & fv & Lv & -> & O & H4 & R4). cbn [bind].
    split; [reflexivity|]. intros m' q' s X. inversion X; subst.
    destruct (Fin _ _ _ O H4) as (L & L1 & L2). exists L. split; [exact L1|]. split; [exact L2 | congruence].
  - split; [reflexivity|]. intros m' q' s X. inversion X; subst.
    destruct (Fin m' FNull [] fo_no H3) as (L & L1 & L2). exists L. split; [exact L1|]. split; [exact L2 | exact R3].
Qed.

(** Iterators of the client and their bitmaps. *)
Inductive its : list (iter * wptr) -> list (option iter) -> list (nat * blk) -> Prop :=
| its_nil : its [] [] []
| its_shut x l l' L : its l l' L -> its (x :: l) (None :: l') L
| its_plain it l l' L : its l l' L -> its ((it, Null) :: l) (Some it :: l') L
| its_bits it b l l' L : its l l' L -> its ((it, At b) :: l) (Some it :: l') ((b, KBitmap) :: L).

Lemma its_length : forall l l' L, its l l' L -> length l = length l'.
Proof. induction 1; cbn; congruence. Qed.

Lemma its_use : forall l l' L n it, its l l' L -> nth_error l' n = Some (Some it) ->
  exists p, nth_error l n = Some (it, p) /\
    (p = Null \/ exists b, p = At b /\ In (b, KBitmap) L) /\
    forall it', its (put_nth n (it', p) l) (put_nth n (Some it') l') L.
Proof.
  intros l l' L n it H. revert n. induction H; intros n E.
  - destruct n; discriminate E.
  - destruct n; [discriminate E|]. destruct (IHits _ E) as (p & E1 & E2 & E3).
    exists p. split; [exact E1|]. split; [exact E2|]. intro it'. apply its_shut. apply E3.
  - destruct n.
    + inversion E; subst. exists Null. split; [reflexivity|]. split; [left; reflexivity|]. intro it'. apply its_plain. exact H.
    + destruct (IHits _ E) as (p & E1 & E2 & E3). exists p. split; [exact E1|]. split; [exact E2|]. intro it'. apply its_plain. apply E3.
  - destruct n.
    + inversion E; subst. exists (At b). split; [reflexivity|]. split; [right; exists b; split; [reflexivity | left; reflexivity]|].
      intro it'. apply its_bits. exact H.
    + destruct (IHits _ E) as (p & E1 & E2 & E3). exists p. split; [exact E1|]. split.
      * destruct E2 as [E2|(b' & E2 & E4)]; [left; exact E2 | right; exists b'; split; [exact E2 | right; exact E4]].
      * intro it'. apply its_bits. apply E3.
Qed.

Lemma its_close : forall l l' L n it, its l l' L -> nth_error l' n = Some (Some it) ->
  exists p, nth_error l n = Some (it, p) /\
    ((p = Null /\ its l (put_nth n None l') L) \/
     (exists b L', p = At b /\ Permutation L ((b, KBitmap) :: L') /\ its l (put_nth n None l') L')).
Proof.
  intros l l' L n it H. revert n. induction H; intros n E.
  - destruct n; discriminate E.
  - destruct n; [discriminate E|]. destruct (IHits _ E) as (p & E1 & E2).
    exists p. split; [exact E1|]. destruct E2 as [(-> & E2)|(b & L' & -> & P & E2)].
    + left. split; [reflexivity|]. apply its_shut. exact E2.
    + right. exists b, L'. split; [reflexivity|]. split; [exact P|]. apply its_shut. exact E2.
  - destruct n.
    + inversion E; subst. exists Null. split; [reflexivity|]. left. split; [reflexivity|]. apply its_shut. exact H.
    + destruct (IHits _ E) as (p & E1 & E2). exists p. split; [exact E1|].
      destruct E2 as [(-> & E2)|(b & L' & -> & P & E2)].
      * left. split; [reflexivity|]. apply its_plain. exact E2.
      * right. exists b, L'. split; [reflexivity|]. split; [exact P|]. apply its_plain. exact E2.
  - destruct n.
    + inversion E; subst. exists (At b). split; [reflexivity|]. right. exists b, L.
      split; [reflexivity|]. split; [apply Permutation_refl|]. apply its_shut. exact H.
    + destruct (IHits _ E) as (p & E1 & E2). exists p. split; [exact E1|].
      destruct E2 as [(-> & E2)|(b' & L' & -> & P & E2)].
      * left. split; [reflexivity|]. apply its_bits. exact E2.
      * right. exists b', ((b, KBitmap) :: L'). split; [reflexivity|]. split.
        -- eapply Permutation_trans; [apply perm_skip, P | apply perm_swap].
        -- apply its_bits. exact E2.
Qed.

Lemma its_put : forall l l' L n it, its l l' L -> idle l' n = true ->
  its (put_nth n (it, Null) l) (put_nth n (Some it) l') L /\
  forall b, exists L', Permutation L' ((b, KBitmap) :: L) /\ its (put_nth n (it, At b) l) (put_nth n (Some it) l') L'.
Proof.
  intros l l' L n it H. revert n. induction H; intros n E.
  - destruct n; [|discriminate E]. split.
    + apply its_plain, its_nil.
    + intro b. exists [(b, KBitmap)]. split; [apply Permutation_refl|]. apply its_bits, its_nil.
  - destruct n.
    + split; [apply its_plain; exact H|]. intro b. exists ((b, KBitmap) :: L). split; [apply Permutation_refl|]. apply its_bits. exact H.
    + destruct (IHits n E) as (E1 & E2). split; [apply its_shut; exact E1|].
      intro b. destruct (E2 b) as (L' & P & E3). exists L'. split; [exact P|]. apply its_shut. exact E3.
  - destruct n; [discriminate E|]. destruct (IHits n E) as (E1 & E2). split; [apply its_plain; exact E1|].
    intro b. destruct (E2 b) as (L' & P & E3). exists L'. split; [exact P|]. apply its_plain. exact E3.
  - destruct n; [discriminate E|]. destruct (IHits n E) as (E1 & E2). split; [apply its_bits; exact E1|].
    intro b'. destruct (E2 b') as (L' & P & E3). exists ((b, KBitmap) :: L'). split.
    + eapply Permutation_trans; [apply perm_skip, P | apply perm_swap].
    + apply its_bits. exact E3.
Qed.
Lemma idle_le : forall l n, idle l n = true -> (n <= length l)%nat.
Proof.
  intros l n E. unfold idle in E. destruct (nth_error l n) as [x|] eqn:N.
  - assert (n < length l)%nat by (apply nth_error_Some; congruence). lia.
  - apply Nat.eqb_eq in E. lia.
Qed.

(** Stream variables of the client. *)
Inductive sts : list wptr -> list svar -> list (nat * blk) -> Prop :=
| sts_nil : sts [] [] []
| sts_null l l' L : sts l l' L -> sts (Null :: l) (VNull :: l') L
| sts_freed p l l' L : sts l l' L -> sts (p :: l) (VFreed :: l') L
| sts_has b st l l' L : sts l l' L -> sts (At b :: l) (VHas st :: l') ((b, KStream st) :: L).

Lemma sts_length : forall l l' L, sts l l' L -> length l = length l'.
Proof. induction 1; cbn; congruence. Qed.

Lemma sts_use : forall l l' L j st, sts l l' L -> nth_error l' j = Some (VHas st) ->
  exists b L1, nth_error l j = Some (At b) /\ Permutation L ((b, KStream st) :: L1) /\
    sts l (put_nth j VFreed l') L1 /\
    forall st', exists L2, Permutation L2 ((b, KStream st') :: L1) /\ sts l (put_nth j (VHas st') l') L2.
Proof.
  intros l l' L j st H. revert j. induction H; intros j E.
  - destruct j; discriminate E.
  - destruct j; [discriminate E|]. destruct (IHsts _ E) as (b & L1 & E1 & P & E2 & E3).
    exists b, L1. split; [exact E1|]. split; [exact P|]. split; [apply sts_null; exact E2|].
    intro st'. destruct (E3 st') as (L2 & P2 & E4). exists L2. split; [exact P2 | apply sts_null; exact E4].
  - destruct j; [discriminate E|]. destruct (IHsts _ E) as (b & L1 & E1 & P & E2 & E3).
    exists b, L1. split; [exact E1|]. split; [exact P|]. split; [apply sts_freed; exact E2|].
    intro st'. destruct (E3 st') as (L2 & P2 & E4). exists L2. split; [exact P2 | apply sts_freed; exact E4].
  - destruct j.
    + inversion E; subst. exists b, L. split; [reflexivity|]. split; [apply Permutation_refl|]. split; [apply sts_freed; exact H|].
      intro st'. exists ((b, KStream st') :: L). split; [apply Permutation_refl | apply sts_has; exact H].
    + destruct (IHsts _ E) as (b1 & L1 & E1 & P & E2 & E3). exists b1, ((b, KStream st0) :: L1).
      split; [exact E1|]. split; [eapply Permutation_trans; [apply perm_skip, P | apply perm_swap]|].
      split; [apply sts_has; exact E2|].
      intro st'. destruct (E3 st') as (L2 & P2 & E4). exists ((b, KStream st0) :: L2).
      split; [eapply Permutation_trans; [apply perm_skip, P2 | apply perm_swap] | apply sts_has; exact E4].
Qed.

Lemma sts_nullvar : forall l l' L j, sts l l' L -> nth_error l' j = Some VNull -> nth_error l j = Some Null.
Proof.
  intros l l' L j H. revert j. induction H; intros j E; destruct j; try discriminate E; cbn in *; auto.
Qed.

Lemma sts_put : forall l l' L j, sts l l' L -> vacant l' j = true ->
  exists old, (if Nat.eqb j (length l) then Ok Null else nth_res l j) = Ok old /\
    sts (put_nth j old l) (put_nth j (nth j l' VNull) l') L /\
    sts (put_nth j Null l) (put_nth j VNull l') L /\
    forall b st, exists L', Permutation L' ((b, KStream st) :: L) /\ sts (put_nth j (At b) l) (put_nth j (VHas st) l') L'.
Proof.
  intros l l' L j H. revert j. induction H; intros j E.
  - destruct j; [|discriminate E]. exists Null. split; [reflexivity|]. split; [apply sts_null, sts_nil|]. split; [apply sts_null, sts_nil|].
    intros b st. exists [(b, KStream st)]. split; [apply Permutation_refl | apply sts_has, sts_nil].
  - destruct j.
    + exists Null. split; [reflexivity|]. split; [apply sts_null; exact H|]. split; [apply sts_null; exact H|].
      intros b st. exists ((b, KStream st) :: L). split; [apply Permutation_refl | apply sts_has; exact H].
    + destruct (IHsts j E) as (old & E1 & E2 & E3 & E4). exists old. split; [exact E1|].
      split; [apply sts_null; exact E2|]. split; [apply sts_null; exact E3|].
      intros b st. destruct (E4 b st) as (L' & P & E5). exists L'. split; [exact P | apply sts_null; exact E5].
  - destruct j.
    + exists p. split; [reflexivity|]. split; [apply sts_freed; exact H|]. split; [apply sts_null; exact H|].
      intros b st. exists ((b, KStream st) :: L). split; [apply Permutation_refl | apply sts_has; exact H].
    + destruct (IHsts j E) as (old & E1 & E2 & E3 & E4). exists old. split; [exact E1|].
      split; [apply sts_freed; exact E2|]. split; [apply sts_freed; exact E3|].
      intros b st. destruct (E4 b st) as (L' & P & E5). exists L'. split; [exact P | apply sts_freed; exact E5].
  - destruct j; [discriminate E|].
    destruct (IHsts j E) as (old & E1 & E2 & E3 & E4). exists old. split; [exact E1|].
    split; [apply sts_has; exact E2|]. split; [apply sts_has; exact E3|].
    intros b' st'. destruct (E4 b' st') as (L' & P & E5). exists ((b, KStream st) :: L'). split.
    + eapply Permutation_trans; [apply perm_skip, P | apply perm_swap].
    + apply sts_has; exact E5.
Qed.

(** embedDBGetVar and embedDBNextVar, the part about the stream. *)
Lemma stream_ok : forall m0 m l l' L R j r bad written vs,
  sts l l' L -> vacant l' j = true -> holds m0 m (L ++ R) ->
  exists m2 l2 L2, holds m0 m2 (L2 ++ R) /\
    let '(fl, sv, r') := istream (r_fail m) l' j r bad written vs in
    stream_var m l j r bad written vs = Ok (m2, l2, r') /\ sts l2 sv L2 /\ r_fail m2 = fl.
Proof.
  intros m0 m l l' L R j r bad written vs S V H. unfold stream_var, istream.
  destruct (sts_put _ _ _ _ S V) as (old & -> & S1 & S2 & S3). cbn [bind].
  destruct vs as [st|].
  - destruct (falls (r_fail m)) eqn:F.
    + destruct (malloc_fails _ _ _ (KStream st) H F) as (m2 & -> & H2 & R2).
      exists m2, (put_nth j old l), L. split; [exact H2|]. split; [reflexivity|]. split; [exact S1 | exact R2].
    + destruct (holds_malloc _ _ _ (KStream st) H F) as (m2 & b & -> & H2 & R2).
      destruct (S3 b st) as (L2 & P & S4). exists m2, (put_nth j (At b) l), L2. split.
      * eapply holds_perm; [|exact H2]. change ((b, KStream st) :: L ++ R) with (((b, KStream st) :: L) ++ R).
        apply Permutation_app_tail. apply Permutation_sym. exact P.
      * split; [reflexivity|]. split; [exact S4 | exact R2].
  - exists m. exists (put_nth j (if written then Null else old) l), L. split; [exact H|]. split; [reflexivity|].
    split; [|reflexivity]. destruct written; [exact S2 | exact S1].
Qed.

(** The core and the specification at the same point. *)
Definition tied (m0 : rmem) (w : world) (i : ideal) : Prop :=
  w_s w = i_s i /\
  match i_ph i with
  | IsBroken => True
  | ph =>
      w_c w = i_c i /\ r_fail (w_m w) = i_fail i /\
      exists Lc Li Ls, its (w_it w) (i_it i) Li /\ sts (w_st w) (i_st i) Ls /\
        holds m0 (w_m w) (Lc ++ Li ++ Ls) /\
        match ph with IsOpen => owns (w_c w) (w_k w) Lc | _ => Lc = [] /\ shut (w_k w) end
  end.

Definition agrees (m0 : rmem) (k : res (world * kout)) (r : res (ideal * kout)) : Prop :=
  match r with
  | Ok (i, y) => exists w, k = Ok (w, y) /\ tied m0 w i
  | UB => k = UB
  | Fuel => k = Fuel
  end.

Lemma broken_stops : forall i x, i_ph i = IsBroken -> icall i x = None.
Proof.
  intros i x E. unfold icall. rewrite E. cbn [andb].
  destruct x; try reflexivity.
Qed.

Lemma step_open : forall m0 w i x r, (forall b, (r_next m0 <= b)%nat -> r_blk m0 b = None) ->
  tied m0 w i -> i_ph i = IsOpen -> icall i x = Some r -> agrees m0 (kstep w x) r.
Proof.
  intros m0 [m q c s wit wst] [c' s' ph iit ist ifl] x r FR T PH E. cbn [i_ph] in PH. subst ph.
  destruct T as (Es & Ec & Ef & Lc & Li & Ls & TI & TS & H & O). cbn [w_s i_s w_c i_c w_m w_k w_it w_st i_it i_st i_fail i_ph] in *.
  subst s' c' ifl.
  assert (UP : usable c m q = true) by (eapply owns_usable; [exact O | exact H]).
  assert (OP : forall s', tied m0 (mkW m q c s' wit wst) (mkId c s' IsOpen iit ist (r_fail m))).
  { intro s'. split; [reflexivity|]. cbn. split; [reflexivity|]. split; [reflexivity|]. exists Lc, Li, Ls. auto. }
  unfold kstep, icall in *. cbn [w_s i_s w_c i_c w_m w_k w_it w_st i_it i_st i_fail i_ph andb] in *. rewrite ?UP.
  destruct x as [k d|k d v| |k|j k|n mnk mxk mnd mxd|n|n j|j len|j|n| |c' fs]; cbn [need] in *.
  - inversion E; subst r; clear E. destruct (embedDBPut c s k d) as [[s' z]| |]; cbn [bind agrees]; [|reflexivity|reflexivity].
    eexists. split; [reflexivity | apply OP].
  - inversion E; subst r; clear E. destruct (embedDBPutVar c s k d v) as [[s' z]| |]; cbn [bind agrees]; [|reflexivity|reflexivity].
    eexists. split; [reflexivity | apply OP].
  - inversion E; subst r; clear E. destruct (embedDBFlush c s) as [[s' z]| |]; cbn [bind agrees]; [|reflexivity|reflexivity].
    eexists. split; [reflexivity | apply OP].
  - inversion E; subst r; clear E. destruct (embedDBGet c s k) as [[[s' z] d]| |]; cbn [bind agrees]; [|reflexivity|reflexivity].
    eexists. split; [reflexivity | apply OP].
  - destruct (vacant ist j) eqn:V; [|discriminate E]. inversion E; subst r; clear E.
    destruct (embedDBGetVar c s k) as [[[[s' z] d] vs]| |]; cbn [bind agrees]; [|reflexivity|reflexivity].
    assert (P : Permutation (Lc ++ Li ++ Ls) (Ls ++ Lc ++ Li)) by (rewrite app_assoc; apply Permutation_app_comm).
    apply (holds_perm _ _ _ _ P) in H.
    destruct (stream_ok _ _ _ _ _ _ _ z (-1) (useVar c && ((z =? 0) || (z =? 1))) vs TS V H) as (m2 & l2 & L2 & H2 & X).
    destruct (istream (r_fail m) ist j z (-1) (useVar c && ((z =? 0) || (z =? 1))) vs) as [[fl sv] z'].
    destruct X as (-> & S2 & R2). cbn [bind agrees]. eexists. split; [reflexivity|].
    split; [reflexivity|]. cbn. split; [reflexivity|]. split; [exact R2|]. exists Lc, Li, L2.
    split; [exact TI|]. split; [exact S2|]. split; [|exact O].
    eapply holds_perm; [|exact H2]. rewrite (app_assoc Lc Li L2). apply Permutation_app_comm.
  - set (bm := useBmap c && negb match mnd, mxd with None, None => true | _, _ => false end) in *.
    destruct (idle iit n) eqn:ID; [|discriminate E]. cbn [andb] in E.
    destruct (negb (bm && falls (r_fail m))) eqn:FA; [|discriminate E]. inversion E; subst r; clear E.
    assert (LE : (n <=? length wit)%nat = true).
    { apply Nat.leb_le. rewrite (its_length _ _ _ TI). apply idle_le. exact ID. }
    rewrite LE. cbn [need andb].
    destruct bm eqn:BM.
    + cbn [andb] in FA. apply Bool.negb_true_iff in FA.
      destruct (holds_malloc _ _ _ KBitmap H FA) as (m2 & b & -> & H2 & R2). cbn [bind].
      destruct (embedDBInitIterator c s mnk mxk mnd mxd) as [it| |]; cbn [bind agrees]; [|reflexivity|reflexivity].
      destruct (its_put _ _ _ n it TI ID) as (_ & IP). destruct (IP b) as (L2 & P & I2).
      eexists. split; [reflexivity|]. split; [reflexivity|]. cbn. split; [reflexivity|]. split; [exact R2|].
      exists Lc, L2, Ls. split; [exact I2|]. split; [exact TS|]. split; [|exact O].
      eapply holds_perm; [|exact H2].
      apply Permutation_trans with (Lc ++ ((b, KBitmap) :: Li) ++ Ls).
      * cbn [app]. apply Permutation_middle.
      * apply Permutation_app_head. apply Permutation_app_tail. apply Permutation_sym. exact P.
    + cbn [bind].
      destruct (embedDBInitIterator c s mnk mxk mnd mxd) as [it| |]; cbn [bind agrees]; [|reflexivity|reflexivity].
      destruct (its_put _ _ _ n it TI ID) as (I2 & _).
      eexists. split; [reflexivity|]. split; [reflexivity|]. cbn. split; [reflexivity|]. split; [reflexivity|].
      exists Lc, Li, Ls. split; [exact I2|]. split; [exact TS|]. split; [exact H|exact O].
  - destruct (nth_error iit n) as [[it|]|] eqn:N; try discriminate E. inversion E; subst r; clear E.
    destruct (its_use _ _ _ _ _ TI N) as (p & N2 & PP & IU). unfold nth_res. rewrite N2. cbn [bind].
    assert (LV : match p with Null => true | _ => live m p end = true).
    { destruct PP as [->|(b & -> & Hin)]; [reflexivity|]. eapply load_live. eapply holds_load; [exact H|].
      apply in_or_app; right. apply in_or_app; left. exact Hin. }
    rewrite LV. cbn [need].
    destruct (embedDBNext c s it) as [[[[s' it'] z] o]| |]; cbn [bind agrees]; [|reflexivity|reflexivity].
    eexists. split; [reflexivity|]. split; [reflexivity|]. cbn. split; [reflexivity|]. split; [reflexivity|].
    exists Lc, Li, Ls. split; [apply IU|]. split; [exact TS|]. split; [exact H|exact O].
  - destruct (vacant ist j) eqn:V; [|discriminate E].
    destruct (nth_error iit n) as [[it|]|] eqn:N; try discriminate E. inversion E; subst r; clear E.
    destruct (its_use _ _ _ _ _ TI N) as (p & N2 & PP & IU). unfold nth_res. rewrite N2. cbn [bind].
    assert (LV : match p with Null => true | _ => live m p end = true).
    { destruct PP as [->|(b & -> & Hin)]; [reflexivity|]. eapply load_live. eapply holds_load; [exact H|].
      apply in_or_app; right. apply in_or_app; left. exact Hin. }
    rewrite LV. cbn [need].
    destruct (embedDBNextVar c s it) as [[[[[s' it'] z] o] vs]| |]; cbn [bind agrees]; [|reflexivity|reflexivity].
    assert (P : Permutation (Lc ++ Li ++ Ls) (Ls ++ Lc ++ Li)) by (rewrite app_assoc; apply Permutation_app_comm).
    apply (holds_perm _ _ _ _ P) in H.
    destruct (stream_ok _ _ _ _ _ _ _ z 0 (useVar c && (z =? 1)) vs TS V H) as (m2 & l2 & L2 & H2 & X).
    destruct (istream (r_fail m) ist j z 0 (useVar c && (z =? 1)) vs) as [[fl sv] z'].
    destruct X as (X & S2 & R2). rewrite X. cbn [bind agrees]. eexists. split; [reflexivity|].
    split; [reflexivity|]. cbn. split; [reflexivity|]. split; [exact R2|]. exists Lc, Li, L2.
    split; [apply IU|]. split; [exact S2|]. split; [|exact O].
    eapply holds_perm; [|exact H2]. rewrite (app_assoc Lc Li L2). apply Permutation_app_comm.
  - destruct (nth_error ist j) as [[|st|]|] eqn:N; try discriminate E. inversion E; subst r; clear E.
    destruct (sts_use _ _ _ _ _ TS N) as (b & L1 & N2 & P & S1 & S2). unfold nth_res. rewrite N2. cbn [bind].
    assert (P2 : Permutation (Lc ++ Li ++ Ls) ((b, KStream st) :: Lc ++ Li ++ L1)).
    { apply Permutation_trans with ((Lc ++ Li) ++ (b, KStream st) :: L1).
      - rewrite app_assoc. apply Permutation_app_head. exact P.
      - apply Permutation_sym. rewrite (app_assoc Lc Li L1). apply Permutation_middle. }
    apply (holds_perm _ _ _ _ P2) in H.
    rewrite (holds_load _ _ _ b _ H) by (left; reflexivity). cbn [bind].
    destruct (embedDBVarDataStreamRead c s st len) as [[[s' st'] bs]| |]; cbn [bind agrees]; [|reflexivity|reflexivity].
    unfold rstore. rewrite (holds_load _ _ _ b _ H) by (left; reflexivity). cbn [bind].
    destruct (holds_set _ _ _ _ _ (KStream st') H) as (H2 & R2).
    destruct (S2 st') as (L2 & P3 & S3).
    eexists. split; [reflexivity|]. split; [reflexivity|]. cbn. split; [reflexivity|]. split; [exact R2|].
    exists Lc, Li, L2. split; [exact TI|]. split; [exact S3|]. split; [|exact O].
    eapply holds_perm; [|exact H2].
    apply Permutation_trans with ((Lc ++ Li) ++ (b, KStream st') :: L1).
    + rewrite (app_assoc Lc Li L1). apply Permutation_middle.
    + rewrite <- app_assoc. apply Permutation_app_head. apply Permutation_app_head. apply Permutation_sym. exact P3.
  - destruct (nth_error ist j) as [[|st|]|] eqn:N; try discriminate E; inversion E; subst r; clear E.
    + unfold nth_res. rewrite (sts_nullvar _ _ _ _ TS N). cbn [bind rfree agrees].
      eexists. split; [reflexivity | apply OP].
    + destruct (sts_use _ _ _ _ _ TS N) as (b & L1 & N2 & P & S1 & S2). unfold nth_res. rewrite N2. cbn [bind].
      assert (P2 : Permutation (Lc ++ Li ++ Ls) ((b, KStream st) :: Lc ++ Li ++ L1)).
      { apply Permutation_trans with ((Lc ++ Li) ++ (b, KStream st) :: L1).
        - rewrite app_assoc. apply Permutation_app_head. exact P.
        - apply Permutation_sym. rewrite (app_assoc Lc Li L1). apply Permutation_middle. }
      apply (holds_perm _ _ _ _ P2) in H.
      destruct (free_one _ _ _ _ _ FR H ltac:(discriminate)) as (m2 & -> & H2 & R2). cbn [bind agrees].
      eexists. split; [reflexivity|]. split; [reflexivity|]. cbn. split; [reflexivity|]. split; [exact R2|].
      exists Lc, Li, L1. split; [exact TI|]. split; [exact S1|]. split; [exact H2 | exact O].
  - destruct (nth_error iit n) as [[it|]|] eqn:N; try discriminate E. inversion E; subst r; clear E.
    destruct (its_close _ _ _ _ _ TI N) as (p & N2 & IC). unfold nth_res. rewrite N2. cbn [bind].
    destruct IC as [(-> & IC)|(b & L' & -> & P & IC)].
    + cbn [rfree bind agrees]. eexists. split; [reflexivity|]. split; [reflexivity|]. cbn. split; [reflexivity|]. split; [reflexivity|].
      exists Lc, Li, Ls. auto.
    + assert (P2 : Permutation (Lc ++ Li ++ Ls) ((b, KBitmap) :: Lc ++ L' ++ Ls)).
      { apply Permutation_trans with (Lc ++ ((b, KBitmap) :: L') ++ Ls).
        - apply Permutation_app_head. apply Permutation_app_tail. exact P.
        - cbn [app]. apply Permutation_sym. apply Permutation_middle. }
      apply (holds_perm _ _ _ _ P2) in H.
      destruct (free_one _ _ _ _ _ FR H ltac:(discriminate)) as (m2 & -> & H2 & R2). cbn [bind agrees].
      eexists. split; [reflexivity|]. split; [reflexivity|]. cbn. split; [reflexivity|]. split; [exact R2|].
      exists Lc, L', Ls. auto.
  - inversion E; subst r; clear E. destruct (close_ok _ _ _ _ _ _ FR O H) as (m2 & q2 & -> & H2 & SH & R2). cbn [bind agrees].
    eexists. split; [reflexivity|]. split; [reflexivity|]. cbn. split; [reflexivity|]. split; [exact R2|].
    exists [], Li, Ls. auto.
  - discriminate E.
Qed.

Lemma step_shut : forall m0 w i x r, (forall b, (r_next m0 <= b)%nat -> r_blk m0 b = None) ->
  tied m0 w i -> i_ph i = IsShut -> icall i x = Some r -> agrees m0 (kstep w x) r.
Proof.
  intros m0 [m q c s wit wst] [c' s' ph iit ist ifl] x r FR T PH E. cbn [i_ph] in PH. subst ph.
  destruct T as (Es & Ec & Ef & Lc & Li & Ls & TI & TS & H & O & SH). cbn [w_s i_s w_c i_c w_m w_k w_it w_st i_it i_st i_fail i_ph] in *.
  subst s' c' ifl Lc. cbn [app] in H.
  unfold kstep, icall in *. cbn [w_s i_s w_c i_c w_m w_k w_it w_st i_it i_st i_fail i_ph andb] in *.
  destruct x as [k d|k d v| |k|j k|n mnk mxk mnd mxd|n|n j|j len|j|n| |c' fs]; try discriminate E.
  - destruct (nth_error ist j) as [[|st|]|] eqn:N; try discriminate E; inversion E; subst r; clear E.
    + unfold nth_res. rewrite (sts_nullvar _ _ _ _ TS N). cbn [bind rfree agrees].
      eexists. split; [reflexivity|]. split; [reflexivity|]. cbn. split; [reflexivity|]. split; [reflexivity|].
      exists [], Li, Ls. auto.
    + destruct (sts_use _ _ _ _ _ TS N) as (b & L1 & N2 & P & S1 & S2). unfold nth_res. rewrite N2. cbn [bind].
      assert (P2 : Permutation (Li ++ Ls) ((b, KStream st) :: Li ++ L1)).
      { apply Permutation_trans with (Li ++ (b, KStream st) :: L1).
        - apply Permutation_app_head. exact P.
        - apply Permutation_sym. apply Permutation_middle. }
      apply (holds_perm _ _ _ _ P2) in H.
      destruct (free_one _ _ _ _ _ FR H ltac:(discriminate)) as (m2 & -> & H2 & R2). cbn [bind agrees].
      eexists. split; [reflexivity|]. split; [reflexivity|]. cbn. split; [reflexivity|]. split; [exact R2|].
      exists [], Li, L1. auto.
  - destruct (nth_error iit n) as [[it|]|] eqn:N; try discriminate E. inversion E; subst r; clear E.
    destruct (its_close _ _ _ _ _ TI N) as (p & N2 & IC). unfold nth_res. rewrite N2. cbn [bind].
    destruct IC as [(-> & IC)|(b & L' & -> & P & IC)].
    + cbn [rfree bind agrees]. eexists. split; [reflexivity|]. split; [reflexivity|]. cbn. split; [reflexivity|]. split; [reflexivity|].
      exists [], Li, Ls. auto.
    + assert (P2 : Permutation (Li ++ Ls) ((b, KBitmap) :: L' ++ Ls)).
      { apply (Permutation_app_tail Ls) in P. exact P. }
      apply (holds_perm _ _ _ _ P2) in H.
      destruct (free_one _ _ _ _ _ FR H ltac:(discriminate)) as (m2 & -> & H2 & R2). cbn [bind agrees].
      eexists. split; [reflexivity|]. split; [reflexivity|]. cbn. split; [reflexivity|]. split; [exact R2|].
      exists [], L', Ls. auto.
  - destruct (enough c' (r_fail m)) eqn:EN; [|discriminate E]. inversion E; subst r; clear E.
    destruct SH as (Qd & Qi & Qv).
    set (q1 := mkCore (k_spl q) (k_dat q)
                 (match k_idx q with FInfo p => FInfo p | f => if useIndex c' then FInfo Null else f end)
                 (match k_var q with FInfo p => FInfo p | f => if useVar c' then FInfo Null else f end)).
    destruct (init_ok m0 m c' (disk_of s) fs q1 _ H EN) as (B & IO).
    + exact Qd.
    + intro U. unfold q1. cbn [k_idx]. rewrite U. destruct Qi as [->|[->| ->]]; reflexivity.
    + intro U. unfold q1. cbn [k_var]. rewrite U. destruct Qv as [->|[->| ->]]; reflexivity.
    + rewrite <- B. destruct (kinit c' (disk_of s) fs m q1) as [[[[m2 q2] s2] z]| |] eqn:KI; cbn [bare bind agrees]; [|reflexivity|reflexivity].
      eexists. split; [reflexivity|]. split; [reflexivity|]. cbn [i_ph].
      destruct (Z.eqb_spec z 0) as [->|NZ]; [|exact Logic.I].
      destruct (IO _ _ _ eq_refl) as (L & OW & H2 & R2). cbn.
      split; [reflexivity|]. split; [exact R2|]. exists L, Li, Ls. auto.
Qed.

Lemma step_ok : forall m0 w i x r, (forall b, (r_next m0 <= b)%nat -> r_blk m0 b = None) ->
  tied m0 w i -> icall i x = Some r -> agrees m0 (kstep w x) r.
Proof.
  intros m0 w i x r FR T E. destruct (i_ph i) eqn:PH.
  - eapply step_open; eassumption.
  - eapply step_shut; eassumption.
  - rewrite (broken_stops i x PH) in E. discriminate E.
Qed.

Lemma prog_ok : forall m0 p w i r, (forall b, (r_next m0 <= b)%nat -> r_blk m0 b = None) ->
  tied m0 w i -> iprog i p = Some r ->
  match r with
  | Ok (i', ys) => exists w', kprog w p = Ok (w', ys) /\ tied m0 w' i'
  | UB => kprog w p = UB
  | Fuel => kprog w p = Fuel
  end.
Proof.
  intros m0 p. induction p as [|x p IH]; intros w i r FR T E.
  - cbn in E. inversion E; subst r. exists w. split; [reflexivity | exact T].
  - cbn [iprog kprog] in *. destruct (icall i x) as [r1|] eqn:E1; [|discriminate E].
    pose proof (step_ok _ _ _ _ _ FR T E1) as A.
    destruct r1 as [[i1 y]| |]; cbn [agrees] in A.
    + destruct A as (w1 & -> & T1). cbn [bind].
      destruct (iprog i1 p) as [[[i2 ys]| |]|] eqn:E2; try discriminate E; inversion E; subst r.
      * destruct (IH _ _ _ FR T1 E2) as (w2 & -> & T2). cbn [bind]. exists w2. split; [reflexivity | exact T2].
      * rewrite (IH _ _ _ FR T1 E2). reflexivity.
      * rewrite (IH _ _ _ FR T1 E2). reflexivity.
    + inversion E; subst r. rewrite A. reflexivity.
    + inversion E; subst r. rewrite A. reflexivity.
Qed.

Lemma tied_settled : forall m0 w i, tied m0 w i -> settled i -> forall b, r_blk (w_m w) b = r_blk m0 b.
Proof.
  intros m0 w i T (PH & FI & FS). destruct T as (_ & T). rewrite PH in T.
  destruct T as (_ & _ & Lc & Li & Ls & TI & TS & H & -> & _). cbn [app] in H.
  assert (Li = []).
  { revert FI. clear - TI. induction TI; intro F; try reflexivity; inversion F; subst; auto; discriminate. }
  assert (Ls = []).
  { revert FS. clear - TS. induction TS; intro F; try reflexivity; inversion F; subst; auto. exfalso. eapply H1. reflexivity. }
  subst Li Ls. destruct H as (_ & _ & _ & D). intro b. apply D. intros [].
Qed.

Lemma tied_client : forall m0 w i, tied m0 w i -> i_ph i <> IsBroken ->
  forall b, (b < r_next m0)%nat -> r_blk (w_m w) b = r_blk m0 b.
Proof.
  intros m0 w i T PH b Hb. destruct T as (_ & T).
  assert (X : exists L, holds m0 (w_m w) L).
  { destruct (i_ph i); [| |congruence]; destruct T as (_ & _ & Lc & Li & Ls & _ & _ & H & _); eexists; exact H. }
  destruct X as (L & _ & _ & C & D). apply D. intro Hin. apply in_map_iff in Hin. destruct Hin as ((b' & o) & Eb & Hin).
  cbn in Eb. subst b'. apply C in Hin. lia.
Qed.

Lemma holds_start : forall m0, holds m0 m0 [].
Proof. intro m0. repeat split; auto; try (constructor); try (intros ? ? []); try contradiction. Qed.

Lemma open_ok : forall m0 c k fs, enough c (r_fail m0) = true ->
  match embedDBInit c k fs with
  | Ok (s, r) => exists w, kopen c k fs m0 = Ok (w, r) /\
      tied m0 w (mkId c s (if r =? 0 then IsOpen else IsBroken) [] [] (after_init c (r_fail m0)))
  | UB => kopen c k fs m0 = UB
  | Fuel => kopen c k fs m0 = Fuel
  end.
Proof.
  intros m0 c k fs E. unfold kopen.
  destruct (init_ok m0 m0 c k fs (core_new c) [] (holds_start m0) E) as (B & IO).
  - reflexivity.
  - intro U. unfold core_new. cbn [k_idx]. rewrite U. reflexivity.
  - intro U. unfold core_new. cbn [k_var]. rewrite U. reflexivity.
  - rewrite <- B. destruct (kinit c k fs m0 (core_new c)) as [[[[m q] s] r]| |]; cbn [bare bind]; [|reflexivity|reflexivity].
    eexists. split; [reflexivity|]. split; [reflexivity|]. cbn [i_ph].
    destruct (Z.eqb_spec r 0) as [->|NZ]; [|exact Logic.I].
    destruct (IO _ _ _ eq_refl) as (L & OW & H2 & R2). cbn.
    split; [reflexivity|]. split; [exact R2|]. exists L, [], [].
    split; [apply its_nil|]. split; [apply sts_nil|]. split; [exact H2 | exact OW].
Qed.

Lemma run_ok : forall c k fs m0 i0 z p r, client_mem m0 -> enough c (r_fail m0) = true ->
  iopen c k fs (r_fail m0) = Ok (i0, z) -> iprog i0 p = Some r ->
  exists w0, kopen c k fs m0 = Ok (w0, z) /\ outcome (kprog w0 p) = ioutcome r /\
  (forall i ys, r = Ok (i, ys) -> exists w, kprog w0 p = Ok (w, ys) /\
     (i_ph i <> IsBroken -> forall b, (b < r_next m0)%nat -> r_blk (w_m w) b = r_blk m0 b) /\
     (settled i -> forall b, r_blk (w_m w) b = r_blk m0 b)).
Proof.
  intros c k fs m0 i0 z p r FR E OP PR. unfold iopen in OP. pose proof (open_ok m0 c k fs E) as O.
  destruct (embedDBInit c k fs) as [[s r0]| |]; cbn [bind] in OP; try discriminate OP.
  destruct O as (w0 & KO & T).
  assert (X : mkId c s (if r0 =? 0 then IsOpen else IsBroken) [] [] (after_init c (r_fail m0)) = i0 /\ r0 = z).
  { split; congruence. }
  destruct X as (X & ->). rewrite X in T. clear X OP.
  exists w0. split; [exact KO|]. pose proof (prog_ok _ _ _ _ _ FR T PR) as A.
  destruct r as [[i ys]| |].
  - destruct A as (w & KP & T2). split.
    + rewrite KP. cbn. destruct T2 as (-> & _). reflexivity.
    + intros i' ys' Q. assert (i' = i /\ ys' = ys) as (-> & ->) by (split; congruence).
      exists w. split; [exact KP|]. split; [intros NB; eapply tied_client; eassumption | intros S; eapply tied_settled; eassumption].
  - rewrite A. split; [reflexivity|]. intros i ys Q. congruence.
  - rewrite A. split; [reflexivity|]. intros i ys Q. congruence.
Qed.

Lemma opening_same : forall c k fs m0, enough c (r_fail m0) = true ->
  outcome (kopen c k fs m0) = embedDBInit c k fs.
Proof.
  intros c k fs m0 E. pose proof (open_ok m0 c k fs E) as O.
  destruct (embedDBInit c k fs) as [[s r]| |].
  - destruct O as (w & -> & T & _). cbn in *. rewrite T. reflexivity.
  - rewrite O. reflexivity.
  - rewrite O. reflexivity.
Qed.

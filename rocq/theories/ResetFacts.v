(** Opening with the reset flag: the state is empty in every configuration. *)
From Verif Require Import Base Config Spline Storage DB VarData Recovery Run SpecIter.
From Verif Require Import BaseFacts.
Open Scope Z_scope.
Ltac Zify.zify_post_hook ::= ZifyBool.elim_bool_cstr.
Ltac Zify.zify_convert_to_euclidean_division_equations_flag ::= constr:(false).

Lemma bind_ok {A B} (m : res A) (f : A -> res B) b : bind m f = Ok b -> exists a, m = Ok a /\ f a = Ok b.
Proof. destruct m; cbn [bind]; try discriminate. eauto. Qed.

Lemma ok_eq {A} (a b : A) : Ok a = Ok b -> a = b.
Proof. intros H. injection H. auto. Qed.

(** A fresh page counts no records. *)
Lemma fresh_count c p : 0 <= keySize c -> init_page c = Ok p -> get_count p = Ok 0.
Proof.
  unfold init_page. intros K H. apply bind_ok in H. destruct H as (p1 & H1 & H2).
  unfold st in H1, H2. unfold off_minkey, off_mindata in *.
  match type of H1 with (if ?b then _ else _) = _ => destruct b eqn:E1; [|discriminate] end.
  match type of H2 with (if ?b then _ else _) = _ => destruct b eqn:E2; [|discriminate] end.
  apply ok_eq in H1. apply ok_eq in H2. subst p1 p.
  assert (L1 : zlen (wr (repeat 0 (psz c)) (Z.to_nat 14) (repeat 1 (ksz c))) = zlen (repeat 0 (psz c))).
  { unfold zlen in *. rewrite wr_length; [reflexivity|lia]. }
  unfold get_count, ldz, ld.
  assert (L2 : zlen (wr (wr (repeat 0 (psz c)) (Z.to_nat 14) (repeat 1 (ksz c))) (Z.to_nat (14 + keySize c * 2)) (repeat 1 (dsz c)))
    = zlen (repeat 0 (psz c))).
  { rewrite <- L1. unfold zlen in *. rewrite wr_length; [reflexivity|lia]. }
  rewrite L2. unfold zlen in *.
  match goal with |- context [if ?b then _ else UB] => destruct b eqn:E3; [|exfalso; rewrite ?repeat_length in *; lia] end. cbn [bind].
  rewrite !repeat_length in *.
  rewrite rd_wr_other by (rewrite ?repeat_length; lia). rewrite rd_wr_other by (rewrite ?repeat_length; lia).
  f_equal. unfold rd.
  replace (psz c) with (4 + (2 + (psz c - 6)))%nat by lia. rewrite !repeat_app. reflexivity.
Qed.

(** What embedDBInit leaves when it resets. *)
Record blank (c : cfg) (s : state) : Prop := {
  b_next : nextD (sd s) = 0;
  b_min : minD (sd s) = 0;
  b_cnt : get_count (wbuf (sd s)) = Ok 0;
  b_spl : useBinary c = false -> exists sp, spl (sd s) = Some sp /\ s_count sp = 0;
  b_idx : useIndex c = true -> nextI (si s) = 0
}.

Lemma reset_blank c k fs s0 : 0 <= keySize c -> useReset c = true ->
  embedDBInit c k fs = Ok (s0, 0) -> blank c s0.
Proof.
  intros K R H. unfold embedDBInit in H.
  repeat match type of H with (if ?b then _ else _) = _ => destruct b eqn:?; try discriminate H end.
  apply bind_ok in H. destruct H as (w & W & H). pose proof (fresh_count _ _ K W) as C. clear W.
  repeat match type of H with (if ?b then Ok _ else _) = _ => destruct b eqn:?; try discriminate H end.
  apply bind_ok in H. destruct H as ([s r] & D & H).
  unfold initData in D. rewrite R in D. inversion D; subst r; clear D.
  assert (B : blank c (set_i s (mkI (iwbuf (si s)) (irbuf (si s)) (availI (si s)) (minI (si s)) 0 (bufI (si s))))).
  { subst s. destruct (useBinary c) eqn:EB, (useRLC c); split; cbn -[useBinary useIndex]; auto; first [(intros; congruence) | (intros _; eexists; split; reflexivity) | (intros _; reflexivity)]. }
  cbn [Z.eqb negb] in H. apply bind_ok in H. destruct H as ([s2 r2] & I & H).
  assert (B2 : r2 = 0 -> blank c s2).
  { intros ->. destruct (useIndex c) eqn:EI.
    - unfold initIndex in I.
      do 2 match type of I with (if ?b then _ else _) = _ => destruct b eqn:?; try discriminate I end.
      apply bind_ok in I. destruct I as (b & _ & I). apply bind_ok in I. destruct I as (b' & _ & I).
      repeat match type of I with (if ?b then _ else _) = _ => destruct b eqn:?; try discriminate I end.
      rewrite R in I. inversion I; subst s2. destruct B. split; auto.
    - inversion I; subst s2. destruct B. split; auto. intros; congruence. }
  destruct (r2 =? 0) eqn:E2; cbn [negb] in H; [|inversion H; lia].
  specialize (B2 ltac:(lia)). destruct (useVar c).
  - match type of H with (if ?b then _ else _) = _ => destruct b; [discriminate H|] end. unfold initVarData in H. rewrite R in H. cbn [negb andb] in H.
    inversion H; subst s0. destruct B2. split; auto.
  - inversion H; subst s0. exact B2.
Qed.

Lemma blank_search c s key : blank c s -> searchBuffer c (wbuf (sd s)) key = Ok (-1, None).
Proof. intros B. unfold searchBuffer. rewrite (b_cnt _ _ B). reflexivity. Qed.
Lemma blank_get c s key : blank c s -> embedDBGet c s key = Ok (s, -1, None).
Proof. intros B. unfold embedDBGet. rewrite (b_next _ _ B), (blank_search _ _ _ B). reflexivity. Qed.
Lemma blank_getvar c s key : useVar c = true -> blank c s -> embedDBGetVar c s key = Ok (s, -1, None, None).
Proof. intros V B. unfold embedDBGetVar. rewrite V, (blank_search _ _ _ B). cbn [bind negb Z.eqb Z.opp].
  rewrite (blank_get _ _ _ B). reflexivity. Qed.

Lemma blank_next c s it : blank c s -> itPage it = 0 -> itRec it = 0 ->
  (itBM it <> None -> useIndex c = true /\ maxIdx c <> 0) ->
  exists it', embedDBNext c s it = Ok (s, it', 0, None).
Proof.
  intros B P R M. unfold embedDBNext. rewrite (b_next _ _ B), P.
  change (Z.to_nat (Z.max (0 - 0) 0 + 3)) with 3%nat.
  assert (S : next_skip c s it = Ok (s, Some false)).
  { unfold next_skip. destruct (itBM it) eqn:E; [|reflexivity]. rewrite R.
    destruct M as [I N]; [congruence|]. rewrite I. change (0 =? 0) with true. cbn [negb orb].
    destruct (maxIdx c =? 0) eqn:E0; [lia|]. rewrite P, Zdiv_0_l, (b_idx _ _ B I).
    replace (0 <? 0) with false by reflexivity. rewrite Bool.andb_false_r. reflexivity. }
  assert (N : forall f sw, next_loop c s (Datatypes.S f) sw it None = next_loop c s f true (it_page it 1 0) None).
  { intros f sw. cbn [next_loop]. rewrite (b_next _ _ B), P. change (0 >? 0) with false. change (0 =? 0) with true.
    cbn iota. rewrite S. cbn [bind]. change (0 =? 0) with true. cbn [negb]. rewrite (b_cnt _ _ B). cbn [bind].
    change (Z.to_nat (0 + 1)) with 1%nat. cbn [next_recs]. rewrite R. change (0 <? 0) with false. cbn [bind].
    rewrite P. reflexivity. }
  rewrite N. cbn [next_loop]. cbn [itPage it_page]. rewrite (b_next _ _ B). change (1 >? 0) with true. cbn iota. eauto.
Qed.

Lemma blank_iter c s q : blank c s -> useBinary c = false ->
  exists it, embedDBInitIterator c s (qMinK q) (qMaxK q) (qMinD q) (qMaxD q) = Ok it /\
  itPage it = 0 /\ itRec it = 0 /\ (itBM it <> None -> uses_bitmap c q = true).
Proof.
  intros B EB. destruct (b_spl _ _ B EB) as (sp & E & Z). unfold embedDBInitIterator. rewrite E, Z, (b_min _ _ B).
  change (0 =? 0) with true. cbn [negb andb].
  exists (mkIt 0 0 (qMinK q) (qMaxK q) (qMinD q) (qMaxD q)
    (if useBmap c then match qMinD q, qMaxD q with None, None => None | _, _ => Some (buildBM c (qMinD q) (qMaxD q)) end else None)).
  split; [destruct (qMinK q); reflexivity|]. split; [reflexivity|]. split; [reflexivity|]. cbn [itBM].
  unfold uses_bitmap. destruct (useBmap c), (qMinD q), (qMaxD q); cbn; congruence.
Qed.

Lemma reset_get c k fs s0 key : 0 <= keySize c -> useReset c = true ->
  embedDBInit c k fs = Ok (s0, 0) -> embedDBGet c s0 key = Ok (s0, -1, None).
Proof. intros K R H. apply blank_get. eapply reset_blank; eauto. Qed.
Lemma reset_getvar c k fs s0 key : 0 <= keySize c -> useReset c = true -> useVar c = true ->
  embedDBInit c k fs = Ok (s0, 0) -> embedDBGetVar c s0 key = Ok (s0, -1, None, None).
Proof. intros K R V H. apply blank_getvar; [exact V|]. eapply reset_blank; eauto. Qed.
Lemma reset_scan c k fs s0 q n : 0 <= keySize c -> useReset c = true -> useBinary c = false ->
  embedDBInit c k fs = Ok (s0, 0) ->
  (uses_bitmap c q = true -> useIndex c = true /\ maxIdx c <> 0) -> (0 < n)%nat ->
  scan c s0 q n = Ok (s0, []).
Proof.
  intros K R EB H M N. pose proof (reset_blank _ _ _ _ K R H) as B.
  destruct (blank_iter c s0 q B EB) as (it & I & P & Z & W). unfold scan. rewrite I. cbn [bind].
  destruct n; [lia|]. cbn [drain].
  destruct (blank_next c s0 it B P Z) as (it' & E); [auto|]. rewrite E. reflexivity.
Qed.
Lemma reset_nextvar c k fs s0 q : 0 <= keySize c -> useReset c = true -> useBinary c = false ->
  embedDBInit c k fs = Ok (s0, 0) ->
  (uses_bitmap c q = true -> useIndex c = true /\ maxIdx c <> 0) ->
  exists it it', embedDBInitIterator c s0 (qMinK q) (qMaxK q) (qMinD q) (qMaxD q) = Ok it /\
    embedDBNextVar c s0 it = Ok (s0, it', 0, None, None).
Proof.
  intros K R EB H M. pose proof (reset_blank _ _ _ _ K R H) as B.
  destruct (blank_iter c s0 q B EB) as (it & I & P & Z & W).
  destruct (blank_next c s0 it B P Z) as (it' & E); [auto|].
  exists it. unfold embedDBNextVar. destruct (useVar c).
  - exists it'. split; [exact I|]. cbn [negb]. rewrite E. reflexivity.
  - exists it. split; [exact I|]. reflexivity.
Qed.

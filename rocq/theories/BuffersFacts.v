(** The array of page buffers behaves as separate pages. *)
From Coq Require Import Lia.
From Verif Require Import Base Config Storage DB Recovery BaseFacts SpecPage SpecInit InitFacts Buffers SpecBuffers.
Open Scope Z_scope.
Ltac Zify.zify_post_hook ::= ZifyBool.elim_bool_cstr.
Ltac Zify.zify_convert_to_euclidean_division_equations_flag ::= constr:(false).

Section Buf.
  Variable c : cfg.
  Hypothesis P0 : 0 <= pageSize c.
  Hypothesis Room : forall b, in_use c b -> 0 <= number c b < bufBlocks c.
  Notation ps := (pageSize c).

  Local Lemma Hpsz : Z.of_nat (psz c) = ps.
  Proof. unfold psz. lia. Qed.

  Lemma role_eqb_eq a b : role_eqb a b = true -> a = b.
  Proof. destruct a, b; auto; discriminate. Qed.
  Lemma role_eqb_refl a : role_eqb a a = true.
  Proof. now destruct a. Qed.
  (** Buffers in use have different numbers. *)
  Lemma number_apart a b : in_use c a -> in_use c b -> role_eqb b a = false -> number c b <> number c a.
  Proof.
    intros Ha Hb E. destruct a, b; try discriminate E; cbn [in_use number] in *;
      unfold DATA_WRITE, DATA_READ, INDEX_WRITE, INDEX_READ, VAR_WRITE, VAR_READ; try rewrite Ha; try rewrite Hb; try (destruct (useIndex c)); lia.
  Qed.
  Lemma number_var b : in_use c b -> (number c b =? VAR_WRITE c) = role_eqb b VarWrite.
  Proof.
    intros Hb. destruct b; cbn [in_use number role_eqb] in *; [..|apply Z.eqb_refl|];
      unfold DATA_WRITE, DATA_READ, INDEX_WRITE, INDEX_READ, VAR_WRITE, VAR_READ; try rewrite Hb; try (destruct (useIndex c)); reflexivity.
  Qed.

  (** A slice read out of the array. *)
  Lemma rep_ld m f b o n : represents c m f -> in_use c b -> 0 <= o -> o + Z.of_nat n <= ps ->
    ld m (addr c (number c b) o) n = ld (f b) o n.
  Proof.
    intros [L R] Hb Ho Hn. destruct (R b Hb) as [Lb Rb]. pose proof (Room b Hb). pose proof Hpsz.
    unfold addr. assert (ps * number c b + ps <= zlen m) by (rewrite L; nia). assert (Zb : zlen (f b) = ps) by (unfold zlen; lia).
    rewrite !ld_ok by nia. f_equal. apply (nth_ext' 0).
    - rewrite !zrd_length; auto; nia.
    - intros i Hi. rewrite zrd_length in Hi by nia. unfold zrd. rewrite !rd_nth by (unfold zlen in *; nia).
      replace (Z.to_nat (ps * number c b + o) + i)%nat with (Z.to_nat (ps * number c b + (o + Z.of_nat i))) by nia.
      rewrite Rb by lia. f_equal. lia.
  Qed.
  (** A store through the array. *)
  Lemma rep_st m f b o bs p : represents c m f -> in_use c b -> st (f b) o bs = Ok p ->
    exists m', st m (addr c (number c b) o) bs = Ok m' /\ represents c m' (upd f b p).
  Proof.
    intros [L R] Hb Es. destruct (R b Hb) as [Lb Rb]. pose proof (Room b Hb). pose proof Hpsz.
    apply st_inv in Es as (H1 & H2 & ->). assert (Zb : zlen (f b) = ps) by (unfold zlen; lia). pose proof (zlen_nonneg bs).
    unfold addr. assert (ps * number c b + ps <= zlen m) by (rewrite L; nia).
    rewrite st_ok by nia. eexists. split; [reflexivity|]. split.
    - rewrite zwr_length by nia. exact L.
    - intros b' Hb'. destruct (R b' Hb') as [Lb' Rb']. pose proof (Room b' Hb').
      assert (Zb' : ps * number c b' + ps <= zlen m) by (rewrite L; nia).
      unfold upd. destruct (role_eqb b' b) eqn:Eb; [apply role_eqb_eq in Eb as ->|pose proof (number_apart _ _ Hb Hb' Eb) as Ne].
      + split; [pose proof (zwr_length (f b) o bs H1 H2) as Q; unfold zlen in *; lia|]. intros i Hi. unfold zwr.
        unfold zlen in *. rewrite !wr_nth by nia. rewrite Rb by lia.
        destruct (Nat.leb_spec (Z.to_nat (ps * number c b + o)) (Z.to_nat (ps * number c b + i))) as [A|A], (Nat.leb_spec (Z.to_nat o) (Z.to_nat i)) as [A'|A']; try nia; cbn [andb]; auto.
        destruct (Nat.ltb_spec (Z.to_nat (ps * number c b + i)) (Z.to_nat (ps * number c b + o) + length bs)) as [B|B], (Nat.ltb_spec (Z.to_nat i) (Z.to_nat o + length bs)) as [B'|B']; try nia; auto.
        f_equal. nia.
      + split; [exact Lb'|]. intros i Hi. rewrite <- Rb' by lia. unfold zwr, zlen in *. rewrite wr_nth by nia.
        destruct (Nat.leb_spec (Z.to_nat (ps * number c b + o)) (Z.to_nat (ps * number c b' + i))) as [A|A]; cbn [andb]; auto.
        destruct (Nat.ltb_spec (Z.to_nat (ps * number c b' + i)) (Z.to_nat (ps * number c b + o) + length bs)) as [B|B]; auto.
        exfalso. destruct (Z.lt_ge_cases (number c b') (number c b)); nia.
  Qed.
  (** A whole page. *)
  Lemma full_st q p : length q = psz c -> length p = psz c -> st q 0 p = Ok p.
  Proof.
    intros Hq Hp. rewrite st_ok by (unfold zlen; lia). f_equal. unfold zwr, wr. cbn [Z.to_nat firstn app Nat.add].
    rewrite skipn_all2 by lia. apply app_nil_r.
  Qed.
  Lemma full_ld q : length q = psz c -> ld q 0 (psz c) = Ok q.
  Proof. intros Hq. rewrite ld_ok by (unfold zlen; lia). f_equal. unfold zrd, rd. cbn [Z.to_nat skipn]. apply firstn_all2. lia. Qed.
  Lemma rep_page m f b p : represents c m f -> in_use c b -> length p = psz c ->
    exists m', st m (addr c (number c b) 0) p = Ok m' /\ represents c m' (upd f b p).
  Proof. intros H Hb Hp. apply rep_st; auto. apply full_st; [now apply (proj2 H)|auto]. Qed.

  Lemma rep_ext m f g : (forall b, in_use c b -> g b = f b) -> represents c m f -> represents c m g.
  Proof. intros E [L R]. split; [exact L|]. intros b Hb. rewrite (E b Hb). auto. Qed.

  Lemma rep_step m f o f' x : represents c m f -> bop_ok c o -> buf_step c f o = Ok (f', x) ->
    exists m', flat_step c m (numbered c o) = Ok (m', x) /\ represents c m' f'.
  Proof.
    intros R Ho. pose proof Hpsz as Hp. destruct o as [b|b o bs|b o n|b p|b|d s]; cbn [bop_ok buf_step numbered flat_step] in *; intros H.
    - destruct (rep_page m f b (repeat 0 (psz c)) R Ho (repeat_length _ _)) as (m1 & E1 & R1). rewrite E1. cbn [bind].
      rewrite (number_var b Ho). destruct (role_eqb b VarWrite) eqn:EV.
      + apply role_eqb_eq in EV. subst b. cbn [bind] in H. injection H as <- <-. exists m1. split; [reflexivity|exact R1].
      + replace (match b with VarWrite => Ok (init_var_page c) | _ => init_page c end) with (init_page c) in H by (destruct b; auto; discriminate EV).
        unfold init_page in H. destruct (st (repeat 0 (psz c)) off_minkey (repeat 1 (ksz c))) as [p1| |] eqn:S1; cbn [bind] in H; try discriminate.
        destruct (st p1 (off_mindata c) (repeat 1 (dsz c))) as [p2| |] eqn:S2; cbn [bind] in H; try discriminate. injection H as <- <-.
        assert (U1 : upd f b (repeat 0 (psz c)) b = repeat 0 (psz c)) by (unfold upd; now rewrite role_eqb_refl).
        rewrite <- U1 in S1 at 1. destruct (rep_st _ _ _ _ _ _ R1 Ho S1) as (m2 & E2 & R2). rewrite E2. cbn [bind].
        assert (U2 : upd (upd f b (repeat 0 (psz c))) b p1 b = p1) by (unfold upd; now rewrite role_eqb_refl).
        rewrite <- U2 in S2 at 1. destruct (rep_st _ _ _ _ _ _ R2 Ho S2) as (m3 & E3 & R3). rewrite E3. cbn [bind].
        exists m3. split; [reflexivity|]. eapply rep_ext; [|exact R3]. intros b' _. unfold upd. now destruct (role_eqb b' b).
    - destruct (st (f b) o bs) as [p| |] eqn:S; cbn [bind] in H; try discriminate. injection H as <- <-.
      destruct (rep_st _ _ _ _ _ _ R Ho S) as (m1 & E1 & R1). rewrite E1. cbn [bind]. eauto.
    - destruct (ld (f b) o n) as [y| |] eqn:S; cbn [bind] in H; try discriminate. injection H as <- <-.
      destruct (ld_inv _ _ _ _ S) as (A1 & A2 & _). destruct (proj2 R b Ho) as [Lb _]. unfold zlen in A2.
      rewrite (rep_ld m f b o n R Ho A1) by lia. rewrite S. cbn [bind]. eauto.
    - destruct Ho as [Hb Hl]. injection H as <- <-. destruct (rep_page m f b p R Hb Hl) as (m1 & E1 & R1). rewrite E1. cbn [bind]. eauto.
    - injection H as <- <-. destruct (proj2 R b Ho) as [Lb _]. rewrite (rep_ld m f b 0 (psz c) R Ho) by lia. rewrite (full_ld _ Lb). cbn [bind]. eauto.
    - destruct Ho as [Hd Hs]. injection H as <- <-. destruct (proj2 R s Hs) as [Ls _]. rewrite (rep_ld m f s 0 (psz c) R Hs) by lia. rewrite (full_ld _ Ls). cbn [bind].
      destruct (rep_page m f d (f s) R Hd Ls) as (m1 & E1 & R1). rewrite E1. cbn [bind]. eauto.
  Qed.
  Lemma rep_run os : forall m f f' xs, represents c m f -> Forall (bop_ok c) os -> buf_run c f os = Ok (f', xs) ->
    exists m', flat_run c m (map (numbered c) os) = Ok (m', xs) /\ represents c m' f'.
  Proof.
    induction os as [|o os IH]; intros m f f' xs R Ho H; cbn [buf_run map flat_run] in *.
    - injection H as <- <-. eauto.
    - inversion_clear Ho as [|? ? H1 H2]. destruct (buf_step c f o) as [[f1 x]| |] eqn:E1; cbn [bind] in H; try discriminate.
      destruct (buf_run c f1 os) as [[f2 ys]| |] eqn:E2; cbn [bind] in H; try discriminate. injection H as <- <-.
      destruct (rep_step m f o f1 x R H1 E1) as (m1 & F1 & R1). rewrite F1. cbn [bind].
      destruct (IH m1 f1 f2 ys R1 H2 E2) as (m2 & F2 & R2). rewrite F2. cbn [bind]. eauto.
  Qed.
End Buf.

(** Every array of the right size represents some family. *)
Lemma rep_exists c m : 0 <= pageSize c -> (forall b, in_use c b -> 0 <= number c b < bufBlocks c) -> zlen m = bufBlocks c * pageSize c ->
  represents c m (fun b : role => rd m (Z.to_nat (pageSize c * number c b)) (psz c)).
Proof.
  intros P0 Room L. split; [exact L|]. intros b Hb. pose proof (Room b Hb) as Hr. assert (Hp : Z.of_nat (psz c) = pageSize c) by (unfold psz; lia).
  assert (Z.to_nat (pageSize c * number c b) + psz c <= length m)%nat by (unfold zlen in L; nia).
  split; [now apply rd_length|]. intros i Hi. rewrite rd_nth by lia. f_equal. nia.
Qed.

(** embedDBInit accepts a configuration only if the buffers in use fit. *)
Lemma init_room c k fs s : embedDBInit c k fs = Ok (s, 0) -> data_room c -> forall b, in_use c b -> 0 <= number c b < bufBlocks c.
Proof.
  intros H Dr b Hb. destruct (init_areas _ _ _ _ H) as [_ _ _ _ _ AI AV].
  unfold data_room in Dr.
  destruct b; cbn [in_use number] in *; unfold DATA_WRITE, DATA_READ, INDEX_WRITE, INDEX_READ, VAR_WRITE, VAR_READ;
    destruct (useIndex c), (useVar c); try discriminate Hb;
    repeat match goal with A : true = true -> _ |- _ => specialize (A eq_refl) end; lia.
Qed.
Lemma buffers_separate c k fs s m os f f' xs :
  embedDBInit c k fs = Ok (s, 0) -> data_room c -> 0 <= pageSize c ->
  represents c m f -> Forall (bop_ok c) os -> buf_run c f os = Ok (f', xs) ->
  exists m', flat_run c m (map (numbered c) os) = Ok (m', xs) /\ represents c m' f'.
Proof. intros H Dr P0. apply rep_run; auto. eapply init_room; eauto. Qed.
Lemma buffers_represented c k fs s m :
  embedDBInit c k fs = Ok (s, 0) -> data_room c -> 0 <= pageSize c -> zlen m = bufBlocks c * pageSize c ->
  exists f, represents c m f.
Proof. intros H Dr P0 L. eexists. apply rep_exists; auto. eapply init_room; eauto. Qed.

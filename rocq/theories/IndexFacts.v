(** The bitmap index: slots hold the bitmaps of the data pages, so skipping is safe. *)
From Verif Require Import Base BaseFacts Config Spline Storage DB Recovery Spec SpecSpline SplineFacts
  Util SpecUtil UtilFacts SpecPage SpecStore SpecIter SpecIndex Run SpecRun LogFacts PageFacts SearchFacts StoreFacts PutFacts GetFacts BinFacts
  RunFacts ReachFacts StoreThms IterFacts IterThms.
Open Scope Z_scope.
Ltac Zify.zify_post_hook ::= ZifyBool.elim_bool_cstr.
Ltac Zify.zify_convert_to_euclidean_division_equations_flag ::= constr:(false).

Lemma mod_inj_n a b n : 0 < n -> a mod n = b mod n -> a <= b < a + n -> a = b.
Proof.
  intros DP E H.
  pose proof (Z_div_mod_eq_full a n) as A. pose proof (Z_div_mod_eq_full b n) as B0.
  rewrite E in A. set (q := a / n) in *. set (r := b / n) in *. clearbody q r.
  assert (q = r) by nia. subst. lia.
Qed.

(** ** A file used as a ring of pages *)
Definition ring (NI : Z) (Im : Z -> page -> Prop) (F : file) (l n : Z) : Prop :=
  forall id, l <= id < n -> id mod NI < flen F /\ Im id (fpg F (id mod NI)).

(** Pages [x .. n) of a ring of [NI] pages are on storage, [l .. n) are in use, and
    older slots hold erased pages.  The erased pages lie in the lap before the one
    being written. *)
Definition RG (c : cfg) (NI : Z) (Q : Z -> page -> Prop) (F : file) (l n : Z) : Prop :=
  0 <= l <= n /\ n - l <= NI /\ (truncates c = true -> n < NI -> flen F = n) /\ Z.min n NI <= flen F /\
  exists x, Z.max 0 (n - NI) <= x <= l /\
    (Z.max 0 (n - NI) < x -> n mod NI <> 0 /\ x <= n - n mod NI) /\
    ring NI Q F x n /\
    forall id, Z.max 0 (n - NI) <= id < x ->
      exists b, eraseFill c = Some b /\ fpg F (id mod NI) = repeat b (psz c).

Lemma mod_up n NI : 0 < NI -> ((n + 1) mod NI = 0 /\ n mod NI = NI - 1) \/ ((n + 1) mod NI = n mod NI + 1 /\ n mod NI < NI - 1).
Proof.
  intros H. pose proof (Z.mod_pos_bound n NI H) as Hb. rewrite (Z.add_mod n 1) by lia.
  destruct (Z.eq_dec (n mod NI) (NI - 1)) as [E|E].
  - left. split; [|auto]. rewrite E. destruct (Z.eq_dec NI 1) as [->|]; [reflexivity|].
    rewrite (Z.mod_small 1) by lia. replace (NI - 1 + 1) with NI by lia. apply Z.mod_same. lia.
  - right. rewrite (Z.mod_small 1) by lia. split; [apply Z.mod_small; lia|lia].
Qed.
(** Slot of the page [k] pages after the one that has the slot of [n]. *)
Lemma mod_lap n NI k : 0 < NI -> 0 <= k < NI ->
  (n - NI + k) mod NI = if n mod NI + k <? NI then n mod NI + k else n mod NI + k - NI.
Proof.
  intros H Hk. pose proof (Z.mod_pos_bound n NI H) as Hb. pose proof (Z_div_mod_eq_full n NI) as Dm.
  destruct (Z.ltb_spec (n mod NI + k) NI).
  - symmetry. apply (Z.mod_unique_pos _ _ (n / NI - 1)); lia.
  - symmetry. apply (Z.mod_unique_pos _ _ (n / NI)); lia.
Qed.

Section Ring.
  Variables (c : cfg) (NI B : Z).
  Hypothesis HB : 1 <= B.
  Hypothesis HN : B <= NI.
  Variable Q : Z -> page -> Prop.

  Lemma ring_sub F l l' n : ring NI Q F l n -> l <= l' -> ring NI Q F l' n.
  Proof. intros R H id Hid. apply R. lia. Qed.

  Lemma ring_write F l n p : ring NI Q F l n -> 0 <= l <= n -> n - l < NI -> Q n p ->
    ring NI Q (file_write c F (n mod NI) p) l (n + 1).
  Proof.
    intros R L1 Room Hi id Hid. cbn [file_write flen fpg].
    destruct (Z.eqb_spec (id mod NI) (n mod NI)) as [E|NE].
    - assert (id = n) by (apply (mod_inj_n id n NI); lia). subst id. split; [lia|auto].
    - assert (id <> n) by congruence. destruct (R id ltac:(lia)) as [R1 R2]. split; [lia|].
      destruct (Z.ltb_spec (id mod NI) (flen F)); [auto|lia].
  Qed.

  Lemma RG_ring F l n : RG c NI Q F l n -> ring NI Q F l n.
  Proof. intros (_ & _ & _ & _ & x & Hx & _ & R & _). apply (ring_sub F x); [auto|lia]. Qed.

  (** Writing page [n] over a slot that is not in use. *)
  Lemma RG_write F l n p : RG c NI Q F l n -> n - l < NI -> Q n p -> RG c NI Q (file_write c F (n mod NI) p) l (n + 1).
  Proof.
    intros (H1 & H2 & H3 & H4 & x & Hx & Hlap & R & Er) Room Hp.
    pose proof (Z.mod_pos_bound n NI ltac:(lia)) as Hr. split; [lia|]. split; [lia|]. cbn [file_write flen].
    split; [intros Ht Hn; rewrite (Z.mod_small n) by lia; specialize (H3 Ht); lia|].
    split. { destruct (Z.lt_ge_cases n NI); [rewrite (Z.mod_small n) by lia|]; lia. }
    exists (Z.max x (n + 1 - NI)). split; [lia|]. split; [|split].
    - intros Hgt. assert (Ex : Z.max x (n + 1 - NI) = x) by lia. rewrite Ex in *.
      destruct (Hlap ltac:(lia)) as [E1 E2]. destruct (mod_up n NI ltac:(lia)) as [[E3 E4]|[E3 E4]]; lia.
    - apply ring_write; auto; try lia. apply (ring_sub F x); [auto|lia].
    - intros id Hid. destruct (Er id ltac:(lia)) as (b & Eb & Ep). exists b. split; [auto|]. cbn [file_write fpg].
      destruct (Z.eqb_spec (id mod NI) (n mod NI)) as [E|NE].
      { exfalso. assert (id = n) by (apply (mod_inj_n id n NI); lia). lia. }
      pose proof (Z.mod_pos_bound id NI ltac:(lia)). destruct (Z.ltb_spec (id mod NI) (flen F)) as [|Ge]; [auto|].
      exfalso. destruct (Z.lt_ge_cases n NI) as [Lt|Gt]; [|lia]. destruct (Hlap ltac:(lia)) as [E1 E2]. rewrite (Z.mod_small n) in E2 by lia. lia.
  Qed.

  (** Erasing [B] slots from that of page [n] on and writing it, when the ring is full. *)
  Lemma RG_erase F l n p : RG c NI Q F l n -> n - l = NI -> Q n p ->
    RG c NI Q (file_write c (file_erase c F (n mod NI) (n mod NI + B)) (n mod NI) p) (l + B) (n + 1).
  Proof.
    intros (H1 & H2 & H3 & H4 & x & Hx & Hlap & R & Er) Full Hp. assert (x = n - NI) by lia. subst x. assert (l = n - NI) by lia. subst l.
    clear Hx Hlap Er H3. rewrite Z.min_r in H4 by lia.
    pose proof (Z.mod_pos_bound n NI ltac:(lia)) as Hr. set (F1 := file_erase c F _ _).
    assert (Fl : NI <= flen F1) by (unfold F1, file_erase; destruct (eraseFill c); cbn [flen]; lia).
    split; [lia|]. split; [lia|]. split; [lia|]. split; [cbn [file_write flen]; lia|].
    set (y := match eraseFill c with None => n + 1 - NI | Some _ => Z.min (n - NI + B) (n - n mod NI) end).
    assert (Hy : n + 1 - NI <= y <= n - NI + B) by (unfold y; destruct (eraseFill c); lia).
    exists y. split; [lia|]. split; [|split].
    - intros Hgt. unfold y in *. destruct (eraseFill c); [|lia]. destruct (mod_up n NI ltac:(lia)) as [[E3 E4]|[E3 E4]]; lia.
    - apply ring_write; auto; try lia. intros id Hid. destruct (R id ltac:(lia)) as [R1 R2].
      unfold F1, file_erase, y in *. destruct (eraseFill c) as [b|]; [|auto]. cbn [flen fpg]. split; [lia|].
      replace id with (n - NI + (id - (n - NI))) in * by lia. rewrite mod_lap in * by lia. set (k := id - (n - NI)) in *.
      destruct (Z.ltb_spec (n mod NI + k) NI) as [Lk|Lk].
      + destruct (Z.leb_spec (n mod NI) (n mod NI + k)); cbn [andb]; [|lia]. destruct (Z.ltb_spec (n mod NI + k) (n mod NI + B)); [lia|].
        destruct (Z.ltb_spec (n mod NI + k) (flen F)); [auto|lia].
      + destruct (Z.leb_spec (n mod NI) (n mod NI + k - NI)); cbn [andb]; [lia|].
        destruct (Z.ltb_spec (n mod NI + k - NI) (flen F)); [auto|lia].
    - intros id Hid. unfold F1, file_erase, y in *. destruct (eraseFill c) as [b|]; [|lia]. exists b. split; [auto|].
      cbn [file_write flen fpg]. replace id with (n - NI + (id - (n - NI))) by lia. rewrite mod_lap by lia. set (k := id - (n - NI)) in *.
      destruct (Z.ltb_spec (n mod NI + k) NI) as [Lk|Lk]; [|lia].
      destruct (Z.eqb_spec (n mod NI + k) (n mod NI)); [lia|]. destruct (Z.ltb_spec (n mod NI + k) (Z.max (flen F) (n mod NI + B))); [|lia].
      destruct (Z.leb_spec (n mod NI) (n mod NI + k)); cbn [andb]; [|lia]. destruct (Z.ltb_spec (n mod NI + k) (n mod NI + B)); [auto|lia].
  Qed.
End Ring.

Section Index.
  Variables (c : cfg) (KB PB f : Z).
  Hypothesis G : setting c KB PB.
  Hypothesis U : useIndex c = true.
  Hypothesis UM : useBmap c = true.
  Hypothesis HC : useRLC c = false.
  Notation Inv := (Inv c KB PB f).
  Notation InvG := (InvG c KB PB f).
  Notation N := (maxRec c).
  Notation D := (numData c).
  Notation B := (eraseSize c).
  Notation NI := (numIndex c).
  Notation M := (maxIdx c).
  Notation bs := (bitmapSize c).
  Hypothesis HN : 2 * B <= NI.
  Let L0 := L0 c KB PB G.

  (** Image of index page [id] over data pages [P]. *)
  Definition Im (P : list (list rcd)) (id : Z) (p : page) : Prop :=
    zlen p = pageSize c /\
    forall j, 0 <= j < M -> id * M + j < zlen P ->
      bytes_at p (16 + bs * j) (bsz c) = bitmap_of c (nth (Z.to_nat (id * M + j)) P []).

  Lemma Im_app P x id p : 0 <= id -> (id + 1) * M <= zlen P -> Im P id p -> Im (P ++ [x]) id p.
  Proof.
    intros H0 H [H1 H2]. split; [auto|]. intros j Hj _. destruct (maxIdx_spec c KB PB G U) as [M1 _].
    assert (0 <= id * M) by (apply Z.mul_nonneg_nonneg; lia).
    rewrite app_nth1 by (unfold zlen in *; lia). apply H2; [auto|lia].
  Qed.

  (** ... and it carries its number. *)
  Definition IQ (P : list (list rcd)) (id : Z) (p : page) : Prop := Im P id p /\ page_id p = id.

  Record XI (i : ist) (F : file) (P : list (list rcd)) : Prop := {
    x_len : zlen (iwbuf i) = pageSize c;
    x_cnt : get_count (iwbuf i) = Ok (zlen P - nextI i * M);
    x_rng : 0 <= zlen P - nextI i * M <= M;
    x_buf : Im P (nextI i) (iwbuf i);
    x_avail : availI i = NI - (nextI i - minI i);
    x_file : RG c NI (IQ P) F (minI i) (nextI i)
  }.
  (** The index read buffer is not written, and the index file grows by at most a page. *)
  Definition ikeep (i i' : ist) : Prop :=
    irbuf i' = irbuf i /\ bufI i' = bufI i /\ minI i <= minI i' /\ (nextI i' = nextI i \/ nextI i' = nextI i + 1).
  (** What the index read buffer holds is the page of its slot. *)
  Definition icoh (i : ist) (P : list (list rcd)) : Prop :=
    forall id, minI i <= id < nextI i -> id mod NI = bufI i -> Im P id (irbuf i).

  Lemma slot_in j : 0 <= j < M -> 16 <= 16 + bs * j /\ 16 + bs * j + Z.of_nat (bsz c) <= pageSize c.
  Proof.
    intros Hj. destruct (maxIdx_spec c KB PB G U) as [M1 M2]. destruct (g_idx _ _ _ G U) as (A & B1 & C).
    pose proof (L_bsz c L0) as Bz. assert (bs * (j + 1) <= bs * M) by (apply Z.mul_le_mono_nonneg_l; lia).
    assert (0 <= bs * j) by (apply Z.mul_nonneg_nonneg; lia). lia.
  Qed.

  Lemma ikeep_refl i : ikeep i i.
  Proof. unfold ikeep. do 3 (split; [auto|]); [lia|auto]. Qed.
  Lemma icoh_no i P : bufI i = NOPAGE -> icoh i P.
  Proof.
    intros E id _ H. exfalso. rewrite E in H. unfold NOPAGE in H. destruct (g_idx _ _ _ G U) as (_ & _ & C).
    pose proof (Z.mod_pos_bound id NI ltac:(lia)). lia.
  Qed.
  (** A page written elsewhere does not touch the read buffer's. *)
  Lemma icoh_keep i i' P P' : ikeep i i' -> (nextI i' <> nextI i -> nextI i mod NI <> bufI i) ->
    (forall id p, minI i <= id < nextI i -> Im P id p -> Im P' id p) -> icoh i P -> icoh i' P'.
  Proof.
    intros (K1 & K2 & K3 & K4) Hn Hi H id Hid E. rewrite K1. rewrite K2 in E.
    destruct K4 as [K4|K4].
    - apply Hi; [lia|]. apply H; [lia|auto].
    - assert (id <> nextI i) by (intros ->; apply Hn; [lia|auto]). apply Hi; [lia|]. apply H; [lia|auto].
  Qed.

  (** ** Appending an entry *)
  Lemma append_slots s i s' : zlen (iwbuf (si s)) = pageSize c -> get_count (iwbuf (si s)) = Ok i -> 0 <= i < M ->
    zlen (wbuf (sd s)) = pageSize c -> idx_append c s i = Ok s' ->
    exists b, s' = set_i s (i_wbuf (si s) b) /\ zlen b = pageSize c /\ get_count b = Ok (i + 1) /\
      bytes_at b (16 + bs * i) (bsz c) = bytes_at (wbuf (sd s)) 6 (bsz c) /\
      forall j, 0 <= j < i -> bytes_at b (16 + bs * j) (bsz c) = bytes_at (iwbuf (si s)) (16 + bs * j) (bsz c).
  Proof.
    intros Hz Hc Hi Hw E. destruct (idx_append_ok c KB PB G s i U Hz Hc Hi Hw) as (b & E' & Lb & Cb).
    rewrite E in E'. injection E' as ->. exists b. split; [auto|]. split; [auto|]. split; [auto|].
    destruct (g_idx _ _ _ G U) as (A & B1 & C). pose proof (L_bsz c L0) as Bz.
    pose proof (slot_in i Hi) as Si. destruct (maxIdx_spec c KB PB G U) as [M1 M2].
    unfold idx_append, inc_count in E. rewrite Hc in E. cbn [bind] in E.
    rewrite st_ok in E by (rewrite ?le_enc_zlen; lia). cbn [bind] in E. rewrite ld_ok in E by lia. cbn [bind] in E.
    assert (Lz : zlen (zrd (wbuf (sd s)) 6 (bsz c)) = bs) by (unfold zlen; rewrite zrd_length by lia; lia).
    assert (L1 : zlen (zwr (iwbuf (si s)) 4 (le_enc 2 (i + 1))) = pageSize c) by (rewrite zwr_length; rewrite ?le_enc_zlen; lia).
    rewrite st_ok in E by lia. cbn [bind] in E.
    assert (Eb : b = zwr (zwr (iwbuf (si s)) 4 (le_enc 2 (i + 1))) (16 + bs * i) (zrd (wbuf (sd s)) 6 (bsz c))).
    { injection E as E. now destruct (si s). }
    rewrite Eb. split.
    - change (bytes_at (wbuf (sd s)) 6 (bsz c)) with (zrd (wbuf (sd s)) 6 (bsz c)). apply ba_same; try lia. symmetry. apply zrd_length; lia.
    - intros j Hj. pose proof (slot_in j ltac:(lia)) as Sj.
      assert (bs * (j + 1) <= bs * i) by (apply Z.mul_le_mono_nonneg_l; lia).
      rewrite ba_other by lia. rewrite ba_other by (rewrite ?le_enc_zlen; lia). auto.
  Qed.

  (** ** Writing an index page *)
  Lemma pid_w b n : zlen b = pageSize c -> 0 <= n < 2 ^ 32 -> page_id (zwr b 0 (le_enc 4 n)) = n.
  Proof.
    intros Hz Hn. pose proof (l_init c L0). pose proof (l_ks c L0). pose proof (l_ds c L0).
    unfold page_id. rewrite bytes_at_zrd. rewrite zrd_zwr_same; rewrite ?le_enc_zlen, ?le_enc_length; try lia; auto.
    apply le_dec_enc. cbn. lia.
  Qed.

  Lemma wip_ring s (Q : Z -> page -> Prop) : faults (sio s) = [] -> zlen (iwbuf (si s)) = pageSize c ->
    nextI (si s) < 2 ^ 31 -> availI (si s) = NI - (nextI (si s) - minI (si s)) ->
    RG c NI Q (fI (sio s)) (minI (si s)) (nextI (si s)) ->
    let w := zwr (iwbuf (si s)) 0 (le_enc 4 (nextI (si s))) in
    Q (nextI (si s)) w ->
    exists s' m', writeIndexPage c s = Ok (s', nextI (si s)) /\
      si s' = mkI w (irbuf (si s)) (NI - (nextI (si s) + 1 - m')) m' (nextI (si s) + 1) (bufI (si s)) /\
      minI (si s) <= m' /\ RG c NI Q (fI (sio s')) m' (nextI (si s) + 1).
  Proof.
    intros Hf Hz Hn Hav R w Hw. pose proof (g_B _ _ _ G) as GB. destruct R as (Hmin & Hwin & R0). assert (R : RG c NI Q (fI (sio s)) (minI (si s)) (nextI (si s))) by (split; auto). clear R0.
    destruct (g_idx _ _ _ G U) as (A & B1 & C).
    unfold writeIndexPage. cbn [set_i si i_next iwbuf]. unfold set_pid.
    pose proof (l_init c L0). pose proof (l_ks c L0). pose proof (l_ds c L0).
    rewrite st_ok by (rewrite ?le_enc_zlen; lia). cbn [bind]. fold w.
    unfold set_i, set_io, i_wbuf, i_avail, i_next; cbn [sio sd si sv iwbuf irbuf availI minI nextI bufI].
    set (n := nextI (si s)) in *. set (l := minI (si s)) in *.
    rewrite (u32_id (n + 1)) by lia.
    destruct (Z.leb_spec (availI (si s)) 0) as [Le|Gt].
    - assert (Full : n - l = NI) by lia.
      rewrite io_erase_nf by auto. cbn [negb sio sd si sv iwbuf irbuf availI minI nextI bufI putF getF].
      rewrite io_write_nf by auto. cbn [negb sio sd si sv iwbuf irbuf availI minI nextI bufI putF getF faults fD fI fV trace].
      eexists _, (l + B). split; [reflexivity|].
      cbn [negb sio sd si sv iwbuf irbuf availI minI nextI bufI putF getF faults fD fI fV trace].
      rewrite (u32_id (l + B)), (u32_id (availI (si s) + B)) by lia. rewrite u32_id by lia.
      split; [f_equal; lia|]. split; [lia|]. apply RG_erase; auto; lia.
    - cbn [negb sio sd si sv iwbuf irbuf availI minI nextI bufI putF getF].
      rewrite io_write_nf by auto. cbn [negb sio sd si sv iwbuf irbuf availI minI nextI bufI putF getF faults fD fI fV trace].
      eexists _, l. split; [reflexivity|].
      cbn [negb sio sd si sv iwbuf irbuf availI minI nextI bufI putF getF faults fD fI fV trace].
      rewrite u32_id by lia.
      split; [f_equal; lia|]. split; [lia|]. apply (RG_write c NI B); auto; lia.
  Qed.

  Lemma ring_impl (Q1 Q2 : Z -> page -> Prop) F l n : (forall id p, l <= id < n -> Q1 id p -> Q2 id p) ->
    ring NI Q1 F l n -> ring NI Q2 F l n.
  Proof. intros H R id Hid. destruct (R id Hid). split; auto. Qed.
  Lemma RG_impl (Q1 Q2 : Z -> page -> Prop) F l n : (forall id p, 0 <= id < n -> Q1 id p -> Q2 id p) ->
    RG c NI Q1 F l n -> RG c NI Q2 F l n.
  Proof.
    intros H (H1 & H2 & H3 & H4 & x & Hx & Hlap & R & Er). do 4 (split; [auto|]). exists x. do 2 (split; [auto|]). split; [|auto].
    apply (ring_impl Q1); auto. intros id p Hid. apply H. lia.
  Qed.

  Lemma RG_app P x F l n : n * M <= zlen P -> RG c NI (IQ P) F l n -> RG c NI (IQ (P ++ [x])) F l n.
  Proof.
    intros Hn. apply RG_impl. intros id p Hid [H1 H2]. split; [|auto]. destruct (maxIdx_spec c KB PB G U) as [M1 _]. apply Im_app; [lia| |auto].
    assert ((id + 1) * M <= n * M) by (apply Z.mul_le_mono_nonneg_r; lia). lia.
  Qed.

  (** A page with one more entry. *)
  Lemma Im_snoc P x b0 b n i : zlen P = n * M + i -> 0 <= n -> 0 <= i < M -> Im P n b0 -> zlen b = pageSize c ->
    bytes_at b (16 + bs * i) (bsz c) = bitmap_of c x ->
    (forall j, 0 <= j < i -> bytes_at b (16 + bs * j) (bsz c) = bytes_at b0 (16 + bs * j) (bsz c)) ->
    Im (P ++ [x]) n b.
  Proof.
    intros Hp Hn Hi [_ H0] Lb Hb Ho. split; [auto|]. intros j Hj Hz. rewrite zlen_app in Hz. change (zlen [x]) with 1 in Hz.
    assert (0 <= n * M) by (apply Z.mul_nonneg_nonneg; lia).
    destruct (Z.eq_dec j i) as [->|Ne].
    - rewrite Hb, <- Hp. unfold zlen. rewrite Nat2Z.id, app_nth2, Nat.sub_diag by auto. reflexivity.
    - rewrite Ho by lia. rewrite H0 by lia. rewrite app_nth1 by (unfold zlen in *; lia). reflexivity.
  Qed.

  (** Writing the page number does not touch the slots. *)
  Lemma Im_pid P n b v : Im P n b -> Im P n (zwr b 0 (le_enc 4 v)).
  Proof.
    intros [H1 H2]. pose proof (l_init c L0). pose proof (l_ks c L0). pose proof (l_ds c L0).
    split; [rewrite zwr_length; rewrite ?le_enc_zlen; lia|]. intros j Hj Hz. pose proof (slot_in j Hj).
    rewrite ba_other by (rewrite ?le_enc_zlen; lia). auto.
  Qed.

  Lemma put_index_XI s s' P x pn : faults (sio s) = [] -> holds c (wbuf (sd s)) x -> nextI (si s) < 2 ^ 31 ->
    XI (si s) (fI (sio s)) P -> put_index c s pn = Ok s' -> XI (si s') (fI (sio s')) (P ++ [x]) /\ ikeep (si s) (si s').
  Proof.
    intros Hf Hh Hn X E. unfold put_index in E. rewrite U in E. cbn [negb] in E.
    destruct (maxIdx_spec c KB PB G U) as [M1 M2]. pose proof (h_len _ _ _ Hh) as Hw.
    pose proof (h_bm _ _ _ Hh UM) as Hbm. pose proof (l_init c L0). pose proof (l_ks c L0). pose proof (l_ds c L0).
    destruct X. rewrite x_cnt0 in E. cbn [bind] in E.
    assert (Zx : zlen (P ++ [x]) = zlen P + 1) by (rewrite zlen_app; reflexivity).
    destruct (Z.geb_spec (zlen P - nextI (si s) * M) M) as [Ge|Lt].
    - assert (Nn : 0 <= minI (si s) <= nextI (si s)) by apply x_file0.
      destruct (wip_ring s (IQ P) Hf x_len0 Hn x_avail0 x_file0) as (s1 & m & E1 & Es & a1 & R).
      { split; [apply Im_pid; auto|]. apply pid_w; auto; lia. }
      destruct (writeIndexPage_ok c KB PB G s Hf x_len0 ltac:(lia)) as (s1' & new & E1' & e1 & e2 & _).
      rewrite E1 in E1'. injection E1' as <-. rewrite E1 in E. cbn [bind] in E.
      destruct (init_page_ok c L0) as (b & Eb & Hb). rewrite Eb in E. cbn [bind] in E. pose proof (h_len _ _ _ Hb) as Lb.
      rewrite st_ok in E by (rewrite ?le_enc_zlen; lia). cbn [bind] in E.
      set (b1 := zwr b 8 (le_enc 4 pn)) in *.
      assert (Lb1 : zlen b1 = pageSize c) by (unfold b1; rewrite zwr_length; rewrite ?le_enc_zlen; lia).
      assert (Cb1 : get_count b1 = Ok 0).
      { unfold b1. rewrite (count_other c) by (rewrite ?le_enc_zlen; lia). rewrite (get_count_ok c L0 _ _ Hb). auto. }
      assert (Hw1 : zlen (wbuf (sd (set_i s1 (i_wbuf (si s1) b1)))) = pageSize c) by (cbn [set_i sd]; rewrite e1; auto).
      destruct (append_slots (set_i s1 (i_wbuf (si s1) b1)) 0 s' Lb1 Cb1 ltac:(lia) Hw1 E) as (b2 & -> & Lb2 & Cb2 & S2 & _).
      cbn [set_i i_wbuf si sio sd iwbuf irbuf availI minI nextI bufI] in *. rewrite e1, Hbm in S2.
      assert (Zm : (nextI (si s) + 1) * M = zlen P) by lia.
      unfold i_wbuf. rewrite Es. cbn [iwbuf irbuf availI minI nextI bufI].
      split; [constructor|do 3 (split; [solve [auto|cbn [minI]; lia]|]); solve [auto]]; cbn [iwbuf irbuf availI minI nextI bufI]; auto; try lia.
      + rewrite Cb2, Zx. f_equal. lia.
      + apply (Im_snoc P x b2 b2 (nextI (si s) + 1) 0); auto; try lia.
        split; [auto|]. intros j Hj Hz. lia.
      + apply RG_app; auto; lia.
    - cbn [bind] in E. assert (Nn : 0 <= minI (si s) <= nextI (si s)) by apply x_file0.
      destruct (append_slots s _ s' x_len0 x_cnt0 ltac:(lia) Hw E) as (b2 & -> & Lb2 & Cb2 & S2 & S3).
      cbn [set_i i_wbuf si sio iwbuf irbuf availI minI nextI bufI] in *. rewrite Hbm in S2.
      unfold i_wbuf. split; [constructor|do 3 (split; [solve [auto|cbn [minI]; lia]|]); solve [auto]]; cbn [iwbuf irbuf availI minI nextI bufI]; auto; try lia.
      + rewrite Cb2, Zx. f_equal. lia.
      + apply (Im_snoc P x (iwbuf (si s)) b2 _ (zlen P - nextI (si s) * M)); auto; lia.
      + apply RG_app; auto; lia.
  Qed.

  (** ** Sealing a page in embedDBPut *)
  Lemma seal_XI s L s1 s2 s3 : Inv s L -> cur L <> [] -> zlen (pages L) + 1 + maxErr c < PB ->
    XI (si s) (fI (sio s)) (pages L) ->
    writePage c s = Ok (s1, zlen (pages L)) -> indexPage c s1 (zlen (pages L)) = Ok s2 ->
    put_index c s2 (zlen (pages L)) = Ok s3 -> XI (si s3) (fI (sio s3)) (pages L ++ [cur L]) /\ ikeep (si s) (si s3).
  Proof.
    intros I Hc Hp X E1 E2 E3. destruct (writePage_ok c KB PB f G s L HC I Hc Hp)
      as (s1' & new & E1' & I1 & a1 & a2 & a3 & _). rewrite E1 in E1'. injection E1' as <-.
    destruct (indexPage_ok c KB PB f G s1 _ _ _ I1) as (x & E2' & I2).
    { now rewrite (zlen_seal c). }
    { apply nth_seal. }
    rewrite E2 in E2'. injection E2' as ->.
    assert (Es : si s = si (set_d s1 (d_spl (sd s1) x))) by (cbn [set_d si]; auto). rewrite Es.
    eapply (put_index_XI _ _ _ _ _ (i_faults _ _ _ _ _ _ _ _ I2) (i_w _ _ _ _ _ _ _ _ I2)); [| |exact E3].
    - cbn [set_d si]. rewrite a1. destruct (i_idx _ _ _ _ _ _ _ _ I U) as (_ & Nx & _).
      rewrite (i_nextD _ _ _ _ _ _ _ _ I) in Nx. pose proof (g_PB _ _ _ G). pose proof (g_err _ _ _ G). lia.
    - cbn [set_d si sio]. rewrite a1, a3. exact X.
  Qed.

  Lemma put_XI s L k d s' r : Inv s L -> useRLC c = false -> zlen (pages L) + 1 + maxErr c < PB ->
    XI (si s) (fI (sio s)) (pages L) -> embedDBPut c s k d = Ok (s', r) ->
    ikeep (si s) (si s') /\ (zlen (cur L) < N -> si s' = si s) /\
    ((r = 1 /\ si s' = si s /\ XI (si s') (fI (sio s')) (pages L)) \/
    (r = 0 /\ XI (si s') (fI (sio s')) (if zlen (cur L) >=? N then pages L ++ [cur L] else pages L))).
  Proof.
    intros I Hr Hp X E. pose proof (l_fit c L0) as Fit.
    unfold embedDBPut in E. rewrite (get_count_ok c L0 _ _ (i_w _ _ _ _ _ _ _ _ I)) in E. cbn [bind] in E.
    apply bind_inv in E as ([s0 rej] & E0 & E).
    assert (S0 : si s0 = si s /\ fI (sio s0) = fI (sio s) /\ (zlen (cur L) <> 0 -> s0 = s)).
    { destruct ((nextD (sd s) >? 0) || (zlen (cur L) >? 0)); [|injection E0 as <- _; auto].
      apply bind_inv in E0 as ([s9 pv] & E9 & E0). injection E0 as <- _.
      destruct (Z.eqb_spec (zlen (cur L)) 0) as [Z0|Z0].
      - destruct (readPage s (u32 (nextD (sd s) - 1) mod D)) as [s8 r8] eqn:Er.
        apply bind_inv in E9 as (kk & _ & E9). injection E9 as <- _. split; [|split; [|lia]].
        + unfold readPage in Er. destruct (_ =? bufD (sd s)); [injection Er as <- _; auto|].
          rewrite io_read_nf in Er by (apply (i_faults _ _ _ _ _ _ _ _ I)).
          destruct (file_read _ _); injection Er as <- _; reflexivity.
        + unfold readPage in Er. destruct (_ =? bufD (sd s)); [injection Er as <- _; auto|].
          rewrite io_read_nf in Er by (apply (i_faults _ _ _ _ _ _ _ _ I)).
          destruct (file_read _ _); injection Er as <- _; reflexivity.
      - apply bind_inv in E9 as (kk & _ & E9). injection E9 as <- _. auto. }
    destruct S0 as (s_i & s_f & s_e). destruct rej.
    { injection E as <- <-. rewrite s_i, s_f. split; [apply ikeep_refl|]. auto. }
    rewrite Hr in E. destruct (Z.geb_spec (zlen (cur L)) N) as [Ge|Lt].
    - rewrite (s_e ltac:(lia)) in E.
      assert (Hc : cur L <> []) by (intros Z0; rewrite Z0 in Ge; change (zlen (@nil rcd)) with 0 in Ge; lia).
      apply bind_inv in E as ([[s9 cn] wr] & E9 & E).
      destruct (put_seal c KB PB f G s L HC I Hc Hp) as (s1 & s2 & s3 & b & new & E1 & E2 & E3 & Eb & _).
      rewrite E1 in E9. cbn [bind] in E9. rewrite E2 in E9. cbn [bind] in E9. rewrite E3 in E9. cbn [bind] in E9.
      rewrite Eb in E9. cbn [bind] in E9. injection E9 as <- _ _.
      apply bind_inv in E as (w & _ & E). injection E as <- <-.
      cbn [set_d si sio]. destruct (seal_XI s L s1 s2 s3) as [X1 K1]; auto. split; [auto|]. split; [lia|]. auto.
    - cbn [bind] in E. apply bind_inv in E as (w & _ & E). injection E as <- <-. cbn [set_d si sio]. rewrite s_i, s_f.
      split; [apply ikeep_refl|]. auto.
  Qed.

  (** ** What the scan needs *)
  Record XJ (i : ist) (F : file) (P : list (list rcd)) (cu : list rcd) : Prop := {
    j_min : 0 <= minI i;
    j_win : nextI i - minI i <= NI;
    j_file : ring NI (Im P) F (minI i) (nextI i);
    j_cur : minI i <= zlen P / M < nextI i -> cu = [];
    j_buf : forall id, minI i <= id < nextI i -> id mod NI = bufI i -> Im P id (irbuf i)
  }.

  Lemma XI_XJ i F P cu : XI i F P -> icoh i P -> XJ i F P cu.
  Proof.
    intros [] Hb. pose proof x_file0 as (R1 & R2 & _). constructor; auto; try lia.
    - apply (ring_impl (IQ P)); [intros id p _ [H _]; exact H|]. apply (RG_ring c NI (IQ P)). auto.
    - intros H. exfalso. destruct (maxIdx_spec c KB PB G U) as [M1 _].
      assert (nextI i <= zlen P / M) by (apply Z.div_le_lower_bound; lia). lia.
  Qed.

  Lemma flush_XI s L s' r : Inv s L -> useVar c = false -> cur L <> [] -> zlen (pages L) + 1 + maxErr c < PB ->
    XI (si s) (fI (sio s)) (pages L) -> index_room c s -> embedDBFlush c s = Ok (s', r) ->
    RG c NI (IQ (pages L ++ [cur L])) (fI (sio s')) (minI (si s')) (nextI (si s')) /\
    ikeep (si s) (si s') /\ nextI (si s') = nextI (si s) + 1 /\
    ((zlen (pages L) + 1) mod M = 0 -> XI (si s') (fI (sio s')) (pages L ++ [cur L])).
  Proof.
    intros I NV Hc Hp X Hr E.
    destruct (writePage_ok c KB PB f G s L HC I Hc Hp) as (s1 & new & E1 & I1 & a1 & a2 & a3 & _).
    pose proof (zlen_nonneg (pages L)) as Zp. pose proof (g_PB _ _ _ G) as GP. pose proof (g_err _ _ _ G) as GE.
    unfold embedDBFlush in E. rewrite (get_count_ok c L0 _ _ (i_w _ _ _ _ _ _ _ _ I)) in E. cbn [bind] in E.
    assert (C1 : 0 < zlen (cur L)) by (destruct (cur L); [congruence|unfold zlen; cbn [length]; lia]).
    destruct (Z.ltb_spec (zlen (cur L)) 1); [lia|]. rewrite E1 in E. cbn [bind] in E.
    destruct (Z.eqb_spec (zlen (pages L)) NOPAGE); [unfold NOPAGE in *; lia|].
    destruct (indexPage_ok c KB PB f G s1 _ _ _ I1) as (x & E2 & I2).
    { now rewrite (zlen_seal c). }
    { apply nth_seal. }
    rewrite E2 in E. cbn [bind] in E. set (s2 := set_d s1 (d_spl (sd s1) x)) in *.
    assert (Ei : si s = si s2) by (unfold s2; cbn [set_d si]; auto). rewrite Ei.
    assert (X2 : XI (si s2) (fI (sio s2)) (pages L)) by (unfold s2; cbn [set_d si sio]; rewrite a1, a3; exact X).
    assert (N2 : nextI (si s2) < 2 ^ 31).
    { unfold s2. cbn [set_d si]. rewrite a1. destruct (i_idx _ _ _ _ _ _ _ _ I U) as (_ & Nx & _).
      rewrite (i_nextD _ _ _ _ _ _ _ _ I) in Nx. lia. }
    destruct (Hr U) as (i' & Ci' & Hi'). rewrite <- a1 in Ci'. change (si s1) with (si s2) in Ci'.
    pose proof (i_faults _ _ _ _ _ _ _ _ I2) as Hf. pose proof (i_w _ _ _ _ _ _ _ _ I2) as Hh.
    clearbody s2. clear a1 a2 a3 I1 E1 E2. rewrite U in E. clear Ei.
    destruct (maxIdx_spec c KB PB G U) as [M1 M2]. pose proof (h_len _ _ _ Hh) as Hw. pose proof (h_bm _ _ _ Hh UM) as Hbm.
    destruct X2. rewrite x_cnt0 in Ci', E. injection Ci' as <-. cbn [bind] in E.
    set (P := pages L) in *. assert (Zx : zlen (P ++ [cur L]) = zlen P + 1) by (rewrite zlen_app; reflexivity).
    destruct (idx_append_ok c KB PB G s2 _ U x_len0 x_cnt0 ltac:(lia) Hw) as (b & Eb & _).
    rewrite Eb in E. cbn [bind] in E.
    destruct (append_slots s2 _ _ x_len0 x_cnt0 ltac:(lia) Hw Eb) as (b2 & Es & Lb2 & Cb2 & S2 & S3). rewrite Es in E. clear Es Eb b.
    rewrite Hbm in S2.
    assert (Nn : 0 <= minI (si s2) <= nextI (si s2)) by apply x_file0.
    assert (Im2 : Im (P ++ [cur L]) (nextI (si s2)) b2).
    { apply (Im_snoc P (cur L) (iwbuf (si s2)) b2 _ (zlen P - nextI (si s2) * M)); auto; lia. }
    destruct (wip_ring (set_i s2 (i_wbuf (si s2) b2)) (IQ (P ++ [cur L]))) as (s3 & m & E3 & Es & m1 & R);
      cbn [set_i i_wbuf si sio iwbuf irbuf availI minI nextI bufI] in *; auto; try lia.
    { apply RG_app; auto; lia. }
    { split; [apply Im_pid; auto|]. apply pid_w; auto; lia. }
    rewrite E3 in E. cbn [bind] in E.
    destruct (Z.eqb_spec (nextI (si s2)) NOPAGE); [unfold NOPAGE in *; lia|].
    destruct (init_page_ok c L0) as (b & Eb & Hb). rewrite Eb in E. cbn [bind negb] in E. rewrite NV in E.
    injection E as <- _. cbn [set_d set_i i_wbuf si sio iwbuf irbuf availI minI nextI bufI].
    unfold i_wbuf. rewrite Es. cbn [iwbuf irbuf availI minI nextI bufI].
    split; [exact R|]. split; [|split; [auto|]].
    - do 3 (split; [solve [auto]|]); solve [auto].
    - intros Al. assert (Zn : zlen P + 1 = (nextI (si s2) + 1) * M).
      { clear - Al x_rng0 Hi' M1. pose proof (Z_div_mod_eq_full (zlen P + 1) M) as Q. rewrite Al in Q.
        set (q := (zlen P + 1) / M) in *. clearbody q. assert (q = nextI (si s2) + 1) by nia. subst q. lia. }
      constructor; cbn [iwbuf irbuf availI minI nextI bufI]; auto; try lia.
      + apply (h_len _ _ _ Hb).
      + rewrite (get_count_ok c L0 _ _ Hb), Zx. change (zlen (@nil rcd)) with 0. f_equal. lia.
      + split; [apply (h_len _ _ _ Hb)|]. intros j Hj Hz. lia.
  Qed.

  (** ** The bitmap test *)
  Definition J (s : state) (L : log) : Prop := XJ (si s) (fI (sio s)) (pages L) (cur L).

  Lemma J_read s L p n : J s L -> J (mkS (sio s) (d_rbuf (sd s) p n) (si s) (sv s)) L.
  Proof. intros H. exact H. Qed.

  Lemma sound_dead V q rs : bitmap_sound c V q -> Forall (fun r => V (rdata r)) rs ->
    bitmapOverlap (buildBM c (qMinD q) (qMaxD q)) (bitmap_of c rs) = false -> dead c q rs.
  Proof.
    intros Hs Hr Ho. unfold dead. apply Forall_forall. intros r Hin.
    destruct (in_query c q r) eqn:Eq; [|auto]. exfalso.
    assert (X : bitmapOverlap (buildBM c (qMinD q) (qMaxD q)) (bitmap_of c rs) = true); [|congruence].
    apply (Hs rs r); auto.
  Qed.

  (** All data values stored satisfy [V]. *)
  Definition JV (V : list Z -> Prop) (s : state) (L : log) : Prop :=
    J s L /\ Forall (fun r => V (rdata r)) (accepted L).
  Lemma JV_read V s L p n : JV V s L -> JV V (mkS (sio s) (d_rbuf (sd s) p n) (si s) (sv s)) L.
  Proof. intros H. exact H. Qed.

  Lemma skip_ok V q : bitmap_sound c V q -> uses_bitmap c q = true ->
    forall s L it, Inv s L -> JV V s L -> itBM it = bm_of c q -> it_query it = q ->
      lo L <= itPage it <= zlen (pages L) -> 0 <= itRec it ->
      exists s' b, next_skip c s it = Ok (s', Some b) /\ same_but_bufs s s' /\ sd s' = sd s /\ JV V s' L /\
        (b = true -> itRec it = 0 /\ dead c (it_query it) (pgn L (itPage it))).
  Proof.
    intros Hs Hu s L it I [HJ HV] Eb Eq Hp Hr.
    assert (Ebm : bm_of c q = Some (buildBM c (qMinD q) (qMaxD q))).
    { unfold bm_of, uses_bitmap in *. destruct (useBmap c), (qMinD q), (qMaxD q); cbn in *; congruence. }
    unfold next_skip. rewrite Eb, Ebm.
    assert (Stay : exists s' b, Ok (s, Some false) = Ok (s', Some b) /\ same_but_bufs s s' /\ sd s' = sd s /\ JV V s' L /\
        (b = true -> itRec it = 0 /\ dead c (it_query it) (pgn L (itPage it)))).
    { exists s, false. split; [reflexivity|]. split; [apply bufs_refl|]. do 2 (split; [unfold JV; auto|]). discriminate. }
    destruct (Z.eqb_spec (itRec it) 0) as [R0|]; [|exact Stay]. rewrite U. cbn [negb orb].
    destruct (maxIdx_spec c KB PB G U) as [M1 M2]. destruct (g_idx _ _ _ G U) as (Ba & Bb & Bc).
    destruct (Z.eqb_spec M 0); [lia|].
    set (p := itPage it) in *. set (ip := p / M). pose proof (Z_div_mod_eq_full p M) as Dm. fold ip in Dm.
    pose proof (Z.mod_pos_bound p M ltac:(lia)) as Mb. pose proof (w_lo _ _ _ (i_wf _ _ _ _ _ _ _ _ I)) as Wl.
    destruct (Z.geb_spec ip (minI (si s))) as [Ge|]; cbn [andb]; [|exact Stay].
    destruct (Z.ltb_spec ip (nextI (si s))) as [Lt|]; cbn [andb]; [|exact Stay]. clear Stay.
    rewrite u16_id by lia.
    assert (RD : exists s', readIndexPage s (ip mod NI) = (s', 0) /\ same_but_bufs s s' /\ sd s' = sd s /\ J s' L /\
       Im (pages L) ip (irbuf (si s'))).
    { unfold readIndexPage. destruct (Z.eqb_spec (ip mod NI) (bufI (si s))) as [Eb1|Nb].
      - exists s. split; [reflexivity|]. split; [apply bufs_refl|]. do 2 (split; [auto|]).
        apply (j_buf _ _ _ _ HJ); auto.
      - rewrite io_read_nf by (apply (i_faults _ _ _ _ _ _ _ _ I)). cbn [getF].
        destruct (j_file _ _ _ _ HJ ip ltac:(lia)) as [F1 F2]. pose proof (Z.mod_pos_bound ip NI ltac:(lia)) as Nm.
        unfold file_read. replace ((0 <=? ip mod NI) && (ip mod NI <? flen (fI (sio s)))) with true by lia.
        eexists. split; [reflexivity|]. cbn [sd si].
        split. { do 2 (split; [reflexivity|]). split; [|do 2 eexists; reflexivity].
                 exists (rbuf (sd s)), (bufD (sd s)). cbn [sd]. destruct (sd s); reflexivity. }
        split; [auto|]. split; [|exact F2].
        destruct HJ. constructor; cbn [si sio i_rbuf iwbuf irbuf availI minI nextI bufI]; auto.
        intros id Hid E. assert (id = ip); [|subst; auto].
        destruct (Z.le_gt_cases id ip).
        + apply (mod_inj_n id ip NI); auto; lia.
        + symmetry. apply (mod_inj_n ip id NI); auto; lia. }
    destruct RD as (s' & -> & S1 & S2 & S3 & Si). change (negb (0 =? 0)) with false. cbv iota.
    pose proof (slot_in (p mod M) Mb) as Sl. rewrite (Z.mul_comm (p mod M)).
    destruct Si as [Si1 Si2]. rewrite ld_ok by lia. cbn [bind].
    eexists _, _. split; [reflexivity|]. split; [auto|]. split; [auto|]. split; [unfold JV; auto|].
    intros Hov. split; [auto|]. rewrite Eq. apply negb_true_iff in Hov.
    destruct (Z.eq_dec p (zlen (pages L))) as [Ez|Nz].
    - assert (Ec : cur L = []) by (apply (j_cur _ _ _ _ HJ); rewrite <- Ez; fold ip; lia).
      rewrite Ez, pgn_cur, Ec. constructor.
    - rewrite pgn_page by lia.
      assert (Sb : bytes_at (irbuf (si s')) (16 + bs * (p mod M)) (bsz c) = bitmap_of c (nth (Z.to_nat p) (pages L) [])).
      { rewrite Si2 by lia. do 3 f_equal. lia. }
      apply (sound_dead V); [exact Hs|apply Forall_forall; intros r Hin; rewrite Forall_forall in HV; apply HV; eapply accepted_page; exact Hin|]. rewrite <- Sb. exact Hov.
  Qed.

  Lemma scan_bitmap V s L q n : useBinary c = false -> bitmap_sound c V q -> Forall (fun r => V (rdata r)) (accepted L) -> uses_bitmap c q = true ->
    Inv s L -> coh c s L -> J s L -> query_ok KB q -> (length (retained L) < n)%nat ->
    exists s', scan c s q n = Ok (s', answer c L q) /\ same_but_bufs s s' /\ Inv s' L /\ coh c s' L /\ J s' L.
  Proof.
    intros Ub Hs HV Hu I Co HJ Hq Hn. destruct (init_ok c KB PB f G s L q Ub I Hq) as (it & E & E1 & E2 & E3 & E4 & pre & E5 & E6).
    assert (EF : filter (in_query c q) (retained L) = filter (in_query c q) (after L (itPage it) 0)).
    { rewrite E5, filter_app, (dead_filter c) by auto. reflexivity. }
    destruct (drain_ok c KB PB f G (JV V) (bm_of c q) q (JV_read V) (skip_ok V q Hs Hu) Hq L n s it I
      (conj HJ HV) Co E2 E1 E3) as (s' & it' & Ed & D1 & D2 & [D3 _] & D4).
    { rewrite E4. pose proof (zlen_nonneg (pgn L (itPage it))). lia. }
    { rewrite E4, <- EF. pose proof (filter_len (in_query c q) (retained L)). unfold zlen. lia. }
    exists s'. unfold scan, answer. rewrite E. cbn [bind]. rewrite Ed. cbn [bind]. rewrite EF, E4. auto.
  Qed.

  (** ** Histories *)
  Hypothesis MD : modes c.
  Notation next L o := (fst (spec_step N D B L o)).

  Lemma still_step s s' L o x h : Inv s L -> coh c s L -> op_ok c KB L o -> calm c s (o :: h) ->
    zlen (pages L) + 1 + maxErr c < PB -> next L o = L -> step c s o = Ok (s', x) -> J s L -> J s' L.
  Proof.
    intros I Co Ho Hc Hp Hst St HJ. unfold J in *.
    destruct o as [k d| |k]; cbn [op_ok spec_step] in *.
    - destruct Ho as (Hk & Hd & Hf). destruct (refused L k) eqn:R.
      + assert (exists k0, last_key (accepted L) = Some k0 /\ k <= k0) as (k0 & E0 & E1).
        { unfold refused in R. destruct (last_key (accepted L)) as [k0|]; [|discriminate]. exists k0. split; [auto|lia]. }
        destruct (put_reject c KB PB f G s L k d k0 I Hk E0 E1) as (s1 & E & I' & (S1 & S2 & _) & _).
        { intros C. split; auto. }
        cbn [step] in St. rewrite E in St. cbn [bind] in St. injection St as <- _. now rewrite S1, S2.
      + exfalso. cbn [fst] in Hst.
        pose proof (log_step_accepted c L (HPut k d)) as A. cbn [log_step] in A. rewrite Hst in A.
        apply (f_equal (@length _)) in A. rewrite app_length in A. cbn [length] in A. lia.
    - destruct (cur L) as [|r0 l0] eqn:Ec.
      + cbn [step] in St. rewrite (flush_empty c KB PB f G s L I Ec) in St. cbn [bind] in St. injection St as <- _. exact HJ.
      + exfalso. cbn [fst] in Hst. unfold log_flush in Hst. rewrite Ec in Hst. pose proof (zlen_seal c L) as Z. rewrite Hst in Z. lia.
    - destruct Ho as [Hk Hev]. destruct (get_any c KB PB f G MD s L k I Hk) as (s1 & r & dt & E & (S1 & S2 & _) & _).
      cbn [step] in St. rewrite E in St. cbn [bind] in St. injection St as <- _. now rewrite S1, S2.
  Qed.

  Lemma still_run h : forall s s' L xs, Inv s L -> coh c s L -> hist_ok c KB L h -> calm c s h ->
    zlen (pages L) + zlen h + maxErr c < PB -> Forall (fun o => next L o = L) h ->
    J s L -> run c s h = Ok (s', xs) -> J s' L /\ fst (spec_run N D B L h) = L.
  Proof.
    induction h as [|o h IH]; intros s s' L xs I Co Hh Hc Hp Hst HJ R.
    { injection R as <- <-. auto. }
    destruct Hh as [Ho Hh]. rewrite zlen_cons in Hp. pose proof (zlen_nonneg h) as Zh. inversion Hst as [|? ? Ho' Hst']; subst.
    pose proof (step_calm c KB PB f G MD s L o h I Co Ho Hc ltac:(lia)) as St. rewrite Ho' in Hh.
    destruct (spec_step N D B L o) as [L1 x] eqn:Es. cbn [fst] in Ho'. subst L1.
    destruct St as (s1 & E1 & I1 & Co1 & Hc1 & Hl).
    assert (J1 : J s1 L).
    { apply (still_step s s1 L o x h); auto; [lia|]. rewrite Es. reflexivity. }
    cbn [run] in R. rewrite E1 in R. cbn [bind] in R. apply bind_inv in R as ([s2 ys] & R & R').
    injection R' as <- _. destruct (IH s1 s2 L ys I1 Co1 Hh Hc1 ltac:(lia) Hst' J1 R) as [J2 L2].
    split; [auto|]. cbn [spec_run]. rewrite Es. destruct (spec_run N D B L h) as [L3 zs]. cbn [fst] in *. auto.
  Qed.

  Lemma RG_XJ i F P : RG c NI (IQ P) F (minI i) (nextI i) -> icoh i P -> XJ i F P [].
  Proof.
    intros R Hb. pose proof R as (R1 & R2 & _). constructor; auto; try lia.
    apply (ring_impl (IQ P)); [intros id p _ [H _]; exact H|]. apply (RG_ring c NI (IQ P)). auto.
  Qed.
  Lemma XI_app i F P x id p : XI i F P -> minI i <= id < nextI i -> Im P id p -> Im (P ++ [x]) id p.
  Proof.
    intros X Hid. pose proof (x_file _ _ _ X) as (R1 & _). pose proof (x_rng _ _ _ X). destruct (maxIdx_spec c KB PB G U) as [M1 _].
    apply Im_app; [lia|]. assert ((id + 1) * M <= nextI i * M) by (apply Z.mul_le_mono_nonneg_r; lia). lia.
  Qed.

  (** The read buffer is empty, or stays clear of the pages written. *)
  Definition iclear (s : state) (h : list hop) : Prop := bufI (si s) = NOPAGE \/ icalm c s h.
  Lemma iclear_step s o s1 x h P : iclear s (o :: h) -> step c s o = Ok (s1, x) -> ikeep (si s) (si s1) ->
    iclear s1 h /\ (nextI (si s1) <> nextI (si s) -> nextI (si s) mod NI <> bufI (si s) \/ icoh (si s1) P).
  Proof.
    intros [H|H] E K.
    - pose proof K as (_ & K2 & _). split; [left; congruence|]. intros _. right. apply icoh_no. congruence.
    - cbn [icalm] in H. rewrite E in H. destruct H as [H1 H2]. split; [right; auto|]. auto.
  Qed.
  Lemma icoh_next s o s1 x h P P' : iclear s (o :: h) -> step c s o = Ok (s1, x) -> ikeep (si s) (si s1) ->
    (forall id p, minI (si s) <= id < nextI (si s) -> Im P id p -> Im P' id p) -> icoh (si s) P ->
    iclear s1 h /\ icoh (si s1) P'.
  Proof.
    intros Cl E K Hi H. destruct (iclear_step s o s1 x h P' Cl E K) as [C1 C2]. split; [auto|].
    destruct (Z.eq_dec (nextI (si s1)) (nextI (si s))) as [En|Nn].
    - apply (icoh_keep (si s) _ P); auto.
    - destruct (C2 Nn) as [C3|C3]; [|auto]. apply (icoh_keep (si s) _ P); auto.
  Qed.

  Lemma idx_run h : forall s s' L xs, Inv s L -> coh c s L -> hist_ok c KB L h -> calm c s h ->
    zlen (pages L) + zlen h + maxErr c < PB -> index_aligned c L h ->
    XI (si s) (fI (sio s)) (pages L) -> icoh (si s) (pages L) -> iclear s h ->
    run c s h = Ok (s', xs) -> J s' (fst (spec_run N D B L h)).
  Proof.
    induction h as [|o h IH]; intros s s' L xs I Co Hh Hc Hp Hal X Hb Cl R.
    { injection R as <- <-. apply XI_XJ; auto. }
    destruct Hh as [Ho Hh]. rewrite zlen_cons in Hp. pose proof (zlen_nonneg h) as Zh. destruct Hal as [Ha Hal].
    pose proof (step_calm c KB PB f G MD s L o h I Co Ho Hc ltac:(lia)) as St.
    cbn [run] in R. cbn [spec_run]. destruct (spec_step N D B L o) as [L1 x] eqn:Es. cbn [fst] in *.
    destruct St as (s1 & E1 & I1 & Co1 & Hc1 & Hl). rewrite E1 in R. cbn [bind] in R.
    apply bind_inv in R as ([s2 ys] & R & R'). injection R' as <- _. pose proof E1 as E0.
    assert (Next : XI (si s1) (fI (sio s1)) (pages L1) -> iclear s1 h /\ icoh (si s1) (pages L1) ->
              J s2 (fst (let '(L2, xs) := spec_run N D B L1 h in (L2, x :: xs)))).
    { intros X1 [Cl1 Hb1]. specialize (IH s1 s2 L1 ys I1 Co1 Hh Hc1 ltac:(lia) Hal X1 Hb1 Cl1 R). destruct (spec_run N D B L1 h). exact IH. }
    destruct o as [k d| |k].
    - cbn [step] in E1. apply bind_inv in E1 as ([s1' r] & E1 & Er). injection Er as <- Ex.
      cbn [spec_step] in Es.
      destruct (put_XI s L k d s1' r I (m_rlc _ MD) ltac:(lia) X E1) as (K & Ku & [(-> & _ & X1)|(-> & X1)]).
      + destruct (refused L k); injection Es as <- <-; [|discriminate]. apply Next; auto.
        apply (icoh_next s (HPut k d) _ (OPut 1) h (pages L)); auto.
      + destruct (refused L k); injection Es as <- <-; [discriminate|].
        unfold log_put in *. destruct (zlen (cur L) >=? N); cbn [pages] in *; (apply Next; [exact X1|]);
          (eapply (icoh_next s (HPut k d) _ _ h (pages L)); [auto|exact E0|auto| |auto]); auto.
        intros id p. apply (XI_app _ _ _ _ _ _ X).
    - cbn [spec_step] in Es. injection Es as <- <-. unfold log_flush in *. destruct (cur L) as [|r0 l0] eqn:Ec.
      + cbn [step] in E1. rewrite (flush_empty c KB PB f G s L I Ec) in E1. cbn [bind] in E1.
        injection E1 as <-. apply Next; [exact X|]. eapply (icoh_next s HFlush _ _ h (pages L)); [auto|exact E0|apply ikeep_refl| |auto]; auto.
      + cbn [step] in E1. apply bind_inv in E1 as ([s1' r] & E1 & Er). injection Er as <- Ex.
        assert (Ne : cur L <> []) by congruence.
        destruct (flush_XI s L s1' r I (m_var _ MD) Ne ltac:(lia) X) as (X1 & X2 & _ & X3); auto.
        { destruct Hc as [Hc _]. exact (Hc eq_refl). }
        assert (B1 : iclear s1' h /\ icoh (si s1') (pages (seal D B L))).
        { eapply (icoh_next s HFlush _ _ h (pages L)); [auto|exact E0|auto| |auto]. intros id p. apply (XI_app _ _ _ _ _ _ X). }
        destruct (Ha eq_refl ltac:(congruence)) as [Al|Stl].
        * apply Next; [|auto]. apply X3. rewrite (zlen_seal c) in Al. exact Al.
        * assert (J1 : J s1' (seal D B L)) by (apply RG_XJ; [exact X1|apply B1]).
          destruct (still_run h s1' s2 (seal D B L) ys I1 Co1 Hh Hc1 ltac:(lia) Stl J1 R) as [J2 L2].
          destruct (spec_run N D B (seal D B L) h) as [L3 zs]. cbn [fst] in *. now subst L3.
    - cbn [spec_step] in Es. injection Es as <- <-. destruct Ho as [Hk _].
      destruct (get_any c KB PB f G MD s L k I Hk) as (s9 & r & dt & E & (S1 & S2 & _) & _).
      cbn [step] in E1. rewrite E in E1. cbn [bind] in E1. injection E1 as <-. apply Next; [rewrite S1, S2; exact X|].
      eapply (icoh_next s (HGet k) _ _ h (pages L)); [auto|exact E0|rewrite S2; apply ikeep_refl| |auto]. auto.
  Qed.
End Index.

(** ** Opening with the reset flag *)
Lemma fresh_XI c KB PB k s : setting c KB PB -> useIndex c = true -> useReset c = true -> useRLC c = false ->
  embedDBInit c k [] = Ok (s, 0) ->
  2 * eraseSize c <= numIndex c /\ numIndex c mod eraseSize c = 0 /\ XI c (si s) (fI (sio s)) [] /\ bufI (si s) = NOPAGE.
Proof.
  intros G U HR HC H. pose proof (L0 c KB PB G) as L0. unfold embedDBInit in H.
  destruct (keySize c >? 8); [discriminate|]. destruct (eraseSize c =? 0); [discriminate|].
  destruct (negb (numData c mod eraseSize c =? 0)); [discriminate|].
  destruct (numData c <? _); [discriminate|].
  destruct (useVar c && _); [discriminate|]. destruct (useIndex c && _) eqn:Ui; [discriminate|].
  destruct (recordSize c =? 0); [discriminate|].
  destruct (init_page_ok c L0) as (w & Ew & Hw). rewrite Ew in H. cbn [bind] in H.
  destruct (numData c <? _); [discriminate|].
  destruct (negb (useBinary c) && _) eqn:Us; [discriminate|].
  set (s0 := if useBinary c then _ else _) in H.
  assert (B0 : bufI (si s0) = NOPAGE) by (unfold s0; destruct (useBinary c); reflexivity). clearbody s0.
  unfold initData in H. rewrite HR, HC in H. cbn [bind] in H. change (negb (0 =? 0)) with false in H. cbv iota in H.
  set (s1 := set_io _ _) in H. assert (B1 : bufI (si s1) = NOPAGE) by exact B0. clearbody s1.
  rewrite U in H. destruct (bufBlocks c <? 4); [discriminate|].
  unfold initIndex in H. destruct (bitmapSize c =? 0); [discriminate|]. rewrite Ew in H. cbn [bind] in H.
  pose proof (h_len _ _ _ Hw) as Lw. pose proof (l_init c L0). pose proof (l_ks c L0). pose proof (l_ds c L0).
  rewrite st_ok in H by (rewrite ?le_enc_zlen; lia). cbn [bind] in H.
  set (b := zwr w 8 _) in H.
  destruct (Z.ltb_spec (numIndex c) (eraseSize c * 2)) as [|N1]; [discriminate|].
  destruct (Z.eqb_spec (numIndex c mod eraseSize c) 0) as [N2|]; [|discriminate]. cbn [negb] in H.
  rewrite HR in H. cbn [bind] in H. change (negb (0 =? 0)) with false in H. cbv iota in H.
  split; [lia|]. split; [auto|].
  assert (Lz : zlen b = pageSize c) by (unfold b; rewrite zwr_length; rewrite ?le_enc_zlen; lia).
  assert (Cz : get_count b = Ok 0).
  { unfold b. rewrite (count_other c) by (rewrite ?le_enc_zlen; lia). rewrite (get_count_ok c L0 _ _ Hw). reflexivity. }
  assert (Ei : si s = mkI b (irbuf (si s1)) (numIndex c) 0 0 (bufI (si s1)) /\ fI (sio s) = open_w c (kI k)).
  { destruct (useVar c).
    - destruct (bufBlocks c <? _); [discriminate|]. unfold initVarData in H. rewrite HR in H. cbn [negb andb] in H.
      injection H as <-. split; reflexivity.
    - injection H as <-. split; reflexivity. }
  destruct Ei as [Ei Ef].
  rewrite Ei. destruct (maxIdx_spec c KB PB G U) as [M1 _]. pose proof (g_B _ _ _ G). change (zlen (@nil (list rcd))) with 0.
  split; [|exact B1].
  constructor; cbn [iwbuf irbuf availI minI nextI bufI]; change (zlen (@nil (list rcd))) with 0; auto; try lia.
  - split; [auto|]. intros j Hj. change (zlen (@nil (list rcd))) with 0. lia.
  - assert (Fl : 0 <= flen (fI (sio s)) /\ (truncates c = true -> flen (fI (sio s)) = 0)).
    { rewrite Ef. unfold open_w. destruct (truncates c); [split; [cbn; lia|reflexivity]|]. split; [|discriminate].
      destruct (kI k) as [F|]; [|cbn; lia]. destruct (Z.leb_spec 0 (flen F)); [auto|cbn; lia]. }
    destruct Fl. split; [lia|]. split; [lia|]. split; [auto|]. split; [lia|]. exists 0. split; [lia|]. split; [lia|]. split; intros id Hid; lia.
Qed.

(** ** The bitmap functions of the repository *)
Lemma page_bitmap_fold c upd vs : (forall d b x, upd d b = Ok x -> updBM c d b = x) ->
  forall b p, page_bitmap upd vs b = Ok p -> fold_left (fun b v => updBM c v b) vs b = p.
Proof.
  intros H. induction vs as [|v vs IH]; intros b p E; cbn [page_bitmap fold_left] in *; [congruence|].
  apply bind_inv in E as (b1 & E1 & E). rewrite (H _ _ _ E1). auto.
Qed.
Lemma fold_map {A B C} (g : C -> B -> C) (m : A -> B) l : forall a, fold_left g (map m l) a = fold_left (fun a x => g a (m x)) l a.
Proof. induction l; intros; cbn; auto. Qed.

Lemma client_sound c n upd build val (W V : list Z -> Prop) q :
  bitmap_client c n upd build val V -> (forall d, V d -> W d) -> bounds_in V q ->
  (forall mn mx vs v,
    (forall d, mn = Some d -> W d /\ val d <= val v) -> (forall d, mx = Some d -> W d /\ val v <= val d) ->
    Forall W vs -> In v vs ->
    exists a p, build mn mx = Ok a /\ page_bitmap upd vs (repeat 0 (Z.to_nat n)) = Ok p /\ bitmapOverlap a p = true) ->
  bitmap_sound c V q.
Proof.
  intros [S1 S2 S3 S4 S5] HW [B1 B2] H rs r Hrs Hin Hq.
  assert (Vr : V (rdata r)) by (rewrite Forall_forall in Hrs; auto).
  unfold in_query in Hq. apply andb_true_iff in Hq as [Hq Q4]. apply andb_true_iff in Hq as [_ Q3].
  destruct (H (qMinD q) (qMaxD q) (map rdata rs) (rdata r)) as (a & p & E1 & E2 & E3).
  - intros d Hd. rewrite Hd in Q3. rewrite S4 in Q3 by auto. split; [auto|lia].
  - intros d Hd. rewrite Hd in Q4. rewrite S5 in Q4 by auto. split; [auto|lia].
  - apply Forall_map. eapply Forall_impl; [|exact Hrs]. auto.
  - now apply in_map.
  - rewrite (S3 _ _ _ E1). unfold bitmap_of, bsz. rewrite S1.
    rewrite <- (fold_map (fun b v => updBM c v b) rdata), (page_bitmap_fold c upd _ S2 _ _ E2). exact E3.
Qed.

Lemma int8_sound c V q : bitmap_client c 1 updateBitmapInt8 buildBitmapInt8FromRange val16 V ->
  (forall d, V d -> int8_value d) -> bounds_in V q -> bitmap_sound c V q.
Proof.
  intros C HW HB. apply (client_sound _ _ _ _ _ int8_value V q C HW HB). exact range_overlap8.
Qed.
Lemma int16_sound c V q : bitmap_client c 2 updateBitmapInt16 buildBitmapInt16FromRange val32 V ->
  (forall d, V d -> int16_value d) -> bounds_in V q -> bitmap_sound c V q.
Proof.
  intros C HW HB. apply (client_sound _ _ _ _ _ int16_value V q C HW HB). exact range_overlap16.
Qed.

Section IndexThms.
  Variables (c : cfg) (KB PB : Z).

  Lemma c05_bitmap V h k s xs q n : quiet c KB PB h -> calmly c k h s xs -> useBinary c = false ->
    useIndex c = true -> index_aligned c emptyLog h -> bitmap_sound c V q ->
    Forall (fun r => V (rdata r)) (accepted (spec_log c h)) ->
    query_ok KB q -> (length (retained (spec_log c h)) < n)%nat ->
    exists s', scan c s q n = Ok (s', answer c (spec_log c h) q) /\ same_but_bufs s s'.
  Proof.
    intros Q R Ub U Hal Hs HV Hq Hn. pose proof (q_set _ _ _ _ Q) as G. pose proof (q_modes _ _ _ _ Q) as MD.
    destruct (calm_reach c KB PB G MD h k s xs Q R) as (_ & I & Co).
    destruct (uses_bitmap c q) eqn:Hu.
    2:{ destruct (scan_ready c KB PB s _ q n G Ub Hu I Co Hq Hn) as (s' & E & S & _). eauto. }
    assert (UM : useBmap c = true) by (unfold uses_bitmap in Hu; destruct (useBmap c); auto).
    destruct R as (s0 & H & Hc & R).
    pose proof (q_len _ _ _ _ Q) as Ln. pose proof (zlen_nonneg h).
    destruct (fresh_ok c KB PB k s0 G (q_reset _ _ _ _ Q) (m_rlc _ MD) ltac:(lia) H) as (I0 & _).
    destruct (fresh_XI c KB PB k s0 G U (q_reset _ _ _ _ Q) (m_rlc _ MD) H) as (H2 & Hm & X0 & B0).
    assert (Co0 : coh c s0 emptyLog).
    { intros id H1. cbn in H1. change (zlen (@nil (list rcd))) with 0 in H1. lia. }
    assert (HJ : J c s (spec_log c h)).
    { apply (idx_run c KB PB 0 G U UM (m_rlc _ MD) H2 MD h s0 s emptyLog xs I0 Co0 (q_ops _ _ _ _ Q) Hc); auto.
      - apply (icoh_no c KB PB G U UM (m_rlc _ MD)); auto.
      - left. auto. }
    destruct (scan_bitmap c KB PB 0 G U UM (m_rlc _ MD) V s _ q n Ub Hs HV Hu I Co HJ Hq Hn) as (s' & E & S & _). eauto.
  Qed.

  Lemma c05_int8 V h k s xs q n : quiet c KB PB h -> calmly c k h s xs -> useBinary c = false ->
    useIndex c = true -> index_aligned c emptyLog h ->
    bitmap_client c 1 updateBitmapInt8 buildBitmapInt8FromRange val16 V -> (forall d, V d -> int8_value d) ->
    Forall (fun r => V (rdata r)) (accepted (spec_log c h)) -> bounds_in V q ->
    query_ok KB q -> (length (retained (spec_log c h)) < n)%nat ->
    exists s', scan c s q n = Ok (s', answer c (spec_log c h) q) /\ same_but_bufs s s'.
  Proof. intros Q R Ub U Hal Hc HW HV HB. apply (c05_bitmap V h k s xs q n); auto. now apply int8_sound. Qed.
  Lemma c05_int16 V h k s xs q n : quiet c KB PB h -> calmly c k h s xs -> useBinary c = false ->
    useIndex c = true -> index_aligned c emptyLog h ->
    bitmap_client c 2 updateBitmapInt16 buildBitmapInt16FromRange val32 V -> (forall d, V d -> int16_value d) ->
    Forall (fun r => V (rdata r)) (accepted (spec_log c h)) -> bounds_in V q ->
    query_ok KB q -> (length (retained (spec_log c h)) < n)%nat ->
    exists s', scan c s q n = Ok (s', answer c (spec_log c h) q) /\ same_but_bufs s s'.
  Proof. intros Q R Ub U Hal Hc HW HV HB. apply (c05_bitmap V h k s xs q n); auto. now apply int16_sound. Qed.
End IndexThms.

(** Proofs about single data pages: initialisation, appending a record, reading
    records back, searching. *)
From Verif Require Import Base BaseFacts Config Spline Storage DB Spec SpecPage.
Open Scope Z_scope.

Lemma bytes_at_zrd p o n : bytes_at p o n = zrd p o n.
Proof. reflexivity. Qed.

#[global] Arguments bytes_at : simpl never.

(** Reading through a write. *)
Lemma ba_same p o bs n : 0 <= o -> o + zlen bs <= zlen p -> n = length bs ->
  bytes_at (zwr p o bs) o n = bs.
Proof. intros. now apply zrd_zwr_same. Qed.
Lemma ba_other p off bs o n : 0 <= off -> off + zlen bs <= zlen p ->
  0 <= o -> o + Z.of_nat n <= zlen p -> o + Z.of_nat n <= off \/ off + zlen bs <= o ->
  bytes_at (zwr p off bs) o n = bytes_at p o n.
Proof. intros. now apply zrd_zwr_other. Qed.

Lemma app_inv_len {A} (a b a2 b2 : list A) : length a = length a2 ->
  a ++ b = a2 ++ b2 -> a = a2 /\ b = b2.
Proof.
  revert a2; induction a as [|x a IH]; intros [|y a2] E H; cbn in *; try discriminate; auto.
  injection H as -> H. apply IH in H as [-> ->]; auto.
Qed.

Section Page.
  Variable c : cfg.
  Hypothesis L : layout c.

  Lemma L_ksz : Z.of_nat (ksz c) = keySize c.
  Proof. destruct L. unfold ksz. lia. Qed.
  Lemma L_dsz : Z.of_nat (dsz c) = dataSize c.
  Proof. destruct L. unfold dsz. lia. Qed.
  Lemma L_bsz : Z.of_nat (bsz c) = bitmapSize c.
  Proof. destruct L. unfold bsz. lia. Qed.
  Lemma L_psz : Z.of_nat (psz c) = pageSize c.
  Proof. destruct L. unfold psz. lia. Qed.
  Lemma L_recpos : 1 <= recordSize c.
  Proof. destruct L. destruct (useVar c); lia. Qed.
  Lemma L_slot i : 0 <= i < maxRec c -> 6 <= rec_off c i /\ headerSize c <= rec_off c i /\
    rec_off c i + recordSize c <= pageSize c.
  Proof.
    intros H. pose proof L_recpos. destruct L. unfold rec_off.
    assert (recordSize c * (i + 1) <= recordSize c * maxRec c) by (apply Z.mul_le_mono_nonneg_l; lia).
    assert (0 <= recordSize c * i) by (apply Z.mul_nonneg_nonneg; lia). lia.
  Qed.
  Lemma L_slots i j : 0 <= i -> i < j -> rec_off c i + recordSize c <= rec_off c j.
  Proof.
    intros. pose proof L_recpos. unfold rec_off.
    assert (recordSize c * (i + 1) <= recordSize c * j) by (apply Z.mul_le_mono_nonneg_l; lia). lia.
  Qed.

  Lemma enc_rec_length r : length (rdata r) = dsz c -> length (enc_rec c r) = Z.to_nat (recordSize c).
  Proof.
    intros H. unfold enc_rec. rewrite !app_length, le_enc_length, H.
    pose proof L_ksz. pose proof L_dsz. destruct L. rewrite l_rec.
    destruct (useVar c); rewrite ?le_enc_length; cbn [length]; lia.
  Qed.

  (** The three stores of a record are one store of its encoding. *)
  Lemma zwr_app p o a b : 0 <= o -> o + zlen a + zlen b <= zlen p ->
    zwr (zwr p o a) (o + zlen a) b = zwr p o (a ++ b).
  Proof.
    intros Ho H. assert (L1 : zlen (zwr p o a) = zlen p) by (apply zwr_length; lia || (pose proof (zlen_nonneg b); lia)).
    pose proof (zlen_nonneg a). pose proof (zlen_nonneg b).
    apply (nth_ext' 0).
    - assert (zlen (zwr (zwr p o a) (o + zlen a) b) = zlen p) by (rewrite zwr_length; lia).
      assert (zlen (zwr p o (a ++ b)) = zlen p) by (rewrite zwr_length; rewrite ?zlen_app; lia).
      unfold zlen in *; lia.
    - intros i Hi. unfold zwr. rewrite !wr_nth.
      + unfold zlen in *. rewrite app_length.
        destruct (Nat.leb_spec (Z.to_nat (o + Z.of_nat (length a))) i); cbn [andb].
        * destruct (Nat.ltb_spec i (Z.to_nat (o + Z.of_nat (length a)) + length b)).
          -- destruct (Nat.leb_spec (Z.to_nat o) i); [|lia].
             destruct (Nat.ltb_spec i (Z.to_nat o + (length a + length b))); [|lia]. cbn [andb].
             rewrite app_nth2 by lia. f_equal. lia.
          -- destruct (Nat.ltb_spec i (Z.to_nat o + length a)); [lia|].
             destruct (Nat.ltb_spec i (Z.to_nat o + (length a + length b))); [lia|].
             now rewrite !andb_false_r.
        * destruct (Nat.leb_spec (Z.to_nat o) i); cbn [andb].
          -- destruct (Nat.ltb_spec i (Z.to_nat o + length a)).
             ++ destruct (Nat.ltb_spec i (Z.to_nat o + (length a + length b))); [|lia].
                rewrite app_nth1 by lia. auto.
             ++ lia.
          -- auto.
      + unfold zlen in *; rewrite app_length; lia.
      + unfold zlen in *; lia.
      + unfold zlen in *. unfold zwr in L1. lia.
  Qed.

  (** * A fresh page *)
  Lemma init_page_ok : exists p, init_page c = Ok p /\ holds c p [].
  Proof.
    pose proof L_ksz as K. pose proof L_dsz as D. pose proof L_psz as P. pose proof L_bsz as B.
    unfold init_page. set (z := repeat 0 (psz c)).
    assert (Lz : zlen z = pageSize c) by (unfold z; rewrite zlen_repeat; lia).
    pose proof L as L'. destruct L'.
    assert (E1 : zlen (repeat 1 (ksz c)) = keySize c) by (rewrite zlen_repeat; lia).
    assert (E2 : zlen (repeat 1 (dsz c)) = dataSize c) by (rewrite zlen_repeat; lia).
    rewrite st_ok by (unfold off_minkey; lia). cbn [bind].
    set (q := zwr z off_minkey (repeat 1 (ksz c))).
    assert (Lq : zlen q = pageSize c) by (unfold q; rewrite zwr_length; unfold off_minkey; lia).
    rewrite st_ok by (unfold off_mindata; lia).
    eexists; split; [reflexivity|].
    assert (Z0 : forall o n, 0 <= o -> o + Z.of_nat n <= pageSize c ->
      o + Z.of_nat n <= 14 \/ 14 + keySize c * 2 + dataSize c <= o ->
      bytes_at (zwr q (off_mindata c) (repeat 1 (dsz c))) o n = repeat 0 n).
    { intros o n Ho Hn Hd. rewrite ba_other by (unfold off_mindata; lia).
      unfold q. rewrite ba_other by (unfold off_minkey; lia).
      apply zrd_repeat; lia. }
    constructor.
    - rewrite zwr_length; unfold off_mindata; lia.
    - rewrite Z0 by lia. reflexivity.
    - cbn. lia.
    - intros [|i] r; discriminate.
    - intros M _. destruct l_tail as [|T]; [lia|]. pose proof (L_slot (maxRec c - 1) ltac:(lia)).
      apply Z0; try lia. destruct (useVar c); lia.
    - intros _ r0 rest; discriminate.
    - intros Hb. destruct (l_bm Hb). rewrite Z0 by lia. reflexivity.
  Qed.

  (** * Appending a record *)
  Lemma min_data_len d rs : length d = dsz c -> Forall (fun r => length (rdata r) = dsz c) rs ->
    length (min_data c d rs) = dsz c.
  Proof.
    unfold min_data. revert d; induction rs as [|r rs IH]; intros d Hd Hr; auto.
    inversion Hr; subst. cbn. apply IH; auto. destruct (_ <? _); auto.
  Qed.
  Lemma max_data_len d rs : length d = dsz c -> Forall (fun r => length (rdata r) = dsz c) rs ->
    length (max_data c d rs) = dsz c.
  Proof.
    unfold max_data. revert d; induction rs as [|r rs IH]; intros d Hd Hr; auto.
    inversion Hr; subst. cbn. apply IH; auto. destruct (_ >? _); auto.
  Qed.
  Lemma bitmap_len rs : useBmap c = true -> Forall (fun r => length (rdata r) = dsz c) rs ->
    length (bitmap_of c rs) = bsz c.
  Proof.
    intros Hb Hr. unfold bitmap_of.
    assert (G : forall b, length b = bsz c -> length (fold_left (fun b r => updBM c (rdata r) b) rs b) = bsz c).
    { clear - L Hb Hr. induction rs as [|r rs IH]; intros b Hl; auto. inversion Hr; subst. cbn.
      apply IH; auto. apply (l_upd c L); auto. }
    apply G, repeat_length.
  Qed.

  (** Copying the record and counting it. *)
  Definition stored (p : page) (i : Z) (r : rcd) (p1 : page) : Prop :=
    zlen p1 = pageSize c /\
    bytes_at p1 4 2 = le_enc 2 (i + 1) /\
    bytes_at p1 (rec_off c i) (Z.to_nat (recordSize c)) = enc_rec c r /\
    forall o n, 0 <= o -> o + Z.of_nat n <= pageSize c ->
      (o + Z.of_nat n <= 4 \/ 6 <= o) ->
      (o + Z.of_nat n <= rec_off c i \/ rec_off c i + recordSize c <= o) ->
      bytes_at p1 o n = bytes_at p o n.

  Lemma put_record_copy p rs r vloc KB : holds c p rs -> zlen rs < maxRec c ->
    rec_ok c KB r -> (useVar c = true -> rvar r = vloc) ->
    exists p1, stored p (zlen rs) r p1 /\
      put_record c p (zlen rs) (rkey r) (rdata r) vloc =
      (p <- put_maxmin c p1 (zlen rs) (rkey r) (rdata r) ;; put_bitmap c p (rdata r)).
  Proof.
    intros H Hm (Hk & Hd & _) Hv. pose proof (zlen_nonneg rs) as N0.
    pose proof (L_slot (zlen rs) ltac:(lia)) as (S1 & S2 & S3).
    pose proof L_recpos as RP.
    pose proof L_ksz as K. pose proof L_dsz as D. pose proof L as L'. destruct L'. destruct H.
    unfold put_record.
    assert (LE : zlen (enc_rec c r) = recordSize c) by (unfold zlen; rewrite enc_rec_length; auto; lia).
    set (p0 := zwr p (rec_off c (zlen rs)) (enc_rec c r)).
    assert (L0 : zlen p0 = pageSize c) by (unfold p0; rewrite zwr_length; lia).
    assert (Ld : zlen (rdata r) = dataSize c) by (unfold zlen; lia).
    assert (P0 : forall k, (p' <- st p (rec_off c (zlen rs)) (le_enc (ksz c) (rkey r)) ;;
                 p' <- st p' (rec_off c (zlen rs) + keySize c) (rdata r) ;;
                 p' <- (if useVar c
                       then st p' (rec_off c (zlen rs) + keySize c + dataSize c) (le_enc 4 vloc)
                       else Ok p') ;; k p') = (k p0 : res page)).
    { intros k. rewrite st_ok by (rewrite ?le_enc_zlen; destruct (useVar c); lia). cbn [bind].
      set (q := zwr p (rec_off c (zlen rs)) (le_enc (ksz c) (rkey r))).
      assert (Lq : zlen q = pageSize c)
        by (unfold q; rewrite zwr_length; rewrite ?le_enc_zlen; destruct (useVar c); lia).
      rewrite st_ok by (destruct (useVar c); lia). cbn [bind].
      assert (Eq : zwr q (rec_off c (zlen rs) + keySize c) (rdata r)
                   = zwr p (rec_off c (zlen rs)) (le_enc (ksz c) (rkey r) ++ rdata r)).
      { unfold q. replace (keySize c) with (zlen (le_enc (ksz c) (rkey r))) by (rewrite le_enc_zlen; lia).
        apply zwr_app; rewrite ?le_enc_zlen; destruct (useVar c); lia. }
      rewrite Eq. destruct (useVar c) eqn:V.
      - rewrite st_ok.
        + cbn [bind]. f_equal. unfold p0, enc_rec. rewrite V, (Hv eq_refl), app_assoc.
          replace (rec_off c (zlen rs) + keySize c + dataSize c)
            with (rec_off c (zlen rs) + zlen (le_enc (ksz c) (rkey r) ++ rdata r))
            by (rewrite zlen_app, le_enc_zlen; lia).
          apply zwr_app; rewrite ?zlen_app, ?le_enc_zlen; lia.
        + lia.
        + rewrite <- Eq. rewrite zwr_length; rewrite ?le_enc_zlen; lia.
      - cbn [bind]. f_equal. unfold p0, enc_rec. rewrite V, app_nil_r. auto. }
    rewrite P0. unfold inc_count, get_count.
    rewrite ldz_ok by lia. cbn [bind].
    assert (C0 : le_dec (zrd p0 4 2) = zlen rs).
    { unfold p0. rewrite zrd_zwr_other by lia. rewrite <- bytes_at_zrd, h_cnt. apply le_dec_enc.
      change (256 ^ Z.of_nat 2) with 65536. lia. }
    rewrite C0. rewrite st_ok by (rewrite ?le_enc_zlen; lia). cbn [bind].
    exists (zwr p0 4 (le_enc 2 (zlen rs + 1))). split; [|reflexivity].
    split; [rewrite zwr_length; rewrite ?le_enc_zlen; lia|].
    split; [apply ba_same; rewrite ?le_enc_zlen, ?le_enc_length; auto; lia|].
    split.
    - rewrite ba_other by (rewrite ?le_enc_zlen; lia). unfold p0.
      apply ba_same; try lia. rewrite enc_rec_length; auto.
    - intros o n Ho Hn H4 Hs. rewrite ba_other by (rewrite ?le_enc_zlen; lia). unfold p0.
      apply ba_other; lia.
  Qed.

  (** The header updates leave everything below offset 6 and all record slots
      alone. *)
  Lemma put_maxmin_ok p1 i r : zlen p1 = pageSize c -> length (rdata r) = dsz c ->
    exists p2, put_maxmin c p1 i (rkey r) (rdata r) = Ok p2 /\ zlen p2 = pageSize c /\
      (forall o n, 0 <= o -> o + Z.of_nat n <= pageSize c ->
         o + Z.of_nat n <= 14 \/ headerSize c <= o -> bytes_at p2 o n = bytes_at p1 o n) /\
      (useMaxMin c = true ->
         if i =? 0 then
           bytes_at p2 off_minkey (ksz c) = le_enc (ksz c) (rkey r) /\
           bytes_at p2 (off_maxkey c) (ksz c) = le_enc (ksz c) (rkey r) /\
           bytes_at p2 (off_mindata c) (dsz c) = rdata r /\
           bytes_at p2 (off_maxdata c) (dsz c) = rdata r
         else
           bytes_at p2 off_minkey (ksz c) = bytes_at p1 off_minkey (ksz c) /\
           bytes_at p2 (off_maxkey c) (ksz c) = le_enc (ksz c) (rkey r) /\
           bytes_at p2 (off_mindata c) (dsz c) =
             (let m := bytes_at p1 (off_mindata c) (dsz c) in
              if cmpD c (rdata r) m <? 0 then rdata r else m) /\
           bytes_at p2 (off_maxdata c) (dsz c) =
             (let m := bytes_at p1 (off_maxdata c) (dsz c) in
              if cmpD c (rdata r) m >? 0 then rdata r else m)).
  Proof.
    intros Hl Hd. pose proof L_ksz as K. pose proof L_dsz as D. pose proof L as L'. destruct L'.
    unfold put_maxmin. destruct (useMaxMin c) eqn:M; cbn [negb].
    2:{ exists p1. repeat split; auto; discriminate. }
    specialize (l_mm eq_refl). pose proof (L_slot 0 ltac:(lia)) as (S1 & S2 & S3).
    unfold rec_off in *. rewrite Z.mul_0_r, Z.add_0_r in *.
    assert (Ld : zlen (rdata r) = dataSize c) by (unfold zlen; lia).
    assert (Lk : zlen (le_enc (ksz c) (rkey r)) = keySize c) by (rewrite le_enc_zlen; lia).
    assert (HP : headerSize c <= pageSize c) by (destruct (useVar c); lia).
    unfold off_minkey, off_maxkey, off_mindata, off_maxdata.
    destruct (Z.eqb_spec i 0) as [Hi|Hi]; cbn [negb].
    - rewrite st_ok by lia. cbn [bind].
      rewrite st_ok by (rewrite ?zwr_length by lia; lia). cbn [bind].
      rewrite st_ok by (rewrite ?zwr_length by (rewrite ?zwr_length by lia; lia); lia). cbn [bind].
      set (a := zwr p1 14 (le_enc (ksz c) (rkey r))).
      assert (La : zlen a = pageSize c) by (unfold a; rewrite zwr_length; lia).
      set (b := zwr a (14 + keySize c) (le_enc (ksz c) (rkey r))).
      assert (Lb : zlen b = pageSize c) by (unfold b; rewrite zwr_length; lia).
      set (d := zwr b (14 + keySize c * 2) (rdata r)).
      assert (Lc : zlen d = pageSize c) by (unfold d; rewrite zwr_length; lia).
      rewrite st_ok by lia. eexists; split; [reflexivity|].
      split; [rewrite zwr_length; lia|]. split.
      + intros o n Ho Hn Hh. rewrite ba_other by lia. unfold d; rewrite ba_other by lia.
        unfold b; rewrite ba_other by lia. unfold a; rewrite ba_other by lia. auto.
      + intros _. split; [|split; [|split]].
        * rewrite ba_other by lia. unfold d; rewrite ba_other by lia. unfold b; rewrite ba_other by lia.
          unfold a; apply ba_same; rewrite ?le_enc_length; auto; lia.
        * rewrite ba_other by lia. unfold d; rewrite ba_other by lia.
          unfold b; apply ba_same; rewrite ?le_enc_length; auto; lia.
        * rewrite ba_other by lia. unfold d; apply ba_same; auto; lia.
        * apply ba_same; auto; lia.
    - rewrite st_ok by lia. cbn [bind].
      set (a := zwr p1 (14 + keySize c) (le_enc (ksz c) (rkey r))).
      assert (La : zlen a = pageSize c) by (unfold a; rewrite zwr_length; lia).
      rewrite ld_ok by lia. cbn [bind]. rewrite <- bytes_at_zrd.
      assert (Ea : bytes_at a (14 + keySize c * 2) (dsz c) = bytes_at p1 (14 + keySize c * 2) (dsz c))
        by (unfold a; apply ba_other; lia).
      rewrite Ea. set (mn := bytes_at p1 (14 + keySize c * 2) (dsz c)) in *.
      set (b := if cmpD c (rdata r) mn <? 0 then zwr a (14 + keySize c * 2) (rdata r) else a).
      assert (Eb : (if cmpD c (rdata r) mn <? 0 then st a (14 + keySize c * 2) (rdata r) else Ok a) = Ok b).
      { unfold b. destruct (_ <? _); auto. apply st_ok; lia. }
      rewrite Eb. cbn [bind].
      assert (Lb : zlen b = pageSize c) by (unfold b; destruct (_ <? _); auto; rewrite zwr_length; lia).
      rewrite ld_ok by lia. cbn [bind]. rewrite <- bytes_at_zrd.
      assert (Oth : forall o n, 0 <= o -> o + Z.of_nat n <= pageSize c ->
                o + Z.of_nat n <= 14 + keySize c * 2 \/ 14 + keySize c * 2 + dataSize c <= o ->
                bytes_at b o n = bytes_at a o n).
      { intros. unfold b. destruct (_ <? _); auto. apply ba_other; lia. }
      assert (Ec : bytes_at b (14 + keySize c * 2 + dataSize c) (dsz c) = bytes_at p1 (14 + keySize c * 2 + dataSize c) (dsz c)).
      { rewrite Oth by lia. unfold a. apply ba_other; lia. }
      rewrite Ec. set (mx := bytes_at p1 (14 + keySize c * 2 + dataSize c) (dsz c)) in *.
      set (d := if cmpD c (rdata r) mx >? 0 then zwr b (14 + keySize c * 2 + dataSize c) (rdata r) else b).
      exists d. split.
      { unfold d. destruct (_ >? _); auto. apply st_ok; lia. }
      assert (Ld' : zlen d = pageSize c) by (unfold d; destruct (_ >? _); auto; rewrite zwr_length; lia).
      assert (Oth2 : forall o n, 0 <= o -> o + Z.of_nat n <= pageSize c ->
                o + Z.of_nat n <= 14 + keySize c * 2 + dataSize c \/ 14 + keySize c * 2 + dataSize c * 2 <= o ->
                bytes_at d o n = bytes_at b o n).
      { intros. unfold d. destruct (_ >? _); auto. apply ba_other; lia. }
      split; [auto|]. split.
      + intros o n Ho Hn Hh. rewrite Oth2, Oth by lia. unfold a. apply ba_other; lia.
      + intros _. split; [|split; [|split]].
        * rewrite Oth2, Oth by lia. unfold a; apply ba_other; lia.
        * rewrite Oth2, Oth by lia. unfold a; apply ba_same; rewrite ?le_enc_length; auto; lia.
        * rewrite Oth2 by lia. unfold b. destruct (_ <? _); auto. apply ba_same; auto; lia.
        * unfold d. destruct (_ >? _); auto. apply ba_same; auto; lia.
  Qed.

  Lemma put_bitmap_ok p2 r : zlen p2 = pageSize c -> length (rdata r) = dsz c ->
    exists p3, put_bitmap c p2 (rdata r) = Ok p3 /\ zlen p3 = pageSize c /\
      (forall o n, 0 <= o -> o + Z.of_nat n <= pageSize c ->
         (o + Z.of_nat n <= 6 \/ 14 <= o \/ headerSize c <= o) ->
         bytes_at p3 o n = bytes_at p2 o n) /\
      (useBmap c = true -> bytes_at p3 6 (bsz c) = updBM c (rdata r) (bytes_at p2 6 (bsz c))).
  Proof.
    intros Hl Hd. pose proof L_bsz as B. pose proof L as L'. destruct L'. unfold put_bitmap.
    destruct (useBmap c) eqn:Hb.
    2:{ exists p2. repeat split; auto; discriminate. }
    destruct (l_bm eq_refl) as [B1 B2]. pose proof (L_slot 0 ltac:(lia)) as (S1 & S2 & S3).
    unfold rec_off in *. rewrite Z.mul_0_r, Z.add_0_r in *. pose proof L_recpos.
    rewrite ld_ok by lia. cbn [bind]. rewrite <- bytes_at_zrd.
    assert (Lu : length (updBM c (rdata r) (bytes_at p2 6 (bsz c))) = bsz c).
    { apply l_upd; auto. rewrite bytes_at_zrd. apply zrd_length; lia. }
    assert (Lz : zlen (updBM c (rdata r) (bytes_at p2 6 (bsz c))) = bitmapSize c) by (unfold zlen; lia).
    rewrite st_ok by lia. eexists; split; [reflexivity|].
    split; [rewrite zwr_length; lia|]. split.
    - intros. apply ba_other; lia.
    - intros _. apply ba_same; lia.
  Qed.

  Lemma last_snoc {A} (l : list A) x d : last (l ++ [x]) d = x.
  Proof. induction l as [|a l IH]; auto. cbn. destruct (l ++ [x]) eqn:E; auto. destruct l; discriminate. Qed.

  (** Appending a record to a page. *)
  Lemma put_record_ok p rs r vloc KB : holds c p rs -> zlen rs < maxRec c ->
    rec_ok c KB r -> (useVar c = true -> rvar r = vloc) ->
    exists p', put_record c p (zlen rs) (rkey r) (rdata r) vloc = Ok p' /\ holds c p' (rs ++ [r]).
  Proof.
    intros H Hm Hr Hv. destruct (put_record_copy p rs r vloc KB H Hm Hr Hv) as (p1 & (Z1 & C1 & R1 & O1) & ->).
    destruct Hr as (Hk & Hd & _).
    destruct (put_maxmin_ok p1 (zlen rs) r Z1 Hd) as (p2 & E2 & Z2 & O2 & M2). rewrite E2. cbn [bind].
    destruct (put_bitmap_ok p2 r Z2 Hd) as (p3 & E3 & Z3 & O3 & B3).
    exists p3. split; [auto|].
    pose proof (zlen_nonneg rs) as N0. pose proof (L_slot (zlen rs) ltac:(lia)) as (S1 & S2 & S3).
    pose proof L_ksz as K. pose proof L_dsz as D. pose proof L_bsz as B. pose proof L_recpos as RP.
    destruct H.
    assert (Zs : zlen (rs ++ [r]) = zlen rs + 1) by (rewrite zlen_app; auto).
    assert (HL : forall o n, headerSize c <= o -> o + Z.of_nat n <= pageSize c ->
      bytes_at p3 o n = bytes_at p1 o n).
    { intros o n Ho Hn. destruct L. rewrite O3, O2 by lia. auto. }
    constructor.
    - auto.
    - destruct L. rewrite O3, O2, C1 by lia. now rewrite Zs.
    - lia.
    - intros i r' Hi. destruct (Nat.lt_ge_cases i (length rs)) as [Li|Li].
      + rewrite nth_error_app1 in Hi by auto. specialize (h_recs _ _ Hi).
        pose proof (L_slot (Z.of_nat i)) as S4. unfold zlen in *. specialize (S4 ltac:(lia)).
        pose proof (L_slots (Z.of_nat i) (Z.of_nat (length rs)) ltac:(lia) ltac:(lia)).
        rewrite HL by lia. rewrite O1 by lia. auto.
      + assert (i = length rs).
        { assert (i < length (rs ++ [r]))%nat by (apply nth_error_Some; congruence). rewrite app_length in *. cbn in *. lia. }
        subst i. rewrite nth_error_app2, Nat.sub_diag in Hi by auto. injection Hi as <-.
        unfold zlen in *. rewrite HL by lia. auto.
    - intros M Hlt. pose proof (L_slot (maxRec c - 1) ltac:(lia)).
      pose proof (L_slots (zlen rs) (maxRec c - 1) ltac:(lia) ltac:(lia)).
      assert (keySize c <= recordSize c) by (destruct L; rewrite l_rec; destruct (useVar c); lia).
      rewrite HL by lia. rewrite O1 by lia. apply h_tail; lia.
    - intros M r0 rest E. specialize (M2 M). pose proof L as L'. destruct L'. specialize (l_mm M).
      assert (X : forall o n, 14 <= o -> o + Z.of_nat n <= headerSize c -> bytes_at p3 o n = bytes_at p2 o n).
      { intros. apply O3; lia. }
      assert (Y : forall o n, 14 <= o -> o + Z.of_nat n <= headerSize c -> bytes_at p1 o n = bytes_at p o n).
      { intros. apply O1; lia. }
      unfold off_minkey, off_maxkey, off_mindata, off_maxdata in *.
      rewrite !X by lia.
      destruct rs as [|r1 rs].
      + cbn in E. injection E as <- <-. cbn in M2. cbn. auto.
      + cbn in E. injection E as <- <-. specialize (h_mm M _ _ eq_refl).
        unfold off_minkey, off_maxkey, off_mindata, off_maxdata in *.
        destruct (Z.eqb_spec (zlen (r1 :: rs)) 0) as [Q|_]; [rewrite zlen_cons in Q; pose proof (zlen_nonneg rs); lia|].
        rewrite !Y in M2 by lia. destruct h_mm as (m1 & m2 & m3 & m4).
        rewrite m1, m3, m4 in M2. destruct M2 as (n1 & n2 & n3 & n4).
        split; [auto|]. split; [|split].
        * rewrite n2. rewrite last_snoc. auto.
        * rewrite n3. unfold min_data. rewrite fold_left_app. auto.
        * rewrite n4. unfold max_data. rewrite fold_left_app. auto.
    - intros Hb. rewrite (B3 Hb). unfold bitmap_of. rewrite fold_left_app. cbn.
      f_equal. pose proof L as L'. destruct L'. destruct (l_bm Hb). rewrite O2, O1 by lia. apply h_bm; auto.
  Qed.

  (** * Setting the page number *)
  Lemma set_pid_ok p rs id : holds c p rs -> 0 <= id < 2 ^ 32 ->
    exists p', set_pid p id = Ok p' /\ holds c p' rs /\ page_id p' = id.
  Proof.
    intros H Hi. unfold set_pid. pose proof L_ksz. pose proof L_dsz. pose proof L_bsz. pose proof L as L'. destruct L'. destruct H.
    rewrite st_ok by (rewrite ?le_enc_zlen; lia). eexists; split; [reflexivity|].
    assert (O : forall o n, 4 <= o -> o + Z.of_nat n <= pageSize c ->
      bytes_at (zwr p 0 (le_enc 4 id)) o n = bytes_at p o n).
    { intros. apply ba_other; rewrite ?le_enc_zlen; lia. }
    split.
    - constructor.
      + rewrite zwr_length; rewrite ?le_enc_zlen; lia.
      + rewrite O by lia. auto.
      + auto.
      + intros i r Hi'. assert (i < length rs)%nat by (apply nth_error_Some; congruence).
        assert (Hi2 : 0 <= Z.of_nat i < maxRec c) by (unfold zlen in *; lia).
        pose proof (L_slot (Z.of_nat i) Hi2). pose proof L_recpos. rewrite O; [auto|lia|lia].
      + intros M Hl. pose proof (L_slot (maxRec c - 1) ltac:(lia)).
        assert (keySize c <= recordSize c) by (rewrite l_rec; destruct (useVar c); lia).
        rewrite O by lia. auto.
      + intros M r0 rest E. specialize (l_mm M). pose proof (L_slot 0 ltac:(lia)).
        unfold off_minkey, off_maxkey, off_mindata, off_maxdata in *.
        assert (rec_off c 0 = headerSize c) by (unfold rec_off; lia).
        pose proof L_recpos. rewrite !O by lia. eauto.
      + intros Hb. destruct (l_bm Hb). pose proof (L_slot 0 ltac:(lia)).
        assert (rec_off c 0 = headerSize c) by (unfold rec_off; lia). pose proof L_recpos.
        rewrite O by lia. auto.
    - unfold page_id. rewrite ba_same; rewrite ?le_enc_zlen, ?le_enc_length; auto; try lia.
      apply le_dec_enc. change (256 ^ Z.of_nat 4) with (2 ^ 32). auto.
  Qed.

  (** * Reading *)
  Lemma get_count_ok p rs : holds c p rs -> get_count p = Ok (zlen rs).
  Proof.
    intros H. pose proof L as L'. destruct L'. destruct H. unfold get_count. rewrite ldz_ok by lia.
    rewrite <- bytes_at_zrd, h_cnt, le_dec_enc; auto. change (256 ^ Z.of_nat 2) with 65536.
    pose proof (zlen_nonneg rs). lia.
  Qed.

  Lemma rec_fields p rs i r : holds c p rs -> nth_error rs i = Some r -> length (rdata r) = dsz c ->
    bytes_at p (rec_off c (Z.of_nat i)) (ksz c) = le_enc (ksz c) (rkey r) /\
    bytes_at p (rec_off c (Z.of_nat i) + keySize c) (dsz c) = rdata r /\
    (useVar c = true -> bytes_at p (rec_off c (Z.of_nat i) + keySize c + dataSize c) 4 = le_enc 4 (rvar r)).
  Proof.
    intros H Hi Hd. assert (Li : (i < length rs)%nat) by (apply nth_error_Some; congruence).
    pose proof L_ksz as K. pose proof L_dsz as D. pose proof L as L'. destruct L'. destruct H.
    pose proof (L_slot (Z.of_nat i)) as S. unfold zlen in h_max. specialize (S ltac:(lia)).
    specialize (h_recs _ _ Hi). unfold enc_rec in h_recs. rewrite !bytes_at_zrd in *.
    assert (G : exists n, Z.to_nat (recordSize c) = (ksz c + (dsz c + n))%nat /\ n = if useVar c then 4%nat else 0%nat).
    { rewrite l_rec. destruct (useVar c); eexists; split; try reflexivity; lia. }
    destruct G as (n & G & Gn). rewrite G, !zrd_app in h_recs by lia.
    assert (E1 : length (zrd p (rec_off c (Z.of_nat i)) (ksz c)) = length (le_enc (ksz c) (rkey r))).
    { rewrite le_enc_length. apply zrd_length; lia. }
    apply (app_inv_len _ _ _ _ E1) in h_recs as [A B].
    assert (E2 : length (zrd p (rec_off c (Z.of_nat i) + Z.of_nat (ksz c)) (dsz c)) = length (rdata r)).
    { rewrite Hd. apply zrd_length; lia. }
    apply (app_inv_len _ _ _ _ E2) in B as [B C].
    rewrite K in *. split; [auto|]. split; [auto|]. intros V. rewrite V in *. subst n. rewrite D in C. auto.
  Qed.

  Lemma rec_key_ok p rs i r KB : KB <= 256 ^ keySize c -> holds c p rs -> nth_error rs i = Some r -> rec_ok c KB r ->
    rec_key c p (Z.of_nat i) = Ok (rkey r).
  Proof.
    intros HK H Hi (Hk & Hd & _). destruct (rec_fields p rs i r H Hi Hd) as (F & _).
    assert (Li : (i < length rs)%nat) by (apply nth_error_Some; congruence).
    pose proof L_ksz as K. pose proof L as L'. destruct L'. destruct H.
    pose proof (L_slot (Z.of_nat i)) as S. unfold zlen in h_max. specialize (S ltac:(lia)).
    unfold rec_key. rewrite ldz_ok by (rewrite ?h_len; destruct (useVar c); lia). rewrite <- bytes_at_zrd, F, le_dec_enc; auto.
    rewrite K. lia.
  Qed.
  Lemma rec_data_ok p rs i r : holds c p rs -> nth_error rs i = Some r -> length (rdata r) = dsz c ->
    rec_data c p (Z.of_nat i) = Ok (rdata r).
  Proof.
    intros H Hi Hd. destruct (rec_fields p rs i r H Hi Hd) as (_ & F & _).
    assert (Li : (i < length rs)%nat) by (apply nth_error_Some; congruence).
    pose proof L_ksz as K. pose proof L_dsz as D. pose proof L as L'. destruct L'. destruct H.
    pose proof (L_slot (Z.of_nat i)) as S. unfold zlen in h_max. specialize (S ltac:(lia)).
    unfold rec_data. rewrite ld_ok by (rewrite ?h_len; destruct (useVar c); lia). rewrite <- bytes_at_zrd, F. auto.
  Qed.

  Lemma min_key_ok p r rs KB : KB <= 256 ^ keySize c -> holds c p (r :: rs) -> rec_ok c KB r -> min_key c p = Ok (rkey r).
  Proof. intros HK H R. unfold min_key. eapply (rec_key_ok p (r :: rs) 0); eauto. Qed.
  Lemma max_key_ok p rs r KB : KB <= 256 ^ keySize c -> holds c p (rs ++ [r]) -> rec_ok c KB r ->
    max_key c p = Ok (rkey r).
  Proof.
    intros HK H R. unfold max_key. rewrite (get_count_ok _ _ H). cbn [bind].
    pose proof (h_max _ _ _ H) as Hm. destruct L. rewrite zlen_app in *. change (zlen [r]) with 1 in *.
    pose proof (zlen_nonneg rs).
    rewrite i16_id by lia. replace (zlen rs + 1 - 1) with (Z.of_nat (length rs)) by (unfold zlen; lia).
    eapply rec_key_ok; eauto. rewrite nth_error_app2, Nat.sub_diag; auto.
  Qed.
End Page.

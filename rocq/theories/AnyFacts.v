(** Memory safety on storage with any contents: proofs. *)
From Coq Require Znumtheory.
From Verif Require Import Base BaseFacts Config Spline Storage DB VarData Recovery Spec SpecPage PageFacts SpecFlash SpecTerm TermFacts SpecAny.
Open Scope Z_scope.

(** Partial correctness: not undefined, and [P] of the result. *)
Definition nub {A} (P : A -> Prop) (r : res A) : Prop :=
  match r with Ok a => P a | UB => False | Fuel => True end.
Lemma nub_bind {A B} (Q : A -> Prop) (P : B -> Prop) m (f : A -> res B) :
  nub Q m -> (forall a, Q a -> nub P (f a)) -> nub P (bind m f).
Proof. destruct m; cbn; auto; tauto. Qed.
Lemma nub_imp {A} (P Q : A -> Prop) m : nub P m -> (forall a, P a -> Q a) -> nub Q m.
Proof. destruct m; cbn; auto. Qed.
Lemma nub_ok {A} (P : A -> Prop) m : nub P m -> m <> Fuel -> exists a, m = Ok a /\ P a.
Proof. destruct m; cbn; intros; [eauto|tauto|congruence]. Qed.

Section Any.
Variable c : cfg.
Hypothesis W : workable c.
Let L : layout c := wk_layout _ W.

Lemma ksz_z : Z.of_nat (ksz c) = keySize c. Proof. pose proof (l_ks _ L). unfold ksz. lia. Qed.
Lemma dsz_z : Z.of_nat (dsz c) = dataSize c. Proof. pose proof (l_ds _ L). unfold dsz. lia. Qed.
Lemma bsz_z : Z.of_nat (bsz c) = bitmapSize c. Proof. pose proof (l_bs _ L). unfold bsz. lia. Qed.
Lemma psz_z : Z.of_nat (psz c) = pageSize c.
Proof. pose proof (l_init _ L). pose proof (l_ks _ L). pose proof (l_ds _ L). unfold psz. lia. Qed.
Lemma ps_lo : 16 <= pageSize c.
Proof. pose proof (l_init _ L). pose proof (l_ks _ L). pose proof (l_ds _ L). lia. Qed.
Lemma ps_key : 4 + keySize c <= pageSize c /\ 14 + keySize c * 2 + dataSize c <= pageSize c.
Proof. pose proof (l_init _ L). pose proof (l_ks _ L). pose proof (l_ds _ L). lia. Qed.

Lemma ldz_nub p o n : zlen p = pageSize c -> 0 <= o -> o + Z.of_nat n <= pageSize c -> nub (fun _ => True) (ldz p o n).
Proof. intros. rewrite ldz_ok by lia. exact I. Qed.
Lemma ld_nub p o n : zlen p = pageSize c -> 0 <= o -> o + Z.of_nat n <= pageSize c -> nub (fun x => length x = n) (ld p o n).
Proof. intros. rewrite ld_ok by lia. cbn. apply zrd_length; lia. Qed.
Lemma pid_nub p : zlen p = pageSize c -> nub (fun _ => True) (get_pid p).
Proof. intros. apply ldz_nub; auto; try lia. pose proof ps_lo. lia. Qed.
Lemma count_nub p : zlen p = pageSize c -> nub (fun n => n = claims p) (get_count p).
Proof.
  intros. pose proof ps_lo. unfold get_count. rewrite ldz_ok by lia. cbn. reflexivity.
Qed.
Lemma rec_range i : 0 <= i < maxRec c ->
  6 <= rec_off c i /\ rec_off c i + recordSize c <= pageSize c /\ keySize c + dataSize c <= recordSize c /\
  (useVar c = true -> keySize c + dataSize c + 4 = recordSize c).
Proof.
  intros Hi. pose proof (l_hdr _ L). pose proof (l_area _ L). pose proof (l_rec _ L). pose proof (l_ks _ L). pose proof (l_ds _ L).
  unfold rec_off. assert (0 <= recordSize c) by (destruct (useVar c); lia). split; [nia|]. split; [nia|].
  destruct (useVar c); lia.
Qed.
Lemma key_nub p i : zlen p = pageSize c -> 0 <= i < maxRec c -> nub (fun _ => True) (rec_key c p i).
Proof.
  intros Hp Hi. pose proof (rec_range i Hi). pose proof (l_ds _ L). unfold rec_key. apply ldz_nub; auto; try lia.
  rewrite ksz_z. lia.
Qed.
Lemma data_nub p i : zlen p = pageSize c -> 0 <= i < maxRec c -> nub (fun x => length x = dsz c) (rec_data c p i).
Proof.
  intros Hp Hi. pose proof (rec_range i Hi). pose proof (l_ks _ L). unfold rec_data. apply ld_nub; auto; try lia.
  rewrite dsz_z. lia.
Qed.
Lemma minkey_nub p : zlen p = pageSize c -> nub (fun _ => True) (min_key c p).
Proof. intros Hp. apply key_nub; auto. pose proof (l_fit _ L). lia. Qed.
Lemma claims_i16 p : page_sane c p -> i16 (claims p) = claims p.
Proof. intros [H1 H2]. pose proof (l_fit _ L). apply i16_id. lia. Qed.
Lemma maxkey_nub p : zlen p = pageSize c -> page_sane c p -> nub (fun _ => True) (max_key c p).
Proof.
  intros Hp S. unfold max_key. eapply nub_bind; [apply count_nub; auto|]. intros n ->. rewrite claims_i16 by auto.
  apply key_nub; auto. destruct S. lia.
Qed.
Lemma st_nub p o b : zlen p = pageSize c -> 0 <= o -> o + zlen b <= pageSize c ->
  nub (fun p' => zlen p' = pageSize c /\ (6 <= o \/ o + zlen b <= 4 -> claims p' = claims p)) (st p o b).
Proof.
  intros. rewrite st_ok by lia. cbn. rewrite zwr_length by lia. split; [assumption|]. intros D. pose proof ps_lo.
  unfold claims. f_equal. apply ba_other; lia.
Qed.
Lemma setpid_nub p i : zlen p = pageSize c -> nub (fun p' => zlen p' = pageSize c /\ claims p' = claims p) (set_pid p i).
Proof.
  intros. pose proof ps_lo. eapply nub_imp; [apply st_nub; auto; try rewrite le_enc_zlen; lia|].
  cbn. intros a [A B]. split; auto. apply B. right. rewrite ?le_enc_zlen. lia.
Qed.
Lemma inc_nub p : zlen p = pageSize c -> 0 <= claims p < 65535 ->
  nub (fun p' => zlen p' = pageSize c /\ claims p' = claims p + 1) (inc_count p).
Proof.
  intros Hp Hc. pose proof ps_lo. unfold inc_count. eapply nub_bind; [apply count_nub; auto|]. intros n ->.
  rewrite st_ok by (rewrite ?le_enc_zlen; lia). cbn [nub]. rewrite zwr_length by (rewrite ?le_enc_zlen; lia).
  split; [assumption|]. unfold claims at 1. rewrite ba_same by (rewrite ?le_enc_zlen, ?le_enc_length; lia).
  rewrite le_dec_enc; lia.
Qed.
Lemma init_nub : nub (fun p => zlen p = pageSize c /\ claims p = 0) (init_page c).
Proof.
  destruct (init_page_ok c L) as (p & E & H). rewrite E. cbn. split; [apply (h_len _ _ _ H)|].
  unfold claims. rewrite (h_cnt _ _ _ H). reflexivity.
Qed.
Lemma rep_sized (x : Z) : zlen (repeat x (psz c)) = pageSize c.
Proof. rewrite zlen_repeat. apply psz_z. Qed.

(** Storage. *)
Lemma sized_empty : file_sized c emptyFile.
Proof. intros n p H. unfold file_read in H. cbn in H. destruct (_ && _) eqn:E; [lia|discriminate]. Qed.
Lemma sized_write f n p : file_sized c f -> zlen p = pageSize c -> file_sized c (file_write c f n p).
Proof.
  intros F Hp m q H. unfold file_read in H. cbn [flen fpg file_write] in H. destruct (_ && _) eqn:E; [|discriminate].
  injection H as <-. destruct (Z.eqb_spec m n); auto. destruct (Z.ltb_spec m (flen f)); [|apply rep_sized].
  apply (F m). unfold file_read. destruct (Z.leb_spec 0 m); [|lia]. destruct (Z.ltb_spec m (flen f)); [reflexivity|lia].
Qed.
Lemma sized_erase f a b : file_sized c f -> file_sized c (file_erase c f a b).
Proof.
  intros F m q H. unfold file_erase in H. destruct (eraseFill c); [|eauto].
  unfold file_read in H. cbn [flen fpg] in H. destruct (_ && _) eqn:E; [|discriminate].
  injection H as <-. destruct ((a <=? m) && (m <? b)); [apply rep_sized|]. destruct (Z.ltb_spec m (flen f)); [|apply rep_sized].
  apply (F m). unfold file_read. destruct (Z.leb_spec 0 m); [|lia]. destruct (Z.ltb_spec m (flen f)); [reflexivity|lia].
Qed.
Definition io_sized (o : io) : Prop := file_sized c (fD o) /\ file_sized c (fI o) /\ file_sized c (fV o).
Lemma io_read_sized w n o o' r : io_read w n o = (o', r) -> io_sized o ->
  io_sized o' /\ (fD o' = fD o /\ fI o' = fI o /\ fV o' = fV o) /\ forall p, r = Some p -> zlen p = pageSize c /\ file_read (getF w o) n = Some p.
Proof.
  unfold io_read, take_fault. intros H F. destruct (faults o) as [|[] t]; injection H as <- <-.
  - split; [exact F|]. split; [auto|]. intros p E. split; [|exact E]. destruct F as (A & B & C). destruct w; cbn in E; eauto.
  - split; [exact F|]. split; [auto|]. discriminate.
  - split; [exact F|]. split; [auto|]. intros p E. split; [|destruct w; exact E]. destruct F as (A & B & C). destruct w; cbn in E; eauto.
Qed.
Lemma io_write_sized w n p o o' r : io_write c w n p o = (o', r) -> io_sized o -> zlen p = pageSize c -> io_sized o'.
Proof.
  unfold io_write, take_fault. intros H (A & B & C) Hp.
  destruct (faults o) as [|[] t]; injection H as <- <-; unfold io_sized; destruct w; cbn; auto using sized_write.
Qed.
Lemma io_erase_sized w a b o o' r : io_erase c w a b o = (o', r) -> io_sized o -> io_sized o'.
Proof.
  unfold io_erase, take_fault. intros H (A & B & C).
  destruct (faults o) as [|[] t]; injection H as <- <-; unfold io_sized; destruct w; cbn; auto using sized_erase.
Qed.
Lemma bf_io s : buffers_fit c s -> io_sized (sio s).
Proof. intros []. split; auto. Qed.

(** Changes of single fields. *)
Ltac fit F := destruct F; constructor; cbn in *; auto; try discriminate.
Lemma fit_io s o : buffers_fit c s -> io_sized o -> buffers_fit c (set_io s o).
Proof. intros F (A & B & C). fit F. Qed.
Lemma fit_next s n : buffers_fit c s -> buffers_fit c (set_d s (d_next (sd s) n)).
Proof. intros F. fit F. Qed.
Lemma fit_avail s a m : buffers_fit c s -> buffers_fit c (set_d s (d_avail (sd s) a m)).
Proof. intros F. fit F. Qed.
Lemma fit_rlc s a m : buffers_fit c s -> buffers_fit c (set_d s (d_rlc (sd s) a m)).
Proof. intros F. fit F. Qed.
Lemma fit_spl s x : buffers_fit c s -> buffers_fit c (set_d s (d_spl (sd s) (Some x))).
Proof. intros F. fit F. Qed.
Lemma fit_w s p : buffers_fit c s -> zlen p = pageSize c -> buffers_fit c (set_d s (d_wbuf (sd s) p)).
Proof. intros F H. fit F. Qed.
Lemma fit_iw s p : buffers_fit c s -> zlen p = pageSize c -> buffers_fit c (set_i s (i_wbuf (si s) p)).
Proof. intros F H. fit F. Qed.
Lemma fit_inext s n : buffers_fit c s -> buffers_fit c (set_i s (i_next (si s) n)).
Proof. intros F. fit F. Qed.
Lemma fit_iavail s a m : buffers_fit c s -> buffers_fit c (set_i s (i_avail (si s) a m)).
Proof. intros F. fit F. Qed.
Lemma fit_v s v : buffers_fit c s -> zlen (vwbuf v) = pageSize c -> vrbuf v = vrbuf (sv s) -> buffers_fit c (set_v s v).
Proof. intros F H E. fit F. rewrite E. auto. Qed.

(** Reads. *)
Definition kept (s s' : state) : Prop :=
  wbuf (sd s') = wbuf (sd s) /\ iwbuf (si s') = iwbuf (si s) /\ vwbuf (sv s') = vwbuf (sv s).
Lemma kept_refl s : kept s s. Proof. unfold kept; auto. Qed.
Lemma kept_trans a b d : kept a b -> kept b d -> kept a d.
Proof. unfold kept. intros (A & B & C) (D & E & F). repeat split; congruence. Qed.
Lemma readPage_fit s n s' r : readPage s n = (s', r) -> buffers_fit c s -> buffers_fit c s' /\ kept s s'.
Proof.
  unfold readPage. intros H F. destruct (_ =? _); [injection H as <- <-; auto using kept_refl|].
  destruct (io_read WD n (sio s)) as [o q] eqn:E. destruct (io_read_sized _ _ _ _ _ E (bf_io _ F)) as ((A & B & C) & _ & Q).
  destruct q as [p|]; injection H as <- <-; (split; [|unfold kept; cbn; auto]).
  - destruct (Q p eq_refl). fit F.
  - apply fit_io; auto. split; auto.
Qed.
Lemma readIndex_fit s n s' r : readIndexPage s n = (s', r) -> buffers_fit c s -> buffers_fit c s' /\ kept s s'.
Proof.
  unfold readIndexPage. intros H F. destruct (_ =? _); [injection H as <- <-; auto using kept_refl|].
  destruct (io_read WI n (sio s)) as [o q] eqn:E. destruct (io_read_sized _ _ _ _ _ E (bf_io _ F)) as ((A & B & C) & _ & Q).
  destruct q as [p|]; injection H as <- <-; (split; [|unfold kept; cbn; auto]).
  - destruct (Q p eq_refl). fit F.
  - apply fit_io; auto. split; auto.
Qed.
Lemma readVar_fit s n s' r : readVariablePage s n = (s', r) -> buffers_fit c s -> buffers_fit c s' /\ kept s s'.
Proof.
  unfold readVariablePage. intros H F. destruct (_ =? _); [injection H as <- <-; auto using kept_refl|].
  destruct (io_read WV n (sio s)) as [o q] eqn:E. destruct (io_read_sized _ _ _ _ _ E (bf_io _ F)) as ((A & B & C) & _ & Q).
  destruct q as [p|]; injection H as <- <-; (split; [|unfold kept; cbn; auto]).
  - destruct (Q p eq_refl). fit F.
  - apply fit_io; auto. split; auto.
Qed.

(** Recovery of the data pages.  The write buffer is kept, except by record-level consistency. *)
Definition fk (s0 s : state) : Prop := buffers_fit c s /\ kept s0 s.
Lemma fk_read s0 s n s' r : readPage s n = (s', r) -> fk s0 s -> fk s0 s'.
Proof. intros E [F K]. destruct (readPage_fit _ _ _ _ E F). split; eauto using kept_trans. Qed.
Lemma fk_iread s0 s n s' r : readIndexPage s n = (s', r) -> fk s0 s -> fk s0 s'.
Proof. intros E [F K]. destruct (readIndex_fit _ _ _ _ E F). split; eauto using kept_trans. Qed.
Lemma fk_vread s0 s n s' r : readVariablePage s n = (s', r) -> fk s0 s -> fk s0 s'.
Proof. intros E [F K]. destruct (readVar_fit _ _ _ _ E F). split; eauto using kept_trans. Qed.
Lemma hdr_nub p n : zlen p = pageSize c -> nub (fun _ => True) (hdr_ok c p n).
Proof.
  intros. unfold hdr_ok. eapply nub_bind; [apply pid_nub; auto|]. intros id _.
  eapply nub_bind; [apply count_nub; auto|]. intros m _. exact I.
Qed.
Lemma first_nub s0 tries : forall s more count, fk s0 s ->
  nub (fun '(s', _, _, _) => fk s0 s') (rec_first c s more tries count).
Proof.
  induction tries as [|t IH]; intros s more count F; cbn [rec_first]; [exact F|].
  destruct more; [|exact F]. eapply nub_bind; [apply hdr_nub; apply F|]. intros [id ok] _. destruct ok.
  - destruct (readPage s (count + 1)) as [s1 r] eqn:E. cbn. exact (fk_read _ _ _ _ _ E F).
  - destruct (readPage s (count + eraseSize c)) as [s1 r] eqn:E. apply IH. exact (fk_read _ _ _ _ _ E F).
Qed.
Lemma scan_nub s0 fuel : forall s more count mx, fk s0 s ->
  nub (fun '(s', _, _, _) => fk s0 s') (rec_scan c s fuel more count mx).
Proof.
  induction fuel as [|f IH]; intros s more count mx F; cbn [rec_scan]; [exact I|].
  destruct (_ && _); [|exact F]. eapply nub_bind; [apply pid_nub; apply F|]. intros id _.
  destruct (_ && _); [|exact F]. destruct (readPage s (count + 1)) as [s1 r] eqn:E. apply IH. exact (fk_read _ _ _ _ _ E F).
Qed.
Lemma spline_nub s0 n : useBinary c = false -> forall s pg, fk s0 s -> nub (fk s0) (spline_from_file c s n pg).
Proof.
  intros B. induction n as [|n IH]; intros s pg F; cbn [spline_from_file]; [exact F|].
  destruct (readPage s (pg mod numData c)) as [s1 r] eqn:E. pose proof (fk_read _ _ _ _ _ E F) as F1.
  eapply nub_bind; [apply minkey_nub; apply F1|]. intros k _.
  destruct (spl (sd s1)) as [sp|] eqn:S; [|exfalso; apply (bf_spl _ _ (proj1 F1) B); exact S].
  apply IH. destruct F1 as [F1 K]. split; [apply fit_spl; auto|exact K].
Qed.
Definition done (s0 : state) (x : state * Z) : Prop := fk s0 (fst x) /\ (snd x = 0 \/ snd x = -1).
Lemma finish_nub s0 s small mx rv : fk s0 s -> nub (done s0) (rec_finish c s small mx rv).
Proof.
  intros [F K]. unfold rec_finish. cbv zeta. set (s1 := set_d s _).
  assert (F1 : fk s0 s1) by (split; [apply fit_next; auto|exact K]). clearbody s1.
  destruct (readPage s1 small) as [s2 r2] eqn:E2. pose proof (fk_read _ _ _ _ _ E2 F1) as F2.
  eapply nub_bind; [apply pid_nub; apply F2|]. intros m _. set (s3 := set_d s2 _).
  assert (F3 : fk s0 s3) by (destruct F2; split; [apply fit_avail; auto|auto]). clearbody s3.
  destruct (readPage s3 _) as [s4 r4] eqn:E4. pose proof (fk_read _ _ _ _ _ E4 F3) as F4.
  destruct (useBinary c) eqn:B; [split; [exact F4|cbn; auto]|].
  eapply nub_bind; [apply (spline_nub s0); [exact B|exact F4]|]. intros s5 F5. split; [exact F5|cbn; auto].
Qed.
Lemma fromFile_nub s : buffers_fit c s -> nub (done s) (initDataFromFile c s).
Proof.
  intros F. unfold initDataFromFile. destruct (readPage s 0) as [s1 r1] eqn:E1.
  pose proof (fk_read s _ _ _ _ E1 (conj F (kept_refl s))) as F1.
  eapply nub_bind; [apply (first_nub s); exact F1|]. intros [[[s2 more] count] found] F2.
  destruct found as [mx|]; [|split; [exact F2|cbn; auto]].
  eapply nub_bind; [apply (scan_nub s); exact F2|]. intros [[[s3 more3] count3] mx3] F3.
  destruct (_ && _); [|apply finish_nub; exact F3]. cbv zeta.
  destruct (readPage s3 _) as [s4 r4] eqn:E4. pose proof (fk_read _ _ _ _ _ E4 F3) as F4.
  destruct (negb _); [split; [exact F4|cbn; auto]|].
  eapply nub_bind; [apply pid_nub; apply F4|]. intros id _. apply finish_nub; exact F4.
Qed.

(** With record-level consistency. *)
Lemma rlc_scan_nub s0 n : forall s more phys idx want perm best, fk s0 s ->
  nub (fun x => fk s0 (fst x)) (rlc_scan c s n more phys idx want perm best).
Proof.
  induction n as [|n IH]; intros s more phys idx want perm best F; cbn [rlc_scan]; [exact F|].
  destruct more; [|exact F]. eapply nub_bind; [apply pid_nub; apply F|]. intros id _.
  eapply nub_bind; [apply count_nub; apply F|]. intros nr _. cbv zeta.
  destruct (readPage s _) as [s1 r] eqn:E. apply IH. exact (fk_read _ _ _ _ _ E F).
Qed.
Lemma shift_erase_sized n : forall st o o' ok, shift_erase c n st o = (o', ok) -> io_sized o -> io_sized o'.
Proof.
  induction n as [|n IH]; intros st o o' ok H F; cbn [shift_erase] in H; [injection H as <- <-; exact F|].
  cbv zeta in H. destruct (io_erase c WD st _ o) as [o1 k] eqn:E. pose proof (io_erase_sized _ _ _ _ _ _ E F) as F1.
  destruct k; [eapply IH; eauto|injection H as <- <-; exact F1].
Qed.
Definition fits (x : state * Z) : Prop := buffers_fit c (fst x) /\ (snd x = 0 \/ snd x = -1).
Lemma fromFileRLC_nub s : buffers_fit c s -> nub fits (initDataFromFileRLC c s).
Proof.
  intros F. unfold initDataFromFileRLC. cbv zeta. destruct (readPage s 0) as [s1 r1] eqn:E1.
  pose proof (fk_read s _ _ _ _ E1 (conj F (kept_refl s))) as F1.
  eapply nub_bind; [apply (first_nub s); exact F1|]. intros [[[s2 more] count] found] F2.
  eapply (nub_bind (fun '(s3, _, _) => fk s s3)).
  { destruct found as [mx|]; [|exact F2]. eapply nub_bind; [apply (scan_nub s); exact F2|].
    intros [[[s3 more3] count3] mx3] F3. exact F3. }
  intros [[s3 count3] mx3] F3.
  assert (H : exists s4 ok, (if eraseSize c - count3 mod eraseSize c =? eraseSize c then
       let '(o, ok) := io_erase c WD count3 (count3 + eraseSize c) (sio s3) in (set_io s3 o, ok) else (s3, true)) = (s4, ok)
       /\ fk s s4).
  { destruct (_ =? _); [|eauto]. destruct (io_erase _ _ _ _ _) as [o ok] eqn:E. exists (set_io s3 o), ok. split; [reflexivity|].
    destruct F3 as [F3 K3]. split; [|exact K3]. apply fit_io; auto. eapply io_erase_sized; eauto using bf_io. }
  destruct H as (s4 & ok & -> & F4). destruct ok; cbn [negb]; [|split; [apply F4|cbn; auto]].
  set (s5 := set_d s4 _). assert (F5 : fk s s5) by (destruct F4; split; [apply fit_rlc; auto|auto]). clearbody s5.
  destruct (readPage s5 _) as [s6 r6] eqn:E6. pose proof (fk_read _ _ _ _ _ E6 F5) as F6.
  eapply nub_bind; [apply (rlc_scan_nub s); exact F6|]. intros [s7 best] F7. cbn [fst] in F7.
  eapply (nub_bind (fun '(s8, _, _, _) => buffers_fit c s8)).
  { destruct best as [[m idx]|]; [|apply F7]. set (s8 := set_d s7 _).
    assert (F8 : fk s s8) by (destruct F7; split; [apply fit_rlc; auto|auto]). clearbody s8.
    destruct (readPage s8 _) as [s9 r9] eqn:E9. pose proof (fk_read _ _ _ _ _ E9 F8) as F9.
    destruct (negb _); [apply F9|]. cbn. apply fit_w; apply F9. }
  intros [[[s8 err] es] nb] F8. destruct err; [split; [exact F8|cbn; auto]|].
  destruct (shift_erase c nb es (sio s8)) as [o k] eqn:E. pose proof (shift_erase_sized _ _ _ _ _ E (bf_io _ F8)) as Fo.
  destruct k; cbn [negb]; [|split; [apply fit_io; auto|cbn; auto]].
  set (s9 := set_io s8 o). assert (F9 : buffers_fit c s9) by (apply fit_io; auto). clearbody s9.
  destruct (negb _); [split; [exact F9|cbn; auto]|].
  destruct (readPage s9 _) as [s10 r10] eqn:E10. destruct (readPage_fit _ _ _ _ E10 F9) as [F10 _].
  eapply (nub_bind (fun _ => True)).
  { destruct (r10 =? 0); [|exact I]. eapply nub_bind; [apply pid_nub; apply F10|]. intros id _. exact I. }
  intros small _. eapply nub_imp; [apply (finish_nub s10); split; [exact F10|apply kept_refl]|].
  intros a [[A _] B]. split; auto.
Qed.

Lemma sized_open_w f : (forall x, f = Some x -> file_sized c x) -> file_sized c (open_w c f).
Proof.
  intros H. unfold open_w. destruct (truncates c); [apply sized_empty|]. destruct f; [|apply sized_empty].
  destruct (_ <=? _); auto using sized_empty.
Qed.

(** What embedDBInit leaves behind. *)
Definition opened (s0 : state) (x : state * Z) : Prop :=
  buffers_fit c (fst x) /\ (snd x = 0 \/ snd x = -1) /\ (useRLC c = false -> wbuf (sd (fst x)) = wbuf (sd s0)).
Lemma initData_nub s f : buffers_fit c s -> (forall x, f = Some x -> file_sized c x) -> nub (opened s) (initData c s f).
Proof.
  intros F Hf. unfold initData. cbv zeta. set (s1 := set_d s _).
  assert (F1 : buffers_fit c s1 /\ kept s s1).
  { subst s1. destruct (useRLC c); (split; [fit F|unfold kept; cbn; auto]). }
  clearbody s1. destruct F1 as [F1 K1]. destruct (useReset c).
  - split; [|split; [cbn; auto|intros _; apply K1]]. apply fit_io; auto. destruct (bf_io _ F1) as (A & B & C).
    split; auto. apply sized_open_w; auto.
  - unfold open_r. destruct f as [fl|]; [|split; [auto|split; [cbn; auto|intros _; apply K1]]].
    set (s2 := set_io s1 _). assert (F2 : buffers_fit c s2).
    { apply fit_io; auto. destruct (bf_io _ F1) as (A & B & C). split; auto. }
    assert (K2 : wbuf (sd s2) = wbuf (sd s)) by apply K1. clearbody s2.
    destruct (useRLC c) eqn:R.
    + eapply nub_imp; [apply fromFileRLC_nub; auto|]. intros a [A B]. split; [auto|split; [auto|congruence]].
    + eapply nub_imp; [apply fromFile_nub; auto|]. intros a [[A B] C]. split; [auto|split; [auto|]].
      intros _. rewrite (proj1 B). exact K2.
Qed.
Lemma idx_scan_nub s0 fuel : forall s more count mx, fk s0 s ->
  nub (fun '(s', _, _, _, _) => fk s0 s') (idx_scan c s fuel more count mx).
Proof.
  induction fuel as [|f IH]; intros s more count mx F; cbn [idx_scan]; [exact I|].
  destruct (_ && _); [|exact F]. eapply nub_bind; [apply pid_nub; apply F|]. intros id _.
  destruct (_ || _); [|exact F]. destruct (readIndexPage s (count + 1)) as [s1 r] eqn:E. apply IH. exact (fk_iread _ _ _ _ _ E F).
Qed.
Lemma idxFile_nub s : buffers_fit c s -> nub (done s) (initIndexFromFile c s).
Proof.
  intros F. unfold initIndexFromFile. destruct (readIndexPage s 0) as [s1 r1] eqn:E1.
  pose proof (fk_iread s _ _ _ _ E1 (conj F (kept_refl s))) as F1.
  eapply nub_bind; [apply (idx_scan_nub s); exact F1|]. intros [[[[s2 count] mx] wrapped] id] F2.
  destruct (count =? 0); [split; [exact F2|cbn; auto]|]. cbv zeta. set (s3 := set_i s2 _).
  assert (F3 : fk s s3) by (destruct F2; split; [apply fit_inext; auto|auto]). clearbody s3.
  destruct (readIndexPage s3 _) as [s4 r4] eqn:E4. pose proof (fk_iread _ _ _ _ _ E4 F3) as F4.
  eapply nub_bind; [apply pid_nub; apply F4|]. intros m _. split; [|cbn; auto]. destruct F4. split; [apply fit_iavail; auto|auto].
Qed.
Definition opened_i (s0 : state) (x : state * Z) : Prop :=
  buffers_fit c (fst x) /\ (snd x = 0 \/ snd x = -1) /\ wbuf (sd (fst x)) = wbuf (sd s0) /\ claims (iwbuf (si (fst x))) = 0.
Lemma initIndex_nub s f : useIndex c = true -> buffers_fit c s -> (forall x, f = Some x -> file_sized c x) ->
  nub (opened_i s) (initIndex c s f).
Proof.
  intros UI F Hf. pose proof (wk_idx _ W UI). pose proof ps_lo. unfold initIndex.
  destruct (Z.eqb_spec (bitmapSize c) 0); [lia|].
  eapply nub_bind; [apply init_nub|]. intros b [Lb Cb].
  eapply nub_bind; [apply st_nub; auto; rewrite ?le_enc_zlen; lia|]. intros b2 [L2 C2]. cbv zeta.
  assert (C3 : claims b2 = 0) by (rewrite C2; [exact Cb|left; lia]). set (s1 := set_i s _).
  assert (F1 : buffers_fit c s1) by (subst s1; fit F).
  assert (K1 : wbuf (sd s1) = wbuf (sd s) /\ claims (iwbuf (si s1)) = 0) by (split; [reflexivity|exact C3]). clearbody s1.
  destruct (_ <? _); [split; [auto|split; [cbn; auto|auto]]|]. destruct (negb _); [split; [auto|split; [cbn; auto|auto]]|].
  assert (X : forall fl, file_sized c fl -> io_sized (mkIO (faults (sio s1)) (fD (sio s1)) fl (fV (sio s1)) (trace (sio s1)))).
  { intros fl Hl. destruct (bf_io _ F1) as (A & B & C). split; auto. }
  destruct (if useReset c then None else open_r f) as [fl|] eqn:E.
  - assert (Hl : file_sized c fl) by (destruct (useReset c); [discriminate|exact (Hf fl E)]).
    eapply nub_imp; [apply idxFile_nub; apply fit_io; auto|]. intros a [[A (B1 & B2 & _)] C].
    split; [auto|split; [auto|]]. rewrite B1, B2. exact K1.
  - split; [apply fit_io; auto; apply X; apply sized_open_w; auto|]. split; [cbn; auto|exact K1].
Qed.

(** Variable data. *)
Lemma vkey_nub p : zlen p = pageSize c -> nub (fun _ => True) (ldz p 4 (ksz c)).
Proof. intros. pose proof ps_key. apply ldz_nub; auto; [lia|]. rewrite ksz_z. lia. Qed.
Lemma var_first_nub s0 fuel : 1 <= numVar c -> forall s more i count, fk s0 s ->
  nub (fun '(s', _, _, _) => fk s0 s') (var_first c s fuel more i count).
Proof.
  intros N. induction fuel as [|f IH]; intros s more i count F; cbn [var_first]; [exact I|].
  destruct (_ && _); [|exact F]. eapply nub_bind; [apply pid_nub; apply F|]. intros id _.
  destruct (Z.eqb_spec (numVar c) 0); [lia|]. destruct (_ =? _).
  - eapply nub_bind; [apply vkey_nub; apply F|]. intros k _.
    destruct (readVariablePage s _) as [s1 r] eqn:E. pose proof (fk_vread _ _ _ _ _ E F) as F1.
    destruct (_ || _); [exact F1|apply IH; exact F1].
  - cbv zeta. destruct (readVariablePage s _) as [s1 r] eqn:E. apply IH. exact (fk_vread _ _ _ _ _ E F).
Qed.
Lemma var_scan_nub s0 fuel : forall s more count mx, fk s0 s ->
  nub (fun '(s', _, _, _) => fk s0 s') (var_scan c s fuel more count mx).
Proof.
  induction fuel as [|f IH]; intros s more count mx F; cbn [var_scan]; [exact I|].
  destruct (_ && _); [|exact F]. eapply nub_bind; [apply pid_nub; apply F|]. intros id _.
  destruct (_ && _); [|exact F]. destruct (readVariablePage s _) as [s1 r] eqn:E. apply IH. exact (fk_vread _ _ _ _ _ E F).
Qed.
Lemma fk_v s0 s v : fk s0 s -> vwbuf v = vwbuf (sv s) -> vrbuf v = vrbuf (sv s) -> fk s0 (set_v s v).
Proof.
  intros [F (A & B & C)] E1 E2. split; [apply fit_v; auto; rewrite E1; apply F|]. unfold kept; cbn. rewrite E1. auto.
Qed.
Lemma var_finish_nub s0 s small mx : fk s0 s -> nub (done s0) (var_finish c s small mx).
Proof.
  intros F. unfold var_finish. cbv zeta. set (s1 := set_v s _). assert (F1 : fk s0 s1) by (apply fk_v; auto). clearbody s1.
  destruct (readVariablePage s1 _) as [s2 r2] eqn:E2. pose proof (fk_vread _ _ _ _ _ E2 F1) as F2.
  destruct (negb _); [split; [exact F2|cbn; auto]|]. eapply nub_bind; [apply pid_nub; apply F2|]. intros m _.
  eapply (nub_bind (fun x => fk s0 (fst x))).
  { destruct (m =? 0).
    - destruct (_ && _).
      + eapply nub_bind; [apply minkey_nub; apply F2|]. intros k _. cbn. apply fk_v; auto.
      + destruct (readPage s2 _) as [s3 r3] eqn:E3. pose proof (fk_read _ _ _ _ _ E3 F2) as F3.
        destruct (negb _); [exact F3|]. eapply nub_bind; [apply minkey_nub; apply F3|]. intros k _. cbn. apply fk_v; auto.
    - eapply nub_bind; [apply vkey_nub; apply F2|]. intros k _. cbn. apply fk_v; auto. }
  intros [s3 err] F3. cbn [fst] in F3. destruct err; [split; [exact F3|cbn; auto]|]. split; [|cbn; auto]. apply fk_v; auto.
Qed.
Lemma varFile_nub s : 1 <= numVar c -> buffers_fit c s -> nub (done s) (initVarDataFromFile c s).
Proof.
  intros N F. unfold initVarDataFromFile. destruct (readVariablePage s 0) as [s1 r1] eqn:E1.
  pose proof (fk_vread s _ _ _ _ E1 (conj F (kept_refl s))) as F1.
  eapply nub_bind; [apply (var_first_nub s); [exact N|exact F1]|]. intros [[[s2 more] count] found] F2.
  destruct found as [mx|]; [|split; [exact F2|cbn; auto]].
  eapply nub_bind; [apply (var_scan_nub s); exact F2|]. intros [[[s3 more3] count3] mx3] F3.
  destruct (_ && _); [|apply var_finish_nub; exact F3]. cbv zeta.
  destruct (readVariablePage s3 _) as [s4 r4] eqn:E4. pose proof (fk_vread _ _ _ _ _ E4 F3) as F4.
  destruct (negb _); [split; [exact F4|cbn; auto]|].
  eapply nub_bind; [apply pid_nub; apply F4|]. intros id _. apply var_finish_nub; exact F4.
Qed.
Lemma initVar_nub s f : useVar c = true -> buffers_fit c s -> (forall x, f = Some x -> file_sized c x) ->
  nub (fun x => buffers_fit c (fst x) /\ (snd x = 0 \/ snd x = -1) /\ wbuf (sd (fst x)) = wbuf (sd s) /\ iwbuf (si (fst x)) = iwbuf (si s))
      (initVarData c s f).
Proof.
  intros UV F Hf. pose proof (wk_var _ W UV) as N. unfold initVarData. cbv zeta. set (s1 := set_v s _).
  assert (F1 : buffers_fit c s1) by (apply fit_v; auto; cbn; apply rep_sized).
  assert (K1 : wbuf (sd s1) = wbuf (sd s) /\ iwbuf (si s1) = iwbuf (si s)) by (split; reflexivity). clearbody s1.
  assert (X : forall fl, file_sized c fl -> io_sized (mkIO (faults (sio s1)) (fD (sio s1)) (fI (sio s1)) fl (trace (sio s1)))).
  { intros fl Hl. destruct (bf_io _ F1) as (A & B & C). split; auto. }
  destruct (if _ && _ then open_r f else None) as [fl|] eqn:E.
  - assert (Hl : file_sized c fl) by (destruct (_ && _); [exact (Hf fl E)|discriminate]).
    eapply nub_imp; [apply varFile_nub; [exact N|apply fit_io; auto]|]. intros a [[A (B1 & B2 & _)] C].
    split; [auto|split; [auto|]]. rewrite B1, B2. exact K1.
  - split; [apply fit_io; auto; apply X; apply sized_open_w; auto|]. split; [cbn; auto|exact K1].
Qed.

(** embedDBInit. *)
Definition init_safe (x : state * Z) : Prop :=
  (snd x = 0 \/ snd x = -1) /\
  (snd x = 0 -> buffers_fit c (fst x) /\
    (useRLC c = false -> claims (wbuf (sd (fst x))) = 0) /\
    (useIndex c = true -> claims (iwbuf (si (fst x))) = 0)).
Lemma init_nub_all k fs : disk_sized c k -> nub init_safe (embedDBInit c k fs).
Proof.
  intros D. pose proof (wk_erase _ W). pose proof (l_rec _ L). pose proof (l_ks _ L). pose proof (l_ds _ L).
  assert (G : zlen (gpage c) = pageSize c) by (unfold zlen; rewrite (wk_buf _ W); apply psz_z).
  assert (NO : forall s, init_safe (s, -1)) by (intros s; split; [cbn; auto|cbn; discriminate]).
  unfold embedDBInit. cbv zeta. set (s0 := mkS _ _ _ _).
  destruct (_ >? _); [apply NO|]. destruct (Z.eqb_spec (eraseSize c) 0); [lia|].
  destruct (negb _); [apply NO|]. destruct (_ <? _); [apply NO|]. destruct (_ && _); [apply NO|]. destruct (_ && _); [apply NO|].
  destruct (Z.eqb_spec (recordSize c) 0) as [R|R]; [destruct (useVar c); lia|]. clear R.
  eapply nub_bind; [apply init_nub|]. intros w [Lw Cw].
  destruct (_ <? _); [apply NO|]. destruct (_ && _) eqn:EB; [apply NO|].
  set (s1 := if useBinary c then _ else _).
  assert (F1 : buffers_fit c s1).
  { subst s1 s0. destruct (useBinary c) eqn:B; constructor; try exact G; try exact Lw; try apply sized_empty; intros X; [congruence|discriminate]. }
  assert (K1 : wbuf (sd s1) = w) by (subst s1; destruct (useBinary c); reflexivity). clearbody s1. clear s0 EB.
  eapply nub_bind; [apply initData_nub; [exact F1|intros x E; apply D; auto]|].
  intros [s2 r2] (F2 & R2 & K2). cbn [fst snd] in *. rewrite K1 in K2.
  destruct (Z.eqb_spec r2 0) as [Z2|Z2]; cbn [negb]; [|destruct R2; [contradiction|subst r2; apply NO]].
  eapply (nub_bind (fun x => (snd x = 0 \/ snd x = -1) /\ buffers_fit c (fst x) /\ (useRLC c = false -> claims (wbuf (sd (fst x))) = 0) /\
    (snd x = 0 -> useIndex c = true -> claims (iwbuf (si (fst x))) = 0))).
  { destruct (useIndex c) eqn:UI.
    - destruct (_ <? _); [split; [cbn; auto|split; [auto|split; [intros X; cbn [fst]; rewrite K2; auto|discriminate]]]|].
      eapply nub_imp; [apply initIndex_nub; [exact UI|exact F2|intros x E; apply D; auto]|].
      intros a (A & B & C & E). split; [auto|split; [auto|split; [|auto]]]. intros X. rewrite C, K2; auto.
    - split; [cbn; auto|split; [auto|split; [|discriminate]]]. intros X. cbn [fst]. rewrite K2; auto. }
  intros [s3 r3] (R3 & F3 & C3 & I3). cbn [fst snd] in *.
  destruct (Z.eqb_spec r3 0) as [Z3|Z3]; cbn [negb]; [|destruct R3; [contradiction|subst r3; apply NO]].
  destruct (useVar c) eqn:UV.
  - destruct (_ <? _); [apply NO|]. eapply nub_imp; [apply initVar_nub; [exact UV|exact F3|intros x E; apply D; auto]|].
    intros a (A & B & C & E). split; [auto|]. intros _. rewrite C, E. auto.
  - split; [cbn; auto|]. intros _. auto.
Qed.

Lemma maxIdx_fit : useIndex c = true -> 1 <= maxIdx c <= 65535 /\ 16 + bitmapSize c * maxIdx c <= pageSize c.
Proof.
  intros U. destruct (wk_idx _ W U) as [A B]. pose proof (l_ps _ L). unfold maxIdx.
  rewrite Z.quot_div_nonneg by lia.
  assert (1 <= (pageSize c - 16) / bitmapSize c <= pageSize c - 16).
  { split; [apply Z.div_le_lower_bound; lia|]. apply Z.div_le_upper_bound; [lia|nia]. }
  rewrite u16_id by lia. split; [lia|]. pose proof (Z.mul_div_le (pageSize c - 16) (bitmapSize c) ltac:(lia)). lia.
Qed.

(** Writes. *)
Definition cnt (s0 s : state) : Prop :=
  claims (wbuf (sd s)) = claims (wbuf (sd s0)) /\ claims (iwbuf (si s)) = claims (iwbuf (si s0)) /\ sv s = sv s0.
Hypothesis NC : useBinary c = true -> noClean c = true.

Lemma writePage_nub s : buffers_fit c s -> nub (fun x => buffers_fit c (fst x) /\ cnt s (fst x)) (writePage c s).
Proof.
  intros F. unfold writePage. cbv zeta. eapply nub_bind; [apply setpid_nub; apply (bf_w _ _ (fit_next s _ F))|].
  intros w [Lw Cw]. set (s1 := set_d (set_d s _) _).
  assert (F1 : buffers_fit c s1 /\ cnt s s1).
  { split; [apply fit_w; [apply fit_next; auto|auto]|]. unfold cnt. subst s1. cbn in *. auto. }
  clearbody s1. destruct F1 as [F1 C1].
  eapply (nub_bind (fun x => buffers_fit c (fst x) /\ cnt s (fst x))).
  { destruct (_ <=? 0); [|split; auto]. destruct (io_erase _ _ _ _ _) as [o ok] eqn:E.
    pose proof (io_erase_sized _ _ _ _ _ _ E (bf_io _ F1)) as Fo.
    assert (F2 : buffers_fit c (set_io s1 o)) by (apply fit_io; auto).
    destruct ok; [|split; auto]. destruct (noClean c) eqn:N; [split; [apply fit_avail; auto|exact C1]|].
    cbn [d_avail spl sd set_io]. destruct (spl (sd s1)) as [sp|] eqn:S.
    - split; [|exact C1]. clear - F2. fit F2.
    - destruct (useBinary c) eqn:B; [discriminate (NC eq_refl)|]. exact (bf_spl _ _ F1 B S). }
  intros [s2 ok] [F2 C2]. cbn [fst] in *. destruct ok; cbn [negb]; [|split; auto].
  destruct (io_write _ _ _ _ _) as [o k] eqn:E. pose proof (io_write_sized _ _ _ _ _ _ E (bf_io _ F2) (bf_w _ _ F2)) as Fo.
  assert (F3 : buffers_fit c (set_io s2 o)) by (apply fit_io; auto).
  destruct k; (split; [auto|exact C2]). apply (fit_avail (set_io s2 o)). auto.
Qed.
Lemma indexPage_nub s n : buffers_fit c s -> nub (fun x => buffers_fit c x /\ cnt s x) (indexPage c s n).
Proof.
  intros F. unfold indexPage. assert (cnt s s) by (unfold cnt; auto). destruct (useBinary c) eqn:B; [split; auto|].
  destruct (spl (sd s)) as [sp|] eqn:S; [|exact (bf_spl _ _ F B S)].
  eapply nub_bind; [apply minkey_nub; apply F|]. intros k _. split; [apply fit_spl; auto|auto].
Qed.
Definition grown (s0 s : state) : Prop :=
  claims (wbuf (sd s)) = claims (wbuf (sd s0)) /\ sv s = sv s0.
Lemma idx_append_nub s n : useIndex c = true -> buffers_fit c s -> claims (iwbuf (si s)) = n -> 0 <= n < maxIdx c ->
  nub (fun x => buffers_fit c x /\ grown s x /\ claims (iwbuf (si x)) = n + 1) (idx_append c s n).
Proof.
  intros U F Hn Hr. destruct (maxIdx_fit U) as [M1 M2]. destruct (wk_idx _ W U) as [A B]. unfold idx_append.
  eapply nub_bind; [apply inc_nub; [apply F|lia]|]. intros b [Lb Cb].
  eapply nub_bind; [apply ld_nub; [apply F|lia|rewrite bsz_z; lia]|]. intros bm Hbm.
  assert (Zb : zlen bm = bitmapSize c) by (unfold zlen; rewrite Hbm; apply bsz_z).
  eapply nub_bind; [apply st_nub; [exact Lb|nia|rewrite Zb; nia]|]. intros b2 [L2 C2].
  split; [apply fit_iw; auto|]. split; [unfold grown; cbn; auto|]. cbn. rewrite C2; [lia|left; nia].
Qed.
Lemma writeIndex_nub s : buffers_fit c s -> nub (fun x => buffers_fit c (fst x) /\ cnt s (fst x)) (writeIndexPage c s).
Proof.
  intros F. unfold writeIndexPage. cbv zeta. eapply nub_bind; [apply setpid_nub; apply (bf_iw _ _ (fit_inext s _ F))|].
  intros w [Lw Cw]. set (s1 := set_i (set_i s _) _).
  assert (F1 : buffers_fit c s1 /\ cnt s s1).
  { split; [apply fit_iw; [apply fit_inext; auto|auto]|]. unfold cnt. subst s1. cbn in *. auto. }
  clearbody s1. destruct F1 as [F1 C1].
  set (x := if _ <=? 0 then _ else _).
  assert (X : buffers_fit c (fst x) /\ cnt s (fst x)).
  { subst x. destruct (_ <=? 0); [|split; auto]. destruct (io_erase _ _ _ _ _) as [o ok] eqn:E.
    pose proof (io_erase_sized _ _ _ _ _ _ E (bf_io _ F1)) as Fo.
    assert (F2 : buffers_fit c (set_io s1 o)) by (apply fit_io; auto).
    destruct ok; [|split; auto]. split; [|exact C1]. cbn [fst]. apply (fit_iavail (set_io s1 o)). auto. }
  clearbody x. destruct x as [s2 ok]. cbn [fst] in X. destruct X as [F2 C2]. destruct ok; cbn [negb]; [|split; auto].
  destruct (io_write _ _ _ _ _) as [o k] eqn:E. pose proof (io_write_sized _ _ _ _ _ _ E (bf_io _ F2) (bf_iw _ _ F2)) as Fo.
  assert (F3 : buffers_fit c (set_io s2 o)) by (apply fit_io; auto).
  destruct k; (split; [auto|exact C2]). apply (fit_iavail (set_io s2 o)). auto.
Qed.
Definition safe (s : state) : Prop := buffers_fit c s /\ counts_fit c s.
Lemma put_index_nub s n : safe s -> nub (fun x => safe x /\ grown s x) (put_index c s n).
Proof.
  intros [F [Cw Ci]]. unfold put_index. destruct (useIndex c) eqn:U; cbn [negb]; [|split; [split; [auto|constructor; auto; congruence]|unfold grown; auto]].
  specialize (Ci eq_refl). destruct (maxIdx_fit U) as [M1 M2]. pose proof ps_lo.
  eapply nub_bind; [apply count_nub; apply F|]. intros m ->.
  eapply (nub_bind (fun x => buffers_fit c (fst x) /\ grown s (fst x) /\ claims (iwbuf (si (fst x))) = snd x /\ 0 <= snd x < maxIdx c)).
  { destruct (Z.geb_spec (claims (iwbuf (si s))) (maxIdx c)) as [G|G].
    - eapply nub_bind; [apply writeIndex_nub; exact F|]. intros [s1 r] [F1 (A1 & _ & C1)]. cbn [fst] in *.
      eapply nub_bind; [apply init_nub|]. intros b [Lb Cb].
      eapply nub_bind; [apply st_nub; [exact Lb|lia|rewrite le_enc_zlen; lia]|]. intros b2 [L2 C2].
      split; [apply fit_iw; auto|]. split; [split; auto|]. cbn. rewrite C2 by (left; lia). split; [exact Cb|lia].
    - split; [exact F|]. split; [unfold grown; auto|]. cbn. split; [reflexivity|lia]. }
  intros [s1 k] (F1 & G1 & E1 & R1). cbn [fst snd] in *.
  eapply nub_imp; [apply idx_append_nub; eauto|]. intros x (A & (B1 & B2) & C). destruct G1 as [G1 G2].
  split; [|split; congruence]. split; [auto|]. constructor; [rewrite B1, G1; auto|]. intros _. rewrite C. lia.
Qed.
Lemma maxmin_nub p n k d : zlen p = pageSize c -> length d = dsz c ->
  nub (fun p' => zlen p' = pageSize c /\ claims p' = claims p) (put_maxmin c p n k d).
Proof.
  intros Hp Hd. pose proof (l_ks _ L). pose proof (l_ds _ L). pose proof (l_mm _ L) as MM.
  assert (AR : headerSize c <= pageSize c).
  { pose proof (l_area _ L). pose proof (l_fit _ L). pose proof (l_rec _ L). destruct (useVar c); nia. }
  unfold put_maxmin. destruct (useMaxMin c); cbn [negb]; [|split; auto]. specialize (MM eq_refl).
  assert (Zd : zlen d = dataSize c) by (unfold zlen; rewrite Hd; apply dsz_z).
  assert (Zk : zlen (le_enc (ksz c) k) = keySize c) by (rewrite le_enc_zlen; apply ksz_z).
  unfold off_maxkey, off_mindata, off_maxdata, off_minkey.
  destruct (negb _).
  - eapply nub_bind; [apply st_nub; [exact Hp|lia|lia]|]. intros p1 [L1 C1].
    eapply nub_bind; [apply ld_nub; [exact L1|lia|rewrite dsz_z; lia]|]. intros mn _.
    eapply (nub_bind (fun p2 => zlen p2 = pageSize c /\ claims p2 = claims p)).
    { destruct (_ <? _); [|split; [auto|apply C1; left; lia]].
      eapply nub_imp; [apply st_nub; [exact L1|lia|lia]|]. intros a [A B]. split; [auto|]. rewrite B by (left; lia). apply C1; left; lia. }
    intros p2 [L2 C2]. eapply nub_bind; [apply ld_nub; [exact L2|lia|rewrite dsz_z; lia]|]. intros mx _.
    destruct (_ >? _); [|split; auto]. eapply nub_imp; [apply st_nub; [exact L2|lia|lia]|]. intros a [A B]. split; [auto|].
    rewrite B by (left; lia). auto.
  - eapply nub_bind; [apply st_nub; [exact Hp|lia|lia]|]. intros p1 [L1 C1].
    eapply nub_bind; [apply st_nub; [exact L1|lia|lia]|]. intros p2 [L2 C2].
    eapply nub_bind; [apply st_nub; [exact L2|lia|lia]|]. intros p3 [L3 C3].
    eapply nub_imp; [apply st_nub; [exact L3|lia|lia]|]. intros a [A B]. split; [auto|].
    rewrite B, C3, C2, C1 by (left; lia). reflexivity.
Qed.
Lemma bitmap_nub p d : zlen p = pageSize c -> length d = dsz c ->
  nub (fun p' => zlen p' = pageSize c /\ claims p' = claims p) (put_bitmap c p d).
Proof.
  intros Hp Hd. unfold put_bitmap. destruct (useBmap c) eqn:U; [|split; auto].
  destruct (l_bm _ L U) as [B _]. pose proof (l_upd _ L U) as Up. pose proof (l_bs _ L).
  assert (AR : headerSize c <= pageSize c).
  { pose proof (l_area _ L). pose proof (l_fit _ L). pose proof (l_rec _ L). pose proof (l_ks _ L). pose proof (l_ds _ L).
    destruct (useVar c); nia. }
  eapply nub_bind; [apply ld_nub; [exact Hp|lia|rewrite bsz_z; lia]|]. intros bm Hbm.
  assert (Zb : zlen (updBM c d bm) = bitmapSize c) by (unfold zlen; rewrite Up; auto; apply bsz_z).
  eapply nub_imp; [apply st_nub; [exact Hp|lia|lia]|]. intros a [A C]. split; [auto|]. apply C. left. lia.
Qed.
Lemma record_nub p n k d v : zlen p = pageSize c -> length d = dsz c -> claims p = n -> 0 <= n < maxRec c ->
  nub (fun p' => zlen p' = pageSize c /\ claims p' = n + 1) (put_record c p n k d v).
Proof.
  intros Hp Hd Hn Hr. destruct (rec_range n Hr) as (R1 & R2 & R3 & R4). pose proof (l_ks _ L). pose proof (l_ds _ L). pose proof (l_fit _ L).
  assert (Zd : zlen d = dataSize c) by (unfold zlen; rewrite Hd; apply dsz_z).
  assert (Zk : zlen (le_enc (ksz c) k) = keySize c) by (rewrite le_enc_zlen; apply ksz_z).
  unfold put_record. eapply nub_bind; [apply st_nub; [exact Hp|lia|lia]|]. intros p1 [L1 C1].
  eapply nub_bind; [apply st_nub; [exact L1|lia|lia]|]. intros p2 [L2 C2].
  assert (E2 : claims p2 = n) by (rewrite C2, C1 by (left; lia); auto).
  eapply (nub_bind (fun p3 => zlen p3 = pageSize c /\ claims p3 = n)).
  { destruct (useVar c) eqn:V; [|split; auto]. specialize (R4 eq_refl).
    eapply nub_imp; [apply st_nub; [exact L2|lia|rewrite le_enc_zlen; lia]|]. intros a [A B]. split; [auto|]. rewrite B by (left; lia). auto. }
  intros p3 [L3 C3]. eapply nub_bind; [apply inc_nub; [exact L3|lia]|]. intros p4 [L4 C4].
  eapply nub_bind; [apply maxmin_nub; eauto|]. intros p5 [L5 C5].
  eapply nub_imp; [apply bitmap_nub; eauto|]. intros a [A B]. split; [auto|]. lia.
Qed.

(** Record-level consistency. *)
Lemma safe_cnt s0 s : safe s0 -> buffers_fit c s -> cnt s0 s -> safe s.
Proof. intros [_ [A B]] F (E1 & E2 & _). split; [auto|constructor; rewrite ?E1, ?E2; auto]. Qed.
Lemma shift_nub s : buffers_fit c s -> nub (fun x => buffers_fit c (fst x) /\ cnt s (fst x)) (shiftRLC c s).
Proof.
  intros F. assert (C0 : cnt s s) by (unfold cnt; auto). unfold shiftRLC. cbv zeta. destruct (shift_erase _ _ _ _) as [o ok] eqn:E.
  pose proof (shift_erase_sized _ _ _ _ _ E (bf_io _ F)) as Fo. assert (F1 : buffers_fit c (set_io s o)) by (apply fit_io; auto).
  destruct ok; cbn [negb]; [|split; [exact F1|exact C0]].
  eapply (nub_bind (fun d => buffers_fit c (set_d (set_io s o) d) /\ wbuf d = wbuf (sd s))).
  - destruct (_ =? _); [|split; [exact F1|reflexivity]]. destruct (noClean c) eqn:N; [split; [apply (fit_avail (set_io s o)); auto|reflexivity]|].
    cbn [d_avail spl]. destruct (spl (sd s)) as [sp|] eqn:S.
    + split; [|reflexivity]. clear - F1. fit F1.
    + destruct (useBinary c) eqn:B; [discriminate (NC eq_refl)|]. exact (bf_spl _ _ F B S).
  - intros d [Fd Wd]. split; [apply (fit_rlc (set_d (set_io s o) d)); exact Fd|]. unfold cnt. cbn. rewrite Wd. auto.
Qed.
Lemma temp_nub s : buffers_fit c s -> nub (fun x => buffers_fit c (fst x) /\ cnt s (fst x)) (writeTemporaryPage c s).
Proof.
  intros F. unfold writeTemporaryPage. eapply nub_bind; [apply setpid_nub; apply F|]. intros w [Lw Cw]. cbv zeta.
  set (s1 := set_d s (d_wbuf (sd s) w)). assert (F1 : buffers_fit c s1 /\ cnt s s1).
  { split; [apply fit_w; auto|]. unfold cnt, s1. cbn. auto. }
  clearbody s1. destruct F1 as [F1 C1]. match goal with |- context [if ?b then set_io s1 ?o else s1] => set (s2 := if b then set_io s1 o else s1) end.
  assert (F2 : buffers_fit c s2 /\ cnt s s2).
  { subst s2. destruct (_ =? 1); [|auto]. destruct (io_erase _ _ _ _ _) as [o ok] eqn:E.
    pose proof (io_erase_sized _ _ _ _ _ _ E (bf_io _ F1)). split; [apply fit_io; auto|exact C1]. }
  clearbody s2. destruct F2 as [F2 C2].
  destruct (io_write _ _ _ _ _) as [o k] eqn:E. pose proof (io_write_sized _ _ _ _ _ _ E (bf_io _ F2) (bf_w _ _ F2)) as Fo.
  split; [apply (fit_rlc (set_io s2 o)); apply fit_io; auto|exact C2].
Qed.

Lemma put_nub s k d : safe s -> length d = dsz c ->
  nub (fun x => safe (fst x) /\ sv (fst x) = sv s) (embedDBPut c s k d).
Proof.
  intros [F [Cw Ci]] Hd. pose proof (l_fit _ L). unfold embedDBPut.
  eapply nub_bind; [apply count_nub; apply F|]. intros n ->.
  eapply (nub_bind (fun x => buffers_fit c (fst x) /\ kept s (fst x) /\ sv (fst x) = sv s)).
  { assert (K : kept s s) by (apply kept_refl). destruct (_ || _); [|split; auto].
    eapply (nub_bind (fun x => buffers_fit c (fst x) /\ kept s (fst x) /\ sv (fst x) = sv s)).
    - destruct (Z.eqb_spec (claims (wbuf (sd s))) 0) as [E|E].
      + destruct (readPage s _) as [s1 r] eqn:R. destruct (readPage_fit _ _ _ _ R F) as [F1 K1].
        assert (V1 : sv s1 = sv s).
        { unfold readPage in R. destruct (_ =? bufD _); [injection R as <- <-; auto|]. destruct (io_read _ _ _) as [o [q|]]; injection R as <- <-; auto. }
        eapply nub_bind; [apply key_nub; [apply F1|lia]|]. intros kk _. cbn. auto.
      + eapply nub_bind; [apply key_nub; [apply F|lia]|]. intros kk _. cbn. auto.
    - intros [s1 prev] H1. exact H1. }
  intros [s1 rej] (F1 & (K1 & K2 & _) & V1). cbn [fst] in *.
  assert (S1 : safe s1) by (split; [auto|constructor; rewrite ?K1, ?K2; auto]).
  destruct rej; [split; [exact S1|exact V1]|].
  eapply (nub_bind (fun '(x, m, _) => safe x /\ sv x = sv s /\ claims (wbuf (sd x)) = m /\ 0 <= m < maxRec c)).
  { destruct (Z.geb_spec (claims (wbuf (sd s))) (maxRec c)) as [G|G].
    - eapply nub_bind; [apply writePage_nub; exact F1|]. intros [s2 pn] [F2 (A2 & B2 & C2)]. cbn [fst] in *.
      eapply nub_bind; [apply indexPage_nub; exact F2|]. intros s3 [F3 (A3 & B3 & C3)].
      assert (S3 : safe s3) by (split; [auto|constructor; rewrite ?A3, ?B3, ?A2, ?B2, ?K1, ?K2; auto]).
      eapply nub_bind; [apply put_index_nub; exact S3|]. intros s4 [[F4 [W4 I4]] [A4 B4]].
      eapply nub_bind; [apply init_nub|]. intros b [Lb Cb]. split; [split; [apply fit_w; auto|]|].
      + constructor; [cbn; lia|exact I4].
      + cbn. split; [congruence|]. split; [exact Cb|lia].
    - split; [exact S1|]. split; [auto|]. rewrite K1. split; [auto|lia]. }
  intros [[s2 m] wrote] ([F2 [W2 I2]] & V2 & C2 & R2).
  eapply nub_bind; [apply record_nub; [apply F2|exact Hd|exact C2|exact R2]|]. intros w [Lw Cw2]. cbv zeta.
  set (s3 := set_d s2 (d_wbuf (sd s2) w)).
  assert (S3 : safe s3 /\ sv s3 = sv s) by (split; [split; [apply fit_w; auto|constructor; [cbn; lia|exact I2]]|exact V2]).
  clearbody s3. destruct S3 as [S3 V3]. destruct (useRLC c); [|split; [exact S3|exact V3]].
  eapply (nub_bind (fun x => safe x /\ sv x = sv s)).
  { destruct (_ && _); [|split; auto]. eapply nub_bind; [apply shift_nub; apply S3|]. intros [s4 r4] [F4 C4]. cbn [fst] in *.
    split; [eapply safe_cnt; eauto|]. destruct C4 as (_ & _ & C4). congruence. }
  intros s4 [S4 V4]. eapply nub_imp; [apply temp_nub; apply S4|]. intros [s5 r5] [F5 C5]. cbn [fst] in *.
  split; [eapply safe_cnt; eauto|]. destruct C5 as (_ & _ & C5). congruence.
Qed.
Lemma v_mod_lt x : 0 <= x mod pageSize c < pageSize c.
Proof. clear NC. pose proof ps_lo. apply Z.mod_pos_bound. lia. Qed.
Definition vwritten (s0 s : state) : Prop :=
  sd s = sd s0 /\ si s = si s0 /\ curVarLoc (sv s) = curVarLoc (sv s0) /\ hasVar (sv s) = hasVar (sv s0) .
Lemma writeVar_nub s : useVar c = true -> buffers_fit c s ->
  nub (fun x => buffers_fit c (fst x) /\ vwritten s (fst x)) (writeVariablePage c s).
Proof. clear NC.
  intros UV F. pose proof (wk_var _ W UV). unfold writeVariablePage. destruct (Z.eqb_spec (numVar c) 0); [lia|]. cbv zeta.
  eapply (nub_bind (fun x => buffers_fit c (fst x) /\ vwritten s (fst x))).
  { destruct (_ <=? 0); [|split; [auto|unfold vwritten; auto]]. destruct (io_erase _ _ _ _ _) as [o ok] eqn:E.
    pose proof (io_erase_sized _ _ _ _ _ _ E (bf_io _ F)) as Fo.
    assert (F2 : buffers_fit c (set_io s o)) by (apply fit_io; auto).
    destruct ok; cbn [negb]; [|split; [auto|unfold vwritten; auto]].
    set (s1 := set_v (set_io s o) _). assert (F1 : buffers_fit c s1) by (apply fit_v; auto; apply F).
    assert (V1 : vwritten s s1) by (unfold vwritten; auto). clearbody s1.
    destruct (readVariablePage s1 _) as [s3 r3] eqn:R. destruct (readVar_fit _ _ _ _ R F1) as [F3 K3].
    assert (V3 : vwritten s s3).
    { unfold readVariablePage in R. destruct (_ =? bufV _); [injection R as <- <-; auto|].
      destruct (io_read _ _ _) as [o2 [q|]]; injection R as <- <-; exact V1. }
    destruct (negb _); [split; auto|]. eapply nub_bind; [apply vkey_nub; apply F3|]. intros kk _.
    split; [apply fit_v; auto; apply F3|exact V3]. }
  intros [s1 ok] [F1 V1]. cbn [fst] in *. destruct ok; cbn [negb]; [|split; auto].
  eapply nub_bind; [apply setpid_nub; apply F1|]. intros w [Lw _].
  set (s2 := set_v s1 _). assert (F2 : buffers_fit c s2) by (apply fit_v; auto).
  assert (V2 : vwritten s s2) by exact V1. clearbody s2.
  destruct (io_write _ _ _ _ _) as [o k] eqn:E. pose proof (io_write_sized _ _ _ _ _ _ E (bf_io _ F2) (bf_vw _ _ F2)) as Fo.
  assert (F3 : buffers_fit c (set_io s2 o)) by (apply fit_io; auto).
  destruct k; (split; [auto|exact V2]). apply fit_v; auto. apply F3.
Qed.
Definition same_counts (s0 s : state) : Prop := sd s = sd s0 /\ si s = si s0.
Lemma safe_same s0 s : safe s0 -> buffers_fit c s -> same_counts s0 s -> safe s.
Proof. intros [_ [A B]] F [E1 E2]. split; [auto|constructor; rewrite ?E1, ?E2; auto]. Qed.
Lemma flushVar_nub s : useVar c = true -> buffers_fit c s ->
  nub (fun x => buffers_fit c (fst x) /\ same_counts s (fst x)) (embedDBFlushVar c s).
Proof. clear NC.
  intros UV F. unfold embedDBFlushVar. destruct (_ =? _); [split; [auto|split; auto]|].
  eapply nub_bind; [apply writeVar_nub; auto|]. intros [s1 r] [F1 (A & B & _)]. cbn [fst] in *.
  destruct (_ =? _); [split; [auto|split; auto]|]. split; [apply fit_v; auto; apply rep_sized|split; auto].
Qed.
Lemma flush_nub s : safe s -> (useIndex c = true -> claims (iwbuf (si s)) < maxIdx c) ->
  nub (fun x => safe (fst x)) (embedDBFlush c s).
Proof.
  intros [F [Cw Ci]] Full. pose proof (l_fit _ L). unfold embedDBFlush.
  eapply nub_bind; [apply count_nub; apply F|]. intros n _. destruct (_ <? 1); [split; [auto|constructor; auto]|].
  eapply nub_bind; [apply writePage_nub; exact F|]. intros [s1 pn] [F1 (A1 & B1 & C1)]. cbn [fst] in *.
  assert (S1 : safe s1) by (split; [auto|constructor; rewrite ?A1, ?B1; auto]).
  destruct (_ =? _); [exact S1|].
  eapply nub_bind; [apply indexPage_nub; exact F1|]. intros s2 [F2 (A2 & B2 & C2)].
  assert (S2 : safe s2) by (split; [auto|constructor; rewrite ?A2, ?B2; apply S1]).
  eapply (nub_bind (fun x => safe (fst x))).
  { destruct (useIndex c) eqn:U; [|exact S2]. specialize (Full eq_refl).
    eapply nub_bind; [apply count_nub; apply F2|]. intros m ->.
    destruct S2 as [_ [SW SI]]. specialize (SI U).
    eapply nub_bind; [apply idx_append_nub; [exact U|exact F2|reflexivity|rewrite B2, B1 in *; lia]|].
    intros s3 (F3 & (G3 & V3) & I3).
    assert (W3 : counts_fit c s3) by (constructor; [rewrite G3; auto|intros _; rewrite I3, B2, B1 in *; lia]).
    eapply nub_bind; [apply writeIndex_nub; exact F3|]. intros [s4 r4] [F4 (G4 & H4 & V4)]. cbn [fst] in *.
    destruct (r4 =? NOPAGE).
    - split; [exact F4|]. constructor; cbn [fst]; rewrite ?G4, ?H4; [exact (cf_w _ _ W3)|exact (cf_i _ _ W3)].
    - eapply nub_bind; [apply init_nub|]. intros b [Lb Cb]. split; [apply fit_iw; auto|].
      constructor; [cbn; rewrite G4; apply W3|]. intros _. cbn. pose proof (maxIdx_fit U). lia. }
  intros [s3 ok] S3. cbn [fst] in *. destruct ok; cbn [negb]; [|exact S3].
  eapply nub_bind; [apply init_nub|]. intros b [Lb Cb].
  assert (S4 : safe (set_d s3 (d_wbuf (sd s3) b))).
  { destruct S3 as [F3 [_ I3]]. split; [apply fit_w; auto|]. constructor; [cbn; lia|exact I3]. }
  destruct (useVar c) eqn:UV; [|exact S4].
  eapply nub_bind; [apply flushVar_nub; [exact UV|apply S4]|]. intros [s5 r5] [F5 E5]. cbn [fst] in *.
  assert (S5 : safe s5) by (eapply safe_same; eauto). destruct (r5 =? 0); exact S5.
Qed.

(** Variable data.  Everything but the variable write buffer, its location and the storage stays. *)
Definition vstep (s0 s : state) : Prop := buffers_fit c s /\ same_counts s0 s.
Lemma vstep_v s0 s v : vstep s0 s -> zlen (vwbuf v) = pageSize c -> vrbuf v = vrbuf (sv s) -> vstep s0 (set_v s v).
Proof. intros [F [A B]] H E. split; [apply fit_v; auto|split; auto]. Qed.
Lemma set_key_nub s0 s k : vstep s0 s -> nub (fun x => vstep s0 x /\ curVarLoc (sv x) = curVarLoc (sv s)) (var_set_key c s k).
Proof.
  intros F. pose proof ps_key. unfold var_set_key.
  eapply nub_bind; [apply st_nub; [apply F|lia|rewrite le_enc_zlen, ksz_z; lia]|]. intros w [Lw _].
  split; [apply vstep_v; auto|reflexivity].
Qed.
Lemma roll_nub s0 s k : useVar c = true -> vstep s0 s -> nub (vstep s0) (var_roll c s k).
Proof.
  intros UV [F [A B]]. unfold var_roll. eapply nub_bind; [apply writeVar_nub; auto|]. intros [s1 r] [F1 (A1 & B1 & _)]. cbn [fst] in *.
  cbv zeta. eapply nub_bind; [apply (set_key_nub s0)|].
  - apply vstep_v; [split; [auto|split; congruence]|apply rep_sized|reflexivity].
  - intros s2 [S2 _]. apply vstep_v; auto. apply S2.
Qed.
Lemma copy_nub s0 k (UV : useVar c = true) fuel : forall s bs, vstep s0 s -> nub (vstep s0) (putvar_loop c s k fuel bs).
Proof.
  induction fuel as [|f IH]; intros s bs F; cbn [putvar_loop]; [exact I|].
  destruct (Z.gtb_spec (zlen bs) 0) as [G|G]; [|exact F]. cbv zeta.
  pose proof (v_mod_lt (curVarLoc (sv s))) as M. pose proof (l_ps _ L).
  rewrite (u16_id (Z.min _ _)) by lia. set (amt := Z.min _ _). assert (A : 0 < amt <= pageSize c - curVarLoc (sv s) mod pageSize c /\ amt <= zlen bs) by (unfold amt; lia).
  clearbody amt.
  assert (Z1 : zlen (firstn (Z.to_nat amt) bs) = amt) by (unfold zlen in *; rewrite firstn_length; lia).
  eapply nub_bind; [apply st_nub; [apply F|lia|lia]|]. intros w [Lw _].
  set (s1 := set_v s _). assert (F1 : vstep s0 s1) by (apply vstep_v; auto). clearbody s1.
  eapply (nub_bind (vstep s0)); [destruct (_ =? 0); [apply roll_nub; auto|exact F1]|].
  intros s2 F2. apply IH. exact F2.
Qed.
Lemma putVar_nub s k d v : safe s -> length d = dsz c -> (v <> None -> (pageSize c | 2 ^ 32)) ->
  nub (fun x => safe (fst x)) (embedDBPutVar c s k d v).
Proof.
  intros S Hd Hv. pose proof ps_lo. pose proof ps_key. pose proof (l_ks _ L). unfold embedDBPutVar.
  destruct (useVar c) eqn:UV; cbn [negb]; [|exact S].
  eapply nub_bind; [apply count_nub; apply S|]. intros n _.
  assert (VH : varHdr c = keySize c + 4) by (unfold varHdr; apply i8_id; lia).
  eapply (nub_bind (fun x => safe x /\ (v <> None -> curVarLoc (sv x) mod pageSize c <= pageSize c - 4))).
  { destruct (_ || _) eqn:E.
    - eapply nub_bind; [apply writeVar_nub; [exact UV|apply S]|]. intros [s1 r] [F1 (A1 & B1 & C1 & _)]. cbn [fst] in *. cbv zeta.
      split; [eapply safe_same; [exact S|apply fit_v; [exact F1|apply rep_sized|reflexivity]|split; auto]|].
      intros V. cbn [sv set_v v_loc v_wbuf curVarLoc]. set (l := curVarLoc (sv s1)).
      unfold u32. pose proof (l_ps _ L).
      replace (l + (pageSize c - l mod pageSize c + varHdr c)) with (varHdr c + (l / pageSize c + 1) * pageSize c)
        by (rewrite (Z.div_mod l (pageSize c)) at 2; lia).
      rewrite <- Znumtheory.Zmod_div_mod; [|lia|lia|exact (Hv V)]. rewrite Z.mod_add by lia. rewrite Z.mod_small; lia.
    - split; [exact S|]. intros _. apply orb_false_elim in E as [E _]. destruct (Z.gtb_spec (curVarLoc (sv s) mod pageSize c) (pageSize c - 4)); [discriminate|lia]. }
  intros s1 [S1 M1]. assert (SV : forall b, safe (set_v s1 (v_has (sv s1) b))).
  { intros b. eapply safe_same; [exact S1|apply fit_v; [apply S1|apply S1|reflexivity]|split; auto]. }
  destruct v as [bs|].
  2:{ eapply nub_imp; [apply put_nub; [apply SV|exact Hd]|]. intros a [A _]. exact A. }
  specialize (M1 ltac:(discriminate)).
  eapply nub_bind; [apply put_nub; [apply SV|exact Hd]|]. intros [s2 r2] [S2 V2]. cbn [fst] in *.
  destruct (negb _); [exact S2|]. set (s3 := if _ =? 2 ^ 64 - 1 then _ else _).
  assert (F3 : vstep s2 s3 /\ curVarLoc (sv s3) = curVarLoc (sv s1)).
  { subst s3. assert (vstep s2 s2) by (split; [apply S2|split; auto]).
    destruct (_ =? _); [|split; [auto|rewrite V2; reflexivity]]. split; [apply vstep_v; auto; apply S2|cbn; rewrite V2; reflexivity]. }
  clearbody s3. destruct F3 as [F3 E3].
  eapply nub_bind; [apply (set_key_nub s2); exact F3|]. intros s4 [F4 E4]. rewrite E3 in E4.
  pose proof (v_mod_lt (curVarLoc (sv s4))) as M4. rewrite E4 in *.
  eapply nub_bind; [apply st_nub; [apply F4|lia|rewrite le_enc_zlen; lia]|]. intros w [Lw _].
  set (s5 := set_v s4 _). assert (F5 : vstep s2 s5) by (apply vstep_v; auto). clearbody s5.
  eapply (nub_bind (vstep s2)); [destruct (_ =? 0); [apply roll_nub; auto|exact F5]|]. intros s6 F6.
  eapply nub_bind; [apply (copy_nub s2 k UV); exact F6|]. intros s7 [F7 E7].
  assert (S7 : safe s7) by (eapply safe_same; eauto). destruct (useRLC c); [|exact S7].
  eapply nub_bind; [apply flushVar_nub; [exact UV|exact F7]|]. intros [s8 r8] [F8 E8]. cbn [fst] in *. eapply safe_same; eauto.
Qed.
Lemma write_nub s o : safe s -> write_ok c s o -> nub safe (call_step c s o).
Proof.
  intros S H. destruct o; cbn [write_ok call_step] in *; try contradiction.
  - eapply nub_bind; [apply put_nub; auto|]. intros [x r] [A _]. exact A.
  - destruct H. eapply nub_bind; [apply putVar_nub; auto|]. intros [x r] A. exact A.
  - eapply nub_bind; [apply flush_nub; auto|]. intros [x r] A. exact A.
  - eapply nub_bind; [apply flushVar_nub; [exact H|apply S]|]. intros [x r] [A B]. eapply safe_same; eauto.
Qed.
Lemma write_safe s o : safe s -> write_ok c s o -> exists s', call_step c s o = Ok s' /\ safe s'.
Proof.
  intros S H. apply nub_ok; [apply write_nub; auto|].
  pose proof ps_lo. pose proof (l_ps _ L). destruct o; cbn [write_ok call_step] in *; try contradiction.
  - apply noF_bind; [apply put_nf|]. intros [x r] _. apply noF_Ok.
  - apply noF_bind; [apply putVar_nf; lia|]. intros [x r] _. apply noF_Ok.
  - apply noF_bind; [apply flush_nf|]. intros [x r] _. apply noF_Ok.
  - apply noF_bind; [apply flushVar_nf|]. intros [x r] _. apply noF_Ok.
Qed.
End Any.

(** Reads. *)
Section Reads.
Variable c : cfg.
Hypothesis W : workable c.
Let L : layout c := wk_layout _ W.
Definition rsafe (s : state) : Prop := buffers_fit c s /\ pages_sane c s.
Definition rstep (s0 s : state) : Prop := rsafe s /\ wbuf (sd s) = wbuf (sd s0) /\ spl (sd s) = spl (sd s0).
Lemma rstep_refl s : rsafe s -> rstep s s. Proof. unfold rstep; auto. Qed.
Lemma read_sane s0 s n s' r : readPage s n = (s', r) -> rstep s0 s -> rstep s0 s'.
Proof.
  intros H [[F [R D]] [E1 E2]]. destruct (readPage_fit c _ _ _ _ H F) as [F' _].
  unfold readPage in H. destruct (_ =? _); [injection H as <- <-; split; [split; [exact F'|constructor; auto]|split; auto]|].
  destruct (io_read WD n (sio s)) as [o q] eqn:E. destruct (io_read_sized c _ _ _ _ _ E (bf_io c _ F)) as (A & (B & _) & Q).
  destruct q as [p|]; injection H as <- <-; (split; [split; [auto|constructor; cbn in *; rewrite ?B; auto]|split; auto]).
  destruct (Q p eq_refl) as [_ Q2]. exact (D _ _ Q2).
Qed.
Lemma iread_sane s0 s n s' r : readIndexPage s n = (s', r) -> rstep s0 s -> rstep s0 s'.
Proof.
  intros H [[F [R D]] [E1 E2]]. destruct (readIndex_fit c _ _ _ _ H F) as [F' _].
  unfold readIndexPage in H. destruct (_ =? _); [injection H as <- <-; split; [split; [exact F'|constructor; auto]|split; auto]|].
  destruct (io_read WI n (sio s)) as [o q] eqn:E. destruct (io_read_sized c _ _ _ _ _ E (bf_io c _ F)) as (A & (B & _) & Q).
  destruct q as [p|]; injection H as <- <-; (split; [split; [auto|constructor; cbn in *; rewrite ?B; auto]|split; auto]).
Qed.
Lemma search_nub p key (Hp : zlen p = pageSize c) fuel : forall first last middle, 0 <= first -> last < maxRec c ->
  (first <= last -> first <= middle <= last) ->
  nub (fun r => forall i, r = Some i -> 0 <= i < maxRec c) (search_loop c p key fuel first last middle).
Proof.
  induction fuel as [|f IH]; intros first last middle H1 H2 H3; cbn [search_loop]; [exact I|].
  destruct (Z.leb_spec first last) as [G|G]; [|discriminate]. specialize (H3 G).
  eapply nub_bind; [apply (key_nub c W); [exact Hp|lia]|]. intros mk _. cbv zeta.
  destruct (_ <? 0); [apply IH; try lia; intros; rewrite Z.quot_div_nonneg by lia; split; [apply Z.div_le_lower_bound|apply Z.div_le_upper_bound]; lia|].
  destruct (_ =? 0); [intros i E; injection E as <-; lia|].
  apply IH; try lia. intros. rewrite Z.quot_div_nonneg by lia. split; [apply Z.div_le_lower_bound|apply Z.div_le_upper_bound]; lia.
Qed.
Lemma node_nub p key : zlen p = pageSize c -> 0 <= claims p <= maxRec c ->
  nub (fun r => forall i, r = Some i -> 0 <= i < maxRec c) (embedDBSearchNode c p key).
Proof.
  intros Hp Hc. pose proof (l_fit _ L). unfold embedDBSearchNode.
  eapply nub_bind; [apply (count_nub c W); exact Hp|]. intros n ->. cbv zeta. rewrite i16_id by lia.
  apply search_nub; auto; try lia. intros G. set (m := i16 _).
  assert (Q : 0 <= Z.quot (0 + (claims p - 1)) 2 <= claims p - 1).
  { rewrite Z.quot_div_nonneg by lia. split; [apply Z.div_pos; lia|apply Z.div_le_upper_bound; lia]. }
  destruct ((m >=? claims p) || (m <=? 0)) eqn:E.
  - destruct (Z.gtb_spec (Z.quot (0 + (claims p - 1)) 2) (claims p - 1)); lia.
  - apply orb_false_elim in E as [E1 E2]. destruct (Z.geb_spec m (claims p)); [discriminate|]. destruct (Z.leb_spec m 0); [discriminate|].
    destruct (Z.gtb_spec m (claims p - 1)); lia.
Qed.
Lemma buffer_nub p key : zlen p = pageSize c -> 0 <= claims p <= maxRec c -> nub (fun _ => True) (searchBuffer c p key).
Proof.
  intros Hp Hc. unfold searchBuffer. eapply nub_bind; [apply (count_nub c W); exact Hp|]. intros n ->.
  destruct (_ =? 0); [exact I|]. eapply nub_bind; [apply node_nub; auto|]. intros [i|] H; [|exact I].
  eapply nub_bind; [apply (data_nub c W); [exact Hp|apply H; reflexivity]|]. intros dt _. exact I.
Qed.
Lemma linear_nub s0 key fuel : forall s pageId low high, rstep s0 s ->
  nub (fun x => rstep s0 (fst x)) (linearSearch c s key fuel pageId low high).
Proof.
  induction fuel as [|f IH]; intros s pageId low high F; cbn [linearSearch]; [exact I|].
  destruct (_ || _); [exact F|]. destruct (readPage s _) as [s1 r] eqn:E. pose proof (read_sane _ _ _ _ _ E F) as F1.
  destruct (negb _); [exact F1|]. destruct F1 as [[B1 P1] K1].
  eapply nub_bind; [apply (minkey_nub c W); apply B1|]. intros mk _.
  destruct (_ <? 0); [apply IH; split; [split; auto|auto]|].
  eapply nub_bind; [apply (maxkey_nub c W); [apply B1|apply P1]|]. intros xk _.
  destruct (_ >? 0); [apply IH; split; [split; auto|auto]|]. split; [split; auto|auto].
Qed.
Lemma binary_nub s0 key fuel : forall s first last pageId, rstep s0 s ->
  nub (fun x => rstep s0 (fst x)) (binary_loop c s key fuel first last pageId).
Proof.
  induction fuel as [|f IH]; intros s first last pageId F; cbn [binary_loop]; [exact I|].
  destruct (readPage s _) as [s1 r] eqn:E. pose proof (read_sane _ _ _ _ _ E F) as F1.
  destruct (negb _); [exact F1|]. destruct (_ >=? _); [exact F1|]. destruct F1 as [[B1 P1] K1].
  eapply nub_bind; [apply (minkey_nub c W); apply B1|]. intros mk _. cbv zeta.
  destruct (_ <? 0); [apply IH; split; [split; auto|auto]|].
  eapply nub_bind; [apply (maxkey_nub c W); [apply B1|apply P1]|]. intros xk _.
  destruct (_ >? 0); [apply IH; split; [split; auto|auto]|]. split; [split; auto|auto].
Qed.
Lemma nub_not {A} (m : res A) : m <> UB -> nub (fun _ => True) m.
Proof. destruct m; cbn; intros H; auto. Qed.
Lemma get_nub s key : rsafe s -> 0 <= claims (wbuf (sd s)) <= maxRec c -> lookup_defined c s key ->
  nub (fun x => rstep s (fst (fst x))) (embedDBGet c s key).
Proof.
  intros F Cw LD. assert (R0 : rstep s s) by (apply rstep_refl; auto). pose proof (l_fit _ L). unfold embedDBGet.
  destruct (_ =? 0).
  { eapply nub_bind; [apply buffer_nub; [apply F|auto]|]. intros [r dt] _. exact R0. }
  eapply nub_bind; [apply (count_nub c W); apply F|]. intros n ->.
  eapply (nub_bind (fun _ => True)).
  { destruct (Z.eqb_spec (claims (wbuf (sd s))) 0) as [E|E]; cbn [negb]; [exact I|].
    eapply nub_bind; [apply (maxkey_nub c W); [apply F|split; lia]|]. intros mx _.
    eapply nub_bind; [apply (minkey_nub c W); apply F|]. intros mn _.
    destruct (_ >? _); [exact I|]. destruct (_ >=? _); [|exact I].
    eapply nub_bind; [apply buffer_nub; [apply F|auto]|]. intros [r dt] _. exact I. }
  intros stop _. destruct stop as [[r dt]|]; [exact R0|].
  eapply (nub_bind (fun x => rstep s (fst x))).
  { unfold lookup_defined in LD. destruct (useBinary c) eqn:B.
    - unfold binarySearch. cbv zeta. eapply nub_bind; [apply (binary_nub s); exact R0|]. intros [s1 r] F1. cbn [fst] in F1.
      destruct r; [exact F1|]. destruct (fallthru c); [exact F1|congruence].
    - unfold splineSearch. destruct (spl (sd s)) as [sp|] eqn:S; [|exact (bf_spl _ _ (proj1 F) B S)].
      eapply nub_bind; [apply nub_not; apply LD; reflexivity|]. intros [[loc low] high] _.
      destruct (_ <? _); [exact R0|]. destruct (if _ <? _ then _ else _) as [loc2 low2].
      eapply (nub_bind (fun _ => True)).
      { destruct (_ && _); [|exact I]. eapply nub_bind; [apply (minkey_nub c W); apply F|]. intros mk _.
        destruct (_ <=? 0); [|exact I]. eapply nub_bind; [apply (maxkey_nub c W); apply F|]. intros xk _. exact I. }
      intros hit _. destruct hit; [exact R0|].
      eapply nub_bind; [apply (linear_nub s); exact R0|]. intros [s1 r] F1. destruct (_ =? -1); exact F1. }
  intros [s1 r] F1. cbn [fst] in F1. destruct (negb _); [exact F1|]. pose proof F1 as [[B1 P1] _].
  eapply nub_bind; [apply node_nub; [apply B1|destruct (ps_r _ _ P1); lia]|]. intros [i|] Hi; [|exact F1].
  eapply nub_bind; [apply (data_nub c W); [apply B1|apply Hi; reflexivity]|]. intros dt _. exact F1.
Qed.

(** Scans. *)
Lemma recs_nub p n (Hp : zlen p = pageSize c) (Hn : n <= maxRec c) fuel : forall it out, 0 <= itRec it ->
  nub (fun '(it', _, _) => 0 <= itRec it' /\ itBM it' = itBM it) (next_recs c p n fuel it out).
Proof.
  induction fuel as [|f IH]; intros it out H; cbn [next_recs]; [exact I|].
  destruct (Z.ltb_spec (itRec it) n) as [G|G]; [|cbn; auto].
  eapply nub_bind; [apply (key_nub c W); [exact Hp|lia]|]. intros k _.
  eapply nub_bind; [apply (data_nub c W); [exact Hp|lia]|]. intros dt _. cbv zeta.
  assert (U : 0 <= u16 (itRec it + 1)) by (unfold u16; apply Z.mod_pos_bound; lia).
  destruct (it_check c it k dt); [cbn; auto| |cbn; auto].
  eapply nub_imp; [apply IH; exact U|]. intros [[a b] d] [A B]. split; auto.
Qed.
Lemma skip_nub s0 s it : rstep s0 s -> (itBM it <> None -> useIndex c = true) ->
  nub (fun x => rstep s0 (fst x)) (next_skip c s it).
Proof.
  intros F Hb. unfold next_skip. destruct (itBM it) as [bm|]; [|exact F]. specialize (Hb ltac:(discriminate)).
  destruct (_ =? 0); [|exact F]. destruct (maxIdx_fit c W Hb) as [M1 M2]. rewrite Hb. cbn [negb orb].
  destruct (Z.eqb_spec (maxIdx c) 0); [lia|]. cbv zeta. destruct (_ && _); [|exact F].
  destruct (readIndexPage s _) as [s1 r] eqn:E. pose proof (iread_sane _ _ _ _ _ E F) as F1. destruct (negb _); [exact F1|].
  pose proof (Z.mod_pos_bound (itPage it) (maxIdx c) ltac:(lia)). rewrite u16_id by lia. destruct (wk_idx _ W Hb).
  eapply nub_bind; [apply (ld_nub c); [apply F1|nia|rewrite (bsz_z c W); nia]|]. intros ibm _. exact F1.
Qed.
Lemma loop_nub s0 fuel : forall s sw it out, rstep s0 s -> 0 <= claims (wbuf (sd s0)) <= maxRec c ->
  0 <= itRec it -> (itBM it <> None -> useIndex c = true) ->
  nub (fun x => rstep s0 (fst (fst (fst x)))) (next_loop c s fuel sw it out).
Proof.
  induction fuel as [|f IH]; intros s sw it out F Cw Hr Hb; cbn [next_loop]; [exact I|].
  destruct (_ >? _); [exact F|]. set (sw1 := if _ =? nextD _ then true else sw). clearbody sw1.
  eapply nub_bind; [apply (skip_nub s0); [exact F|exact Hb]|]. intros [s1 sk] F1. cbn [fst] in F1.
  destruct sk as [[]|]; [apply IH; auto| |exact F1].
  assert (X : exists s2 r, (if sw1 then (s1, 0) else readPage s1 (itPage it mod numData c)) = (s2, r) /\ rstep s0 s2).
  { destruct sw1; [eauto|]. destruct (readPage s1 _) as [s2 r] eqn:E. exists s2, r. split; [auto|]. exact (read_sane _ _ _ _ _ E F1). }
  destruct X as (s2 & r & -> & F2). destruct (negb _); [exact F2|]. set (p := if sw1 then _ else _).
  assert (P : zlen p = pageSize c /\ 0 <= claims p <= maxRec c).
  { subst p. destruct F2 as [[B2 P2] [E2 _]]. destruct sw1; [split; [apply B2|rewrite E2; auto]|split; [apply B2|destruct (ps_r _ _ P2); lia]]. }
  clearbody p. destruct P as [P1 P2]. eapply nub_bind; [apply (count_nub c W); exact P1|]. intros n ->.
  eapply nub_bind; [apply recs_nub; [exact P1|lia|exact Hr]|]. intros [[it2 r2] out2] [H2 B2].
  destruct r2; [exact F2|]. apply IH; auto; cbn; [lia|rewrite B2; auto].
Qed.
Lemma next_nub s it : rsafe s -> 0 <= claims (wbuf (sd s)) <= maxRec c -> 0 <= itRec it -> (itBM it <> None -> useIndex c = true) ->
  nub (fun x => rstep s (fst (fst (fst x)))) (embedDBNext c s it).
Proof. intros. unfold embedDBNext. apply loop_nub; auto. apply rstep_refl; auto. Qed.

(** Streams of variable data. *)
Lemma stream_nub fuel : 1 <= numVar c -> forall s t pg len acc, buffers_fit c s ->
  nub (fun x => buffers_fit c (fst (fst x))) (stream_loop c s fuel t pg len acc).
Proof.
  intros N. induction fuel as [|f IH]; intros s t pg len acc F; cbn [stream_loop]; [exact I|].
  destruct (_ && _) eqn:E; [|exact F]. cbv zeta. apply andb_prop in E as [E1 E2].
  pose proof (ps_lo c W). pose proof (l_ps _ L). pose proof (Z.mod_pos_bound (fileOffset t) (pageSize c) ltac:(lia)) as M.
  rewrite (u16_id (fileOffset t mod pageSize c)) by lia. set (amt := Z.min _ _).
  assert (A : 0 < amt <= pageSize c - fileOffset t mod pageSize c) by (unfold amt; lia). clearbody amt.
  eapply nub_bind; [apply (ld_nub c); [apply F|lia|lia]|]. intros bs _.
  destruct (_ && _); [|apply IH; exact F]. destruct (readVariablePage s _) as [s1 r] eqn:R.
  destruct (readVar_fit c _ _ _ _ R F) as [F1 _]. destruct (negb _); [exact F1|]. apply IH. exact F1.
Qed.
Lemma read_nub s t n : 1 <= numVar c -> buffers_fit c s ->
  nub (fun x => buffers_fit c (fst (fst x))) (embedDBVarDataStreamRead c s t n).
Proof.
  intros N F. unfold embedDBVarDataStreamRead. destruct (Z.eqb_spec (numVar c) 0); [lia|]. cbv zeta.
  destruct (readVariablePage s _) as [s1 r] eqn:R. destruct (readVar_fit c _ _ _ _ R F) as [F1 _].
  destruct (negb _); [exact F1|]. apply stream_nub; auto.
Qed.
End Reads.

(** Summary. *)
Lemma opening_any c k fs : workable c -> disk_sized c k -> exists s r, embedDBInit c k fs = Ok (s, r) /\
  (r = 0 \/ r = -1) /\
  (r = 0 -> buffers_fit c s /\ (useRLC c = false -> counts_fit c s) /\ (useIndex c = true -> claims (iwbuf (si s)) = 0)).
Proof.
  intros W D. destruct (nub_ok _ _ (init_nub_all c W k fs D)) as ([s r] & E & A & B).
  { destruct (wk_num _ W) as (N1 & N2 & N3). apply init_terminates; auto. pose proof (wk_erase _ W). lia. }
  exists s, r. split; [exact E|]. split; [exact A|]. cbn [fst snd] in *. intros R. destruct (B R) as (B1 & B2 & B3).
  split; [auto|]. split; [|auto]. intros NR. constructor; [rewrite B2 by auto; pose proof (l_fit _ (wk_layout _ W)); lia|].
  intros U. rewrite B3 by auto. pose proof (maxIdx_fit c W U). lia.
Qed.
Lemma writing_any c s o : workable c -> (useBinary c = true -> noClean c = true) ->
  buffers_fit c s -> counts_fit c s -> write_ok c s o ->
  exists s', call_step c s o = Ok s' /\ buffers_fit c s' /\ counts_fit c s'.
Proof. intros W NC F C H. destruct (write_safe c W NC s o (conj F C) H) as (s' & E & A & B). eauto. Qed.
Lemma writes_any c os : workable c -> (useBinary c = true -> noClean c = true) ->
  forall s, buffers_fit c s -> counts_fit c s ->
  Forall (fun o => write_ok c s o /\ (o = CFlush -> useIndex c = false)) os ->
  exists s', calls c s os = Ok s' /\ buffers_fit c s' /\ counts_fit c s'.
Proof.
  intros W NC. induction os as [|o os IH]; intros s F C H; cbn [calls]; [eauto|].
  inversion H as [|x l [Ho Hf] Hos]; subst. destruct (writing_any c s o W NC F C Ho) as (s1 & E & F1 & C1). rewrite E. cbn [bind].
  apply IH; auto. eapply Forall_impl; [|exact Hos]. intros a [A B]. split; [|exact B].
  destruct a; cbn [write_ok] in *; auto. intros U. rewrite B in U; [discriminate|reflexivity].
Qed.
Lemma get_any c s key : workable c -> buffers_fit c s -> pages_sane c s -> 0 <= claims (wbuf (sd s)) <= maxRec c ->
  lookup_defined c s key -> embedDBGet c s key <> UB.
Proof. intros W F P C LD E. pose proof (get_nub c W s key (conj F P) C LD) as H. rewrite E in H. exact H. Qed.
Lemma next_any c s it : workable c -> buffers_fit c s -> pages_sane c s -> 0 <= claims (wbuf (sd s)) <= maxRec c ->
  0 <= itRec it -> (itBM it <> None -> useIndex c = true) -> embedDBNext c s it <> UB.
Proof. intros W F P C R B E. pose proof (next_nub c W s it (conj F P) C R B) as H. rewrite E in H. exact H. Qed.

Lemma stream_any c s t n : workable c -> useVar c = true -> buffers_fit c s -> 0 <= n ->
  exists s' t' o, embedDBVarDataStreamRead c s t n = Ok (s', t', o) /\ buffers_fit c s'.
Proof.
  intros W U F Hn. pose proof (ps_lo c W). pose proof (l_ps _ (wk_layout _ W)).
  destruct (nub_ok _ _ (read_nub c W s t n (wk_var _ W U) F)) as ([[s' t'] o] & E & A).
  { apply read_nf; [lia|exact Hn]. }
  exists s', t', o. auto.
Qed.

(** Checks for the examples. *)
Definition fileb (f : file) (P : page -> bool) : bool :=
  forallb (fun n => P (fpg f (Z.of_nat n))) (seq 0 (Z.to_nat (flen f))).
Lemma fileb_ok f P : fileb f P = true -> forall n p, file_read f n = Some p -> P p = true.
Proof.
  unfold fileb, file_read. intros H n p E. rewrite forallb_forall in H. destruct (_ && _) eqn:R; [|discriminate]. injection E as <-.
  specialize (H (Z.to_nat n)). cbv beta in H. rewrite Z2Nat.id in H by lia. apply H. apply in_seq. lia.
Qed.
Definition page_saneb (c : cfg) (p : page) : bool := (1 <=? claims p) && (claims p <=? maxRec c).
Definition pages_saneb (c : cfg) (s : state) : bool := page_saneb c (rbuf (sd s)) && fileb (fD (sio s)) (page_saneb c).
Lemma page_sane_check c p : page_saneb c p = true -> page_sane c p.
Proof. unfold page_saneb, page_sane. lia. Qed.
Lemma pages_sane_check c s : pages_saneb c s = true -> pages_sane c s.
Proof.
  unfold pages_saneb. intros H. apply andb_prop in H as [A B]. constructor; [apply page_sane_check; auto|].
  intros n p E. apply page_sane_check. exact (fileb_ok _ _ B _ _ E).
Qed.
Definition fileb_sized (c : cfg) (f : file) : bool := fileb f (fun p => zlen p =? pageSize c).
Lemma file_sized_check c f : fileb_sized c f = true -> file_sized c f.
Proof. intros H n p E. pose proof (fileb_ok _ _ H _ _ E). lia. Qed.

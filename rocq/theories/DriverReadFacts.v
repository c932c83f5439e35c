(** Reading pages through the buffer over the desktop and SD interfaces (property C47). *)
From Verif Require Import Base Config Storage Recovery Drivers BaseFacts SpecDrivers DriverFacts DriverRead SpecDriverRead Run.
Open Scope Z_scope.
Ltac Zify.zify_post_hook ::= ZifyBool.elim_bool_cstr.
Ltac Zify.zify_convert_to_euclidean_division_equations_flag ::= constr:(false).

Section Read.
Variable c : cfg.
Notation ps := (pageSize c).
Hypothesis PS : 0 < ps.
Variable f : file.
Variable num : Z.
Hypothesis SMALL : num * ps < 2 ^ 32.
Record coherent (k : cache) : Prop := {
  co_bytes : bytes_of ps (bts (cdev k)) f;
  co_len : zlen (cbuf k) = ps;
  co_page : num <= cid k \/ file_read f (cid k) = Some (cbuf k)
}.
Lemma desk_step_read k n : coherent k -> clean (fates (cdev k)) -> 0 <= n < num ->
  exists k' r, readPage_on desk_read ps k n = (k', r) /\ coherent k' /\ clean (fates (cdev k')) /\ honest f n (r, cbuf k') /\
    (fates (cdev k) = [] -> fates (cdev k') = [] /\ complete f n (r, cbuf k')).
Proof.
  intros [B L P] C N. unfold readPage_on. destruct (Z.eqb_spec n (cid k)) as [E|E].
  { assert (R : file_read f n = Some (cbuf k)) by (destruct P as [P|P]; [lia|now rewrite E]).
    exists k, 0. split; [reflexivity|]. split; [constructor; auto|]. split; [exact C|]. unfold honest, complete. cbn [fst snd].
    split; [auto|]. intros F. split; [exact F|]. rewrite R. split; congruence. }
  destruct (read_bytes c PS (bts (cdev k)) f n B ltac:(lia)) as [RB RL].
  assert (0 <= ps * n < 2 ^ 32) by nia.
  assert (GO : forall d x fs, bts d = bts (cdev k) -> lib_seek false (cdev k) (ps * n) = (d, true) -> next_fate d = (x, mkDev (bts d) (bpos d) fs) ->
    bpos d = ps * n -> x = Fine \/ x = Bad 0 -> clean fs -> (fates (cdev k) = [] -> x = Fine /\ fs = []) ->
    exists k' r, (let '(d, buf, r) := desk_read (cdev k) (cbuf k) n ps in
      if r =? 0 then (mkCache buf (cid k) d, -1) else (mkCache buf n d, 0)) = (k', r) /\ coherent k' /\ clean (fates (cdev k')) /\ honest f n (r, cbuf k') /\
      (fates (cdev k) = [] -> fates (cdev k') = [] /\ complete f n (r, cbuf k'))).
  { intros d x fs D1 SK NF DP X CF FF. unfold desk_read. rewrite u32_id by lia. rewrite SK. unfold lib_read. rewrite NF. cbn [bts bpos fates]. rewrite D1, DP.
    replace (ps * n) with (n * ps) by lia. rewrite RB. destruct X as [-> | ->].
    - destruct (file_read f n) as [p|] eqn:R.
      + rewrite (RL p eq_refl), items_one by auto. change (i8 1 =? 0) with false. cbv iota. rewrite into_full by (rewrite L; symmetry; auto).
        eexists _, _. split; [reflexivity|]. cbn [cdev fates cbuf cid bts]. split; [constructor; cbn; auto|]. split; [exact CF|].
        split; [intros _; exact R|]. intros F. destruct (FF F) as [_ ->]. split; [reflexivity|]. unfold complete. cbn. rewrite R. split; congruence.
      + change (zlen (@nil Z)) with 0. rewrite items_nil by auto. change (i8 0 =? 0) with true. cbv iota. change (into (cbuf k) []) with (cbuf k).
        eexists _, _. split; [reflexivity|]. cbn [cdev fates cbuf cid bts]. split; [constructor; cbn; auto|]. split; [exact CF|].
        split; [unfold honest; cbn; discriminate|]. intros F. destruct (FF F) as [_ ->]. split; [reflexivity|]. unfold complete. cbn. rewrite R. split; congruence.
    - cbn [firstn]. change (zlen (@nil Z)) with 0. rewrite items_nil by auto. change (i8 0 =? 0) with true. cbv iota. change (into (cbuf k) []) with (cbuf k).
      eexists _, _. split; [reflexivity|]. cbn [cdev fates cbuf cid bts]. split; [constructor; cbn; auto|]. split; [exact CF|].
      split; [unfold honest; cbn; discriminate|]. intros F. destruct (FF F) as [FF1 _]. discriminate FF1. }
  destruct (fates (cdev k)) as [|a fs0] eqn:F.
  - apply (GO (mkDev (bts (cdev k)) (ps * n) []) Fine []); auto; try constructor; unfold lib_seek, next_fate; rewrite ?F; cbn; auto.
  - inversion C as [|fs C1 E1|fs C1 E1]; subst.
    + apply (GO (mkDev (bts (cdev k)) (ps * n) (Fine :: fs)) Fine fs); auto; try discriminate; unfold lib_seek, next_fate; rewrite ?F; cbn; auto.
    + apply (GO (mkDev (bts (cdev k)) (ps * n) (Bad 0 :: fs)) (Bad 0) fs); auto; try discriminate; unfold lib_seek, next_fate; rewrite ?F; cbn; auto.
Qed.
Hypothesis SMALLPAGE : ps < 2 ^ 15.
Lemma sd_step_read k n : n <= flen f -> coherent k -> clean (fates (cdev k)) -> 0 <= n < num ->
  exists k' r, readPage_on sd_read ps k n = (k', r) /\ coherent k' /\ clean (fates (cdev k')) /\ honest f n (r, cbuf k') /\
    (fates (cdev k) = [] -> fates (cdev k') = [] /\ complete f n (r, cbuf k')).
Proof.
  intros LE [B L P] C N. pose proof (bo_len _ _ _ B) as BL. unfold readPage_on. destruct (Z.eqb_spec n (cid k)) as [E|E].
  { assert (R : file_read f n = Some (cbuf k)) by (destruct P as [P|P]; [lia|now rewrite E]).
    exists k, 0. split; [reflexivity|]. split; [constructor; auto|]. split; [exact C|]. unfold honest, complete. cbn [fst snd].
    split; [auto|]. intros F. split; [exact F|]. rewrite R. split; congruence. }
  destruct (read_bytes c PS (bts (cdev k)) f n B ltac:(lia)) as [RB RL].
  assert (0 <= ps * n < 2 ^ 32) by nia. assert (ps * n <= zlen (bts (cdev k))) by nia.
  assert (GO : forall d x fs, bts d = bts (cdev k) -> lib_seek true (cdev k) (ps * n) = (d, true) -> next_fate d = (x, mkDev (bts d) (bpos d) fs) ->
    bpos d = ps * n -> x = Fine \/ x = Bad 0 -> clean fs -> (fates (cdev k) = [] -> x = Fine /\ fs = []) ->
    exists k' r, (let '(d, buf, r) := sd_read (cdev k) (cbuf k) n ps in
      if r =? 0 then (mkCache buf (cid k) d, -1) else (mkCache buf n d, 0)) = (k', r) /\ coherent k' /\ clean (fates (cdev k')) /\ honest f n (r, cbuf k') /\
      (fates (cdev k) = [] -> fates (cdev k') = [] /\ complete f n (r, cbuf k'))).
  { intros d x fs D1 SK NF DP X CF FF. unfold sd_read. rewrite u32_id by lia. rewrite SK. unfold sd_fread, lib_read. rewrite NF. cbn [bts bpos fates]. rewrite D1, DP.
    replace (ps * n) with (n * ps) by lia. rewrite RB. destruct X as [-> | ->].
    - destruct (file_read f n) as [p|] eqn:R.
      + rewrite (RL p eq_refl). rewrite i16_id by (change (2 ^ 15) with 32768 in *; lia). destruct (Z.ltb_spec ps 0); [lia|]. rewrite items_one by auto. change (i8 1 =? 0) with false. cbv iota. rewrite into_full by (rewrite L; symmetry; auto).
        eexists _, _. split; [reflexivity|]. cbn [cdev fates cbuf cid bts]. split; [constructor; cbn; auto|]. split; [exact CF|].
        split; [intros _; exact R|]. intros F. destruct (FF F) as [_ ->]. split; [reflexivity|]. unfold complete. cbn. rewrite R. split; congruence.
      + change (zlen (@nil Z)) with 0. change (i16 0) with 0. change (0 <? 0) with false. cbv iota. rewrite items_nil by auto. change (i8 0 =? 0) with true. cbv iota. change (into (cbuf k) []) with (cbuf k).
        eexists _, _. split; [reflexivity|]. cbn [cdev fates cbuf cid bts]. split; [constructor; cbn; auto|]. split; [exact CF|].
        split; [unfold honest; cbn; discriminate|]. intros F. destruct (FF F) as [_ ->]. split; [reflexivity|]. unfold complete. cbn. rewrite R. split; congruence.
    - cbn [firstn]. change (-1 <? 0) with true. cbv iota. change (i8 0 =? 0) with true. cbv iota. change (into (cbuf k) []) with (cbuf k).
      eexists _, _. split; [reflexivity|]. cbn [cdev fates cbuf cid bts]. split; [constructor; cbn; auto|]. split; [exact CF|].
      split; [unfold honest; cbn; discriminate|]. intros F. destruct (FF F) as [FF1 _]. discriminate FF1. }
  destruct (fates (cdev k)) as [|a fs0] eqn:F.
  - apply (GO (mkDev (bts (cdev k)) (ps * n) []) Fine []); auto; try constructor; unfold lib_seek, next_fate; rewrite ?F; cbn [bts fates]; replace (zlen (bts (cdev k)) <? ps * n) with false by lia; cbn; auto.
  - inversion C as [|fs C1 E1|fs C1 E1]; subst.
    + apply (GO (mkDev (bts (cdev k)) (ps * n) (Fine :: fs)) Fine fs); auto; try discriminate; unfold lib_seek, next_fate; rewrite ?F; cbn [bts fates]; replace (zlen (bts (cdev k)) <? ps * n) with false by lia; cbn; auto.
    + apply (GO (mkDev (bts (cdev k)) (ps * n) (Bad 0 :: fs)) (Bad 0) fs); auto; try discriminate; unfold lib_seek, next_fate; rewrite ?F; cbn [bts fates]; replace (zlen (bts (cdev k)) <? ps * n) with false by lia; cbn; auto.
Qed.

(** Sequences, for any interface. *)
Lemma reads_ok rdr (ok : Z -> Prop) :
  (forall k n, ok n -> coherent k -> clean (fates (cdev k)) -> 0 <= n < num ->
   exists k' r, readPage_on rdr ps k n = (k', r) /\ coherent k' /\ clean (fates (cdev k')) /\ honest f n (r, cbuf k') /\
    (fates (cdev k) = [] -> fates (cdev k') = [] /\ complete f n (r, cbuf k'))) ->
  forall ns k, coherent k -> clean (fates (cdev k)) -> Forall (fun n => 0 <= n < num /\ ok n) ns ->
  Forall2 (honest f) ns (snd (reads rdr ps k ns)) /\ (fates (cdev k) = [] -> Forall2 (complete f) ns (snd (reads rdr ps k ns))).
Proof.
  intros ST. induction ns as [|n ns IH]; intros k K C N; cbn [reads]; [split; constructor|]. inversion N as [|? ? [N1 N1'] N2]; subst.
  destruct (ST k n N1' K C) as (k1 & r & E & K1 & C1 & G0 & F1); auto. rewrite E.
  destruct (IH k1 K1 C1) as [A B]; auto. destruct (reads rdr ps k1 ns) as [k2 l]. cbn [snd] in *.
  split; [constructor; auto|]. intros F. destruct (F1 F) as [G1 G2]. constructor; auto.
Qed.
End Read.
Lemma desk_reads_thm c f num k ns : 0 < pageSize c -> num * pageSize c < 2 ^ 32 -> bytes_of (pageSize c) (bts (cdev k)) f -> zlen (cbuf k) = pageSize c ->
  num <= cid k \/ file_read f (cid k) = Some (cbuf k) -> clean (fates (cdev k)) -> Forall (fun n => 0 <= n < num) ns ->
  Forall2 (honest f) ns (snd (reads desk_read (pageSize c) k ns)) /\ (fates (cdev k) = [] -> Forall2 (complete f) ns (snd (reads desk_read (pageSize c) k ns))).
Proof.
  intros P S B L Q C N. apply (reads_ok c f num desk_read (fun _ => True)); auto.
  - intros k0 n _. apply (desk_step_read c P f num S).
  - constructor; auto.
  - eapply Forall_impl; [|exact N]. auto.
Qed.
Lemma sd_reads_thm c f num k ns : 0 < pageSize c < 2 ^ 15 -> num * pageSize c < 2 ^ 32 -> bytes_of (pageSize c) (bts (cdev k)) f -> zlen (cbuf k) = pageSize c ->
  num <= cid k \/ file_read f (cid k) = Some (cbuf k) -> clean (fates (cdev k)) -> Forall (fun n => 0 <= n < num /\ n <= flen f) ns ->
  Forall2 (honest f) ns (snd (reads sd_read (pageSize c) k ns)) /\ (fates (cdev k) = [] -> Forall2 (complete f) ns (snd (reads sd_read (pageSize c) k ns))).
Proof.
  intros [P P2] S B L Q C N. apply (reads_ok c f num sd_read (fun n => n <= flen f)); auto.
  - intros k0 n LE. apply (sd_step_read c P f num S P2); auto.
  - constructor; auto.
Qed.

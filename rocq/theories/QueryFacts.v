(** Proofs about the query operators: selection, projection, aggregation and key
    join over any input operator. *)
From Verif Require Import Base BaseFacts Config Storage DB Schema Query Spec SpecUtil CompareFacts SpecStore SpecIter SpecQuery.
Open Scope Z_scope.
Ltac Zify.zify_post_hook ::= ZifyBool.elim_bool_cstr.
Ltac Zify.zify_convert_to_euclidean_division_equations_flag ::= constr:(false).

(** * Columns *)
Lemma schema_width s : schema_ok s -> 0 <= widths s < 65536.
Proof.
  intros [H1 H2]. assert (X : 0 <= widths s <= 127 * zlen s); [|lia]. clear H2.
  induction H1 as [|c s Hc _ IH]; [cbn; lia|]. rewrite widths_cons, zlen_cons. lia.
Qed.
Lemma size_schema s : schema_ok s -> getRecordSizeFromSchema s = widths s.
Proof. intros H. apply record_size_spec. pose proof (schema_width s H). lia. Qed.
Lemma buf_schema s : schema_ok s -> createBufferFromSchema s = repeat 0 (Z.to_nat (widths s)).
Proof. intros H. unfold createBufferFromSchema. now rewrite size_schema. Qed.

Definition coff (s : list Z) (col : Z) : Z := widths (firstn (Z.to_nat col) s).
Lemma desc_in s col : col_in s col -> In (col_desc s col) s.
Proof. intros H. apply nth_In. unfold col_in, zlen in H. lia. Qed.
Lemma desc_ok s col : schema_ok s -> col_in s col -> col_desc s col <> 0 /\ -128 < col_desc s col < 128.
Proof. intros [H _] Hc. rewrite Forall_forall in H. apply H. now apply desc_in. Qed.
Lemma off_ok s col : schema_ok s -> col_in s col -> getColOffsetFromSchema s col = Ok (coff s col).
Proof.
  intros H [H1 H2]. pose proof (schema_width s H). destruct H as [_ H]. apply col_offset_spec; lia.
Qed.
Lemma desc_size s col : col_in s col -> col_size s col = Ok (col_desc s col).
Proof.
  intros [H1 H2]. apply col_size_ok; [lia|]. unfold col_desc. apply nth_error_nth'. unfold zlen in H2. lia.
Qed.
Lemma firstn_S_nth s n : (n < length s)%nat -> firstn (S n) s = firstn n s ++ [nth n s 0].
Proof.
  revert s. induction n as [|n IH]; intros [|x s] H; cbn [length] in H; try lia; [reflexivity|].
  cbn [firstn nth app]. f_equal. rewrite <- IH by lia. reflexivity.
Qed.
Lemma off_fits s col : schema_ok s -> col_in s col -> 0 <= coff s col /\ coff s col + Z.abs (col_desc s col) <= widths s.
Proof.
  intros _ H. split; [apply widths_nonneg|]. unfold coff, col_desc, col_in in *.
  assert (E : widths s = widths (firstn (S (Z.to_nat col)) s) + widths (skipn (S (Z.to_nat col)) s))
    by (rewrite <- widths_app, firstn_skipn; reflexivity).
  rewrite E, firstn_S_nth by (unfold zlen in H; lia). rewrite widths_app, widths_cons.
  pose proof (widths_nonneg (skipn (S (Z.to_nat col)) s)). change (widths []) with 0. lia.
Qed.

Lemma column_zrd s col r : column s col r = zrd r (coff s col) (Z.to_nat (Z.abs (col_desc s col))).
Proof. reflexivity. Qed.
Lemma in_firstn {A} n (l : list A) x : In x (firstn n l) -> In x l.
Proof. intros H. rewrite <- (firstn_skipn n l). apply in_or_app; auto. Qed.
Lemma in_skipn {A} n (l : list A) x : In x (skipn n l) -> In x l.
Proof. intros H. rewrite <- (firstn_skipn n l). apply in_or_app; auto. Qed.
Lemma bytes_firstn p n : bytes p -> bytes (firstn n p).
Proof. intros H. apply Forall_forall. intros x Hx. unfold bytes in H. rewrite Forall_forall in H. apply H. eapply in_firstn; eauto. Qed.
Lemma bytes_skipn p n : bytes p -> bytes (skipn n p).
Proof. intros H. apply Forall_forall. intros x Hx. unfold bytes in H. rewrite Forall_forall in H. apply H. eapply in_skipn; eauto. Qed.

Lemma column_ok s col r : schema_ok s -> col_in s col -> row_ok s r ->
  ld r (coff s col) (Z.to_nat (Z.abs (col_desc s col))) = Ok (column s col r) /\
  zlen (column s col r) = Z.abs (col_desc s col) /\ bytes (column s col r).
Proof.
  intros H1 H2 [H3 H4]. destruct (off_fits s col H1 H2) as [O1 O2]. split.
  - rewrite ld_ok by lia. reflexivity.
  - rewrite column_zrd. split.
    + unfold zlen. rewrite zrd_length by lia. lia.
    + apply bytes_firstn, bytes_skipn, H3.
Qed.

(** A whole-record copy. *)
Lemma ld_all r n : zlen r = Z.of_nat n -> ld r 0 n = Ok r.
Proof.
  intros H. rewrite ld_ok by lia. unfold zrd, rd. change (Z.to_nat 0) with 0%nat. cbn [skipn].
  rewrite firstn_all2 by (unfold zlen in H; lia). reflexivity.
Qed.
Lemma st_all p r : zlen r = zlen p -> st p 0 r = Ok r.
Proof.
  intros H. rewrite st_ok by lia. unfold zwr, wr. change (Z.to_nat 0) with 0%nat. cbn [firstn app].
  rewrite skipn_all2 by (unfold zlen in H; lia). now rewrite app_nil_r.
Qed.
(** Filling a buffer from the left. *)
Lemma st_next d x y : zlen x + zlen y <= zlen d ->
  st (x ++ skipn (length x) d) (zlen x) y = Ok ((x ++ y) ++ skipn (length (x ++ y)) d).
Proof.
  intros H. assert (Lx : (length x + length y <= length d)%nat) by (unfold zlen in H; lia).
  rewrite st_ok; [|apply zlen_nonneg|].
  2:{ unfold zlen in *. rewrite app_length, skipn_length. lia. }
  unfold zwr, wr. replace (Z.to_nat (zlen x)) with (length x) by (unfold zlen; lia).
  rewrite firstn_app, Nat.sub_diag, firstn_all. cbn [firstn]. rewrite app_nil_r, <- app_assoc. do 3 f_equal.
  rewrite app_length, skipn_app, skipn_all2 by lia. cbn [app].
  replace (length x + length y - length x)%nat with (length y) by lia.
  revert d Lx H. clear. intros d _ _. generalize (length x) (length y). intros a b.
  revert d. induction a as [|a IH]; intros d; [reflexivity|]. destruct d; [now rewrite !skipn_nil|apply IH].
Qed.

(** * Yields *)
Section Gen.
  Variables (EI : env -> Prop) (sc : list Z).

  Lemma ended_mono F F' kp kp' : (F <= F')%nat -> (kp' = true -> kp = true) -> forall k k' o, (k' <= k)%nat ->
    ended EI F sc kp k o -> ended EI F' sc kp' k' o.
  Proof.
    intros HF Hk. induction k as [|k IH]; intros k' o Hle H.
    - destruct k'; [exact H|lia].
    - destruct k' as [|k']; [split; [apply H|exact I]|]. destruct H as [H1 H2]. split; [exact H1|].
      intros e f He Hf. destruct (H2 e f He ltac:(lia)) as (e' & o' & E & A1 & A2 & A3).
      exists e', o'. split; [exact E|]. split; [exact A1|]. split; [auto|]. apply IH; [lia|exact A3].
  Qed.
  Lemma yields_mono F F' kp kp' k k' : (F <= F')%nat -> (kp' = true -> kp = true) -> (k' <= k)%nat -> forall rs o,
    yields EI F sc kp k o rs -> yields EI F' sc kp' k' o rs.
  Proof.
    intros HF Hk Hle. induction rs as [|r rs IH]; intros o H; [eapply ended_mono; eauto|].
    destruct H as [H1 H2]. split; [exact H1|]. intros e f He Hf.
    destruct (H2 e f He ltac:(lia)) as (e' & o' & E & A1 & A2 & A3). exists e', o'. auto.
  Qed.
  Lemma ended_shaped F kp k o : ended EI F sc kp k o -> shaped sc o.
  Proof. destruct k; intros [H _]; exact H. Qed.
  Lemma yields_shaped F kp k o rs : yields EI F sc kp k o rs -> shaped sc o.
  Proof. destruct rs; [apply ended_shaped|intros [H _]; exact H]. Qed.
  Lemma yields_row F kp k o r rs e f : EI e -> (F <= f)%nat -> yields EI F sc kp k o (r :: rs) -> row_ok sc r.
  Proof.
    intros He Hf [_ H]. destruct (H e f He Hf) as (e' & o' & _ & _ & E & Y).
    apply yields_shaped in Y as (_ & b & Eb & R). congruence.
  Qed.
End Gen.

(** * Selection *)
Lemma op_test_compare s col oper a b : schema_ok s -> col_in s col ->
  zlen a = Z.abs (col_desc s col) -> zlen b = Z.abs (col_desc s col) -> bytes a -> bytes b ->
  compare a oper b (is_signed (col_desc s col)) =
  op_test oper (col_value (col_desc s col <? 0) a) (col_value (col_desc s col <? 0) b).
Proof.
  intros H1 H2 La Lb Ha Hb. pose proof (desc_ok s col H1 H2) as D.
  assert (X : compare a oper b (is_signed (col_desc s col)) = true <->
              op_test oper (col_value (col_desc s col <? 0) a) (col_value (col_desc s col <? 0) b) = true).
  { rewrite compare_spec; auto.
    - unfold is_signed. generalize (col_value (col_desc s col <? 0) a) (col_value (col_desc s col <? 0) b). intros x y.
      unfold op_holds, op_test. destruct oper as [|[[[?|?|]|[?|?|]|]|[[?|?|]|[?|?|]|]|]|?]; try (split; [contradiction|discriminate]); try lia.
    - unfold zlen in *; lia.
    - intros ->. cbn in La. lia. }
  destruct (compare _ _ _ _), (op_test _ _ _); auto; destruct X as [X1 X2]; [symmetry; auto|symmetry in X2; auto].
  symmetry. auto.
Qed.

Section Sel.
  Variables (EI : env -> Prop) (F : nat) (sc : list Z) (kp : bool) (col oper : Z) (val : list Z).
  Hypothesis Hs : schema_ok sc.
  Hypothesis Hc : col_in sc col.
  Hypothesis Hv : bytes val.
  Hypothesis Hl : Z.abs (col_desc sc col) <= zlen val.
  Notation sel := (selects sc col oper val).
  Let loop := fun f' f e i => sel_loop (op_next f') f e i (coff sc col) (Z.to_nat (Z.abs (col_desc sc col))) oper val (is_signed (col_desc sc col)).

  Lemma sel_skip o e f f' k r rs : EI e -> (F <= f')%nat -> yields EI F sc kp k o (r :: rs) ->
    exists e' o', EI e' /\ op_buf o' = Some r /\ row_ok sc r /\ yields EI F sc kp k o' rs /\
      loop f' (S f) e o = if sel r then Ok (e', o', true) else loop f' f e' o'.
  Proof.
    intros He Hf Y. pose proof (yields_row EI sc F kp k o r rs e f' He Hf Y) as R.
    destruct Y as [_ H]. destruct (H e f' He Hf) as (e' & o' & E & A1 & A2 & A3). exists e', o'.
    do 4 (split; [auto|]). unfold loop. cbn [sel_loop]. rewrite E. cbn [bind negb]. rewrite A2. cbn [deref bind].
    destruct (column_ok sc col r Hs Hc R) as (C1 & C2 & C3). rewrite C1. cbn [bind].
    rewrite ld_ok by lia. cbn [bind]. unfold zrd, rd. change (Z.to_nat 0) with 0%nat. cbn [skipn].
    rewrite (op_test_compare sc col oper) by
      (auto; try (unfold zlen in *; rewrite firstn_length; lia); apply bytes_firstn; auto).
    reflexivity.
  Qed.
  Lemma sel_hit : forall pre r post o e f f' k, EI e -> (F <= f')%nat -> (length pre < f)%nat ->
    yields EI F sc kp k o (pre ++ r :: post) -> Forall (fun x => sel x = false) pre -> sel r = true ->
    exists e' o', loop f' f e o = Ok (e', o', true) /\ EI e' /\ op_buf o' = Some r /\ row_ok sc r /\
      yields EI F sc kp k o' post.
  Proof.
    induction pre as [|x pre IH]; intros r post o e f f' k He Hf Hn Y Hp Hr; destruct f as [|f]; try (cbn [length] in Hn; lia).
    - destruct (sel_skip o e f f' k r post He Hf Y) as (e' & o' & A1 & A2 & A3 & A4 & E). rewrite Hr in E.
      exists e', o'. auto 6.
    - destruct (sel_skip o e f f' k x _ He Hf Y) as (e' & o' & A1 & A2 & A3 & A4 & E).
      inversion Hp as [|? ? Hx Hp']; subst. rewrite Hx in E. rewrite E. apply IH; auto. cbn [length] in Hn. lia.
  Qed.
  Lemma sel_miss : forall rs o e f f' k, EI e -> (F <= f')%nat -> (length rs < f)%nat ->
    yields EI F sc kp (S k) o rs -> Forall (fun x => sel x = false) rs ->
    exists e' o', loop f' f e o = Ok (e', o', false) /\ EI e' /\ ended EI F sc kp k o'.
  Proof.
    induction rs as [|x rs IH]; intros o e f f' k He Hf Hn Y Hp; destruct f as [|f]; try (cbn [length] in Hn; lia).
    - destruct Y as [_ H]. destruct (H e f' He Hf) as (e' & o' & E & A1 & _ & A3). exists e', o'.
      unfold loop. cbn [sel_loop]. rewrite E. cbn [bind negb]. auto.
    - destruct (sel_skip o e f f' (S k) x _ He Hf Y) as (e' & o' & A1 & A2 & A3 & A4 & E).
      inversion Hp as [|? ? Hx Hp']; subst. rewrite Hx in E. rewrite E. apply IH; auto. cbn [length] in Hn. lia.
  Qed.

  Lemma filter_first (l : list (list Z)) : Forall (fun x => sel x = false) l \/
    exists pre r post, l = pre ++ r :: post /\ Forall (fun x => sel x = false) pre /\ sel r = true.
  Proof.
    induction l as [|x l IH]; [left; constructor|]. destruct (sel x) eqn:E.
    - right. exists [], x, l. auto.
    - destruct IH as [H|(pre & r & post & -> & H1 & H2)]; [left; constructor; auto|].
      right. exists (x :: pre), r, post. auto.
  Qed.
  Lemma filter_none l : Forall (fun x => sel x = false) l -> filter sel l = [].
  Proof. induction 1 as [|x l H _ IH]; [auto|]. cbn [filter]. now rewrite H. Qed.

  Lemma sel_unfold o b e f : shaped sc o ->
    op_next (S f) e (OSel col oper val o (Some sc) (Some b)) =
    ('(e, i, r) <- loop f f e o ;;
     if negb r then Ok (e, OSel col oper val i (Some sc) (Some b), false)
     else src <- deref (op_buf i) ;; bs <- ld src 0 (Z.to_nat (widths sc)) ;; dst <- st b 0 bs ;;
          Ok (e, OSel col oper val i (Some sc) (Some dst), true)).
  Proof.
    intros [E _]. cbn [op_next]. rewrite E. cbn [deref bind]. rewrite off_ok, desc_size by auto. cbn [bind].
    unfold loop. destruct (sel_loop _ _ _ _ _ _ _ _ _) as [[[e1 i1] r1]| |]; cbn [bind]; auto.
    destruct (negb r1); auto. now rewrite size_schema.
  Qed.

  Lemma sel_ended F' : (F < F')%nat -> forall k rs o b, (length rs < pred F')%nat -> row_ok sc b ->
    yields EI F sc kp k o rs -> Forall (fun x => sel x = false) rs ->
    ended EI F' sc true k (OSel col oper val o (Some sc) (Some b)).
  Proof.
    intros HF. induction k as [|k IH]; intros rs o b Hn Hb Y Hp.
    - split; [|exact I]. split; [reflexivity|]. exists b. auto.
    - split; [split; [reflexivity|exists b; auto]|]. intros e f He Hf. destruct f as [|f]; [lia|].
      rewrite sel_unfold by (eapply yields_shaped; eauto).
      destruct (sel_miss rs o e f f k He ltac:(lia) ltac:(lia) Y Hp) as (e' & o' & E & A1 & A2).
      rewrite E. cbn [bind negb]. eexists _, _. split; [reflexivity|]. split; [auto|]. split; [auto|].
      apply (IH []); auto. cbn [length]. lia.
  Qed.

  Lemma sel_yields F' k : (F < F')%nat -> forall n rs o b, (length rs <= n)%nat -> (length rs < pred F')%nat ->
    row_ok sc b -> yields EI F sc kp k o rs ->
    yields EI F' sc true k (OSel col oper val o (Some sc) (Some b)) (filter sel rs).
  Proof.
    intros HF. induction n as [|n IH]; intros rs o b Hn HF' Hb Y.
    - destruct rs; [|cbn [length] in Hn; lia]. apply (sel_ended F' HF k []); auto.
    - destruct (filter_first rs) as [H|(pre & r & post & -> & H1 & H2)].
      + rewrite filter_none by auto. apply (sel_ended F' HF k rs); auto.
      + rewrite filter_app, filter_none by auto. cbn [app filter]. rewrite H2. split; [split; [reflexivity|exists b; auto]|].
        rewrite app_length in Hn, HF'. cbn [length] in Hn, HF'.
        intros e f He Hf. destruct f as [|f]; [lia|]. rewrite sel_unfold by (eapply yields_shaped; eauto).
        destruct (sel_hit pre r post o e f f k He ltac:(lia) ltac:(lia) Y H1 H2) as (e' & o' & E & A1 & A2 & A3 & A4).
        rewrite E. cbn [bind negb]. rewrite A2. cbn [deref bind]. destruct A3 as [B1 B2]. destruct Hb as [D1 D2].
        rewrite ld_all by (pose proof (widths_nonneg sc); lia). cbn [bind]. rewrite st_all by lia. cbn [bind].
        eexists _, _. split; [reflexivity|]. split; [auto|]. split; [reflexivity|]. apply IH; auto; try lia.
        split; auto.
  Qed.
End Sel.

(** * Projection *)
Lemma proj_schema_ok s cols : Forall (col_in s) cols -> proj_schema s cols = Ok (map (col_desc s) cols).
Proof.
  induction 1 as [|col cols H _ IH]; [reflexivity|]. cbn [proj_schema map]. rewrite desc_size by auto. cbn [bind].
  rewrite IH. reflexivity.
Qed.
Lemma project_len s cols r : schema_ok s -> Forall (col_in s) cols -> row_ok s r ->
  zlen (project s cols r) = widths (map (col_desc s) cols) /\ bytes (project s cols r).
Proof.
  intros Hs Hc Hr. induction Hc as [|col cols H _ [IH1 IH2]]; [split; [reflexivity|constructor]|].
  cbn [project flat_map map]. destruct (column_ok s col r Hs H Hr) as (_ & C2 & C3). fold (project s cols r).
  rewrite zlen_app, widths_cons. split; [lia|]. apply Forall_app; auto.
Qed.
Lemma proj_copy_ok s r d : schema_ok s -> row_ok s r -> zlen d < 65536 ->
  forall cols x, Forall (col_in s) cols -> zlen x + widths (map (col_desc s) cols) <= zlen d ->
  proj_copy s r cols (zlen x) (x ++ skipn (length x) d) =
  Ok ((x ++ project s cols r) ++ skipn (length (x ++ project s cols r)) d).
Proof.
  intros Hs Hr Hd. induction cols as [|col cols IH]; intros x Hc Hw.
  - cbn [proj_copy project flat_map]. now rewrite app_nil_r.
  - inversion Hc as [|? ? H Hc']; subst. cbn [proj_copy]. rewrite desc_size, off_ok by auto. cbn [bind].
    destruct (column_ok s col r Hs H Hr) as (C1 & C2 & C3). pose proof (desc_ok s col Hs H) as D.
    rewrite u8_id by lia. rewrite C1. cbn [bind]. cbn [map] in Hw. rewrite widths_cons in Hw.
    pose proof (widths_nonneg (map (col_desc s) cols)) as W. pose proof (zlen_nonneg x).
    rewrite st_next by lia. cbn [bind]. rewrite u16_id by lia.
    replace (zlen x + Z.abs (col_desc s col)) with (zlen (x ++ column s col r)) by (rewrite zlen_app; lia).
    rewrite IH; auto; [|rewrite zlen_app; lia]. unfold project. cbn [flat_map]. now rewrite !app_assoc.
Qed.

Section Proj.
  Variables (EI : env -> Prop) (F : nat) (sc : list Z) (kp : bool) (cols : list Z).
  Hypothesis Hs : schema_ok sc.
  Hypothesis Hc : Forall (col_in sc) cols.
  Let out := map (col_desc sc) cols.
  Hypothesis Ho : schema_ok out.

  Lemma proj_ended : forall k o b, row_ok out b -> ended EI F sc kp k o ->
    ended EI (S F) out true k (OProj cols o (Some out) (Some b)).
  Proof.
    induction k as [|k IH]; intros o b Hb Y.
    - split; [|exact I]. split; [reflexivity|]. exists b. auto.
    - split; [split; [reflexivity|exists b; auto]|]. intros e f He Hf. destruct f as [|f]; [lia|].
      cbn [op_next]. destruct Y as [[E _] H]. rewrite E. cbn [deref bind].
      destruct (H e f He ltac:(lia)) as (e' & o' & E' & A1 & _ & A2). rewrite E'. cbn [bind negb].
      eexists _, _. split; [reflexivity|]. split; [auto|]. split; [auto|]. apply IH; auto.
  Qed.
  Lemma proj_yields k : forall rs o b, row_ok out b -> yields EI F sc kp k o rs ->
    yields EI (S F) out true k (OProj cols o (Some out) (Some b)) (map (project sc cols) rs).
  Proof.
    induction rs as [|r rs IH]; intros o b Hb Y; [apply proj_ended; auto|].
    split; [split; [reflexivity|exists b; auto]|]. intros e f He Hf. destruct f as [|f]; [lia|].
    pose proof (yields_row EI sc F kp k o r rs e f He ltac:(lia) Y) as R.
    cbn [op_next]. destruct Y as [[E _] H]. rewrite E. cbn [deref bind].
    destruct (H e f He ltac:(lia)) as (e' & o' & E' & A1 & A2 & A3). rewrite E'. cbn [bind negb].
    rewrite A2. cbn [deref bind]. pose proof (schema_width out Ho) as W. destruct Hb as [B1 B2].
    pose proof (proj_copy_ok sc r b Hs R ltac:(lia) cols [] Hc) as P. cbn [length app skipn] in P.
    change (zlen (@nil Z)) with 0 in P. rewrite P by (change (widths (map (col_desc sc) cols)) with (widths out); lia). cbn [bind].
    destruct (project_len sc cols r Hs Hc R) as [L1 L2]. fold out in L1.
    rewrite skipn_all2 by (unfold zlen in *; lia). rewrite app_nil_r.
    eexists _, _. split; [reflexivity|]. split; [auto|]. split; [reflexivity|]. apply IH; auto. split; [exact L2|lia].
  Qed.
End Proj.

(** Proofs about the key join operator. *)
From Verif Require Import Base BaseFacts Config Storage DB Schema Query Spec SpecUtil CompareFacts SpecStore SpecIter SpecQuery QueryFacts.
Open Scope Z_scope.
Ltac Zify.zify_post_hook ::= ZifyBool.elim_bool_cstr.
Ltac Zify.zify_convert_to_euclidean_division_equations_flag ::= constr:(false).

Lemma asc_tail s r rs : keys_asc s (r :: rs) -> keys_asc s rs.
Proof. destruct rs; [intros _; exact I|intros [_ H]; exact H]. Qed.
Lemma asc_head s r rs : keys_asc s (r :: rs) -> Forall (fun x => field s 0 r < field s 0 x) rs.
Proof.
  revert r. induction rs as [|x rs IH]; intros r H; [constructor|]. destruct H as [H1 H2]. constructor; [auto|].
  eapply Forall_impl; [|apply IH; exact H2]. cbv beta. intros y Hy. lia.
Qed.

Section Join.
  Variables (EI : env -> Prop) (F : nat) (s1 s2 : list Z) (kp1 kp2 : bool).
  Hypothesis H1 : schema_ok s1.
  Hypothesis H2 : schema_ok s2.
  Hypothesis C1 : col_in s1 0.
  Hypothesis C2 : col_in s2 0.
  Hypothesis Ps : 0 < col_desc s1 0.
  Hypothesis Eq : col_desc s1 0 = col_desc s2 0.
  Let out := s1 ++ s2.
  Hypothesis Ho : schema_ok out.
  Notation k1 := (field s1 0).
  Notation k2 := (field s2 0).
  Notation jn := (joined s1 s2).
  Notation nk := (Z.to_nat (Z.abs (col_desc s1 0))).

  Lemma filter_out (r1 : list Z) rs2 : Forall (fun r2 => k2 r2 <> k1 r1) rs2 ->
    filter (fun r2 => k2 r2 =? k1 r1) rs2 = [].
  Proof. induction 1 as [|x l H _ IH]; [auto|]. cbn [filter]. replace (k2 x =? k1 r1) with false by lia. auto. Qed.

  Lemma jn_cons r1 rs1 rs2 : jn (r1 :: rs1) rs2 = map (fun r2 => r1 ++ r2) (filter (fun r2 => k2 r2 =? k1 r1) rs2) ++ jn rs1 rs2.
  Proof. reflexivity. Qed.
  Lemma jn_nil2 rs1 : jn rs1 [] = [].
  Proof. induction rs1 as [|r rs IH]; [auto|]. cbn. exact IH. Qed.
  (** No partner for the head of the second list. *)
  Lemma jn_drop2 r2 rs2 rs1 : Forall (fun r1 => k2 r2 <> k1 r1) rs1 -> jn rs1 (r2 :: rs2) = jn rs1 rs2.
  Proof.
    induction 1 as [|r1 rs1 H _ IH]; [auto|]. rewrite !jn_cons, IH. cbn [filter].
    now replace (k2 r2 =? k1 r1) with false by lia.
  Qed.
  Lemma jn_eq r1 rs1 r2 rs2 : keys_asc s1 (r1 :: rs1) -> keys_asc s2 (r2 :: rs2) -> k1 r1 = k2 r2 ->
    jn (r1 :: rs1) (r2 :: rs2) = (r1 ++ r2) :: jn rs1 rs2.
  Proof.
    intros A1 A2 E. apply asc_head in A1. apply asc_head in A2. rewrite <- (jn_drop2 r2 rs2 rs1).
    - rewrite jn_cons. cbn [filter]. replace (k2 r2 =? k1 r1) with true by lia.
      rewrite filter_out; [reflexivity|]. eapply Forall_impl; [|exact A2]. cbv beta. intros; lia.
    - eapply Forall_impl; [|exact A1]. cbv beta. intros; lia.
  Qed.
  Lemma jn_lt r1 rs1 r2 rs2 : keys_asc s2 (r2 :: rs2) -> k1 r1 < k2 r2 -> jn (r1 :: rs1) (r2 :: rs2) = jn rs1 (r2 :: rs2).
  Proof.
    intros A2 E. apply asc_head in A2. rewrite jn_cons, filter_out; [reflexivity|].
    constructor; [lia|]. eapply Forall_impl; [|exact A2]. cbv beta. intros; lia.
  Qed.
  Lemma jn_gt r1 rs1 r2 rs2 : keys_asc s1 (r1 :: rs1) -> k2 r2 < k1 r1 -> jn (r1 :: rs1) (r2 :: rs2) = jn (r1 :: rs1) rs2.
  Proof.
    intros A1 E. apply asc_head in A1. apply jn_drop2. constructor; [lia|].
    eapply Forall_impl; [|exact A1]. cbv beta. intros; lia.
  Qed.

  Lemma cmp_ok i1 i2 r1 r2 : op_buf i1 = Some r1 -> op_buf i2 = Some r2 -> row_ok s1 r1 -> row_ok s2 r2 ->
    join_cmp nk i1 i2 = Ok (sgnc (k1 r1 ?= k2 r2)).
  Proof.
    intros E1 E2 R1 R2. unfold join_cmp. rewrite E1, E2. cbn [deref bind].
    destruct (column_ok s1 0 r1 H1 C1 R1) as (A1 & A2 & A3). destruct (column_ok s2 0 r2 H2 C2 R2) as (B1 & B2 & B3).
    change (coff s1 0) with 0 in A1. change (coff s2 0) with 0 in B1. rewrite <- Eq in B1, B2.
    rewrite A1. cbn [bind]. rewrite B1. cbn [bind]. rewrite unsigned_spec by (auto; unfold zlen in *; lia).
    unfold field. rewrite <- Eq. replace (col_desc s1 0 <? 0) with false by lia. reflexivity.
  Qed.

  Lemma loop_check nx f e i1 i2 r1 r2 : op_buf i1 = Some r1 -> op_buf i2 = Some r2 -> row_ok s1 r1 -> row_ok s2 r2 ->
    join_loop nx (S f) e i1 i2 nk true =
    if k1 r1 =? k2 r2 then Ok (e, i1, i2, true) else join_loop nx f e i1 i2 nk false.
  Proof.
    intros E1 E2 R1 R2. cbn [join_loop bind negb]. rewrite (cmp_ok i1 i2 r1 r2) by auto. cbn [bind].
    destruct (Z.compare_spec (k1 r1) (k2 r2)); cbn [sgnc]; destruct (Z.eqb_spec (k1 r1) (k2 r2)); try lia; reflexivity.
  Qed.
  Lemma loop_go nx f e i1 i2 r1 r2 : op_buf i1 = Some r1 -> op_buf i2 = Some r2 -> row_ok s1 r1 -> row_ok s2 r2 ->
    join_loop nx (S f) e i1 i2 nk false =
    ('(e, i1, i2, ok) <-
        (if k1 r1 =? k2 r2 then
             '(e, i1, r1) <- nx e i1 ;;
             if negb r1 then Ok (e, i1, i2, false)
             else '(e, i2, r2) <- nx e i2 ;; Ok (e, i1, i2, r2)
         else if k1 r1 <? k2 r2 then '(e, i1, r1) <- nx e i1 ;; Ok (e, i1, i2, r1)
         else '(e, i2, r2) <- nx e i2 ;; Ok (e, i1, i2, r2)) ;;
      if negb ok then Ok (e, i1, i2, false) else join_loop nx (S f) e i1 i2 nk true).
  Proof.
    intros E1 E2 R1 R2. cbn [join_loop]. rewrite (cmp_ok i1 i2 r1 r2) by auto. cbn [bind].
    destruct (Z.compare_spec (k1 r1) (k2 r2)); cbn [sgnc];
      destruct (Z.eqb_spec (k1 r1) (k2 r2)); destruct (Z.ltb_spec (k1 r1) (k2 r2)); try lia; reflexivity.
  Qed.

  (** Where the join stands: the current records and what the inputs still yield. *)
  Definition at_rec (k : nat) (i1 : op) (r1 : list Z) (rs1 : list (list Z)) (i2 : op) (r2 : list Z) (rs2 : list (list Z)) : Prop :=
    op_buf i1 = Some r1 /\ op_buf i2 = Some r2 /\ row_ok s1 r1 /\ row_ok s2 r2 /\
    yields EI F s1 kp1 k i1 rs1 /\ yields EI F s2 kp2 k i2 rs2 /\ keys_asc s1 (r1 :: rs1) /\ keys_asc s2 (r2 :: rs2).

  (** A state from which the join goes on reporting the end. *)
  Definition stuck (k : nat) (i1 i2 : op) : Prop :=
    exists b1 b2, op_buf i1 = Some b1 /\ op_buf i2 = Some b2 /\ row_ok s1 b1 /\ row_ok s2 b2 /\ shaped s1 i1 /\ shaped s2 i2 /\
     (k1 b1 <= k2 b2 /\ ended EI F s1 kp1 k i1 \/
      k2 b2 < k1 b1 /\ ended EI F s2 kp2 k i2 \/
      k1 b1 = k2 b2 /\ ended EI F s2 kp2 k i2 /\ exists rs1, keys_asc s1 (b1 :: rs1) /\ yields EI F s1 kp1 k i1 rs1).
  Definition over (k : nat) (i1 i2 : op) : Prop :=
    shaped s1 i1 /\ shaped s2 i2 /\ (kp1 = true -> kp2 = true -> stuck k i1 i2).

  Lemma next_rec sc kp k i r rs e f : EI e -> (F <= f)%nat -> yields EI F sc kp k i (r :: rs) ->
    exists e' i', op_next f e i = Ok (e', i', true) /\ EI e' /\ op_buf i' = Some r /\ row_ok sc r /\ yields EI F sc kp k i' rs.
  Proof.
    intros He Hf Y. pose proof (yields_row EI sc F kp k i r rs e f He Hf Y) as R. destruct Y as [_ H].
    destruct (H e f He Hf) as (e' & i' & E & A1 & A2 & A3). exists e', i'. auto 6.
  Qed.
  Lemma next_end sc kp k i e f : EI e -> (F <= f)%nat -> ended EI F sc kp (S k) i ->
    exists e' i', op_next f e i = Ok (e', i', false) /\ EI e' /\ (kp = true -> op_buf i' = op_buf i) /\ ended EI F sc kp k i' /\ shaped sc i'.
  Proof.
    intros He Hf [_ H]. destruct (H e f He Hf) as (e' & i' & E & A1 & A2 & A3). exists e', i'. split; [auto|].
    split; [auto|]. split; [auto|]. split; [auto|]. eapply ended_shaped; eauto.
  Qed.

  Definition found (k : nat) (e : env) (i1 i2 : op) (lim : nat) (x : list Z) (rest : list (list Z)) : Prop :=
    exists r1 rs1 r2 rs2, EI e /\ at_rec k i1 r1 rs1 i2 r2 rs2 /\ k1 r1 = k2 r2 /\
      x = r1 ++ r2 /\ rest = jn rs1 rs2 /\ (length rs1 + length rs2 <= lim)%nat.

  (** The loop reports the first pair of [js], or the end. *)
  Definition loop_ok (k lim : nat) (js : list (list Z)) (run : res (env * op * op * bool)) : Prop :=
    match js with
    | x :: rest => exists e i1 i2, run = Ok (e, i1, i2, true) /\ found k e i1 i2 lim x rest
    | [] => forall k', k = S k' -> exists e i1 i2, run = Ok (e, i1, i2, false) /\ EI e /\ over k' i1 i2
    end.
  Lemma loop_ok_mono k lim lim' js run : (lim <= lim')%nat -> loop_ok k lim js run -> loop_ok k lim' js run.
  Proof.
    intros Hl. unfold loop_ok. destruct js as [|x rest]; [auto|].
    intros (e & i1 & i2 & E & (r1 & rs1 & r2 & rs2 & A1 & A2 & A3 & A4 & A5 & A6)). exists e, i1, i2. split; [auto|].
    exists r1, rs1, r2, rs2. repeat (split; [solve [auto]|]). lia.
  Qed.

  Lemma check_ok k f' : (F <= f')%nat -> forall m rs1 rs2, (length rs1 + length rs2 = m)%nat -> forall f e i1 r1 i2 r2,
    EI e -> at_rec k i1 r1 rs1 i2 r2 rs2 -> (S m < f)%nat ->
    loop_ok k m (jn (r1 :: rs1) (r2 :: rs2)) (join_loop (op_next f') f e i1 i2 nk true).
  Proof.
    intros Hf'. induction m as [m IH] using lt_wf_ind. intros rs1 rs2 Hm f e i1 r1 i2 r2 He A Hf.
    pose proof A as (B1 & B2 & R1 & R2 & Y1 & Y2 & S1 & S2).
    destruct f as [|f]; [lia|]. rewrite (loop_check _ f e i1 i2 r1 r2) by auto.
    destruct (Z.eqb_spec (k1 r1) (k2 r2)) as [E|N].
    - rewrite jn_eq by auto. exists e, i1, i2. split; [reflexivity|]. exists r1, rs1, r2, rs2. repeat (split; [solve [auto]|]). lia.
    - destruct f as [|f]; [lia|]. rewrite (loop_go _ f e i1 i2 r1 r2) by auto.
      replace (k1 r1 =? k2 r2) with false by lia. destruct (Z.ltb_spec (k1 r1) (k2 r2)) as [Lt|Ge].
      + rewrite jn_lt by auto. destruct rs1 as [|r1' rs1].
        * unfold loop_ok. cbn [joined flat_map]. intros k' ->.
          destruct (next_end s1 kp1 k' i1 e f' He Hf' Y1) as (e' & i1' & E' & D1 & D2 & D3 & D4). rewrite E'. cbn [bind negb].
          eexists _, _, _. split; [reflexivity|]. split; [auto|]. split; [auto|]. split; [eapply yields_shaped; eauto|].
          intros K1 K2. exists r1, r2. rewrite (D2 K1). repeat (split; [solve [auto]|]). split; [eapply yields_shaped; eauto|].
          left. split; [lia|auto].
        * destruct (next_rec s1 kp1 k i1 r1' rs1 e f' He Hf' Y1) as (e' & i1' & E' & D1 & D2 & D3 & D4). rewrite E'. cbn [bind negb].
          cbn [length] in Hm. eapply loop_ok_mono; [|apply (IH (length rs1 + length rs2)%nat)]; try lia; auto.
          repeat (split; [solve [auto]|]). split; [eapply asc_tail; eauto|auto].
      + rewrite jn_gt by (auto; lia). destruct rs2 as [|r2' rs2].
        * unfold loop_ok. rewrite jn_nil2. intros k' ->.
          destruct (next_end s2 kp2 k' i2 e f' He Hf' Y2) as (e' & i2' & E' & D1 & D2 & D3 & D4). rewrite E'. cbn [bind negb].
          eexists _, _, _. split; [reflexivity|]. split; [auto|]. split; [eapply yields_shaped; eauto|]. split; [auto|].
          intros K1 K2. exists r1, r2. rewrite (D2 K2). repeat (split; [solve [auto]|]). split; [eapply yields_shaped; eauto|].
          split; [auto|]. right. left. split; [lia|auto].
        * destruct (next_rec s2 kp2 k i2 r2' rs2 e f' He Hf' Y2) as (e' & i2' & E' & D1 & D2 & D3 & D4). rewrite E'. cbn [bind negb].
          cbn [length] in Hm. eapply loop_ok_mono; [|apply (IH (length rs1 + length rs2)%nat)]; try lia; auto.
          repeat (split; [solve [auto]|]). eapply asc_tail; eauto.
  Qed.

  (** After a pair has been returned. *)
  Lemma again_ok k f' rs1 rs2 f e i1 r1 i2 r2 : (F <= f')%nat -> EI e -> at_rec k i1 r1 rs1 i2 r2 rs2 -> k1 r1 = k2 r2 ->
    (S (length rs1 + length rs2) < f)%nat ->
    loop_ok k (length rs1 + length rs2) (jn rs1 rs2) (join_loop (op_next f') f e i1 i2 nk false).
  Proof.
    intros Hf' He (B1 & B2 & R1 & R2 & Y1 & Y2 & S1 & S2) E Hf.
    destruct f as [|f]; [lia|]. rewrite (loop_go _ f e i1 i2 r1 r2) by auto. replace (k1 r1 =? k2 r2) with true by lia.
    destruct rs1 as [|r1' rs1].
    - unfold loop_ok. cbn [joined flat_map]. intros k' ->.
      destruct (next_end s1 kp1 k' i1 e f' He Hf' Y1) as (e' & i1' & E' & D1 & D2 & D3 & D4). rewrite E'. cbn [bind negb].
      eexists _, _, _. split; [reflexivity|]. split; [auto|]. split; [auto|]. split; [eapply yields_shaped; eauto|].
      intros K1 K2. exists r1, r2. rewrite (D2 K1). repeat (split; [solve [auto]|]). split; [eapply yields_shaped; eauto|].
      left. split; [lia|auto].
    - destruct (next_rec s1 kp1 k i1 r1' rs1 e f' He Hf' Y1) as (e' & i1' & E' & D1 & D2 & D3 & D4). rewrite E'. cbn [bind negb].
      destruct rs2 as [|r2' rs2].
      + unfold loop_ok. rewrite jn_nil2. intros k' ->.
        destruct (next_end s2 kp2 k' i2 e' f' D1 Hf' Y2) as (e2 & i2' & E2 & G1 & G2 & G3 & G4). rewrite E2. cbn [bind negb].
        eexists _, _, _. split; [reflexivity|]. split; [auto|]. split; [eapply yields_shaped; eauto|]. split; [auto|].
        intros K1 K2. exists r1', r2. rewrite (G2 K2). repeat (split; [solve [auto]|]). split; [eapply yields_shaped; eauto|].
        split; [auto|]. right. left. split; [|auto]. pose proof (proj1 S1). lia.
      + destruct (next_rec s2 kp2 k i2 r2' rs2 e' f' D1 Hf' Y2) as (e2 & i2' & E2 & G1 & G2 & G3 & G4). rewrite E2. cbn [bind negb].
        eapply loop_ok_mono; [|apply (check_ok k f' Hf' (length rs1 + length rs2)%nat)]; auto; cbn [length] in *; try lia.
        repeat (split; [solve [auto]|]). split; eapply asc_tail; eauto.
  Qed.

  Definition join_finish (b : list Z) (x : env * op * op * bool) : res (env * op * bool) :=
    let '(e, i1, i2, r) := x in
    if negb r then Ok (e, OJoin i1 i2 (Some out) (Some b) false, false)
    else
      b1 <- deref (op_buf i1) ;;
      b2 <- deref (op_buf i2) ;;
      x <- ld b1 0 (Z.to_nat (widths s1)) ;;
      y <- ld b2 0 (Z.to_nat (widths s2)) ;;
      dst <- st b 0 x ;;
      dst <- st dst (widths s1) y ;;
      Ok (e, OJoin i1 i2 (Some out) (Some dst) false, true).
  Lemma join_unfold f e i1 i2 b (first : bool) : shaped s1 i1 -> shaped s2 i2 ->
    op_next (S f) e (OJoin i1 i2 (Some out) (Some b) first) =
    (x <- (if first then
               '(e, i1, r1) <- op_next f e i1 ;;
               if negb r1 then Ok (e, i1, i2, false)
               else
                 '(e, i2, r2) <- op_next f e i2 ;;
                 if negb r2 then Ok (e, i1, i2, false)
                 else join_loop (op_next f) f e i1 i2 nk true
             else join_loop (op_next f) f e i1 i2 nk false) ;; join_finish b x).
  Proof.
    intros [E1 _] [E2 _]. cbn [op_next]. rewrite E1, E2. cbn [deref bind]. rewrite desc_size by auto. cbn [bind].
    rewrite !size_schema by auto.
    match goal with |- bind ?m _ = bind ?m' _ => change m' with m; destruct m as [[[[e1 j1] j2] r]| |] end; cbn [bind]; auto.
  Qed.

  (** Sticky end. *)
  Lemma stuck_ended F' : (F < F')%nat -> (2 <= F')%nat -> kp1 = true -> kp2 = true -> forall k i1 i2 b, stuck k i1 i2 -> row_ok out b ->
    ended EI F' out true k (OJoin i1 i2 (Some out) (Some b) false).
  Proof.
    intros HF HF2 K1 K2. induction k as [|k IH]; intros i1 i2 b St Hb.
    { split; [|exact I]. split; [reflexivity|]. exists b. auto. }
    split; [split; [reflexivity|exists b; auto]|]. intros e f He Hf. destruct f as [|f]; [lia|].
    destruct St as (b1 & b2 & B1 & B2 & R1 & R2 & Sh1 & Sh2 & C).
    rewrite join_unfold by auto. destruct f as [|f]; [lia|]. rewrite (loop_go _ f e i1 i2 b1 b2) by auto.
    assert (CA : k1 b1 <= k2 b2 -> ended EI F s1 kp1 (S k) i1 -> exists e' o',
       (x <- ('(e, i1, i2, ok) <-
        (if k1 b1 =? k2 b2 then
             '(e, i1, r1) <- op_next (S f) e i1 ;;
             if negb r1 then Ok (e, i1, i2, false)
             else '(e, i2, r2) <- op_next (S f) e i2 ;; Ok (e, i1, i2, r2)
         else if k1 b1 <? k2 b2 then '(e, i1, r1) <- op_next (S f) e i1 ;; Ok (e, i1, i2, r1)
         else '(e, i2, r2) <- op_next (S f) e i2 ;; Ok (e, i1, i2, r2)) ;;
      if negb ok then Ok (e, i1, i2, false) else join_loop (op_next (S f)) (S f) e i1 i2 nk true) ;; join_finish b x)
       = Ok (e', o', false) /\ EI e' /\ (true = true -> op_buf o' = Some b) /\ ended EI F' out true k o').
    { intros Le Ey. destruct (next_end s1 kp1 k i1 e (S f) He ltac:(lia) Ey) as (e' & i1' & E' & D1 & D2 & D3 & D4).
      exists e', (OJoin i1' i2 (Some out) (Some b) false).
      destruct (Z.eqb_spec (k1 b1) (k2 b2)); [|replace (k1 b1 <? k2 b2) with true by lia]; rewrite E'; cbn [bind negb join_finish];
      (split; [reflexivity|]; split; [auto|]; split; [auto|]; apply IH; auto;
       exists b1, b2; rewrite (D2 K1); repeat (split; [solve [auto]|]); left; auto). }
    destruct C as [[Le Ey]|[[Gt Ey]|(Ee & Ey & rs1 & As & Y)]]; [exact (CA Le Ey)| |].
    - destruct (next_end s2 kp2 k i2 e (S f) He ltac:(lia) Ey) as (e' & i2' & E' & D1 & D2 & D3 & D4).
      exists e', (OJoin i1 i2' (Some out) (Some b) false).
      replace (k1 b1 =? k2 b2) with false by lia. replace (k1 b1 <? k2 b2) with false by lia. rewrite E'. cbn [bind negb join_finish].
      split; [reflexivity|]. split; [auto|]. split; [auto|]. apply IH; auto. exists b1, b2. rewrite (D2 K2).
      repeat (split; [solve [auto]|]). right. left. auto.
    - destruct rs1 as [|r rs1]; [apply CA; [lia|exact Y]|].
      destruct (next_rec s1 kp1 (S k) i1 r rs1 e (S f) He ltac:(lia) Y) as (e' & i1' & E' & D1 & D2 & D3 & D4).
      destruct (next_end s2 kp2 k i2 e' (S f) D1 ltac:(lia) Ey) as (e2 & i2' & E2 & G1 & G2 & G3 & G4).
      exists e2, (OJoin i1' i2' (Some out) (Some b) false).
      replace (k1 b1 =? k2 b2) with true by lia. rewrite E'. cbn [bind negb]. rewrite E2. cbn [bind negb join_finish].
      split; [reflexivity|]. split; [auto|]. split; [auto|]. apply IH; auto. exists r, b2. rewrite (G2 K2).
      repeat (split; [solve [auto]|]). split; [eapply yields_shaped; eauto|]. split; [auto|].
      right. left. split; [|auto]. pose proof (proj1 As). lia.
  Qed.

  Lemma row_join r1 r2 : row_ok s1 r1 -> row_ok s2 r2 -> row_ok out (r1 ++ r2).
  Proof.
    intros [A1 A2] [B1 B2]. split; [apply Forall_app; auto|]. unfold out. rewrite zlen_app, widths_app. lia.
  Qed.
  Lemma finish_ok e i1 i2 r1 r2 b : op_buf i1 = Some r1 -> op_buf i2 = Some r2 -> row_ok s1 r1 -> row_ok s2 r2 -> row_ok out b ->
    join_finish b (e, i1, i2, true) = Ok (e, OJoin i1 i2 (Some out) (Some (r1 ++ r2)) false, true).
  Proof.
    intros B1 B2 R1 R2 [_ Hb]. unfold join_finish. cbn [negb]. rewrite B1, B2. cbn [deref bind].
    destruct R1 as [_ R1], R2 as [_ R2]. unfold out in Hb. rewrite widths_app in Hb.
    rewrite !ld_all by (pose proof (widths_nonneg s1); pose proof (widths_nonneg s2); lia). cbn [bind].
    pose proof (st_next b [] r1) as N1. cbn [length app skipn] in N1. change (zlen (@nil Z)) with 0 in N1.
    pose proof (zlen_nonneg r2). rewrite N1 by lia. cbn [bind]. rewrite <- R1. rewrite st_next by lia. cbn [bind].
    rewrite skipn_all2 by (rewrite app_length; unfold zlen in *; lia). now rewrite app_nil_r.
  Qed.

  (** [k] endings, one if an input clobbers its buffer. *)
  Variable F' : nat.
  Hypothesis HF : (F < F')%nat.

  Lemma over_ended k i1 i2 b : (kp1 && kp2 = false -> k = 0%nat) -> (2 <= F')%nat -> over k i1 i2 -> row_ok out b ->
    ended EI F' out true k (OJoin i1 i2 (Some out) (Some b) false).
  Proof.
    intros Hk HF2 (_ & _ & Ov) Hb. destruct (kp1 && kp2) eqn:E.
    - apply andb_prop in E as [K1 K2]. apply stuck_ended; auto.
    - rewrite (Hk eq_refl). split; [|exact I]. split; [reflexivity|]. exists b; auto.
  Qed.

  Lemma join_yields k : (kp1 && kp2 = false -> (k <= 1)%nat) -> forall m rs1 rs2, (length rs1 + length rs2 <= m)%nat -> (S (S m) < F')%nat ->
    forall i1 r1 i2 r2 b, at_rec k i1 r1 rs1 i2 r2 rs2 -> k1 r1 = k2 r2 -> row_ok out b ->
    yields EI F' out true k (OJoin i1 i2 (Some out) (Some b) false) (jn rs1 rs2).
  Proof.
    intros Hk m rs1 rs2 Hm HF'. remember (jn rs1 rs2) as js eqn:Ej. revert rs1 rs2 Hm Ej.
    induction js as [|x js IH]; intros rs1 rs2 Hm Ej i1 r1 i2 r2 b A E Hb; pose proof A as (B1 & B2 & R1 & R2 & Y1 & Y2 & S1 & S2).
    - destruct k as [|k]; [split; [|exact I]; split; [reflexivity|]; exists b; auto|].
      split; [split; [reflexivity|exists b; auto]|]. intros e f He Hf. destruct f as [|f]; [lia|].
      rewrite join_unfold by (eapply yields_shaped; eauto).
      pose proof (again_ok (S k) f rs1 rs2 f e i1 r1 i2 r2 ltac:(lia) He A E ltac:(lia)) as X. rewrite <- Ej in X.
      destruct (X k eq_refl) as (e' & i1' & i2' & E' & D1 & D2). rewrite E'. cbn [bind join_finish negb].
      eexists _, _. split; [reflexivity|]. split; [auto|]. split; [auto|]. apply over_ended; auto; [|lia].
      intros K. specialize (Hk K). lia.
    - split; [split; [reflexivity|exists b; auto]|]. intros e f He Hf. destruct f as [|f]; [lia|].
      rewrite join_unfold by (eapply yields_shaped; eauto).
      pose proof (again_ok k f rs1 rs2 f e i1 r1 i2 r2 ltac:(lia) He A E ltac:(lia)) as X. rewrite <- Ej in X.
      destruct X as (e' & i1' & i2' & E' & (r1' & rs1' & r2' & rs2' & D1 & D2 & D3 & D4 & D5 & D6)). rewrite E'. cbn [bind].
      pose proof D2 as (G1 & G2 & G3 & G4 & _). rewrite (finish_ok e' i1' i2' r1' r2' b) by auto.
      eexists _, _. split; [reflexivity|]. split; [auto|]. split; [cbn; congruence|].
      apply (IH rs1' rs2') with (r1 := r1') (r2 := r2'); auto; [lia|]. apply row_join; auto.
  Qed.

  Lemma join_starts k rs1 rs2 i1 i2 b : (kp1 && kp2 = false -> (k <= 1)%nat) -> (S (S (length rs1 + length rs2)) < F')%nat ->
    yields EI F s1 kp1 k i1 rs1 -> yields EI F s2 kp2 k i2 rs2 -> keys_asc s1 rs1 -> keys_asc s2 rs2 ->
    op_buf i1 = Some (repeat 0 (Z.to_nat (widths s1))) -> op_buf i2 = Some (repeat 0 (Z.to_nat (widths s2))) -> row_ok out b ->
    yields EI F' out true k (OJoin i1 i2 (Some out) (Some b) true) (jn rs1 rs2).
  Proof.
    intros Hk HF' Y1 Y2 A1 A2 Z1 Z2 Hb.
    pose proof (yields_shaped _ _ _ _ _ _ _ Y1) as Sh1. pose proof (yields_shaped _ _ _ _ _ _ _ Y2) as Sh2.
    assert (Zr : forall s, row_ok s (repeat 0 (Z.to_nat (widths s)))).
    { intros s. split; [|rewrite zlen_repeat; pose proof (widths_nonneg s); lia].
      apply Forall_forall. intros x Hx. apply repeat_spec in Hx. lia. }
    assert (Zk : forall s, schema_ok s -> col_in s 0 -> 0 < col_desc s 0 -> field s 0 (repeat 0 (Z.to_nat (widths s))) = 0).
    { intros s Hs Hc Hp. unfold field, col_value. replace (col_desc s 0 <? 0) with false by lia. cbn [andb].
      rewrite column_zrd. change (coff s 0) with 0. destruct (off_fits s 0 Hs Hc). change (coff s 0) with 0 in *.
      rewrite zrd_repeat by lia. apply le_dec_zeros. }
    assert (Kz1 := Zk s1 H1 C1 Ps). assert (Kz2 := Zk s2 H2 C2 ltac:(lia)).
    assert (Nn : forall r, row_ok s1 r -> 0 <= k1 r).
    { intros r Hr. destruct (column_ok s1 0 r H1 C1 Hr) as (_ & _ & By). unfold field, col_value.
      replace (col_desc s1 0 <? 0) with false by lia. cbn [andb]. apply le_dec_range. exact By. }
    (* one step: what the first call does *)
    assert (St : forall e f, EI e -> (F' <= S f)%nat ->
      loop_ok k (length rs1 + length rs2) (jn rs1 rs2)
        ('(e, i1, r1) <- op_next f e i1 ;;
         if negb r1 then Ok (e, i1, i2, false)
         else '(e, i2, r2) <- op_next f e i2 ;;
              if negb r2 then Ok (e, i1, i2, false) else join_loop (op_next f) f e i1 i2 nk true)).
    { intros e f He Hf. destruct rs1 as [|r1 rs1].
      - unfold loop_ok. cbn [joined flat_map]. intros k' ->.
        destruct (next_end s1 kp1 k' i1 e f He ltac:(lia) Y1) as (e' & i1' & E' & D1 & D2 & D3 & D4). rewrite E'. cbn [bind negb].
        eexists _, _, _. split; [reflexivity|]. split; [auto|]. split; [auto|]. split; [auto|].
        intros K1 K2. eexists _, _. rewrite (D2 K1). split; [exact Z1|]. split; [exact Z2|]. do 4 (split; [auto|]).
        left. split; [lia|auto].
      - destruct (next_rec s1 kp1 k i1 r1 rs1 e f He ltac:(lia) Y1) as (e' & i1' & E' & D1 & D2 & D3 & D4). rewrite E'. cbn [bind negb].
        destruct rs2 as [|r2 rs2].
        + unfold loop_ok. rewrite jn_nil2. intros k' ->.
          destruct (next_end s2 kp2 k' i2 e' f D1 ltac:(lia) Y2) as (e2 & i2' & E2 & G1 & G2 & G3 & G4). rewrite E2. cbn [bind negb].
          eexists _, _, _. split; [reflexivity|]. split; [auto|]. split; [eapply yields_shaped; eauto|]. split; [auto|].
          intros K1 K2. exists r1. eexists. rewrite (G2 K2). split; [exact D2|]. split; [exact Z2|]. do 2 (split; [auto|]).
          split; [eapply yields_shaped; eauto|]. split; [auto|]. right. rewrite Kz2. specialize (Nn r1 D3).
          destruct (Z.eq_dec (k1 r1) 0); [right|left; split; [lia|auto]]. split; [lia|]. split; [auto|]. exists rs1. split; [auto|].
          eapply yields_mono; [| |  |exact D4]; auto.
        + destruct (next_rec s2 kp2 k i2 r2 rs2 e' f D1 ltac:(lia) Y2) as (e2 & i2' & E2 & G1 & G2 & G3 & G4). rewrite E2. cbn [bind negb].
          eapply loop_ok_mono; [|apply (check_ok k f ltac:(lia) (length rs1 + length rs2)%nat)]; auto; cbn [length] in *; try lia.
          repeat (split; [solve [auto]|]). auto. }
    remember (jn rs1 rs2) as js eqn:Ej. destruct js as [|x js].
    - destruct k as [|k]; [split; [|exact I]; split; [reflexivity|]; exists b; auto|].
      split; [split; [reflexivity|exists b; auto]|]. intros e f He Hf. destruct f as [|f]; [lia|].
      rewrite join_unfold by auto. destruct (St e f He Hf k eq_refl) as (e' & i1' & i2' & E' & D1 & D2). rewrite E'. cbn [bind join_finish negb].
      eexists _, _. split; [reflexivity|]. split; [auto|]. split; [auto|]. apply over_ended; auto; [|lia].
      intros K. specialize (Hk K). lia.
    - split; [split; [reflexivity|exists b; auto]|]. intros e f He Hf. destruct f as [|f]; [lia|].
      rewrite join_unfold by auto.
      destruct (St e f He Hf) as (e' & i1' & i2' & E' & (r1' & rs1' & r2' & rs2' & D1 & D2 & D3 & D4 & D5 & D6)). rewrite E'. cbn [bind].
      pose proof D2 as (G1 & G2 & G3 & G4 & _). rewrite (finish_ok e' i1' i2' r1' r2' b) by auto.
      eexists _, _. split; [reflexivity|]. split; [auto|]. split; [cbn; congruence|].
      rewrite D5. apply (join_yields k Hk (length rs1 + length rs2)) with (r1 := r1') (r2 := r2'); auto; apply row_join; auto.
  Qed.
End Join.

(** Facts about byte sequences laid over pages with headers. *)
From Verif Require Import Base BaseFacts Config Storage DB VarData Recovery Spec SpecPage SpecStore Run SpecRun SpecVar.
Open Scope Z_scope.
Ltac Zify.zify_post_hook ::= ZifyBool.elim_bool_cstr.
Ltac Zify.zify_convert_to_euclidean_division_equations_flag ::= constr:(false).

Lemma one_at (p : list Z) o : 0 <= o < zlen p -> firstn 1 (skipn (Z.to_nat o) p) = [nth (Z.to_nat o) p 0].
Proof.
  intros H. rewrite <- (Nat.add_0_r (Z.to_nat o)) at 2. rewrite <- nth_skipn.
  destruct (skipn (Z.to_nat o) p) eqn:E; [|reflexivity].
  assert (E' : length (skipn (Z.to_nat o) p) = 0%nat) by (now rewrite E).
  rewrite skipn_length in E'. unfold zlen in H. lia.
Qed.

Section Tape.
  Variables (P H : Z).
  Hypothesis HP : 0 <= H /\ H + 4 <= P.

  Lemma adiv v o : 0 <= o < P -> (v * P + o) / P = v.
  Proof. intros. rewrite Z.add_comm, Z_div_plus_full, Z.div_small by lia. lia. Qed.
  Lemma amod v o : 0 <= o < P -> (v * P + o) mod P = o.
  Proof. intros. rewrite Z.add_comm, Z_mod_plus_full, Z.mod_small by lia. auto. Qed.
  Lemma asplit a : a = a / P * P + a mod P /\ 0 <= a mod P < P.
  Proof.
    split; [|apply Z.mod_pos_bound; lia]. pose proof (Z_div_mod_eq_full a P). lia.
  Qed.

  (** Positions in the payload area of a page. *)
  Definition inside (a : Z) : Prop := 0 <= a /\ H <= a mod P.

  Lemma inside_addr v o : 0 <= v -> H <= o < P -> inside (v * P + o).
  Proof. intros. split; [nia|]. rewrite amod by lia. lia. Qed.

  Lemma vnext_in v o : 0 <= o < P - 1 -> vnext P H (v * P + o) = v * P + (o + 1).
  Proof.
    intros. unfold vnext. replace (v * P + o + 1) with (v * P + (o + 1)) by lia. rewrite amod by lia.
    destruct (Z.eqb_spec (o + 1) 0); lia.
  Qed.
  Lemma vnext_end v : vnext P H (v * P + (P - 1)) = (v + 1) * P + H.
  Proof.
    unfold vnext. replace (v * P + (P - 1) + 1) with ((v + 1) * P + 0) by lia. rewrite amod by lia.
    cbn. lia.
  Qed.

  Lemma vskip_app a n m : vskip P H a (n + m) = vskip P H (vskip P H a n) m.
  Proof. revert a. induction n; intros a; cbn [vskip Nat.add]; auto. Qed.
  Lemma vread_app PS a n m : vread P H PS a (n + m) = vread P H PS a n ++ vread P H PS (vskip P H a n) m.
  Proof. revert a. induction n; intros a; cbn [vskip vread Nat.add app]; auto. now rewrite IHn. Qed.
  Lemma vread_length PS a n : length (vread P H PS a n) = n.
  Proof. revert a. induction n; intros a; cbn [vread length]; auto. Qed.

  (** Inside one page. *)
  Lemma vskip_in v n : forall o, 0 <= o -> o + Z.of_nat n < P -> vskip P H (v * P + o) n = v * P + (o + Z.of_nat n).
  Proof.
    induction n as [|n IH]; intros o H1 H2; cbn [vskip]; [lia|].
    rewrite vnext_in by lia. rewrite IH by lia. lia.
  Qed.
  Lemma vskip_end v n o : 0 <= o -> o + Z.of_nat n = P -> (0 < n)%nat -> vskip P H (v * P + o) n = (v + 1) * P + H.
  Proof.
    intros H1 H2 H3. destruct n as [|n]; [lia|]. replace (S n) with (n + 1)%nat by lia.
    rewrite vskip_app, vskip_in by lia. cbn [vskip]. replace (o + Z.of_nat n) with (P - 1) by lia. apply vnext_end.
  Qed.
  Lemma vread_in PS v n : forall o, 0 <= v -> 0 <= o -> o + Z.of_nat n <= P -> zlen (nth (Z.to_nat v) PS []) = P ->
    vread P H PS (v * P + o) n = zrd (nth (Z.to_nat v) PS []) o n.
  Proof.
    induction n as [|n IH]; intros o Hv H1 H2 HL; cbn [vread].
    { unfold zrd, rd. reflexivity. }
    replace (S n) with (1 + n)%nat by lia. rewrite zrd_app by lia. change (Z.of_nat 1) with 1.
    assert (E : zrd (nth (Z.to_nat v) PS []) o 1 = [vget P PS (v * P + o)]).
    { unfold vget. rewrite adiv, amod by lia. apply (one_at (nth (Z.to_nat v) PS [])). lia. }
    rewrite E. cbn [app]. f_equal. destruct (Z.eq_dec o (P - 1)) as [->|No].
    - assert (n = 0)%nat by lia. subst. cbn [vread]. reflexivity.
    - rewrite vnext_in by lia. apply IH; lia.
  Qed.

  (** Positions visited stay inside and move forward. *)
  Lemma vnext_inside a : inside a -> inside (vnext P H a) /\ a < vnext P H a.
  Proof.
    intros [A B]. destruct (asplit a) as [E Hm]. assert (Hd : 0 <= a / P) by (apply Z.div_pos; lia).
    set (v := a / P) in *. set (o := a mod P) in *. clearbody v o. subst a.
    destruct (Z.eq_dec o (P - 1)) as [->|No].
    - rewrite vnext_end. split; [apply inside_addr; lia|lia].
    - rewrite vnext_in by lia. split; [apply inside_addr; lia|lia].
  Qed.
  Lemma vskip_inside n : forall a, inside a -> inside (vskip P H a n) /\ a + Z.of_nat n <= vskip P H a n.
  Proof.
    induction n as [|n IH]; intros a Ha; cbn [vskip]; [split; [auto|lia]|].
    destruct (vnext_inside a Ha) as [H1 H2]. destruct (IH _ H1). split; [auto|lia].
  Qed.
  Lemma vskip_le n m a : inside a -> (n <= m)%nat -> vskip P H a n <= vskip P H a m.
  Proof.
    intros Ha Hn. replace m with (n + (m - n))%nat by lia. rewrite vskip_app.
    destruct (vskip_inside n a Ha) as [H1 _]. destruct (vskip_inside (m - n) _ H1). lia.
  Qed.

  (** Only the bytes in the payload areas up to the end matter. *)
  Lemma vread_ext PS PS' n : forall a, inside a ->
    (forall p, inside p -> a <= p < vskip P H a n -> vget P PS p = vget P PS' p) ->
    vread P H PS a n = vread P H PS' a n.
  Proof.
    induction n as [|n IH]; intros a Ha He; cbn [vread]; auto. destruct (vnext_inside a Ha) as [H1 H2].
    cbn [vskip] in He. destruct (vskip_inside n _ H1) as [H3 H4]. f_equal; [apply He; auto; lia|].
    apply IH; auto. intros p P1 P2. apply He; auto; lia.
  Qed.

  (** How far a payload can reach. *)
  Lemma vskip_bound : H <= 12 -> forall n m v o, 0 <= o < P -> (n <= m)%nat ->
    vskip P H (v * P + o) n <= v * P + o + 4 * Z.of_nat n + (if o =? H then 0 else 12).
  Proof.
    intros H12 n m. revert n. induction m as [|m IH]; intros n v o Ho Hn.
    { assert (n = 0)%nat by lia. subst. cbn [vskip]. destruct (o =? H); lia. }
    destruct (Z.lt_ge_cases (o + Z.of_nat n) P) as [Lt|Ge].
    { rewrite vskip_in by lia. destruct (o =? H); lia. }
    assert (E : exists j, n = (Z.to_nat (P - o) + j)%nat) by (exists (n - Z.to_nat (P - o))%nat; lia).
    destruct E as [j ->]. rewrite vskip_app, vskip_end by lia.
    pose proof (IH j (v + 1) H ltac:(lia) ltac:(lia)) as Q. rewrite Z.eqb_refl in Q.
    destruct (Z.eqb_spec o H); lia.
  Qed.
End Tape.

(** Facts about ordered lists of records and about the log specification. *)
From Verif Require Import Base BaseFacts Spec.
Open Scope Z_scope.

Lemma asc_cons r l : ascending (r :: l) <-> (forall y, In y l -> rkey r < rkey y) /\ ascending l.
Proof.
  revert r; induction l as [|a l IH]; intros r; [cbn; intuition|].
  split.
  - intros [H1 H2]. split; [|auto]. intros y [<-|Hy]; [auto|].
    apply (proj1 (IH a)) in H2 as [H2 _]. specialize (H2 _ Hy). lia.
  - intros [H1 H2]. split; [apply H1; now left|auto].
Qed.

Lemma asc_app a b : ascending (a ++ b) <->
  ascending a /\ ascending b /\ (forall x y, In x a -> In y b -> rkey x < rkey y).
Proof.
  induction a as [|r a IH]; [cbn; intuition|].
  cbn [app]. rewrite !asc_cons, IH. split.
  - intros (H1 & H2 & H3 & H4). repeat split; auto.
    + intros y Hy. apply H1, in_or_app; auto.
    + intros x y [<-|Hx] Hy; auto. apply H1, in_or_app; auto.
  - intros ((H1 & H2) & H3 & H4). repeat split; auto.
    + intros y Hy. apply in_app_or in Hy as [Hy|Hy]; auto. apply H4; auto. now left.
    + intros x y Hx Hy. apply H4; auto. now right.
Qed.

Lemma asc_nth l i j x y : ascending l -> nth_error l i = Some x -> nth_error l j = Some y ->
  (i < j)%nat -> rkey x < rkey y.
Proof.
  revert i j; induction l as [|r l IH]; intros i j H Hi Hj Hl; [destruct i; discriminate|].
  rewrite asc_cons in H. destruct H as [H1 H2]. destruct j as [|j]; [lia|]. destruct i as [|i]; cbn in *.
  - injection Hi as <-. apply H1. eapply nth_error_In; eauto.
  - eapply IH; eauto. lia.
Qed.

Lemma asc_key_inj l x y : ascending l -> In x l -> In y l -> rkey x = rkey y -> x = y.
Proof.
  intros H Hx Hy E. apply In_nth_error in Hx as [i Hi], Hy as [j Hj].
  destruct (Nat.lt_trichotomy i j) as [Hl|[->|Hl]].
  - pose proof (asc_nth _ _ _ _ _ H Hi Hj Hl). lia.
  - congruence.
  - pose proof (asc_nth _ _ _ _ _ H Hj Hi Hl). lia.
Qed.

Lemma find_key_some k l r : ascending l -> find_key k l = Some r <-> In r l /\ rkey r = k.
Proof.
  intros H. unfold find_key. split.
  - intros F. apply find_some in F as [I E]. split; auto. now apply Z.eqb_eq.
  - intros [I E]. destruct (find _ l) as [r'|] eqn:F.
    + apply find_some in F as [I' E']. apply Z.eqb_eq in E'. f_equal. eapply asc_key_inj; eauto. congruence.
    + eapply find_none in F; eauto. rewrite E, Z.eqb_refl in F. discriminate.
Qed.
Lemma find_key_none k l : find_key k l = None <-> (forall r, In r l -> rkey r <> k).
Proof.
  unfold find_key. split.
  - intros F r I E. eapply find_none in F; eauto. rewrite E, Z.eqb_refl in F. discriminate.
  - intros H. destruct (find _ l) as [r'|] eqn:F; auto.
    apply find_some in F as [I' E']. apply Z.eqb_eq in E'. exfalso. eapply H; eauto.
Qed.

Lemma last_key_app l r : last_key (l ++ [r]) = Some (rkey r).
Proof. unfold last_key. now rewrite rev_app_distr. Qed.

Lemma last_key_max l k r : ascending l -> last_key l = Some k -> In r l -> rkey r <= k.
Proof.
  destruct (rev l) as [|x m] eqn:E.
  - intros _ H. unfold last_key in H. rewrite E in H. discriminate.
  - assert (E' : l = rev m ++ [x]) by (rewrite <- (rev_involutive l), E; auto). rewrite E'. clear E E'.
    rewrite last_key_app, asc_app. intros (_ & _ & H) [= <-] I.
    apply in_app_or in I as [I|[<-|[]]]; [|lia]. specialize (H r x I (or_introl eq_refl)). lia.
Qed.

(** Pages of the log. *)
Lemma concat_split {A} (P : list (list A)) i : (i < length P)%nat ->
  concat P = concat (firstn i P) ++ nth i P [] ++ concat (skipn (S i) P).
Proof.
  revert i; induction P as [|p P IH]; intros [|i] H; cbn in *; try lia; auto.
  rewrite IH with (i := i) by lia. now rewrite app_assoc.
Qed.

Lemma in_page_concat {A} (P : list (list A)) i x : In x (nth i P []) -> In x (concat P).
Proof.
  intros H. destruct (Nat.lt_ge_cases i (length P)).
  - rewrite (concat_split P i) by auto. apply in_or_app. right. apply in_or_app. auto.
  - rewrite nth_overflow in H by auto. destruct H.
Qed.

Lemma pages_order P i j x y : ascending (concat P) -> (i < j)%nat ->
  In x (nth i P []) -> In y (nth j P []) -> rkey x < rkey y.
Proof.
  intros H Hl Hx Hy. assert (Li : (i < length P)%nat).
  { destruct (Nat.lt_ge_cases i (length P)); auto. rewrite nth_overflow in Hx by auto. destruct Hx. }
  rewrite (concat_split P i) in H by auto. rewrite asc_app in H. destruct H as (_ & H & _).
  rewrite asc_app in H. destruct H as (_ & _ & H). apply H; auto.
  replace j with (S i + (j - S i))%nat in Hy by lia.
  rewrite <- BaseFacts.nth_skipn in Hy. eapply in_page_concat; eauto.
Qed.

Lemma asc_page P i : ascending (concat P) -> ascending (nth i P []).
Proof.
  intros H. destruct (Nat.lt_ge_cases i (length P)).
  - rewrite (concat_split P i), !asc_app in H by auto. tauto.
  - rewrite nth_overflow by auto. exact I.
Qed.

Lemma in_concat_page {A} (P : list (list A)) x : In x (concat P) -> exists i, (i < length P)%nat /\ In x (nth i P []).
Proof.
  intros H. apply in_concat in H as (p & Hp & Hx). apply In_nth_error in Hp as [i Hi].
  exists i. split; [apply nth_error_Some; congruence|]. now rewrite (nth_error_nth _ _ _ Hi).
Qed.

Lemma in_live (L : log) x : 0 <= lo L -> In x (concat (livePages L)) <->
  exists id, lo L <= id < zlen (pages L) /\ In x (nth (Z.to_nat id) (pages L) []).
Proof.
  intros H. unfold livePages. split.
  - intros I. apply in_concat_page in I as (i & Li & Hi). rewrite skipn_length in Li.
    rewrite BaseFacts.nth_skipn in Hi. exists (lo L + Z.of_nat i). unfold zlen. split; [lia|].
    replace (Z.to_nat (lo L + Z.of_nat i)) with (Z.to_nat (lo L) + i)%nat by lia. auto.
  - intros (id & Hid & Hx). replace (Z.to_nat id) with (Z.to_nat (lo L) + (Z.to_nat id - Z.to_nat (lo L)))%nat in Hx by lia.
    rewrite <- BaseFacts.nth_skipn in Hx. eapply in_page_concat; eauto.
Qed.

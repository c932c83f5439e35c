(** Concrete lifetimes meeting the hypotheses of the reopening theorems. *)
From Verif Require Import Base BaseFacts Config Spline Storage DB Recovery Spec Util UtilFacts SpecPage SpecStore Run SpecRun
  SpecIter SpecReopen ReachFacts ExFacts.
Open Scope Z_scope.

(** The configurations of ExFacts.v opened without the reset flag. *)
Definition eAr := ex_cfg 64 0 4 2 8 1 None None.
Definition eEr := ex_cfg 64 0 4 2 8 1 (Some 255) None.
Lemma eAr_set : setting eAr (2 ^ 31) (2 ^ 31).
Proof. setting_ex. lay. Qed.
Lemma eEr_set : setting eEr (2 ^ 31) (2 ^ 31).
Proof. setting_ex. lay. Qed.
Lemma eAr_modes : modes eAr.
Proof. modes_ex. Qed.
Lemma eEr_modes : modes eEr.
Proof. constructor; [reflexivity|reflexivity|num|discriminate|discriminate]. Qed.

Lemma plain_check c : setting c (2 ^ 31) (2 ^ 31) -> modes c -> useIndex c = false -> (maxRec c <=? 127 = true) -> blank c ->
  plain_db c (2 ^ 31) (2 ^ 31).
Proof. intros. constructor; auto. lia. Qed.
Lemma eA_plain : plain_db eA (2 ^ 31) (2 ^ 31).
Proof. apply plain_check; [exact eA_set|exact eA_modes|reflexivity|vm_compute; reflexivity|split; [reflexivity|exact I]]. Qed.
Lemma eAr_plain : plain_db eAr (2 ^ 31) (2 ^ 31).
Proof. apply plain_check; [exact eAr_set|exact eAr_modes|reflexivity|vm_compute; reflexivity|split; [reflexivity|exact I]]. Qed.
Lemma eE_plain : plain_db eE (2 ^ 31) (2 ^ 31).
Proof. apply plain_check; [exact eE_set|exact eE_modes|reflexivity|vm_compute; reflexivity|split; [reflexivity|right; split; [discriminate|reflexivity]]]. Qed.
Lemma eEr_plain : plain_db eEr (2 ^ 31) (2 ^ 31).
Proof. apply plain_check; [exact eEr_set|exact eEr_modes|reflexivity|vm_compute; reflexivity|split; [reflexivity|right; split; [discriminate|reflexivity]]]. Qed.
Lemma eA_same : same_store eA eAr.
Proof. constructor; reflexivity. Qed.
Lemma eE_same : same_store eE eEr.
Proof. constructor; reflexivity. Qed.
Lemma eAr_same : same_store eAr eAr.
Proof. constructor; reflexivity. Qed.
Lemma eEr_same : same_store eEr eEr.
Proof. constructor; reflexivity. Qed.

(** Deciding [lifetime_ok] for lifetimes that reopen with one configuration. *)
Inductive code := COp (o : hop) | CReopen | CCrash (o : hop) (i : nat).
Definition ev (cr : cfg) (x : code) : event :=
  match x with COp o => EvOp o | CReopen => EvReopen cr | CCrash o i => EvCrash o i cr end.
Definition new_opb (c : cfg) (L : log) (o : hop) : bool :=
  op_plainb c (2 ^ 31) o &&
  match o with HPut k _ => forallb (fun r => rkey r <? k) (accepted L) | _ => true end &&
  (zlen (pages L) + 1 + maxErr c <? 2 ^ 31).
Definition block0b (c : cfg) (P : list (list rcd)) (l : Z) : bool :=
  match eraseFill c with None => false | _ => (zlen P mod numData c =? 0) && (l >? zlen P - numData c) end.
Definition code_okb (c cr : cfg) (L : log) (x : code) : bool :=
  match x with
  | COp o => new_opb c L o
  | CReopen => zlen (pages L) + maxErr cr <? 2 ^ 31
  | CCrash o i =>
      new_opb c L o &&
      match nth_error (op_points c L o) i with
      | Some (P, l) => negb (block0b c P l) && (zlen P + maxErr cr <? 2 ^ 31)
      | None => false
      end
  end.
Fixpoint codes_okb (c cr : cfg) (L : log) (xs : list code) : bool :=
  match xs with
  | [] => true
  | x :: xs' => code_okb c cr L x && (let '(c1, L1) := event_spec c L (ev cr x) in codes_okb c1 cr L1 xs')
  end.
Section Check.
  Variable cr : cfg.
  Hypothesis Db : plain_db cr (2 ^ 31) (2 ^ 31).
  Hypothesis Hr : useReset cr = false.
  Hypothesis He : maxErr cr <= 1.
  Hypothesis Sr : same_store cr cr.
  Lemma new_opb_ok c L o : new_opb c L o = true -> new_op c (2 ^ 31) (2 ^ 31) L o.
  Proof.
    unfold new_opb. rewrite !andb_true_iff. intros [[H1 H2] H3]. split; [|split].
    - pose proof (ops_plain c (2 ^ 31) [o]) as Q. cbn [forallb] in Q. rewrite H1 in Q. exact (Forall_inv (Q eq_refl)).
    - intros k d -> r Hi. rewrite forallb_forall in H2. specialize (H2 r Hi). lia.
    - lia.
  Qed.
  Lemma code_ok c L x : same_store c cr -> code_okb c cr L x = true -> event_ok c (2 ^ 31) (2 ^ 31) L (ev cr x).
  Proof.
    intros S. assert (Ro : forall n, (n + maxErr cr <? 2 ^ 31 = true) -> reopen_ok c cr (2 ^ 31) (2 ^ 31) n).
    { intros n Hn. constructor; auto. lia. }
    destruct x as [o| |o i]; cbn [code_okb ev event_ok].
    - apply new_opb_ok.
    - apply Ro.
    - rewrite andb_true_iff. intros [H1 H2]. split; [apply new_opb_ok; auto|].
      destruct (nth_error (op_points c L o) i) as [[P l]|]; [|discriminate]. exists P, l. split; [auto|].
      apply andb_prop in H2 as [H2 H3]. split; [|apply Ro; auto]. intros (A1 & A2 & A3 & A4). unfold block0b in H2.
      destruct (eraseFill c); [|congruence]. rewrite A3 in H2. cbn [Z.eqb andb] in H2.
      destruct (Z.gtb_spec l (zlen P - numData c)); [discriminate|lia].
  Qed.
  Lemma codes_ok xs : forall c L, same_store c cr -> codes_okb c cr L xs = true ->
    lifetime_ok c (2 ^ 31) (2 ^ 31) L (map (ev cr) xs).
  Proof.
    induction xs as [|x xs IH]; intros c L S H; [exact I|]. cbn [codes_okb map lifetime_ok] in *.
    apply andb_prop in H as [H1 H2]. split; [apply code_ok; auto|].
    assert (S1 : same_store (fst (event_spec c L (ev cr x))) cr) by (destruct x; cbn; auto).
    destruct (event_spec c L (ev cr x)) as [c1 L1]. cbn [fst] in S1. auto.
  Qed.
End Check.
Lemma eAr_codes xs : codes_okb eA eAr emptyLog xs = true -> lifetime_ok eA (2 ^ 31) (2 ^ 31) emptyLog (map (ev eAr) xs).
Proof. apply codes_ok; [exact eAr_plain|reflexivity|discriminate|exact eAr_same|exact eA_same]. Qed.
Lemma eEr_codes xs : codes_okb eE eEr emptyLog xs = true -> lifetime_ok eE (2 ^ 31) (2 ^ 31) emptyLog (map (ev eEr) xs).
Proof. apply codes_ok; [exact eEr_plain|reflexivity|discriminate|exact eEr_same|exact eE_same]. Qed.

Lemma eA_created : exists s, created eA (2 ^ 31) (2 ^ 31) noDisk s.
Proof. destruct (eA_open noDisk) as (s & E). exists s. split; [exact eA_plain|]. split; [reflexivity|]. split; [reflexivity|exact E]. Qed.
Lemma eE_created : exists s, created eE (2 ^ 31) (2 ^ 31) noDisk s.
Proof. destruct (eE_open noDisk) as (s & E). exists s. split; [exact eE_plain|]. split; [reflexivity|]. split; [reflexivity|exact E]. Qed.

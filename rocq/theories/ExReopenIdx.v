(** Concrete lifetimes of databases with an index. *)
From Verif Require Import Base BaseFacts Config Spline Storage DB Recovery Spec Util UtilFacts SpecPage SpecStore Run SpecRun
  SpecIter SpecReopen SpecReopenIdx ReachFacts ExFacts ExReopen.
Open Scope Z_scope.

(** The configuration with an index of ExFacts.v opened without the reset flag, and
    the same pair on storage with visible erases. *)
Definition eXr := ex_cfg 128 (1 + 2 + 8) 8 2 8 1 None None.
Definition eY := ex_cfg 128 (1 + 2 + 8 + 32) 8 2 8 1 (Some 255) None.
Definition eYr := ex_cfg 128 (1 + 2 + 8) 8 2 8 1 (Some 255) None.
Lemma eXr_set : setting eXr (2 ^ 31) (2 ^ 31).
Proof. setting_ex. lay. cbn [eXr ex_cfg updBM]. now rewrite ex_upd_length. Qed.
Lemma eY_set : setting eY (2 ^ 31) (2 ^ 31).
Proof. setting_ex. lay. cbn [eY ex_cfg updBM]. now rewrite ex_upd_length. Qed.
Lemma eYr_set : setting eYr (2 ^ 31) (2 ^ 31).
Proof. setting_ex. lay. cbn [eYr ex_cfg updBM]. now rewrite ex_upd_length. Qed.
Lemma eXr_modes : modes eXr.
Proof. modes_ex. Qed.
Lemma eY_modes : modes eY.
Proof. constructor; [reflexivity|reflexivity|num|discriminate|discriminate]. Qed.
Lemma eYr_modes : modes eYr.
Proof. constructor; [reflexivity|reflexivity|num|discriminate|discriminate]. Qed.

Lemma idx_check c : setting c (2 ^ 31) (2 ^ 31) -> modes c -> blank c -> idx_blank c ->
  (maxRec c <=? 127) && (4 <=? bufBlocks c) && (4 * eraseSize c <=? numData c) && (numIndex c mod eraseSize c =? 0) &&
  (2 * eraseSize c <=? numIndex c) = true -> idx_db c (2 ^ 31) (2 ^ 31).
Proof. intros S M B Ib H. rewrite !andb_true_iff in H. constructor; auto; [lia|]. intros _. split; [auto|]. lia. Qed.
Ltac idx_ex S M := apply idx_check; [exact S|exact M|split; [reflexivity|cbn; auto; right; lia]
  |split; [reflexivity|split; [cbn; auto|left; reflexivity]]|vm_compute; reflexivity].
Lemma eX_idx : idx_db eX (2 ^ 31) (2 ^ 31).
Proof. idx_ex eX_set eX_modes. Qed.
Lemma eXr_idx : idx_db eXr (2 ^ 31) (2 ^ 31).
Proof. idx_ex eXr_set eXr_modes. Qed.
Lemma eY_idx : idx_db eY (2 ^ 31) (2 ^ 31).
Proof. idx_ex eY_set eY_modes. Qed.
Lemma eYr_idx : idx_db eYr (2 ^ 31) (2 ^ 31).
Proof. idx_ex eYr_set eYr_modes. Qed.

(** Deciding [ilife_ok]. *)
Definition iop_okb (c : cfg) (L : log) (ic : Z) (o : hop) : bool :=
  new_opb c L o && match o with HFlush => ic <? maxIdx c | _ => true end.
Definition icode_okb (c cr : cfg) (L : log) (ic : Z) (x : code) : bool :=
  match x with
  | COp o => iop_okb c L ic o
  | CReopen => zlen (pages L) + maxErr cr <? 2 ^ 31
  | CCrash o i =>
      iop_okb c L ic o &&
      let '(P, l) := crash_point c L o i in negb (block0b c P l) && (zlen P + maxErr cr <? 2 ^ 31)
  end.
Fixpoint icodes_okb (c cr : cfg) (L : log) (ic : Z) (xs : list code) : bool :=
  match xs with
  | [] => true
  | x :: xs' => icode_okb c cr L ic x && (let '(c1, L1, ic1) := iev_spec c L ic (ev cr x) in icodes_okb c1 cr L1 ic1 xs')
  end.
Section Check.
  Variable cr : cfg.
  Hypothesis Db : idx_db cr (2 ^ 31) (2 ^ 31).
  Hypothesis Hr : useReset cr = false.
  Hypothesis He : maxErr cr <= 1.
  Hypothesis Sr : same_store cr cr.
  Lemma iop_okb_ok c L ic o : iop_okb c L ic o = true -> iop_ok c (2 ^ 31) (2 ^ 31) L ic o.
  Proof.
    unfold iop_okb. rewrite andb_true_iff. intros [H1 H2]. split; [apply (new_opb_ok cr); auto|]. intros -> _ _. lia.
  Qed.
  Lemma icode_ok c L ic x : same_store c cr -> icode_okb c cr L ic x = true -> iev_ok c (2 ^ 31) (2 ^ 31) L ic (ev cr x).
  Proof.
    intros S. assert (Ro : forall n, (n + maxErr cr <? 2 ^ 31 = true) -> idx_reopen_ok c cr (2 ^ 31) (2 ^ 31) n).
    { intros n Hn. constructor; auto. lia. }
    destruct x as [o| |o i]; cbn [icode_okb ev iev_ok].
    - apply iop_okb_ok.
    - apply Ro.
    - rewrite andb_true_iff. intros [H1 H2]. split; [apply iop_okb_ok; auto|].
      destruct (crash_point c L o i) as [P l].
      apply andb_prop in H2 as [H2 H3]. split; [|apply Ro; auto]. intros (A1 & A2 & A3 & A4). unfold block0b in H2.
      destruct (eraseFill c); [|congruence]. rewrite A3 in H2. cbn [Z.eqb andb] in H2.
      destruct (Z.gtb_spec l (zlen P - numData c)); [discriminate|lia].
  Qed.
  Lemma icodes_ok xs : forall c L ic, same_store c cr -> icodes_okb c cr L ic xs = true ->
    ilife_ok c (2 ^ 31) (2 ^ 31) L ic (map (ev cr) xs).
  Proof.
    induction xs as [|x xs IH]; intros c L ic S H; [exact I|]. cbn [icodes_okb map ilife_ok] in *.
    apply andb_prop in H as [H1 H2]. split; [apply icode_ok; auto|].
    assert (S1 : same_store (fst (fst (iev_spec c L ic (ev cr x)))) cr) by (destruct x; cbn; auto).
    destruct (iev_spec c L ic (ev cr x)) as [[c1 L1] ic1]. cbn [fst] in S1. auto.
  Qed.
End Check.
Lemma eXr_codes xs : icodes_okb eX eXr emptyLog 0 xs = true -> ilife_ok eX (2 ^ 31) (2 ^ 31) emptyLog 0 (map (ev eXr) xs).
Proof. apply icodes_ok; [exact eXr_idx|reflexivity|discriminate|constructor; reflexivity|constructor; reflexivity]. Qed.
Lemma eYr_codes xs : icodes_okb eY eYr emptyLog 0 xs = true -> ilife_ok eY (2 ^ 31) (2 ^ 31) emptyLog 0 (map (ev eYr) xs).
Proof. apply icodes_ok; [exact eYr_idx|reflexivity|discriminate|constructor; reflexivity|constructor; reflexivity]. Qed.

Lemma eX_created : exists s, idx_created eX (2 ^ 31) (2 ^ 31) noDisk s.
Proof. destruct (eX_open noDisk) as (s & E). exists s. split; [exact eX_idx|]. split; [reflexivity|]. split; [reflexivity|exact E]. Qed.
Lemma eY_created : exists s, idx_created eY (2 ^ 31) (2 ^ 31) noDisk s.
Proof.
  assert (E : exists s, embedDBInit eY noDisk [] = Ok (s, 0)).
  { apply (fresh_exists _ _ _ noDisk eY_set); try reflexivity. vm_compute; intuition congruence. }
  destruct E as (s & E). exists s. split; [exact eY_idx|]. split; [reflexivity|]. split; [reflexivity|exact E].
Qed.

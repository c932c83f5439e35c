(** Concrete tables and plans, with boolean checks of their conditions. *)
From Verif Require Import Base BaseFacts Config Spline Storage DB Recovery Schema Query Spec SpecUtil SpecPage SpecStore SpecIter
  Run SpecRun ReachFacts SpecQuery QueryFacts ExFacts ExIter.
Open Scope Z_scope.

Definition bytesb (l : list Z) : bool := forallb (fun b => (0 <=? b) && (b <? 256)) l.
Lemma bytesb_ok l : bytesb l = true -> bytes_ok l.
Proof.
  unfold bytesb, bytes_ok. intros H. apply Forall_forall. intros x Hx. rewrite forallb_forall in H. specialize (H x Hx). lia.
Qed.
Definition schema_okb (s : list Z) : bool :=
  forallb (fun c => negb (c =? 0) && (-128 <? c) && (c <? 128)) s && (zlen s <? 256).
Lemma schema_okb_ok s : schema_okb s = true -> schema_ok s.
Proof.
  unfold schema_okb. intros H. apply andb_prop in H as [H1 H2]. split; [|lia].
  apply Forall_forall. intros x Hx. rewrite forallb_forall in H1. specialize (H1 x Hx).
  rewrite !andb_true_iff in H1. lia.
Qed.
Definition col_inb (s : list Z) (col : Z) : bool := (0 <=? col) && (col <? zlen s).
Definition keys_ascb (s : list Z) : list (list Z) -> bool :=
  fix go rs := match rs with
  | r :: ((r' :: _) as rest) => (field s 0 r <? field s 0 r') && go rest
  | _ => true
  end.
Lemma keys_ascb_ok s rs : keys_ascb s rs = true -> keys_asc s rs.
Proof.
  induction rs as [|r rs IH]; intros H; [exact I|]. destruct rs as [|r' rs]; [exact I|].
  change ((field s 0 r <? field s 0 r') && keys_ascb s (r' :: rs) = true) in H.
  apply andb_prop in H as [H1 H2]. split; [lia|auto].
Qed.
(** Averages excepted. *)
Definition afun_okb (s : list Z) (f : afun) : bool :=
  match f with
  | FCount => true
  | FSum col => col_inb s col && (-4 <=? col_desc s col) && (col_desc s col <=? 8)
  | FMin col sz | FMax col sz => col_inb s col && (sz =? col_desc s col)
  | FAvg _ _ _ => false
  end.
Lemma afun_okb_ok s f : afun_okb s f = true -> afun_ok s f.
Proof.
  destruct f; cbn [afun_okb afun_ok]; unfold col_inb, col_in; rewrite ?andb_true_iff; try congruence; lia.
Qed.

Section Check.
  Variables (db : nat -> cfg * log) (KB : Z).
  Fixpoint plan_okb (p : plan) : bool :=
    schema_okb (plan_schema p) &&
    match p with
    | PScan n q s => query_okb KB q && negb (uses_bitmap (fst (db n)) q) && (2 <=? zlen s) &&
        (col_desc s 0 =? keySize (fst (db n))) && (widths s =? keySize (fst (db n)) + dataSize (fst (db n)))
    | PSel col oper val p => plan_okb p && col_inb (plan_schema p) col && bytesb val &&
        (Z.abs (col_desc (plan_schema p) col) <=? zlen val)
    | PProj cols p => plan_okb p && forallb (col_inb (plan_schema p)) cols
    | PAgg grp fs p => plan_okb p && forallb (afun_okb (plan_schema p)) fs && plan_sticky p &&
        (zlen (denote db p) <? 2 ^ 31)
    | PJoin p1 p2 => plan_okb p1 && plan_okb p2 && col_inb (plan_schema p1) 0 && col_inb (plan_schema p2) 0 &&
        (0 <? col_desc (plan_schema p1) 0) && (col_desc (plan_schema p1) 0 =? col_desc (plan_schema p2) 0) &&
        keys_ascb (plan_schema p1) (denote db p1) && keys_ascb (plan_schema p2) (denote db p2)
    end.
  Lemma plan_okb_ok p : plan_okb p = true -> plan_ok db (fun _ => KB) p.
  Proof.
    induction p as [n q s|col oper val p IH|cols p IH|grp fs p IH|p1 IH1 p2 IH2]; intros H; cbn [plan_okb plan_ok] in *;
      apply andb_prop in H as [H0 H]; apply schema_okb_ok in H0; (split; [exact H0|]); rewrite ?andb_true_iff in H.
    - destruct H as ((((H1 & H2) & H3) & H4) & H5). split; [apply query_okb_ok; auto|].
      split; [destruct (uses_bitmap (fst (db n)) q); auto; discriminate|]. split; [lia|]. split; lia.
    - destruct H as (((H1 & H2) & H3) & H4). unfold col_inb in H2. split; [auto|]. split; [unfold col_in; lia|].
      split; [apply bytesb_ok; auto|lia].
    - destruct H as (H1 & H2). split; [auto|]. apply Forall_forall. intros x Hx. rewrite forallb_forall in H2.
      specialize (H2 x Hx). unfold col_inb, col_in in *. lia.
    - destruct H as (((H1 & H2) & H3) & H4). split; [auto|]. split; [|split; [auto|lia]].
      apply Forall_forall. intros x Hx. rewrite forallb_forall in H2. apply afun_okb_ok; auto.
    - destruct H as (((((((A & B) & C) & D) & E) & F) & K1) & K2). unfold col_inb in C, D.
      split; [auto|]. split; [auto|]. split; [unfold col_in; lia|]. split; [unfold col_in; lia|].
      split; [lia|]. split; [lia|]. split; apply keys_ascb_ok; auto.
  Qed.
End Check.

Definition bytes_logb (L : log) : bool := forallb (fun r => bytesb (rdata r)) (accepted L).
Lemma bytes_logb_ok L : bytes_logb L = true -> Forall (fun r => bytes_ok (rdata r)) (accepted L).
Proof.
  unfold bytes_logb. intros H. apply Forall_forall. intros x Hx. rewrite forallb_forall in H. apply bytesb_ok; auto.
Qed.

(** Two tables of configuration [eA] (4-byte keys and data): keys 1..40 with a
    lookup in between, after which the data area has wrapped; and every third key from 6 to 39. *)
Definition hT0 : list hop := puts 30 1 1 ++ [HGet 30] ++ puts 10 31 1.
Definition hT1 : list hop := puts 12 6 3.
Definition logsT (n : nat) : log := spec_log eA (match n with O => hT0 | _ => hT1 end).
Definition dbT (n : nat) : cfg * log := (eA, logsT n).

Lemma tables_ex : exists s0 s1, let e := fun n : nat => (eA, match n with O => s0 | _ => s1 end) in
  forall n, table (2 ^ 31) (2 ^ 31) (e n) (logsT n).
Proof.
  destruct (calmly_ex eA hT0) as (s0 & xs0 & R0); [vm_compute; reflexivity|vm_compute; reflexivity|].
  destruct (calmly_ex eA hT1) as (s1 & xs1 & R1); [vm_compute; reflexivity|vm_compute; reflexivity|].
  exists s0, s1. intros e [|n].
  - apply (t_calm _ _ eA noDisk hT0 s0 xs0); [quiet_ex|exact R0|reflexivity|apply bytes_logb_ok; vm_compute; reflexivity].
  - apply (t_calm _ _ eA noDisk hT1 s1 xs1); [quiet_ex|exact R1|reflexivity|apply bytes_logb_ok; vm_compute; reflexivity].
Qed.

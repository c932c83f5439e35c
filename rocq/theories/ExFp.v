(** Concrete pages, roundings and histories for the floating-point theorems. *)
From Verif Require Import Base BaseFacts Config Spline Storage DB Recovery Spec SpecPage SpecStore Run SpecRun
  LogFacts StoreFacts GetFacts ReachFacts ExFacts Fp SpecFp NearFacts.
From Coq Require Import QArith.
Open Scope Z_scope.

(** float, double and the x87 long double, rounding to nearest. *)
Definition f32 := near 24.
Definition f64 := near 53.
Definition f80 := near 64.
Lemma f32_ok : rounds 24 f32. Proof. apply near_rounds. lia. Qed.
Lemma f64_ok : rounds 53 f64. Proof. apply near_rounds. lia. Qed.
Lemma f80_ok : rounds 64 f80. Proof. apply near_rounds. lia. Qed.

(** The write buffer after a history. *)
Lemma buffer_page c KB PB h k s0 : scenario c KB PB h -> embedDBInit c k [] = Ok (s0, 0) ->
  exists s xs, run c s0 h = Ok (s, xs) /\ holds c (wbuf (sd s)) (cur (log_of c h)) /\
    ascending (cur (log_of c h)) /\ Forall (rec_ok c KB) (cur (log_of c h)).
Proof.
  intros S H. destruct (runs c KB PB h S k s0 H) as (s & xs & E & I & _).
  pose proof (i_wf _ _ _ _ _ _ _ _ I) as W. pose proof (w_asc _ _ _ W) as A. pose proof (w_recs _ _ _ W) as R.
  unfold accepted in A, R. rewrite asc_app in A. rewrite Forall_app in R.
  exists s, xs. split; [exact E|]. split; [apply (i_w _ _ _ _ _ _ _ _ I)|]. split; tauto.
Qed.

(** Deciding [lookups_fit]. *)
Definition withinb (l : list rcd) (k : Z) : bool :=
  match l with [] => true | _ => existsb (fun r => rkey r <=? k) l && existsb (fun r => k <=? rkey r) l end.
Fixpoint fitb (c : cfg) (L : log) (h : list hop) : bool :=
  match h with
  | [] => true
  | o :: h' =>
      match o with HGet k => match pages L with [] => withinb (cur L) k | _ => true end | _ => true end &&
      fitb c (log_step (maxRec c) (numData c) (eraseSize c) L o) h'
  end.
Lemma fitb_ok c h : forall L, fitb c L h = true -> lookups_fit c L h.
Proof.
  induction h as [|o h IH]; intros L H; [exact I|]. cbn [fitb lookups_fit] in *. apply andb_prop in H as [H1 H2].
  split; [|auto]. destruct o; auto. destruct (pages L); [|left; discriminate]. right.
  unfold withinb in H1. destruct (cur L) as [|r l] eqn:E; [left; auto|]. right.
  apply andb_prop in H1 as [A B]. apply existsb_exists in A as (a & Ia & A). apply existsb_exists in B as (b & Ib & B).
  exists a, b. split; [auto|]. split; [auto|]. apply Z.leb_le in A, B. auto.
Qed.

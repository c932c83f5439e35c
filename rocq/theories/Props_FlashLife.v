(** Property C39 over whole lifetimes of a database without index, variable data and
    record-level consistency: sessions, stops, crashes and reopenings.  It excludes the
    stops of C39_reopen_refuted (Refuted_Flash.v); an index or variable data and
    record-level consistency over several sessions are missing. *)
From Verif Require Import Base Config Spline Storage DB VarData Recovery Spec SpecPage SpecStore Run SpecRun SpecIter SpecReopen
  ExFacts ExReopen SpecFlash SpecFlashLife FlashLifeFacts.
Open Scope Z_scope.

(** C39: every page is programmed only while it is vacant, counted over all sessions,
    and every erase acts on one aligned block, if no session stops at an inner block
    boundary of a wrapped area whose next block has not been erased. *)
Theorem C39_lifetime_partial :
  forall KB PB c k s es, created c KB PB k s -> lifetime_ok c KB PB emptyLog es -> clean_stops c emptyLog es ->
  exists t f P, story c s es = Ok (t, f) /\ area_run c (numData c) t P f.
Proof. exact flash_life. Qed.
Print Assumptions C39_lifetime_partial.

(** C39, in terms of contents. *)
Theorem C39_lifetime_no_overwrite_partial :
  forall KB PB c k s es x, created c KB PB k s -> lifetime_ok c KB PB emptyLog es -> clean_stops c emptyLog es -> eraseFill c = Some x ->
  exists t f, story c s es = Ok (t, f) /\ kept_along c x t.
Proof. exact kept_life. Qed.
Print Assumptions C39_lifetime_no_overwrite_partial.

(** Two reopenings and a crash between an erase and the write after it, all in an area
    of four pages that has wrapped around. *)
Definition atb (c : cfg) (P : list (list rcd)) (l : Z) : bool :=
  (numData c <? zlen P) && (zlen P mod eraseSize c =? 0) && negb (zlen P mod numData c =? 0) && (l =? zlen P - numData c).
Definition cleanb (c : cfg) (L : log) (e : event) : bool :=
  match e with
  | EvOp _ => true
  | EvReopen _ => negb (atb c (pages L) (lo L))
  | EvCrash o i _ => match nth_error (op_points c L o) i with Some (P, l) => negb (atb c P l) | None => true end
  end.
Fixpoint cleansb (c : cfg) (L : log) (es : list event) : bool :=
  match es with
  | [] => true
  | e :: es' => cleanb c L e && (let '(c1, L1) := event_spec c L e in cleansb c1 L1 es')
  end.
Lemma atb_ok c P l : atb c P l = false -> ~ at_boundary c P l.
Proof.
  unfold atb. intros H (A1 & A2 & A3 & A4). apply Z.ltb_lt in A1. apply Z.eqb_eq in A2. apply Z.eqb_neq in A3. apply Z.eqb_eq in A4.
  rewrite A1, A2, A3, A4 in H. discriminate.
Qed.
Lemma cleans_ok es : forall c L, cleansb c L es = true -> clean_stops c L es.
Proof.
  induction es as [|e es IH]; intros c L H; [exact I|]. cbn [cleansb clean_stops] in *. apply andb_prop in H as [H1 H2]. split.
  - destruct e as [o|c'|o i c']; cbn [cleanb clean_stop] in *; [exact I| |].
    + apply atb_ok. now destruct (atb c (pages L) (lo L)).
    + intros P l E. rewrite E in H1. apply atb_ok. now destruct (atb c P l).
  - destruct (event_spec c L e) as [c1 L1]. auto.
Qed.
Definition lifeF : list code :=
  map COp (puts 60 1 1 ++ [HFlush]) ++ [CReopen] ++ map COp (puts 14 100 1) ++ [CCrash (HPut 200 [9; 9; 9; 9]) 1] ++
  map COp (puts 22 300 1) ++ [CReopen] ++ map COp (puts 20 400 1 ++ [HGet 410; HFlush]).
Example C39_lifetime_example : exists s t f P, created eE (2 ^ 31) (2 ^ 31) noDisk s /\ story eE s (map (ev eEr) lifeF) = Ok (t, f) /\
  area_run eE 4 t P f /\ length t = 22%nat.
Proof.
  destruct eE_created as (s & C).
  assert (H1 : codes_okb eE eEr emptyLog lifeF = true) by (vm_compute; reflexivity).
  assert (H2 : cleansb eE emptyLog (map (ev eEr) lifeF) = true) by (vm_compute; reflexivity).
  destruct (C39_lifetime_partial _ _ _ _ _ _ C (eEr_codes _ H1) (cleans_ok _ _ _ H2)) as (t & f & P & E & R).
  exists s, t, f, P. split; [exact C|]. split; [exact E|]. split; [exact R|]. destruct C as (_ & _ & _ & C).
  assert (Q : match embedDBInit eE noDisk [] with
              | Ok (s, _) => match story eE s (map (ev eEr) lifeF) with Ok (t, _) => length t | _ => 0%nat end
              | _ => 0%nat end = 22%nat) by (vm_compute; reflexivity).
  now rewrite C, E in Q.
Qed.
(** The stop that is excluded: the same area, stopped at an inner block boundary. *)
Example C39_lifetime_excluded_example : cleansb eE emptyLog (map (ev eEr) (map COp (puts 70 1 1 ++ [HFlush]) ++ [CReopen])) = false.
Proof. vm_compute. reflexivity. Qed.

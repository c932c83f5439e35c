(** Memory safety with record-level consistency on damaged storage, stated on the contents of
    the data file (property C42).

    [contents_plausible c f] (SpecAnyRlc.v): every page of [f] that does not look erased claims no
    more records than fit.  Keys, data, order and page numbers are arbitrary.  Without it the
    first put can be undefined (C42_rlc_put_refuted). *)
From Verif Require Import Base Config Spline Storage DB VarData Recovery Util Spec SpecPage Run SpecFlash SpecAny AnyFacts ExFacts Props_Any SpecAnyRlc AnyRlcFacts.
Open Scope Z_scope.

(** C42: opening leaves sound buffers and sound counts, whichever storage calls fail. *)
Theorem C42_rlc_opening_any_contents : forall c k fs,
  workable c -> disk_sized c k -> numData c < NOPAGE ->
  (forall f, kD k = Some f -> contents_plausible c f) ->
  exists s r, embedDBInit c k fs = Ok (s, r) /\ (r = 0 \/ r = -1) /\
  (r = 0 -> buffers_fit c s /\ counts_fit c s).
Proof. exact opening_rlc. Qed.
Print Assumptions C42_rlc_opening_any_contents.

(** C42: hence a whole session of puts and flushes is defined. *)
Theorem C42_rlc_session_any_contents : forall c k fs os,
  workable c -> disk_sized c k -> numData c < NOPAGE -> (useBinary c = true -> noClean c = true) ->
  (forall f, kD k = Some f -> contents_plausible c f) ->
  (forall s, Forall (fun o => write_ok c s o /\ (o = CFlush -> useIndex c = false)) os) ->
  exists s r, embedDBInit c k fs = Ok (s, r) /\ (r = 0 \/ r = -1) /\
  (r = 0 -> exists s', calls c s os = Ok s' /\ buffers_fit c s' /\ counts_fit c s').
Proof. exact session_rlc. Qed.
Print Assumptions C42_rlc_session_any_contents.

(** Accidental bytes with plausible counts, one erased page (it "claims" 65535 records), and a
    temporary page with four records that is restored; some storage calls fail. *)
Definition noiseE (n : Z) : page := if n =? 7 then repeat 255 128 else noiseR n.
Definition kE : disk := mkDisk (Some (mkFile 8 noiseE)) (Some (mkFile 5 noise)) (Some (mkFile 8 noise)).
Definition plausb (c : cfg) (p : page) : bool :=
  negb (u32 (numbered p + 1) =? NOPAGE) && ((numbered p =? NOPAGE) || (0 <=? claims p) && (claims p <=? maxRec c)).
Lemma plausb_ok c p : plausb c p = true -> page_plausible c p.
Proof.
  unfold plausb, page_plausible. intros H. apply andb_true_iff in H as [A B]. split.
  - apply negb_true_iff, Z.eqb_neq in A. exact A.
  - apply orb_true_iff in B as [B|B]; [left; now apply Z.eqb_eq|right]. apply andb_true_iff in B as [B C]. split; now apply Z.leb_le.
Qed.
Lemma kE_plausible f : kD kE = Some f -> contents_plausible cNr f.
Proof.
  intros E. injection E as <-. constructor.
  - intros n p R. apply plausb_ok. revert n p R. apply fileb_ok. vm_compute. reflexivity.
  - intros x [E|E]; [injection E as <-|rewrite E]; apply plausb_ok; vm_compute; reflexivity.
Qed.
Example C42_rlc_session_example : exists s s',
  embedDBInit cNr kE fNr = Ok (s, 0) /\ claims (wbuf (sd s)) = 3 /\ claims (noiseE 7) = 65535 /\
  calls cNr s opsN = Ok s' /\ buffers_fit cNr s' /\ counts_fit cNr s'.
Proof.
  destruct (C42_rlc_session_any_contents cNr kE fNr opsN cNr_workable) as (s & r & E & _ & H).
  - intros f [Ef|[Ef|Ef]]; injection Ef as <-; apply file_sized_check; vm_compute; reflexivity.
  - vm_compute. reflexivity.
  - discriminate.
  - exact kE_plausible.
  - intros s. apply Forall_app. split; apply Forall_map, Forall_forall; intros i _; (split; [|discriminate]); cbn [write_ok].
    + split; [reflexivity|]. intros _. exists (2 ^ 25). reflexivity.
    + reflexivity.
  - assert (X : ('(s, r) <- embedDBInit cNr kE fNr ;; Ok (r, claims (wbuf (sd s)))) = Ok (0, 3)) by (vm_compute; reflexivity).
    rewrite E in X. cbn [bind] in X. injection X as -> X. destruct (H eq_refl) as (s' & E' & F' & C').
    exists s, s'. split; [exact E|split; [exact X|split; [vm_compute; reflexivity|auto]]].
Qed.

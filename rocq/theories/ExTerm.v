(** Single steps of the binary search over pages, to show that it does not end. *)
From Verif Require Import Base BaseFacts Config Spline Storage DB.
Open Scope Z_scope.

(** One turn of [binary_loop]: the next (first, last, pageId), or [None] when the loop
    stops. *)
Definition bstep (c : cfg) (key : Z) (x : state * Z * Z * Z) : option (state * Z * Z * Z) :=
  let '(s, first, last, pageId) := x in
  let '(s, r) := readPage s (pageId mod numData c) in
  if negb (r =? 0) || (first >=? last) then None
  else match min_key c (rbuf (sd s)), max_key c (rbuf (sd s)) with
       | Ok mk, Ok xk =>
           if cmpK c key mk <? 0 then
             let last := u32 (pageId - 1) in Some (s, first, last, u32 (first + last) / 2)
           else if cmpK c key xk >? 0 then
             let first := u32 (pageId + 1) in Some (s, first, last, u32 (first + last) / 2)
           else None
       | _, _ => None
       end.
Fixpoint bsteps (c : cfg) (key : Z) (n : nat) (x : state * Z * Z * Z) : option (state * Z * Z * Z) :=
  match n with
  | O => Some x
  | S n' => match bstep c key x with Some y => bsteps c key n' y | None => None end
  end.

Lemma bstep_loop c key s first last pid s' first' last' pid' fuel :
  bstep c key (s, first, last, pid) = Some (s', first', last', pid') ->
  binary_loop c s key (S fuel) first last pid = binary_loop c s' key fuel first' last' pid'.
Proof.
  unfold bstep. cbn [binary_loop]. destruct (readPage _ _) as [s1 r].
  destruct (negb _); [discriminate|]. destruct (first >=? last); [discriminate|]. cbn [orb].
  destruct (min_key c _) as [mk| |]; try discriminate. destruct (max_key c _) as [xk| |]; try discriminate. cbn [bind].
  destruct (_ <? 0); [intros [= <- <- <- <-]; reflexivity|]. destruct (_ >? 0); [intros [= <- <- <- <-]; reflexivity|discriminate].
Qed.

(** A state that repeats keeps the loop running for ever. *)
Definition stuck (c : cfg) (key : Z) (x : state * Z * Z * Z) : bool :=
  let '(s, first, last, pid) := x in
  (pid mod numData c =? bufD (sd s)) && (first <? last) &&
  (match min_key c (rbuf (sd s)) with Ok mk => cmpK c key mk <? 0 | _ => false end) &&
  (u32 (pid - 1) =? last) && (u32 (first + last) / 2 =? pid).
Lemma stuck_loop c key s first last pid fuel :
  stuck c key (s, first, last, pid) = true -> binary_loop c s key fuel first last pid = Fuel.
Proof.
  unfold stuck. intros H. repeat (apply andb_prop in H; destruct H as [H ?]).
  destruct (min_key c (rbuf (sd s))) as [mk| |] eqn:Em; try discriminate.
  induction fuel as [|f IH]; [reflexivity|]. cbn [binary_loop]. unfold readPage. rewrite H. cbn [negb Z.eqb].
  replace (first >=? last) with false by (symmetry; destruct (Z.geb_spec first last); [exfalso|reflexivity]; apply Z.ltb_lt in H3; lia).
  rewrite Em. cbn [bind]. rewrite H2. apply Z.eqb_eq in H1. apply Z.eqb_eq in H0. rewrite H1, H0. exact IH.
Qed.
Lemma steps_stuck c key n : forall s first last pid,
  (match bsteps c key n (s, first, last, pid) with Some y => stuck c key y | None => false end) = true ->
  forall fuel, binary_loop c s key fuel first last pid = Fuel.
Proof.
  induction n as [|n IH]; intros s first last pid H fuel; cbn [bsteps] in H.
  - apply stuck_loop. exact H.
  - destruct (bstep c key (s, first, last, pid)) as [[[[s' f'] l'] p']|] eqn:E; [|discriminate].
    destruct fuel as [|fuel]; [reflexivity|]. rewrite (bstep_loop _ _ _ _ _ _ _ _ _ _ fuel E). apply (IH _ _ _ _ H).
Qed.

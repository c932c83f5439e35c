(** Storing a record leaves the variable area of storage alone at every moment. *)
From Verif Require Import Base Config Spline Storage DB VarData SpecFlash FlashFacts.
Open Scope Z_scope.

Definition still (o o' : io) : Prop :=
  fV o' = fV o /\ exists new, trace o' = new ++ trace o /\ Forall (fun im => snd im = fV o) new.
Lemma still_refl o : still o o.
Proof. split; [auto|]. exists []. auto. Qed.
Lemma still_trans a b d : still a b -> still b d -> still a d.
Proof.
  intros (A1 & n1 & A2 & A3) (B1 & n2 & B2 & B3). split; [congruence|]. exists (n2 ++ n1).
  split; [rewrite B2, A2; apply app_assoc|]. apply Forall_app. split; [|auto]. now rewrite <- A1.
Qed.
Lemma ro_still s s' : read_only s s' -> still (sio s) (sio s').
Proof. intros ((_ & _ & H & T) & _). split; [auto|]. exists []. auto. Qed.

(** One storage operation on another area. *)
Lemma put_still w o o1 F : w <> WV -> fV o1 = fV o -> trace o1 = trace o -> still o (putF w o1 F).
Proof.
  intros Hw H1 H2. unfold still. destruct w; [| |congruence]; cbn [putF fV trace]; rewrite H1, H2;
    (split; [auto|]; eexists [_]; split; [reflexivity|]; constructor; auto).
Qed.
Lemma write_still c w n p o o' ok : w <> WV -> io_write c w n p o = (o', ok) -> still o o'.
Proof.
  intros Hw. unfold io_write. pose proof (take_fault_ro o) as H. destruct (take_fault o) as [b o1]. destruct H as (_ & _ & H1 & H2 & _).
  destruct b; injection 1 as <- <-; [|now apply put_still]. split; [auto|]. exists []. auto.
Qed.
Lemma erase_still c w n m o o' ok : w <> WV -> io_erase c w n m o = (o', ok) -> still o o'.
Proof.
  intros Hw. unfold io_erase. pose proof (take_fault_ro o) as H. destruct (take_fault o) as [b o1]. destruct H as (_ & _ & H1 & H2 & _).
  destruct b; injection 1 as <- <-; [|now apply put_still]. split; [auto|]. exists []. auto.
Qed.

Lemma writePage_still c s s' r : writePage c s = Ok (s', r) -> still (sio s) (sio s').
Proof.
  unfold writePage. cbv zeta. intros H. destruct (set_pid _ _) as [w| |]; cbn [bind] in H; try discriminate H.
  match type of H with bind ?x _ = _ => destruct x as [[s1 ok]| |] eqn:E1; cbn [bind] in H; try discriminate H end.
  assert (S1 : still (sio s) (sio s1)).
  { cbn [set_d sio sd d_wbuf d_next availD] in E1. destruct (availD (sd s) <=? 0); [|injection E1 as <- <-; apply still_refl].
    destruct (io_erase c WD _ _ (sio s)) as [o oke] eqn:Ee. apply erase_still in Ee; [|congruence].
    assert (sio s1 = o) as ->; [|exact Ee].
    destruct oke; [|now injection E1 as <- <-]. destruct (noClean c); [now injection E1 as <- <-|].
    match type of E1 with match ?x with _ => _ end = _ => destruct x end; [now injection E1 as <- <-|discriminate E1]. }
  destruct ok; cbn [negb] in H; [|injection H as <- <-; exact S1].
  destruct (io_write c WD _ _ (sio s1)) as [o okw] eqn:Ew. apply write_still in Ew; [|congruence].
  assert (sio s' = o) as -> by (destruct okw; injection H as <- <-; reflexivity). exact (still_trans _ _ _ S1 Ew).
Qed.
Lemma writeIndexPage_still c s s' r : writeIndexPage c s = Ok (s', r) -> still (sio s) (sio s').
Proof.
  unfold writeIndexPage. cbv zeta. intros H. destruct (set_pid _ _) as [w| |]; cbn [bind] in H; try discriminate H.
  match type of H with (let '(_, _) := ?x in _) = _ => destruct x as [s1 ok] eqn:E1 end.
  assert (S1 : still (sio s) (sio s1)).
  { cbn [set_i sio si i_wbuf i_next availI] in E1. destruct (availI (si s) <=? 0); [|injection E1 as <- <-; apply still_refl].
    destruct (io_erase c WI _ _ (sio s)) as [o oke] eqn:Ee. apply erase_still in Ee; [|congruence].
    assert (sio s1 = o) as ->; [|exact Ee]. destruct oke; injection E1 as <- <-; reflexivity. }
  destruct ok; cbn [negb] in H; [|injection H as <- <-; exact S1].
  destruct (io_write c WI _ _ (sio s1)) as [o okw] eqn:Ew. apply write_still in Ew; [|congruence].
  assert (sio s' = o) as -> by (destruct okw; injection H as <- <-; reflexivity). exact (still_trans _ _ _ S1 Ew).
Qed.
Lemma indexPage_still c s n s' : indexPage c s n = Ok s' -> sio s' = sio s.
Proof. unfold indexPage. intros H. brk H; reflexivity. Qed.
Lemma idx_append_still c s n s' : idx_append c s n = Ok s' -> sio s' = sio s.
Proof. unfold idx_append. intros H. brk H; reflexivity. Qed.
Lemma put_index_still c s n s' : put_index c s n = Ok s' -> still (sio s) (sio s').
Proof.
  unfold put_index. intros H. destruct (negb (useIndex c)); [injection H as <-; apply still_refl|].
  destruct (get_count _) as [k| |]; cbn [bind] in H; try discriminate H.
  match type of H with bind ?x _ = _ => destruct x as [[s1 k1]| |] eqn:E1; cbn [bind] in H; try discriminate H end.
  rewrite (idx_append_still _ _ _ _ H). destruct (k >=? maxIdx c); [|injection E1 as <- <-; apply still_refl].
  destruct (writeIndexPage c s) as [[s2 r]| |] eqn:Ew; cbn [bind] in E1; try discriminate E1. apply writeIndexPage_still in Ew.
  brk E1. exact Ew.
Qed.
Lemma erase_still_fst c a b o : still o (fst (io_erase c WD a b o)).
Proof. destruct (io_erase c WD a b o) as [o' ok] eqn:E. apply erase_still in E; [exact E|congruence]. Qed.
Lemma temp_still c s s' r : writeTemporaryPage c s = Ok (s', r) -> still (sio s) (sio s').
Proof.
  unfold writeTemporaryPage. intros H. destruct (set_pid _ _) as [w| |]; cbn [bind] in H; try discriminate H. cbv zeta in H.
  destruct (_ =? 1) in H; cbn [set_io set_d sio sd] in H;
    match type of H with (let '(_, _) := ?x in _) = _ => destruct x as [o ok] eqn:Ew end;
    apply write_still in Ew; try congruence; assert (sio s' = o) as -> by (injection H as <- <-; reflexivity); [|exact Ew].
  refine (still_trans _ _ _ _ Ew). apply erase_still_fst.
Qed.
Lemma shift_erase_still c n : forall st o o' ok, shift_erase c n st o = (o', ok) -> still o o'.
Proof.
  induction n as [|n IH]; intros st o o' ok H; cbn [shift_erase] in H; [injection H as <- <-; apply still_refl|].
  destruct (io_erase c WD st _ o) as [o1 ok1] eqn:Ee. apply erase_still in Ee; [|congruence].
  destruct ok1; [|injection H as <- <-; exact Ee]. exact (still_trans _ _ _ Ee (IH _ _ _ _ H)).
Qed.
Lemma shift_still c s s' r : shiftRLC c s = Ok (s', r) -> still (sio s) (sio s').
Proof.
  unfold shiftRLC. cbv zeta. intros H. match type of H with (let '(_, _) := ?x in _) = _ => destruct x as [o ok] eqn:Ee end.
  apply shift_erase_still in Ee. destruct (negb ok); [injection H as <- <-; exact Ee|].
  match type of H with bind ?x _ = _ => destruct x as [d| |]; cbn [bind] in H; try discriminate H end. injection H as <- <-. exact Ee.
Qed.
Lemma put_still_any c s key data s' r : embedDBPut c s key data = Ok (s', r) -> still (sio s) (sio s').
Proof.
  unfold embedDBPut. intros H. destruct (get_count _) as [k| |]; cbn [bind] in H; try discriminate H.
  match type of H with bind ?x _ = _ => destruct x as [[s1 rej]| |] eqn:E1; cbn [bind] in H; try discriminate H end.
  assert (S1 : still (sio s) (sio s1)).
  { destruct (_ || _); [|injection E1 as <- <-; apply still_refl].
    match type of E1 with bind ?x _ = _ => destruct x as [[s2 pk]| |] eqn:E2; cbn [bind] in E1; try discriminate E1 end.
    injection E1 as <- <-. brk E2; ro; try apply still_refl. now apply ro_still. }
  destruct rej; [injection H as <- <-; exact S1|].
  match type of H with bind ?x _ = _ => destruct x as [[[s2 k2] wr]| |] eqn:E2; cbn [bind] in H; try discriminate H end.
  assert (S2 : still (sio s1) (sio s2)).
  { destruct (k >=? maxRec c); [|injection E2 as <- <- <-; apply still_refl].
    destruct (writePage c s1) as [[s3 n]| |] eqn:Ew; cbn [bind] in E2; try discriminate E2. apply writePage_still in Ew.
    destruct (indexPage c s3 n) as [s4| |] eqn:Ei; cbn [bind] in E2; try discriminate E2. apply indexPage_still in Ei. rewrite <- Ei in Ew.
    destruct (put_index c s4 n) as [s5| |] eqn:Ep; cbn [bind] in E2; try discriminate E2. apply put_index_still in Ep.
    destruct (init_page c) as [b| |]; cbn [bind] in E2; try discriminate E2. injection E2 as <- <- <-. exact (still_trans _ _ _ Ew Ep). }
  destruct (put_record _ _ _ _ _ _) as [w| |]; cbn [bind] in H; try discriminate H. cbv zeta in H.
  apply (still_trans _ _ _ (still_trans _ _ _ S1 S2)). destruct (useRLC c); [|injection H as <- <-; apply still_refl].
  match type of H with bind ?x _ = _ => destruct x as [s3| |] eqn:E3; cbn [bind] in H; try discriminate H end.
  apply temp_still in H. refine (still_trans _ (sio s3) _ _ H).
  destruct (wr && _); [|injection E3 as <-; apply still_refl].
  match type of E3 with bind ?x _ = _ => destruct x as [[s4 r4]| |] eqn:E4; cbn [bind] in E3; try discriminate E3 end.
  injection E3 as <-. apply shift_still in E4. exact E4.
Qed.

(** Every call uses flash storage as SpecFlash.v says. *)
From Verif Require Import Base Config Spline Storage DB VarData Recovery BaseFacts Spec SpecPage SpecStore Run SpecRun SpecInit InitFacts SpecFlash.
Open Scope Z_scope.
Ltac Zify.zify_post_hook ::= ZifyBool.elim_bool_cstr.
Ltac Zify.zify_convert_to_euclidean_division_equations_flag ::= constr:(false).

(** * Reading *)
Lemma d_rbuf_same d : d = d_rbuf d (rbuf d) (bufD d). Proof. now destruct d. Qed.
Lemma i_rbuf_same i : i = i_rbuf i (irbuf i) (bufI i). Proof. now destruct i. Qed.
Lemma v_rbuf_same v : v = v_rbuf v (vrbuf v) (bufV v). Proof. now destruct v. Qed.

Lemma ro_refl s : read_only s s.
Proof.
  split; [auto|]. split; [now exists []|]. split; [|split]; eexists; eexists; [apply d_rbuf_same|apply i_rbuf_same|apply v_rbuf_same].
Qed.
Lemma ro_trans a b d : read_only a b -> read_only b d -> read_only a d.
Proof.
  intros ((A1 & A2 & A3 & A4) & (f1 & A5) & (p1 & n1 & A6) & (p2 & n2 & A7) & (p3 & n3 & A8))
    ((B1 & B2 & B3 & B4) & (f2 & B5) & (q1 & m1 & B6) & (q2 & m2 & B7) & (q3 & m3 & B8)).
  split; [repeat split; congruence|]. split; [exists (f1 ++ f2); rewrite A5, B5; apply app_assoc|].
  rewrite B6, B7, B8, A6, A7, A8. split; [|split]; eexists; eexists; reflexivity.
Qed.

Lemma take_fault_ro o : let '(_, o') := take_fault o in
  fD o' = fD o /\ fI o' = fI o /\ fV o' = fV o /\ trace o' = trace o /\ exists fs, faults o = fs ++ faults o'.
Proof. unfold take_fault. destruct (faults o) as [|b bs] eqn:E; cbn; repeat split; [exists []|exists [b]]; auto. Qed.
Lemma io_read_ro w n o : let '(o', _) := io_read w n o in
  fD o' = fD o /\ fI o' = fI o /\ fV o' = fV o /\ trace o' = trace o /\ exists fs, faults o = fs ++ faults o'.
Proof. unfold io_read. pose proof (take_fault_ro o) as H. destruct (take_fault o) as [b o']. destruct b; exact H. Qed.

Lemma readPage_ro s n s' r : readPage s n = (s', r) -> read_only s s'.
Proof.
  unfold readPage. destruct (_ =? _); [injection 1 as <- <-; apply ro_refl|]. pose proof (io_read_ro WD n (sio s)) as H.
  destruct (io_read WD n (sio s)) as [o [p|]]; injection 1 as <- <-; destruct H as (H1 & H2 & H3 & H4 & H5);
    (split; [auto|]; split; [auto|]; split; [|split]; eexists; eexists; cbn; first [reflexivity|apply d_rbuf_same|apply i_rbuf_same|apply v_rbuf_same]).
Qed.
Lemma readIndexPage_ro s n s' r : readIndexPage s n = (s', r) -> read_only s s'.
Proof.
  unfold readIndexPage. destruct (_ =? _); [injection 1 as <- <-; apply ro_refl|]. pose proof (io_read_ro WI n (sio s)) as H.
  destruct (io_read WI n (sio s)) as [o [p|]]; injection 1 as <- <-; destruct H as (H1 & H2 & H3 & H4 & H5);
    (split; [auto|]; split; [auto|]; split; [|split]; eexists; eexists; cbn; first [reflexivity|apply d_rbuf_same|apply i_rbuf_same|apply v_rbuf_same]).
Qed.
Lemma readVariablePage_ro s n s' r : readVariablePage s n = (s', r) -> read_only s s'.
Proof.
  unfold readVariablePage. destruct (_ =? _); [injection 1 as <- <-; apply ro_refl|]. pose proof (io_read_ro WV n (sio s)) as H.
  destruct (io_read WV n (sio s)) as [o [p|]]; injection 1 as <- <-; destruct H as (H1 & H2 & H3 & H4 & H5);
    (split; [auto|]; split; [auto|]; split; [|split]; eexists; eexists; cbn; first [reflexivity|apply d_rbuf_same|apply i_rbuf_same|apply v_rbuf_same]).
Qed.

(** Taking a computation apart. *)
Ltac brk H :=
  repeat match type of H with
  | bind ?x _ = Ok _ => let E := fresh "E" in destruct x eqn:E; cbn [bind] in H; [|discriminate H ..]
  | (let '(_, _) := ?x in _) = Ok _ => let E := fresh "E" in destruct x eqn:E
  | (let '(_, _) := ?x in _) = _ => is_var x; destruct x
  | (if ?b then _ else _) = Ok _ => let E := fresh "E" in destruct b eqn:E
  | match ?x with Some _ => _ | None => _ end = Ok _ => let E := fresh "E" in destruct x eqn:E
  | Ok _ = Ok _ => injection H; clear H; intros; subst
  | UB = Ok _ => discriminate H
  | Fuel = Ok _ => discriminate H
  | bind (match ?x with _ => _ end) _ = Ok _ => let E := fresh "E" in destruct x eqn:E
  end.
Ltac ro :=
  repeat match goal with
  | H : readPage _ _ = (_, _) |- _ => apply readPage_ro in H
  | H : readIndexPage _ _ = (_, _) |- _ => apply readIndexPage_ro in H
  | H : readVariablePage _ _ = (_, _) |- _ => apply readVariablePage_ro in H
  end.

Lemma linearSearch_ro c key f : forall s p lw hg s' r, linearSearch c s key f p lw hg = Ok (s', r) -> read_only s s'.
Proof.
  induction f as [|f IH]; intros s p lw hg s' r H; cbn [linearSearch] in H; [discriminate|]. brk H; ro; try apply ro_refl; auto.
  all: eapply ro_trans; [eassumption|eapply IH; eassumption].
Qed.
Lemma binary_loop_ro c key f : forall s a b p s' r, binary_loop c s key f a b p = Ok (s', r) -> read_only s s'.
Proof.
  induction f as [|f IH]; intros s a b p s' r H; cbn [binary_loop] in H; [discriminate|]. brk H; ro; try apply ro_refl; auto.
  all: eapply ro_trans; [eassumption|eapply IH; eassumption].
Qed.
Lemma binarySearch_ro c s key s' r : binarySearch c s key = Ok (s', r) -> read_only s s'.
Proof. unfold binarySearch. intros H. brk H; eapply binary_loop_ro; eassumption. Qed.
Lemma splineSearch_ro c s key s' r : splineSearch c s key = Ok (s', r) -> read_only s s'.
Proof.
  unfold splineSearch. intros H. destruct (spl (sd s)); [|discriminate]. destruct (spl_find _ _ _) as [[[loc lw] hg]| |]; cbn [bind] in H; try discriminate.
  destruct (hg <? _); [brk H; apply ro_refl|]. destruct (if lw <? _ then _ else _) as [loc1 lw1].
  match type of H with bind ?x _ = _ => destruct x as [hit| |]; cbn [bind] in H; try discriminate end.
  destruct hit; [brk H; apply ro_refl|]. brk H; eapply linearSearch_ro; eassumption.
Qed.
Lemma embedDBGet_ro c s key s' r d : embedDBGet c s key = Ok (s', r, d) -> read_only s s'.
Proof.
  unfold embedDBGet. intros H. destruct (_ =? 0); [brk H; apply ro_refl|].
  destruct (get_count _); cbn [bind] in H; try discriminate.
  match type of H with bind ?x _ = _ => destruct x as [st| |]; cbn [bind] in H; try discriminate end.
  destruct st as [[r0 dt]|]; [brk H; apply ro_refl|].
  destruct (useBinary c).
  - destruct (binarySearch c s key) as [[s1 r1]| |] eqn:E; cbn [bind] in H; try discriminate. apply binarySearch_ro in E. brk H; auto.
  - destruct (splineSearch c s key) as [[s1 r1]| |] eqn:E; cbn [bind] in H; try discriminate. apply splineSearch_ro in E. brk H; auto.
Qed.
Lemma next_skip_ro c s it s' b : next_skip c s it = Ok (s', b) -> read_only s s'.
Proof. unfold next_skip. intros H. brk H; ro; auto using ro_refl. Qed.
Lemma next_loop_ro c f : forall s sw it out s' it' r o, next_loop c s f sw it out = Ok (s', it', r, o) -> read_only s s'.
Proof.
  induction f as [|f IH]; intros s sw it out s' it' r o H; cbn [next_loop] in H; [discriminate|]. cbv zeta in H.
  destruct (itPage it >? _); [brk H; apply ro_refl|].
  destruct (next_skip c s it) as [[s1 sk]| |] eqn:E; cbn [bind] in H; try discriminate. apply next_skip_ro in E.
  destruct sk as [[|]|]; [eapply ro_trans; [exact E|eapply IH; eassumption]| |brk H; auto].
  match type of H with (let '(_, _) := ?x in _) = _ => destruct x as [s2 r2] eqn:E2 end.
  assert (R2 : read_only s1 s2). { destruct (itPage it =? nextD (sd s)), sw; brk E2; try (injection E2 as <- <-); ro; auto using ro_refl. }
  destruct (negb _); [brk H; eapply ro_trans; eassumption|].
  destruct (get_count _); cbn [bind] in H; try discriminate.
  match type of H with bind ?x _ = _ => destruct x as [[[it2 r3] out2]| |]; cbn [bind] in H; try discriminate end.
  destruct r3; [brk H; eapply ro_trans; eassumption|]. eapply ro_trans; [exact E|]. eapply ro_trans; [exact R2|eapply IH; eassumption].
Qed.
Lemma embedDBNext_ro c s it s' it' r o : embedDBNext c s it = Ok (s', it', r, o) -> read_only s s'.
Proof. apply next_loop_ro. Qed.
Lemma stream_loop_ro c f : forall s t pg len acc s' t' o, stream_loop c s f t pg len acc = Ok (s', t', o) -> read_only s s'.
Proof.
  induction f as [|f IH]; intros s t pg len acc s' t' o H; cbn [stream_loop] in H; [discriminate|]. cbv zeta in H. brk H; ro; auto using ro_refl.
  all: first [eapply IH; eassumption|eapply ro_trans; [eassumption|eapply IH; eassumption]].
Qed.
Lemma read_ro c s t n s' t' o : embedDBVarDataStreamRead c s t n = Ok (s', t', o) -> read_only s s'.
Proof.
  unfold embedDBVarDataStreamRead. intros H. brk H; ro; auto. eapply ro_trans; [eassumption|eapply stream_loop_ro; eassumption].
Qed.
Lemma setup_ro c s k n s' r t : setupVarDataStream c s k n = Ok (s', r, t) -> read_only s s'.
Proof. unfold setupVarDataStream. intros H. cbv zeta in H. brk H; ro; auto using ro_refl. Qed.

Lemma reading_ro c s o s' : reading o = true -> call_step c s o = Ok s' -> read_only s s'.
Proof.
  destruct o; cbn [reading]; try discriminate; intros _; cbn [call_step]; intros H; brk H;
    eauto using embedDBGet_ro, embedDBNext_ro, read_ro.
Qed.

(** * Writing *)
Lemma write_rest c F p w : rest_kept c (eq p) F (file_write c F p w).
Proof.
  intros q Hq. unfold file_read, file_write. cbn [flen fpg].
  destruct (Z.leb_spec 0 q); [|now left]. cbn [andb]. destruct (Z.eqb_spec q p); [congruence|].
  destruct (Z.ltb_spec q (flen F)).
  - left. now replace (q <? Z.max (flen F) (p + 1)) with true by lia.
  - destruct (q <? Z.max (flen F) (p + 1)); auto.
Qed.
Lemma write_here c F p w : 0 <= p -> file_read (file_write c F p w) p = Some w.
Proof.
  intros H. unfold file_read, file_write. cbn [flen fpg]. replace ((0 <=? p) && (p <? Z.max (flen F) (p + 1))) with true by lia. now rewrite Z.eqb_refl.
Qed.
Lemma erase_rest c F a b : rest_kept c (fun q => a <= q < b) F (file_erase c F a b).
Proof.
  intros q Hq. unfold file_read, file_erase. destruct (eraseFill c) as [x|]; [|now left]. cbn [flen fpg].
  destruct (Z.leb_spec 0 q); [|now left]. cbn [andb]. replace ((a <=? q) && (q <? b)) with false by lia.
  destruct (Z.ltb_spec q (flen F)).
  - left. now replace (q <? Z.max (flen F) b) with true by lia.
  - destruct (q <? Z.max (flen F) b); auto.
Qed.
Lemma erase_here c F a b q : 0 <= a -> a <= q < b ->
  file_read (file_erase c F a b) q = match eraseFill c with Some x => Some (repeat x (psz c)) | None => file_read F q end.
Proof.
  intros H1 H2. unfold file_read, file_erase. destruct (eraseFill c) as [x|]; [|reflexivity]. cbn [flen fpg].
  replace ((0 <=? q) && (q <? Z.max (flen F) b)) with true by lia. now replace ((a <=? q) && (q <? b)) with true by lia.
Qed.

Section Flash.
  Variable c : cfg.
  Hypothesis Sz : sizes c.
  Notation B := (eraseSize c).
  Local Lemma HB : 0 < B. Proof. apply Sz. Qed.

  Lemma do_write num P F p w : 0 <= p < num -> ~ P p -> flash_op c num P F (fun q => P q \/ q = p) (file_write c F p w).
  Proof. intros H1 H2. eapply op_write; [auto|auto|apply write_here; lia|apply write_rest]. Qed.
  Lemma do_erase num P F b : 0 <= b -> b + B <= num -> b mod B = 0 ->
    flash_op c num P F (fun q => P q /\ ~ (b <= q < b + B)) (file_erase c F b (b + B)).
  Proof. intros H1 H2 H3. apply op_erase; auto; [intros; apply erase_here; lia|apply erase_rest]. Qed.

  (** A cyclic area of [num] pages: the next page to write is [n], and [a] pages from
      there on are not programmed. *)
  Record area (P : pset) (n a num : Z) : Prop := {
    ar_n : 0 <= n;
    ar_a : 0 <= a <= num;
    ar_al : (n + a) mod B = 0;
    ar_vac : forall j, n <= j < n + a -> ~ P (j mod num)
  }.
  Lemma area_write P F n a num w : 0 < num -> area P n a num -> 0 < a ->
    exists P', flash_op c num P F P' (file_write c F (n mod num) w) /\ area P' (n + 1) (a - 1) num.
  Proof.
    intros Hn A Ha. pose proof (Z.mod_pos_bound n num Hn) as Hm. destruct A as [a1 a2 a4 a6].
    eexists. split; [apply do_write; [auto|apply a6; lia]|].
    constructor; [lia|lia|replace (n + 1 + (a - 1)) with (n + a) by lia; auto|].
    intros j Hj [H|E]; [apply (a6 j); auto; lia|].
    pose proof (Z.div_mod j num ltac:(lia)). pose proof (Z.div_mod n num ltac:(lia)).
    assert (num * (j / num - n / num) = j - n) by lia. assert (0 < j / num - n / num) by nia. nia.
  Qed.
  Lemma area_erase P F n num : 0 < num -> num mod B = 0 -> B <= num -> area P n 0 num ->
    exists P', flash_op c num P F P' (file_erase c F (n mod num) (n mod num + B)) /\ area P' n B num.
  Proof.
    intros Hn Hd Hb A. pose proof HB as HB. pose proof (Z.mod_pos_bound n num Hn) as Hm. destruct A as [a1 a2 a4 a6].
    rewrite Z.add_0_r in a4.
    assert (Hal : (n mod num) mod B = 0).
    { rewrite (Z.mod_eq n num) by lia. apply Z.mod_divide in Hd as [k Hk]; [|lia]. apply Z.mod_divide in a4 as [m Hk2]; [|lia].
      replace (n - num * (n / num)) with ((m - k * (n / num)) * B). { apply Z.mod_mul. lia. }
      generalize (n / num). intros q. rewrite Hk2, Hk. ring. }
    assert (Hin : n mod num + B <= num).
    { apply Z.mod_divide in Hd as [k Hk]; [|lia]. apply Z.mod_divide in Hal as [m Hml]; [|lia]. rewrite Hml in Hm |- *. rewrite Hk in Hm |- *.
      assert (m < k) by nia. nia. }
    eexists. split; [apply do_erase; auto; lia|].
    constructor; [auto|lia| |].
    - rewrite Z.add_mod, a4, Z.mod_same by lia. now rewrite Z.mod_0_l by lia.
    - intros j Hj [_ K]. apply K.
      replace (j mod num) with (n mod num + (j - n)); [lia|].
      apply Z.mod_unique_pos with (n / num); [lia|]. pose proof (Z.div_mod n num ltac:(lia)). lia.
  Qed.

  Variable im0 : image.
  Notation LIM := (2 ^ 32 - 2).

  (** What is known of the data area and its counters (next page, available pages,
      oldest page, next temporary page, temporary block). *)
  Variable dataOk : pset -> Z -> Z -> Z -> Z -> Z -> Prop.
  Notation dok D d := (dataOk D (nextD d) (availD d) (minD d) (nextRLC d) (rlcStart d)).
  (** What a session keeps true. *)
  Record discP (s : state) (D I V : pset) : Prop := {
    j_faults : faults (sio s) = [];
    j_run : flash_run c im0 (trace (sio s)) (D, I, V) (image_of s);
    j_D : dok D (sd s);
    j_I : useIndex c = true -> area I (nextI (si s)) (availI (si s)) (numIndex c);
    j_V : useVar c = true -> area V (nextV (sv s)) (availV (sv s)) (numVar c);
    j_nD : nextD (sd s) <= zlen (trace (sio s));
    j_nI : nextI (si s) <= zlen (trace (sio s));
    j_nV : nextV (sv s) <= zlen (trace (sio s))
  }.
  Definition disc (s : state) : Prop := exists D I V, discP s D I V.
  Lemma disc_faults s : disc s -> faults (sio s) = [].
  Proof. intros (D & I & V & J). apply J. Qed.
  Definition ext (s s' : state) : Prop :=
    (exists new, trace (sio s') = new ++ trace (sio s)) /\ (disc s -> zlen (trace (sio s')) < LIM -> disc s').
  Lemma ext_refl s : ext s s. Proof. split; [now exists []|auto]. Qed.
  Lemma ext_trans a b d : ext a b -> ext b d -> ext a d.
  Proof.
    intros [[n1 A1] A2] [[n2 B1] B2]. split; [exists (n2 ++ n1); rewrite B1, A1; apply app_assoc|].
    intros D L. apply B2; auto. apply A2; auto. rewrite B1, zlen_app in L. pose proof (zlen_nonneg n2). lia.
  Qed.
  (** Steps that do not touch storage or the counters of the areas. *)
  Definition frame (s s' : state) : Prop :=
    fD (sio s') = fD (sio s) /\ fI (sio s') = fI (sio s) /\ fV (sio s') = fV (sio s) /\ trace (sio s') = trace (sio s) /\
    (faults (sio s) = [] -> faults (sio s') = []) /\
    nextD (sd s') = nextD (sd s) /\ availD (sd s') = availD (sd s) /\ nextI (si s') = nextI (si s) /\ availI (si s') = availI (si s) /\
    nextV (sv s') = nextV (sv s) /\ availV (sv s') = availV (sv s) /\
    minD (sd s') = minD (sd s) /\ nextRLC (sd s') = nextRLC (sd s) /\ rlcStart (sd s') = rlcStart (sd s).
  Lemma frame_ext s s' : frame s s' -> ext s s'.
  Proof.
    intros (F1 & F2 & F3 & F4 & F5 & F6 & F7 & F8 & F9 & F10 & F11 & F12 & F13 & F14). split; [exists []; auto|].
    intros (D & I & V & [J1 J2 J3 J4 J5 J6 J7 J8]) _. exists D, I, V.
    constructor; unfold image_of; rewrite ?F1, ?F2, ?F3, ?F4, ?F6, ?F7, ?F8, ?F9, ?F10, ?F11, ?F12, ?F13, ?F14; auto.
  Qed.
  Lemma ro_ext s s' : read_only s s' -> ext s s'.
  Proof.
    intros ((H1 & H2 & H3 & H4) & (fs & H5) & (p1 & n1 & H6) & (p2 & n2 & H7) & (p3 & n3 & H8)). apply frame_ext.
    unfold frame. rewrite H1, H2, H3, H4, H6, H7, H8. cbn. repeat split; auto. intros E. rewrite E in H5. symmetry in H5. now apply app_eq_nil in H5.
  Qed.
  Ltac fr := apply frame_ext; unfold frame; cbn; auto 20.

  Lemma io_write_run o w n p : faults o = [] -> io_write c w n p o = (putF w o (file_write c (getF w o) n p), true).
  Proof. intros H. unfold io_write, take_fault. now rewrite H. Qed.
  Lemma io_erase_run o w n m : faults o = [] -> io_erase c w n m o = (putF w o (file_erase c (getF w o) n m), true).
  Proof. intros H. unfold io_erase, take_fault. now rewrite H. Qed.
  Lemma grow_write o w n p o' ok : io_write c w n p o = (o', ok) -> exists new, trace o' = new ++ trace o.
  Proof.
    unfold io_write. pose proof (take_fault_ro o) as H. destruct (take_fault o) as [b o1]. destruct H as (_ & _ & _ & H & _).
    destruct b; injection 1 as <- <-; [now exists []; rewrite H|]. destruct w; cbn; rewrite H; eexists [_]; reflexivity.
  Qed.
  Lemma grow_erase o w n m o' ok : io_erase c w n m o = (o', ok) -> exists new, trace o' = new ++ trace o.
  Proof.
    unfold io_erase. pose proof (take_fault_ro o) as H. destruct (take_fault o) as [b o1]. destruct H as (_ & _ & _ & H & _).
    destruct b; injection 1 as <- <-; [now exists []; rewrite H|]. destruct w; cbn; rewrite H; eexists [_]; reflexivity.
  Qed.

  Lemma u32_id z : 0 <= z < 2 ^ 32 -> u32 z = z.
  Proof. intros H. unfold u32. now apply Z.mod_small. Qed.


  (** One storage operation on one area. *)
  Lemma disc_I s s' D I V I' F : discP s D I V -> sio s' = putF WI (sio s) F -> flash_op c (numIndex c) I (fI (sio s)) I' F ->
    area I' (nextI (si s')) (availI (si s')) (numIndex c) -> nextI (si s') <= nextI (si s) + 1 ->
    sd s' = sd s -> nextV (sv s') = nextV (sv s) -> availV (sv s') = availV (sv s) -> discP s' D I' V.
  Proof.
    intros [J1 J2 J3 J4 J5 J6 J7 J8] T Op A N E1 E3 E4.
    constructor; unfold image_of; rewrite ?T, ?E1, ?E3, ?E4; cbn [putF faults fD fI fV trace]; auto; try (rewrite zlen_cons; lia).
    eapply run_op; [exact J2|]. now apply step_index.
  Qed.
  Lemma disc_V s s' D I V V' F : discP s D I V -> sio s' = putF WV (sio s) F -> flash_op c (numVar c) V (fV (sio s)) V' F ->
    area V' (nextV (sv s')) (availV (sv s')) (numVar c) -> nextV (sv s') <= nextV (sv s) + 1 ->
    sd s' = sd s -> nextI (si s') = nextI (si s) -> availI (si s') = availI (si s) -> discP s' D I V'.
  Proof.
    intros [J1 J2 J3 J4 J5 J6 J7 J8] T Op A N E1 E3 E4.
    constructor; unfold image_of; rewrite ?T, ?E1, ?E3, ?E4; cbn [putF faults fD fI fV trace]; auto; try (rewrite zlen_cons; lia).
    eapply run_op; [exact J2|]. now apply step_var.
  Qed.

  Hypothesis HdI : useIndex c = true -> numIndex c mod B = 0 /\ B <= numIndex c.
  Hypothesis HdV : useVar c = true -> numVar c mod B = 0 /\ B <= numVar c.

  Lemma writeIndexPage_ext s s' r : useIndex c = true -> writeIndexPage c s = Ok (s', r) -> ext s s'.
  Proof.
    intros Ui. pose proof (HdI Ui) as [Hd1 Hd2]. pose proof (sz_index _ Sz Ui) as Hs.
    unfold writeIndexPage. cbv zeta. intros H. destruct (set_pid _ _) as [w| |]; cbn [bind] in H; try discriminate.
    set (sA := set_i (set_i s _) _) in H.
    match type of H with (let '(_, _) := ?y in _) = _ => destruct y as [s1 ok] eqn:E1 end.
    change (availI (si sA)) with (availI (si s)) in E1. change (sio sA) with (sio s) in E1.
    assert (N1 : nextI (si s1) = u32 (nextI (si s) + 1)).
    { destruct (availI (si s) <=? 0); [destruct (io_erase c WI _ _ (sio s)) as [o1 oke]; destruct oke|]; injection E1 as <- <-; reflexivity. }
    set (sB := set_i s1 (i_next (si s1) (nextI (si s)))).
    assert (S1 : (exists new, trace (sio s1) = new ++ trace (sio s)) /\
      (disc s -> zlen (trace (sio s1)) < LIM -> ok = true /\ 0 < availI (si sB) /\ disc sB)).
    { destruct (Z.leb_spec (availI (si s)) 0) as [Ha|Ha].
      - destruct (io_erase c WI _ _ (sio s)) as [o oke] eqn:Ee. pose proof (grow_erase _ _ _ _ _ _ Ee) as [new Hn].
        assert (T1 : sio s1 = o). { destruct oke; injection E1 as <- <-; reflexivity. }
        split; [exists new; now rewrite T1|]. intros J L. rewrite (io_erase_run _ _ _ _ (disc_faults _ J)) in Ee. injection Ee as <- <-.
        destruct J as (D & I & V & J). pose proof (j_I _ _ _ _ J Ui) as A. assert (A0 : availI (si s) = 0) by (pose proof (ar_a _ _ _ _ A); lia). rewrite A0 in A.
        destruct (area_erase _ (fI (sio s)) _ (numIndex c) (proj1 Hs) Hd1 Hd2 A) as (I' & He & Ha').
        assert (Hc : availI (si s1) = B /\ sd s1 = sd s /\ sv s1 = sv s /\ ok = true).
        { pose proof HB. injection E1 as <- <-; cbn; rewrite A0, (u32_id (0 + B)) by lia; repeat split. }
        destruct Hc as (Hav & Hi & Hv & ->). split; [auto|]. pose proof HB. split; [cbn; lia|].
        exists D, I', V. eapply (disc_I s); [exact J|exact T1|exact He| | | | |]; cbn [sB set_i sd si sv i_next nextI availI]; rewrite ?Hi, ?Hv, ?Hav; auto; lia.
      - injection E1 as <- <-. split; [now exists []|]. intros J L. split; [auto|]. split; [exact Ha|]. destruct J as (D & I & V & []). exists D, I, V. constructor; auto. }
    destruct S1 as [[new1 T1] S1].
    destruct ok; cbn [negb] in H.
    2:{ injection H as <- <-. split; [now exists new1|]. intros J L. destruct (S1 J L) as (F & _). discriminate. }
    destruct (io_write c WI _ _ (sio s1)) as [o ok] eqn:Ew. pose proof (grow_write _ _ _ _ _ _ Ew) as [new2 T2].
    assert (T3 : sio s' = o) by (destruct ok; injection H as <- <-; reflexivity).
    split; [exists (new2 ++ new1); rewrite T3, T2, T1; apply app_assoc|]. intros J L.
    rewrite T3 in L. pose proof (zlen_nonneg new2). pose proof (zlen_nonneg new1).
    assert (L1 : zlen (trace (sio s)) <= zlen (trace (sio s1)) < LIM). { rewrite T2, zlen_app in L. rewrite T1, zlen_app in L |- *. lia. }
    destruct (S1 J ltac:(lia)) as (_ & Ha & J').
    pose proof (disc_faults _ J') as Hf. cbn in Hf. rewrite (io_write_run _ _ _ _ Hf) in Ew. injection Ew as <- <-.
    destruct J' as (D & I & V & J'). pose proof (j_I _ _ _ _ J' Ui) as A.
    destruct (area_write _ (fI (sio s1)) _ _ (numIndex c) (iwbuf (si s1)) (proj1 Hs) A Ha) as (I' & He & Ha').
    destruct J as (D1 & I1 & V1 & J). pose proof (j_nI _ _ _ _ J) as Jn. pose proof (ar_n _ _ _ _ (j_I _ _ _ _ J Ui)). pose proof (ar_a _ _ _ _ A) as Aa.
    rewrite u32_id in N1 by lia. cbn [sB set_i si i_next nextI availI] in Ha, Ha', Aa.
    injection H as <- <-.
    exists D, I', V. eapply (disc_I sB); [exact J'|reflexivity|exact He| | | | |]; cbn [sB set_io set_i sd si sv i_next i_avail nextI availI]; rewrite ?N1, ?(u32_id (availI (si s1) - 1)) by lia; auto; lia.
  Qed.
  Lemma writeVariablePage_ext s s' r : useVar c = true -> writeVariablePage c s = Ok (s', r) -> ext s s'.
  Proof.
    intros Uv. pose proof (HdV Uv) as [Hd1 Hd2]. pose proof (sz_var _ Sz Uv) as Hs.
    unfold writeVariablePage. cbv zeta. intros H. destruct (numVar c =? 0) eqn:En; [discriminate|].
    match type of H with bind ?y _ = _ => destruct y as [[s1 ok]| |] eqn:E1; cbn [bind] in H; try discriminate end.
    assert (N1 : nextV (sv s1) = nextV (sv s)).
    { destruct (availV (sv s) <=? 0); [destruct (io_erase c WV _ _ (sio s)) as [o1 oke]; destruct oke; cbn [negb] in E1|]; brk E1; try reflexivity.
      all: ro; match goal with K : read_only _ _ |- _ => destruct K as (_ & _ & _ & _ & (p & n & K2)) end; cbn; rewrite K2; reflexivity. }
    assert (S1 : ext s s1 /\ (disc s -> zlen (trace (sio s1)) < LIM -> 0 < availV (sv s1))).
    { destruct (Z.leb_spec (availV (sv s)) 0) as [Ha|Ha].
      - destruct (io_erase c WV _ _ (sio s)) as [o oke] eqn:Ee. pose proof (grow_erase _ _ _ _ _ _ Ee) as [new Hn].
        set (s2 := set_v (set_io s o) (v_avail (sv (set_io s o)) (u32 (availV (sv (set_io s o)) + B)))) in E1.
        destruct oke; cbn [negb] in E1.
        2:{ brk E1. split; [split; [now exists new|]|]; intros J; rewrite (io_erase_run _ _ _ _ (disc_faults _ J)) in Ee; discriminate. }
        assert (X : ext s s2 /\ (disc s -> availV (sv s2) = B)).
        { assert (AvJ : disc s -> availV (sv s2) = B).
          { intros (D & I & V & J). pose proof (ar_a _ _ _ _ (j_V _ _ _ _ J Uv)). pose proof HB. cbn. rewrite u32_id by lia. lia. }
          split; [split; [now exists new|]|exact AvJ]. intros J L. rewrite (io_erase_run _ _ _ _ (disc_faults _ J)) in Ee. injection Ee as Eo.
          pose proof (AvJ J) as Av. destruct J as (D & I & V & J). pose proof (j_V _ _ _ _ J Uv) as A. assert (A0 : availV (sv s) = 0) by (pose proof (ar_a _ _ _ _ A); lia). rewrite A0 in A.
          destruct (area_erase _ (fV (sio s)) _ (numVar c) (proj1 Hs) Hd1 Hd2 A) as (V' & He & Ha').
          exists D, I, V'. eapply (disc_V s); [exact J|cbn; symmetry; exact Eo|exact He| | | | |]; try reflexivity; [|cbn; lia].
          rewrite Av. exact Ha'. }
        destruct X as [X1 X2]. destruct (readVariablePage s2 _) as [s3 r3] eqn:Er. apply readVariablePage_ro in Er. pose proof (ro_ext _ _ Er) as X3.
        destruct Er as (_ & _ & _ & _ & (p & n & Er)).
        assert (X4 : ext s3 s1 /\ availV (sv s1) = availV (sv s3)).
        { brk E1; (split; [first [apply ext_refl|fr]|reflexivity]). }
        destruct X4 as [X4 X5]. split; [eapply ext_trans; [exact X1|]; eapply ext_trans; eassumption|].
        intros J L. rewrite X5, Er. cbn. pose proof (X2 J) as Q. cbn in Q. rewrite Q. apply HB.
      - brk E1. split; [apply ext_refl|]. intros; lia. }
    destruct S1 as [S1 S2].
    destruct ok; cbn [negb] in H. 2:{ brk H. exact S1. }
    destruct S1 as [[new1 T1] S1].
    destruct (set_pid _ _) as [w| |]; cbn [bind] in H; try discriminate. cbn [set_v sio vwbuf v_wbuf sv] in H.
    destruct (io_write c WV _ _ (sio s1)) as [o ok] eqn:Ew. pose proof (grow_write _ _ _ _ _ _ Ew) as [new2 T2].
    assert (T3 : sio s' = o) by (brk H; reflexivity).
    split; [exists (new2 ++ new1); rewrite T3, T2, T1; apply app_assoc|]. intros J L. rewrite T3 in L.
    pose proof (zlen_nonneg new2). pose proof (zlen_nonneg new1).
    assert (L1 : zlen (trace (sio s1)) < LIM). { rewrite T2, zlen_app in L. lia. }
    pose proof (S1 J L1) as J'. pose proof (S2 J L1) as Ha.
    rewrite (io_write_run _ _ _ _ (disc_faults _ J')) in Ew. injection Ew as <- <-.
    destruct J' as (D & I & V & J'). pose proof (j_V _ _ _ _ J' Uv) as A. rewrite <- N1 in *. cbn [getF] in *.
    destruct (area_write _ (fV (sio s1)) _ _ (numVar c) w (proj1 Hs) A Ha) as (V' & He & Ha').
    pose proof (j_nV _ _ _ _ J') as Jn. pose proof (ar_n _ _ _ _ A). pose proof (ar_a _ _ _ _ A) as Aa.
    injection H as <- <-.
    exists D, I, V'. eapply (disc_V s1); [exact J'|reflexivity|exact He| | | | |]; cbn; rewrite ?(u32_id (nextV (sv s1) + 1)), ?(u32_id (availV (sv s1) - 1)) by lia; auto; lia.
  Qed.

  Lemma embedDBFlushVar_ext s s' r : useVar c = true -> embedDBFlushVar c s = Ok (s', r) -> ext s s'.
  Proof.
    intros Uv H. unfold embedDBFlushVar in H. cbv zeta in H. destruct (_ =? varHdr c); [brk H; apply ext_refl|].
    destruct (writeVariablePage c s) as [[s1 r1]| |] eqn:E; cbn [bind] in H; try discriminate. apply writeVariablePage_ext in E; [|exact Uv].
    eapply ext_trans; [exact E|]. brk H; [apply ext_refl|fr].
  Qed.
  Lemma indexPage_ext s n s' : indexPage c s n = Ok s' -> ext s s'.
  Proof. unfold indexPage. intros H. brk H; [apply ext_refl|fr]. Qed.
  Lemma idx_append_ext s n s' : idx_append c s n = Ok s' -> ext s s'.
  Proof. unfold idx_append. intros H. brk H. fr. Qed.
  Lemma put_index_ext s n s' : put_index c s n = Ok s' -> ext s s'.
  Proof.
    unfold put_index. case_eq (useIndex c); intros Ui; cbn [negb]; [|injection 1 as <-; apply ext_refl].
    destruct (get_count _) as [k| |]; cbn [bind]; try discriminate. intros H.
    match type of H with bind ?y _ = _ => destruct y as [[s1 k1]| |] eqn:E1; cbn [bind] in H; try discriminate end.
    apply idx_append_ext in H. eapply ext_trans; [|exact H].
    destruct (k >=? maxIdx c); [|brk E1; apply ext_refl].
    destruct (writeIndexPage c s) as [[s2 r2]| |] eqn:E2; cbn [bind] in E1; try discriminate. apply writeIndexPage_ext in E2; [|exact Ui].
    eapply ext_trans; [exact E2|]. brk E1. fr.
  Qed.
  Hypothesis HPut : forall s k d s' r, embedDBPut c s k d = Ok (s', r) -> ext s s'.
  Lemma var_set_key_ext s k s' : var_set_key c s k = Ok s' -> ext s s'.
  Proof. unfold var_set_key. intros H. brk H. fr. Qed.
  Lemma var_roll_ext s k s' : useVar c = true -> var_roll c s k = Ok s' -> ext s s'.
  Proof.
    intros Uv H. unfold var_roll in H.
    destruct (writeVariablePage c s) as [[s1 r1]| |] eqn:E; cbn [bind] in H; try discriminate. apply writeVariablePage_ext in E; [|exact Uv].
    eapply ext_trans; [exact E|]. cbv zeta in H. destruct (var_set_key c _ k) as [s2| |] eqn:E2; cbn [bind] in H; try discriminate.
    apply var_set_key_ext in E2. eapply ext_trans; [|eapply ext_trans; [exact E2|]]; [fr|]. brk H. fr.
  Qed.
  Lemma putvar_loop_ext k f : useVar c = true -> forall s bs s', putvar_loop c s k f bs = Ok s' -> ext s s'.
  Proof.
    intros Uv. induction f as [|f IH]; intros s bs s' H; cbn [putvar_loop] in H; [discriminate|]. destruct (_ >? 0); [|brk H; apply ext_refl].
    cbv zeta in H. destruct (st _ _ _) as [w| |]; cbn [bind] in H; try discriminate.
    match type of H with bind (if _ then var_roll c ?y _ else _) _ = _ => set (s1 := y) in H end.
    eapply ext_trans with s1; [fr|]. destruct (_ =? 0).
    - destruct (var_roll c s1 k) as [s2| |] eqn:E2; cbn [bind] in H; try discriminate. apply var_roll_ext in E2; [|exact Uv].
      eapply ext_trans; [exact E2|]. eapply IH; eassumption.
    - cbn [bind] in H. eapply IH; eassumption.
  Qed.
  Lemma embedDBPutVar_ext s k d v s' r : embedDBPutVar c s k d v = Ok (s', r) -> ext s s'.
  Proof.
    unfold embedDBPutVar. case_eq (useVar c); intros Uv; cbn [negb]; [|injection 1 as <- <-; apply ext_refl].
    destruct (get_count _) as [n| |]; cbn [bind]; try discriminate. intros H.
    match type of H with bind ?y _ = _ => destruct y as [s1| |] eqn:E1; cbn [bind] in H; try discriminate end.
    assert (R1 : ext s s1).
    { destruct (_ || _); [|brk E1; apply ext_refl].
      destruct (writeVariablePage c s) as [[s2 r2]| |] eqn:E; cbn [bind] in E1; try discriminate. apply writeVariablePage_ext in E; [|exact Uv].
      eapply ext_trans; [exact E|]. brk E1. fr. }
    eapply ext_trans; [exact R1|]. clear E1 R1. destruct v as [bs|].
    2:{ apply HPut in H. eapply ext_trans; [|exact H]. fr. }
    destruct (embedDBPut c _ k d) as [[s2 r2]| |] eqn:E; cbn [bind] in H; try discriminate. apply HPut in E.
    eapply ext_trans with (set_v s1 (v_has (sv s1) true)); [fr|]. eapply ext_trans; [exact E|]. destruct (negb (r2 =? 0)); [brk H; apply ext_refl|].
    cbv zeta in H. match type of H with bind (var_set_key c ?y _) _ = _ => set (s3 := y) in H end.
    assert (R3 : ext s2 s3) by (unfold s3; destruct (_ =? _); [fr|apply ext_refl]). eapply ext_trans; [exact R3|].
    destruct (var_set_key c s3 k) as [s4| |] eqn:E4; cbn [bind] in H; try discriminate. apply var_set_key_ext in E4. eapply ext_trans; [exact E4|].
    destruct (st _ _ _) as [w| |]; cbn [bind] in H; try discriminate.
    match type of H with bind (if _ then var_roll c ?y _ else _) _ = _ => set (s5 := y) in H end.
    eapply ext_trans with s5; [fr|].
    match type of H with bind ?y _ = _ => destruct y as [s6| |] eqn:E6; cbn [bind] in H; try discriminate end.
    assert (R6 : ext s5 s6). { destruct (_ =? 0); [eapply var_roll_ext; eassumption|brk E6; apply ext_refl]. }
    eapply ext_trans; [exact R6|].
    destruct (putvar_loop c s6 k _ bs) as [s7| |] eqn:E7; cbn [bind] in H; try discriminate. apply putvar_loop_ext in E7; [|exact Uv].
    eapply ext_trans; [exact E7|]. destruct (useRLC c); [|brk H; apply ext_refl].
    destruct (embedDBFlushVar c s7) as [[s8 r8]| |] eqn:E8; cbn [bind] in H; try discriminate. apply embedDBFlushVar_ext in E8; [|exact Uv]. brk H. exact E8.
  Qed.
  Lemma readToWriteBuf_ext s : ext s (readToWriteBuf s).
  Proof. fr. Qed.
  Lemma embedDBGetVar_ext s k s' r dt t : embedDBGetVar c s k = Ok (s', r, dt, t) -> ext s s'.
  Proof.
    unfold embedDBGetVar. case_eq (useVar c); intros Uv; cbn [negb]; [|injection 1; intros; subst; apply ext_refl].
    destruct (searchBuffer _ _ _) as [[n d0]| |]; cbn [bind]; try discriminate. intros H.
    match type of H with bind ?y _ = _ => destruct y as [[[s1 fnd] d1]| |] eqn:E1; cbn [bind] in H; try discriminate end.
    assert (R1 : ext s s1).
    { destruct (negb (n =? -1)).
      - destruct (embedDBFlushVar c s) as [[s2 r2]| |] eqn:E; cbn [bind] in E1; try discriminate. apply embedDBFlushVar_ext in E; [|exact Uv].
        eapply ext_trans; [exact E|]. brk E1. apply readToWriteBuf_ext.
      - destruct (embedDBGet c s k) as [[[s2 r2] d2]| |] eqn:E; cbn [bind] in E1; try discriminate. apply embedDBGet_ro, ro_ext in E.
        brk E1; exact E. }
    eapply ext_trans; [exact R1|]. destruct fnd as [m|]; [|brk H; apply ext_refl].
    destruct (setupVarDataStream c s1 k _) as [[[s3 r3] t3]| |] eqn:E; cbn [bind] in H; try discriminate. apply setup_ro, ro_ext in E. brk H. exact E.
  Qed.
  Lemma embedDBNextVar_ext s it s' it' r out t : embedDBNextVar c s it = Ok (s', it', r, out, t) -> ext s s'.
  Proof.
    unfold embedDBNextVar. case_eq (useVar c); intros Uv; cbn [negb]; [|injection 1; intros; subst; apply ext_refl].
    destruct (embedDBNext c s it) as [[[[s1 it1] r1] o1]| |] eqn:E; cbn [bind]; try discriminate. apply embedDBNext_ro, ro_ext in E. intros H.
    eapply ext_trans; [exact E|].
    destruct o1 as [[key dd]|]; [|destruct r1; brk H; apply ext_refl].
    assert (G : forall X : res (state * iter * Z * option (Z * list Z) * option stream), X = Ok (s', it', r, out, t) ->
      X = (n <- get_count (wbuf (sd s1)) ;;
        s <- (if (itPage it1 =? 0) && (n >? 0) then '(s, _) <- embedDBFlushVar c (readToWriteBuf s1) ;; Ok s else Ok s1) ;;
        '(s, r, vs) <- setupVarDataStream c s key (u16 (itRec it1 - 1)) ;;
        Ok (s, it1, (if (r =? 0) || (r =? 1) then 1 else 0), Some (key, dd), vs)) -> ext s1 s').
    { clear H. intros X H HX. rewrite HX in H. clear HX. destruct (get_count _) as [n| |]; cbn [bind] in H; try discriminate.
      match type of H with bind ?y _ = _ => destruct y as [s2| |] eqn:E2; cbn [bind] in H; try discriminate end.
      assert (R2 : ext s1 s2).
      { destruct (_ && _); [|brk E2; apply ext_refl].
        destruct (embedDBFlushVar c _) as [[s3 r3]| |] eqn:E3; cbn [bind] in E2; try discriminate. apply embedDBFlushVar_ext in E3; [|exact Uv].
        brk E2. eapply ext_trans; [|exact E3]. apply readToWriteBuf_ext. }
      eapply ext_trans; [exact R2|].
      destruct (setupVarDataStream c s2 key _) as [[[s3 r3] t3]| |] eqn:E3; cbn [bind] in H; try discriminate. apply setup_ro, ro_ext in E3. brk H. exact E3. }
    destruct r1; [brk H; apply ext_refl| |]; (eapply G; [exact H|reflexivity]).
  Qed.
  Lemma call_step_ext s o s' : (o = CFlushVar -> useVar c = true) ->
    (o = CFlush -> forall s s' r, embedDBFlush c s = Ok (s', r) -> ext s s') -> call_step c s o = Ok s' -> ext s s'.
  Proof.
    intros Hv Hf H. destruct o; cbn [call_step] in H; brk H;
      eauto using embedDBPutVar_ext, embedDBFlushVar_ext, embedDBGetVar_ext, embedDBNextVar_ext.
    - apply ro_ext. eapply embedDBGet_ro; eassumption.
    - apply ro_ext. eapply embedDBNext_ro; eassumption.
    - apply ro_ext. eapply read_ro; eassumption.
  Qed.
  Lemma calls_ext os : forall s s', (In CFlushVar os -> useVar c = true) ->
    (In CFlush os -> forall s s' r, embedDBFlush c s = Ok (s', r) -> ext s s') -> calls c s os = Ok s' -> ext s s'.
  Proof.
    induction os as [|o os IH]; intros s s' Hv Hf H; cbn [calls] in H; [injection H as <-; apply ext_refl|].
    destruct (call_step c s o) as [s1| |] eqn:E; cbn [bind] in H; try discriminate.
    apply call_step_ext in E; [|intros ->; apply Hv; now left|intros ->; apply Hf; now left].
    eapply ext_trans; [exact E|]. eapply IH; [| |exact H]; intros I; [apply Hv|apply Hf]; now right.
  Qed.
End Flash.

Lemma disc_D c im0 (X Y : pset -> Z -> Z -> Z -> Z -> Z -> Prop) s s' D I V D' F : discP c im0 X s D I V -> sio s' = putF WD (sio s) F -> flash_op c (numData c) D (fD (sio s)) D' F ->
  Y D' (nextD (sd s')) (availD (sd s')) (minD (sd s')) (nextRLC (sd s')) (rlcStart (sd s')) -> nextD (sd s') <= nextD (sd s) + 1 ->
  nextI (si s') = nextI (si s) -> availI (si s') = availI (si s) -> nextV (sv s') = nextV (sv s) -> availV (sv s') = availV (sv s) ->
  discP c im0 Y s' D' I V.
Proof.
  intros [J1 J2 J3 J4 J5 J6 J7 J8] T Op A N E1 E2 E3 E4.
  constructor; unfold image_of; rewrite ?T, ?E1, ?E2, ?E3, ?E4; cbn [putF faults fD fI fV trace]; auto; try (rewrite zlen_cons; lia).
  eapply run_op; [exact J2|]. now apply step_data.
Qed.

(** Proofs about the file objects (property C46). *)
From Verif Require Import Base Drivers FileObj SpecFileObj.
Open Scope Z_scope.

Lemma strlen_before s : match before0 s with
  | Some n => c_strlen s = Ok (length n) /\ firstn (length n) s = n /\ Forall (fun x => x <> 0) n
  | None => c_strlen s = UB end.
Proof.
  induction s as [|x s IH]; cbn [before0 c_strlen]; [reflexivity|].
  destruct (Z.eqb_spec x 0) as [E|E]; [cbn; auto|].
  destruct (before0 s) as [n|].
  - destruct IH as (E1 & E2 & E3). rewrite E1. cbn [bind length firstn]. rewrite E2. auto.
  - rewrite IH. reflexivity.
Qed.
Lemma before_app n : Forall (fun x => x <> 0) n -> before0 (n ++ [0]) = Some n.
Proof.
  induction 1 as [|x n X N IH]; [reflexivity|]. cbn [app before0].
  destruct (Z.eqb_spec x 0); [contradiction|]. rewrite IH. reflexivity.
Qed.
Lemma copied n : wr (repeat 0 (length n + 1)) 0 n = n ++ [0].
Proof.
  unfold wr. cbn [firstn app Nat.add]. f_equal. rewrite Nat.add_comm. cbn [Nat.add].
  induction n as [|x n IH]; [reflexivity|]. exact IH.
Qed.

Lemma fset_blk m b o x : f_blk (fset m b o) x = if Nat.eqb x b then o else f_blk m x.
Proof. reflexivity. Qed.
Lemma fset_same m b o : f_blk (fset m b o) b = o.
Proof. rewrite fset_blk, Nat.eqb_refl. reflexivity. Qed.
Lemma fset_other m b o x : x <> b -> f_blk (fset m b o) x = f_blk m x.
Proof. intros H. rewrite fset_blk. destruct (Nat.eqb_spec x b); [contradiction|reflexivity]. Qed.

(** Object [j] in memory: its FILE_INFO [a], its name [n] and, while open, its FILE;
    [g] gives the object that a block belongs to. *)
Definition obj_at (base : nat) (m : fmem) (v : nat -> fptr) (g : nat -> option nat) (j : nat) (o : fobj) : Prop :=
  exists a n, v j = FAt a /\ (base <= a)%nat /\ (base <= n)%nat /\ g a = Some j /\ g n = Some j /\
    f_blk m n = Some (FStr (o_name o ++ [0])) /\ Forall (fun x => x <> 0) (o_name o) /\
    match o_pos o with
    | None => f_blk m a = Some (FInfo (FAt n) FNil) /\
              forall b, (base <= b)%nat -> g b = Some j -> f_blk m b <> None -> b = a \/ b = n
    | Some pos => exists h, (base <= h)%nat /\ g h = Some j /\
              f_blk m a = Some (FInfo (FAt n) (FAt h)) /\ f_blk m h = Some (FHandle (o_name o) pos) /\
              forall b, (base <= b)%nat -> g b = Some j -> f_blk m b <> None -> b = a \/ b = n \/ b = h
    end.

Record rep (base : nat) (m : fmem) (v : nat -> fptr) (w : world) (g : nat -> option nat) : Prop := {
  rp_fs : forall n, w_fs w n = f_fs m n; rp_fail : w_fail w = f_fail m; rp_deny : w_deny w = f_deny m;
  rp_base : (base <= f_next m)%nat;
  rp_cl : forall b, (b < base)%nat -> f_blk m b = match w_str w b with Some s => Some (FStr s) | None => None end;
  rp_str : forall b, (base <= b)%nat -> w_str w b = None;
  rp_high : forall b, (f_next m <= b)%nat -> f_blk m b = None;
  rp_obj : forall j o, w_obj w j = Some o -> obj_at base m v g j o;
  rp_own : forall b, (base <= b)%nat -> f_blk m b <> None -> exists j, g b = Some j /\ w_obj w j <> None
}.

Lemma obj_frame base m v g j o m' v' g' : obj_at base m v g j o -> v' j = v j ->
  (forall b, (base <= b)%nat -> g b = Some j -> f_blk m b <> None -> f_blk m' b = f_blk m b /\ g' b = Some j) ->
  (forall b, (base <= b)%nat -> g' b = Some j -> f_blk m' b <> None -> g b = Some j /\ f_blk m b <> None) ->
  obj_at base m' v' g' j o.
Proof.
  intros (a & n & V & Ba & Bn & Ga & Gn & Mn & NZ & R) Vv K1 K2.
  assert (La : f_blk m a <> None) by (destruct (o_pos o); [destruct R as (h & _ & _ & R & _); congruence | destruct R; congruence]).
  destruct (K1 a Ba Ga La) as (Ma' & Ga'). destruct (K1 n Bn Gn ltac:(congruence)) as (Mn' & Gn').
  exists a, n. rewrite Vv, Mn', Ma'. repeat (split; [assumption|]).
  destruct (o_pos o).
  - destruct R as (h & Bh & Gh & Ra & Rh & U). destruct (K1 h Bh Gh ltac:(congruence)) as (Mh' & Gh').
    exists h. rewrite Mh'. repeat (split; [assumption|]). intros b B G L. destruct (K2 b B G L). auto.
  - destruct R as (Ra & U). split; [assumption|]. intros b B G L. destruct (K2 b B G L). auto.
Qed.

Lemma name_refl n : name_eqb n n = true.
Proof. unfold name_eqb. destruct (list_eq_dec Z.eq_dec n n); congruence. Qed.

Section Steps.
Variable x : iface.
Variable js : list nat.
Variable base : nat.

Definition step_ok (m : fmem) (v : nat -> fptr) (k : fcall) (r : res (world * ans)) : Prop :=
  match r with
  | Ok (w', a) => exists m' v' g', fstep x m v k = Ok (m', v', a) /\ rep base m' v' w' g'
  | UB => fstep x m v k = UB
  | Fuel => fstep x m v k = Fuel
  end.

Lemma string_at m p s : fload m p = Ok (FStr s) -> fstring m p = match before0 s with Some n => Ok n | None => UB end.
Proof.
  intros E. unfold fstring. rewrite E. cbn [bind]. pose proof (strlen_before s) as H.
  destruct (before0 s) as [n|]; [destruct H as (-> & H & _); cbn [bind]; rewrite H; reflexivity | rewrite H; reflexivity].
Qed.
Lemma load_at m b o : f_blk m b = Some o -> fload m (FAt b) = Ok o.
Proof. intros E. unfold fload. rewrite E. reflexivity. Qed.
Lemma store_at m b o o' : f_blk m b = Some o -> fstore m (FAt b) o' = Ok (fset m b (Some o')).
Proof. intros E. unfold fstore. rewrite (load_at _ _ _ E). reflexivity. Qed.
Lemma client_block m v w g b s : rep base m v w g -> w_str w b = Some s -> (b < base)%nat /\ f_blk m b = Some (FStr s).
Proof.
  intros R E. assert (B : (b < base)%nat) by (destruct (Nat.lt_ge_cases b base) as [?|B]; [assumption|]; rewrite (rp_str _ _ _ _ _ R b B) in E; congruence).
  split; [assumption|]. rewrite (rp_cl _ _ _ _ _ R b B), E. reflexivity.
Qed.

(** A change of the client's string. *)
Lemma client_step m v w g b o s : rep base m v w g -> w_str w b = Some s ->
  rep base (fset m b (match o with Some s => Some (FStr s) | None => None end)) v (set_str w b o) g.
Proof.
  intros R E. destruct (client_block m v w g b s R E) as (B & M). destruct R. split; cbn [set_str w_fs w_fail w_deny w_str w_obj fset f_fs f_fail f_deny f_next]; try assumption.
  - intros y Y. rewrite fset_blk. destruct (Nat.eqb y b); [destruct o; reflexivity|]. apply rp_cl0. assumption.
  - intros y Y. destruct (Nat.eqb_spec y b); [lia|]. apply rp_str0. assumption.
  - intros y Y. rewrite fset_other by lia. apply rp_high0. assumption.
  - intros j q Q. refine (obj_frame base m v g j q _ v g (rp_obj0 j q Q) eq_refl _ _); intros y Y G; rewrite fset_other by lia; auto.
  - intros y Y. rewrite fset_other by lia. apply rp_own0. assumption.
Qed.

(** A change of the blocks of object [j]. *)
Lemma own_step m v w g m' v' w' g' j : rep base m v w g ->
  (forall n, w_fs w' n = f_fs m' n) -> w_fail w' = f_fail m' -> w_deny w' = f_deny m' -> w_str w' = w_str w ->
  (f_next m <= f_next m')%nat ->
  (forall i, i <> j -> w_obj w' i = w_obj w i /\ v' i = v i) ->
  (forall b, (b < f_next m)%nat -> g' b = g b) ->
  (forall b, (b < base)%nat -> f_blk m' b = f_blk m b) ->
  (forall b, (base <= b)%nat -> f_blk m' b = f_blk m b \/ g' b = Some j) ->
  (forall b, (f_next m' <= b)%nat -> f_blk m' b = None) ->
  match w_obj w' j with
  | Some o => obj_at base m' v' g' j o
  | None => forall b, (base <= b)%nat -> g' b = Some j -> f_blk m' b = None
  end ->
  rep base m' v' w' g'.
Proof.
  intros R Efs Efail Edeny Estr N Oth G1 C1 C2 Hi Oj. destruct R.
  assert (low : forall b, f_blk m b <> None -> (b < f_next m)%nat).
  { intros b L. destruct (Nat.lt_ge_cases b (f_next m)) as [?|B]; [assumption|]. exfalso. exact (L (rp_high0 b B)). }
  split; try assumption.
  - lia.
  - intros b B. rewrite C1, Estr by assumption. apply rp_cl0. assumption.
  - intros b B. rewrite Estr. apply rp_str0. assumption.
  - intros i o O. destruct (Nat.eq_dec i j) as [->|D].
    + rewrite O in Oj. assumption.
    + destruct (Oth i D) as (Oi & Vi). rewrite Oi in O.
      refine (obj_frame base m v g i o m' v' g' (rp_obj0 i o O) Vi _ _); intros b B G L.
      * pose proof (G1 b (low b L)) as Gb. split; [|congruence]. destruct (C2 b B); [assumption|congruence].
      * destruct (C2 b B) as [E|E]; [|congruence]. rewrite E in L. split; [|assumption]. rewrite <- (G1 b (low b L)). assumption.
  - assert (Lj : forall b, (base <= b)%nat -> f_blk m' b <> None -> g' b = Some j -> w_obj w' j <> None).
    { intros b B L G E. rewrite E in Oj. exact (L (Oj b B G)). }
    intros b B L. destruct (C2 b B) as [E|E].
    + rewrite E in L. destruct (rp_own0 b B L) as (i & Gi & Oi). exists i. rewrite (G1 b (low b L)). split; [assumption|].
      destruct (Nat.eq_dec i j) as [->|D]; [|rewrite (proj1 (Oth i D)); assumption].
      apply (Lj b B); [congruence|]. rewrite (G1 b (low b L)). assumption.
    + exists j. split; [assumption|]. apply (Lj b B L E).
Qed.

Lemma live_low m v w g b : rep base m v w g -> f_blk m b <> None -> (b < f_next m)%nat.
Proof.
  intros R L. destruct (Nat.lt_ge_cases b (f_next m)) as [?|B]; [assumption|]. exfalso. exact (L (rp_high _ _ _ _ _ R b B)).
Qed.

Ltac sel := cbn [set_obj set_fs set_str w_fs w_fail w_deny w_str w_obj fset fsave f_fs f_fail f_deny f_next].
Ltac upd := rewrite ?fset_blk; repeat match goal with |- context [Nat.eqb ?a ?b] => destruct (Nat.eqb_spec a b); subst end.

Lemma close_step m v w g j r : rep base m v w g -> ostep x js w (CClose j) = Some r -> step_ok m v (CClose j) r.
Proof.
  intros R S. cbn [ostep] in S. destruct (w_obj w j) as [[nm [pos|]]|] eqn:O; try discriminate S. injection S as <-.
  destruct (rp_obj _ _ _ _ _ R j _ O) as (a & n & V & Ba & Bn & Ga & Gn & Mn & NZ & h & Bh & Gh & Ma & Mh & U). cbn [o_name o_pos] in *.
  assert (Dah : a <> h) by congruence. assert (Dan : a <> n) by congruence. assert (Dnh : n <> h) by congruence.
  exists (fset (fset m h None) a (Some (FInfo (FAt n) FNil))), v, g. split.
  - cbn [fstep]. unfold FILE_CLOSE, finfo. rewrite V, (load_at _ _ _ Ma). cbn [bind lib_close]. rewrite (load_at _ _ _ Mh). cbn [bind].
    rewrite (store_at (fset m h None) a (FInfo (FAt n) (FAt h))) by (rewrite fset_other; assumption). reflexivity.
  - pose proof (live_low _ _ _ _ a R ltac:(congruence)). pose proof (live_low _ _ _ _ h R ltac:(congruence)).
    apply (own_step m v w g _ _ _ _ j R); sel; try reflexivity; try apply R; auto with arith.
    + intros i D. destruct (Nat.eqb_spec i j); [contradiction|]. auto.
    + intros b B. upd; lia || reflexivity.
    + intros b B. upd; auto.
    + intros b B. upd; try lia. apply (rp_high _ _ _ _ _ R). assumption.
    + rewrite Nat.eqb_refl. exists a, n. cbn [o_name o_pos]. rewrite fset_same, (fset_other _ a) by congruence. rewrite fset_other by congruence.
      repeat (split; [assumption|]). split; [reflexivity|]. intros b B G. upd; try tauto. intros L. destruct (U b B G L) as [?|[?|?]]; tauto.
Qed.

Lemma flush_step m v w g j r : rep base m v w g -> ostep x js w (CFlush j) = Some r -> step_ok m v (CFlush j) r.
Proof.
  intros R S. cbn [ostep] in S. destruct (w_obj w j) as [[nm [pos|]]|] eqn:O; try discriminate S. injection S as <-.
  destruct (rp_obj _ _ _ _ _ R j _ O) as (a & n & V & Ba & Bn & Ga & Gn & Mn & NZ & h & Bh & Gh & Ma & Mh & U). cbn [o_name o_pos] in *.
  exists m, v, g. split; [|assumption].
  cbn [fstep]. unfold FILE_FLUSH, finfo. rewrite V, (load_at _ _ _ Ma). cbn [bind]. rewrite (load_at _ _ _ Mh). reflexivity.
Qed.

Lemma down_step m v w g j r : rep base m v w g -> ostep x js w (CDown j) = Some r -> step_ok m v (CDown j) r.
Proof.
  intros R S. cbn [ostep] in S. destruct (w_obj w j) as [[nm op]|] eqn:O; try discriminate S. injection S as <-.
  destruct (rp_obj _ _ _ _ _ R j _ O) as (a & n & V & Ba & Bn & Ga & Gn & Mn & NZ & C). cbn [o_name o_pos] in *.
  pose proof (live_low _ _ _ _ n R ltac:(congruence)) as Ln.
  destruct op as [pos|].
  - destruct C as (h & Bh & Gh & Ma & Mh & U).
    assert (Dah : a <> h) by congruence. assert (Dan : a <> n) by congruence. assert (Dnh : n <> h) by congruence.
    pose proof (live_low _ _ _ _ a R ltac:(congruence)). pose proof (live_low _ _ _ _ h R ltac:(congruence)).
    exists (fset (fset (fset m n None) h None) a None), v, g. split.
    + cbn [fstep]. unfold tearDownFile, finfo. rewrite V, (load_at _ _ _ Ma). cbn [bind ffree]. rewrite (load_at _ _ _ Mn). cbn [bind].
      rewrite (load_at (fset m n None) a (FInfo (FAt n) (FAt h))) by (rewrite fset_other; assumption). cbn [bind].
      assert (E : lib_close (if_sd x) (fset m n None) (FAt h) = Ok (fset (fset m n None) h None)).
      { cbn [lib_close]. rewrite (load_at _ h (FHandle nm pos)) by (rewrite fset_other; [assumption|congruence]). reflexivity. }
      rewrite E. destruct (if_sd x); cbn [bind];
        rewrite (load_at _ a (FInfo (FAt n) (FAt h))) by (rewrite !fset_other; assumption); reflexivity.
    + apply (own_step m v w g _ _ _ _ j R); sel; try reflexivity; try apply R; auto with arith.
      * intros i D. destruct (Nat.eqb_spec i j); [contradiction|]. auto.
      * intros b B. upd; lia || reflexivity.
      * intros b B. upd; auto.
      * intros b B. upd; try reflexivity. apply (rp_high _ _ _ _ _ R). assumption.
      * rewrite Nat.eqb_refl. intros b B G. upd; try reflexivity. destruct (f_blk m b) eqn:L; [|reflexivity].
        destruct (U b B G ltac:(congruence)) as [?|[?|?]]; contradiction.
  - destruct C as (Ma & U). assert (Dan : a <> n) by congruence. pose proof (live_low _ _ _ _ a R ltac:(congruence)).
    exists (fset (fset m n None) a None), v, g. split.
    + cbn [fstep]. unfold tearDownFile, finfo. rewrite V, (load_at _ _ _ Ma). cbn [bind ffree]. rewrite (load_at _ _ _ Mn). cbn [bind].
      rewrite (load_at (fset m n None) a (FInfo (FAt n) FNil)) by (rewrite fset_other; assumption). cbn [bind].
      destruct (if_sd x); cbn [bind lib_close];
        rewrite (load_at _ a (FInfo (FAt n) FNil)) by (rewrite !fset_other; assumption); reflexivity.
    + apply (own_step m v w g _ _ _ _ j R); sel; try reflexivity; try apply R; auto with arith.
      * intros i D. destruct (Nat.eqb_spec i j); [contradiction|]. auto.
      * intros b B. upd; lia || reflexivity.
      * intros b B. upd; auto.
      * intros b B. upd; try reflexivity. apply (rp_high _ _ _ _ _ R). assumption.
      * rewrite Nat.eqb_refl. intros b B G. upd; try reflexivity. destruct (f_blk m b) eqn:L; [|reflexivity].
        destruct (U b B G ltac:(congruence)) as [?|?]; contradiction.
Qed.

Lemma string_step m v w g b s r : rep base m v w g -> ostep x js w (CString b s) = Some r -> step_ok m v (CString b s) r.
Proof.
  intros R S. cbn [ostep] in S. destruct (w_str w b) as [s0|] eqn:E; try discriminate S. injection S as <-.
  destruct (client_block _ _ _ _ _ _ R E) as (B & M).
  exists (fset m b (Some (FStr s))), v, g. split; [|exact (client_step m v w g b (Some s) s0 R E)].
  cbn [fstep]. rewrite (store_at _ _ _ _ M). reflexivity.
Qed.
Lemma forget_step m v w g b r : rep base m v w g -> ostep x js w (CForget b) = Some r -> step_ok m v (CForget b) r.
Proof.
  intros R S. cbn [ostep] in S. destruct (w_str w b) as [s0|] eqn:E; try discriminate S. injection S as <-.
  destruct (client_block _ _ _ _ _ _ R E) as (B & M).
  exists (fset m b None), v, g. split; [|exact (client_step m v w g b None s0 R E)].
  cbn [fstep ffree]. rewrite (load_at _ _ _ M). reflexivity.
Qed.

Lemma open_step m v w g j mode r : rep base m v w g -> ostep x js w (COpen j mode) = Some r -> step_ok m v (COpen j mode) r.
Proof.
  intros R HS. cbn [ostep] in HS. destruct (w_obj w j) as [[nm [pos|]]|] eqn:O; try discriminate HS.
  destruct (rp_obj _ _ _ _ _ R j _ O) as (a & n & V & Ba & Bn & Ga & Gn & Mn & NZ & Ma & U). cbn [o_name o_pos] in *.
  pose proof (live_low _ _ _ _ a R ltac:(congruence)) as La. pose proof (live_low _ _ _ _ n R ltac:(congruence)) as Ln.
  assert (Dan : a <> n) by congruence.
  destruct ((mode =? 0) || (mode =? 1)) eqn:Mo; cbn [negb] in HS.
  2:{ injection HS as <-. exists m, v, g. split; [|assumption]. cbn [fstep]. unfold FILE_OPEN. rewrite Mo. reflexivity. }
  destruct (busy w js nm); [discriminate HS|].
  set (m1 := mkFM (f_next m) (f_blk m) (f_fs m) (f_fail m) (tl (f_deny m))) in *.
  assert (Go : fstep x m v (COpen j mode) =
    '(m, h) <- (if hd false (f_deny m) then Ok (m1, FNil) else if mode =? 0 then Ok (fnew (fsave m1 nm []) (FHandle nm 0))
                else match f_fs m nm with Some _ => Ok (fnew m1 (FHandle nm 0)) | None => Ok (m1, FNil) end) ;;
    m <- fstore m (FAt a) (FInfo (FAt n) h) ;; Ok (m, v, ADone (match h with FNil => 0 | _ => 1 end))).
  { cbn [fstep]. unfold FILE_OPEN, finfo. rewrite Mo, V, (load_at _ _ _ Ma). cbn [bind]. unfold lib_open.
    rewrite (string_at _ _ _ (load_at _ _ _ Mn)), (before_app _ NZ). cbn [bind]. fold m1.
    replace (match f_deny m with true :: _ => true | _ => false end) with (hd false (f_deny m)) by (destruct (f_deny m) as [|[|] ?]; reflexivity).
    destruct (hd false (f_deny m)); [cbn [bind]; destruct (fstore m1 _ _); reflexivity|].
    destruct (mode =? 0); [cbn [bind fnew]; destruct (fstore _ _ _); reflexivity|]. cbn [m1 f_fs].
    destruct (f_fs m nm); cbn [bind fnew]; destruct (fstore _ _ _); reflexivity. }
  assert (Stay : rep base (fset m1 a (Some (FInfo (FAt n) FNil))) v (mkW (w_obj w) (w_str w) (w_fs w) (w_fail w) (tl (w_deny w))) g).
  { apply (own_step m v w g _ _ _ _ j R); subst m1; sel; try reflexivity; try apply R; auto with arith.
    - rewrite (rp_deny _ _ _ _ _ R). reflexivity.
    - intros b B. upd; lia || reflexivity.
    - intros b B. upd; auto.
    - intros b B. upd; [lia|]. apply (rp_high _ _ _ _ _ R). assumption.
    - rewrite O. exists a, n. cbn [o_name o_pos]. rewrite fset_same, fset_other by congruence.
      repeat (split; [assumption|]). split; [reflexivity|]. intros b B G. upd; auto. }
  assert (Opened : forall m2 w2, f_next m2 = f_next m -> f_blk m2 = f_blk m -> (forall y, w_fs w2 y = f_fs m2 y) ->
    w_fail w2 = f_fail m2 -> w_deny w2 = f_deny m2 -> w_str w2 = w_str w -> w_obj w2 = w_obj w ->
    exists m' v' g', ('(m, h) <- Ok (fnew m2 (FHandle nm 0)) ;;
       m <- fstore m (FAt a) (FInfo (FAt n) h) ;; Ok (m, v, ADone (match h with FNil => 0 | _ => 1 end))) = Ok (m', v', ADone 1) /\
      rep base m' v' (set_obj w2 j (Some (mkO nm (Some 0)))) g').
  { intros m2 w2 N2 B2 F2 Fa2 De2 St2 Ob2. pose proof (rp_base _ _ _ _ _ R) as Bm.
    set (h := f_next m) in *.
    exists (fset (fset (mkFM (S h) (f_blk m) (f_fs m2) (f_fail m2) (f_deny m2)) h (Some (FHandle nm 0))) a (Some (FInfo (FAt n) (FAt h)))), v,
      (fun b => if Nat.eqb b h then Some j else g b). split.
    - unfold fnew. rewrite N2, B2. fold h. cbn [bind]. rewrite (store_at _ a (FInfo (FAt n) FNil)); [reflexivity|].
      rewrite fset_other by lia. exact Ma.
    - apply (own_step m v w g _ _ _ _ j R); sel; try assumption; auto with arith; fold h.
      + intros i D. rewrite Ob2. destruct (Nat.eqb_spec i j); [contradiction|]. auto.
      + intros b B. destruct (Nat.eqb_spec b h); [lia|reflexivity].
      + intros b B. rewrite !fset_other by lia. reflexivity.
      + intros b B. upd; try lia; auto.
      + intros b B. upd; try lia. cbn [f_blk]. apply (rp_high _ _ _ _ _ R). fold h. lia.
      + rewrite Nat.eqb_refl. exists a, n. cbn [o_name o_pos]. rewrite fset_same, (fset_other _ a), (fset_other _ h) by lia. cbn [f_blk].
        destruct (Nat.eqb_spec a h); [lia|]. destruct (Nat.eqb_spec n h); [lia|].
        repeat (split; [assumption|]). exists h. rewrite Nat.eqb_refl. rewrite fset_other, fset_same by lia.
        repeat (split; [first [assumption | reflexivity]|]). intros b B. destruct (Nat.eqb_spec b h); [auto|].
        intros G. upd; try tauto. cbn [f_blk]. intros L. destruct (U b B G L); tauto. }
  rewrite (rp_deny _ _ _ _ _ R) in HS.
  destruct (hd false (f_deny m)) eqn:Hd.
  { injection HS as <-. cbn [step_ok]. rewrite Go. cbn [bind].
    rewrite (store_at m1 a (FInfo (FAt n) FNil)) by exact Ma. cbn [bind]. rewrite <- (rp_deny _ _ _ _ _ R). eauto. }
  destruct (mode =? 0).
  { injection HS as <-. cbn [step_ok]. rewrite Go. apply Opened; subst m1; sel; try reflexivity; try apply R.
    intros y. destruct (name_eqb y nm); [reflexivity|apply R]. }
  rewrite (rp_fs _ _ _ _ _ R) in HS. destruct (f_fs m nm).
  { injection HS as <-. cbn [step_ok]. rewrite Go. apply Opened; subst m1; sel; try reflexivity; try apply R. }
  injection HS as <-. cbn [step_ok]. rewrite Go. cbn [bind].
  rewrite (store_at m1 a (FInfo (FAt n) FNil)) by exact Ma. cbn [bind]. rewrite <- (rp_deny _ _ _ _ _ R). eauto.
Qed.

Lemma idle_erase d a b : if_mock x && negb (if_sd x) = false -> drive x d (QErase a b) = Ok (d, ADone 1).
Proof. unfold drive. destruct (if_sd x), (if_mock x); intros H; try discriminate H; reflexivity. Qed.

Lemma req_step m v w g j q r : rep base m v w g -> ostep x js w (CReq j q) = Some r -> step_ok m v (CReq j q) r.
Proof.
  intros R HS. cbn [ostep] in HS. destruct (w_obj w j) as [[nm [pos|]]|] eqn:O; try discriminate HS.
  destruct (rp_obj _ _ _ _ _ R j _ O) as (a & n & V & Ba & Bn & Ga & Gn & Mn & NZ & h & Bh & Gh & Ma & Mh & U). cbn [o_name o_pos] in *.
  pose proof (live_low _ _ _ _ a R ltac:(congruence)) as La. pose proof (live_low _ _ _ _ h R ltac:(congruence)) as Lh.
  assert (Dah : a <> h) by congruence. assert (Dan : a <> n) by congruence. assert (Dnh : n <> h) by congruence.
  rewrite (rp_fs _ _ _ _ _ R nm) in HS. destruct (f_fs m nm) as [c|] eqn:F; [|destruct q; discriminate HS].
  assert (S' : r = '(d, y) <- drive x (mkDev c pos []) q ;; Ok (set_obj (set_fs w nm (bts d)) j (Some (mkO nm (Some (bpos d)))), y)).
  { destruct q; try discriminate HS; injection HS as <-; reflexivity. }
  assert (Kept : forall m2 c' pos', (forall y, f_fs m2 y = (if name_eqb y nm then Some c' else f_fs m y)) ->
    f_fail m2 = f_fail m -> f_deny m2 = f_deny m -> f_next m2 = f_next m ->
    (forall b, f_blk m2 b = (if Nat.eqb b h then Some (FHandle nm pos') else f_blk m b)) ->
    rep base m2 v (set_obj (set_fs w nm c') j (Some (mkO nm (Some pos')))) g).
  { intros m2 c' pos' F2 Fa2 De2 N2 B2.
    apply (own_step m v w g _ _ _ _ j R); sel.
    - intros y. rewrite F2. destruct (name_eqb y nm); [reflexivity|apply R].
    - rewrite Fa2. apply R.
    - rewrite De2. apply R.
    - reflexivity.
    - lia.
    - intros i D. destruct (Nat.eqb_spec i j); [contradiction|]. auto.
    - reflexivity.
    - intros b B. rewrite B2. destruct (Nat.eqb_spec b h); [lia|reflexivity].
    - intros b B. rewrite B2. destruct (Nat.eqb_spec b h); subst; auto.
    - intros b B. rewrite B2. destruct (Nat.eqb_spec b h); [lia|]. apply (rp_high _ _ _ _ _ R). lia.
    - rewrite Nat.eqb_refl. exists a, n. cbn [o_name o_pos]. rewrite !B2.
      destruct (Nat.eqb_spec a h); [lia|]. destruct (Nat.eqb_spec n h); [contradiction|].
      repeat (split; [assumption|]). exists h. rewrite B2, Nat.eqb_refl. repeat (split; [first [assumption|reflexivity]|]).
      intros b B G. rewrite B2. destruct (Nat.eqb_spec b h); [tauto|]. apply U; assumption. }
  destruct (match q with QErase _ _ => negb (if_mock x && negb (if_sd x)) | _ => false end) eqn:Er.
  - destruct q as [| |e1 e2|]; try discriminate Er. apply negb_true_iff in Er. rewrite (idle_erase _ _ _ Er) in S'. cbn [bind bts bpos] in S'. subst r.
    exists m, v, g. split; [cbn [fstep file_req]; rewrite Er; reflexivity|]. apply Kept; try reflexivity.
    + intros y. destruct (name_eqb y nm) eqn:E; [|reflexivity]. unfold name_eqb in E. destruct (list_eq_dec Z.eq_dec y nm); [congruence|discriminate E].
    + intros b. destruct (Nat.eqb_spec b h); [congruence|reflexivity].
  - assert (A : file_req x m (FAt a) q = '(d, y) <- drive x (mkDev c pos []) q ;; m <- fstore (fsave m nm (bts d)) (FAt h) (FHandle nm (bpos d)) ;; Ok (m, y)).
    { assert (B : forall q, ('(_, h) <- finfo m (FAt a) ;; o <- fload m h ;;
         match o with FHandle n pos => match f_fs m n with Some c => '(d, a) <- drive x (mkDev c pos []) q ;;
            m <- fstore (fsave m n (bts d)) h (FHandle n (bpos d)) ;; Ok (m, a) | None => UB end | _ => UB end) =
         '(d, y) <- drive x (mkDev c pos []) q ;; m <- fstore (fsave m nm (bts d)) (FAt h) (FHandle nm (bpos d)) ;; Ok (m, y)).
      { intros q'. unfold finfo. rewrite (load_at _ _ _ Ma). cbn [bind]. rewrite (load_at _ _ _ Mh). cbn [bind]. rewrite F. reflexivity. }
      unfold file_req. destruct q; try (exfalso; discriminate HS); try apply B.
      apply negb_false_iff in Er. rewrite Er. apply B. }
    subst r. unfold step_ok. cbn [fstep]. rewrite V, A. destruct (drive x (mkDev c pos []) q) as [[d y]| |]; [|reflexivity|reflexivity].
    cbn [bind]. rewrite (store_at (fsave m nm (bts d)) h (FHandle nm pos)) by exact Mh. cbn [bind].
    eexists. exists v, g. split; [reflexivity|]. apply Kept; reflexivity.
Qed.

Lemma setup_step m v w g j b r : rep base m v w g -> ostep x js w (CSetup j b) = Some r -> step_ok m v (CSetup j b) r.
Proof.
  intros R HS. cbn [ostep] in HS. destruct (w_obj w j) as [o|] eqn:O; [discriminate HS|].
  destruct (w_str w b) as [s|] eqn:E; [|discriminate HS].
  destruct (existsb (Nat.eqb j) js && negb (existsb id (firstn 2 (w_fail w)))) eqn:Fl; [|discriminate HS].
  apply andb_prop in Fl. destruct Fl as (_ & Fl). apply negb_true_iff in Fl.
  pose proof (strlen_before s) as Hs. destruct (before0 s) as [nm|] eqn:Nm; [|discriminate HS]. injection HS as <-.
  destruct Hs as (_ & _ & NZ). destruct (client_block _ _ _ _ _ _ R E) as (Bb & Mb).
  pose proof (rp_base _ _ _ _ _ R) as Bm. set (a := f_next m) in *.
  exists (fset (fset (fset (fset (fset (mkFM (S (S a)) (f_blk m) (f_fs m) (skipn 2 (f_fail m)) (f_deny m)) a (Some (FInfo FWild FWild))) (S a)
      (Some (FStr (repeat 0 (length nm + 1))))) a (Some (FInfo (FAt (S a)) FWild))) (S a) (Some (FStr (nm ++ [0])))) a (Some (FInfo (FAt (S a)) FNil))),
    (fun i => if Nat.eqb i j then FAt a else v i), (fun y => if Nat.eqb y a || Nat.eqb y (S a) then Some j else g y).
  split.
  - rewrite (rp_fail _ _ _ _ _ R) in Fl. cbn [fstep]. unfold setupFile.
    assert (A1 : forall o, fmalloc m o = fnew (mkFM a (f_blk m) (f_fs m) (tl (f_fail m)) (f_deny m)) o).
    { intros o. unfold fmalloc. destruct (f_fail m) as [|[|] l]; [reflexivity|discriminate Fl|reflexivity]. }
    rewrite A1. unfold fnew at 1. cbn [f_next f_blk f_fs f_fail f_deny].
    set (m1 := fset (mkFM (S a) (f_blk m) (f_fs m) (tl (f_fail m)) (f_deny m)) a (Some (FInfo FWild FWild))).
    rewrite (string_at m1 (FAt b) s), Nm by (apply load_at; unfold m1; rewrite fset_other by lia; exact Mb). cbn [bind].
    assert (A2 : forall o, fmalloc m1 o = (fset (mkFM (S (S a)) (f_blk m1) (f_fs m) (skipn 2 (f_fail m)) (f_deny m)) (S a) (Some o), FAt (S a))).
    { intros o. unfold fmalloc. cbn [m1 fset f_fail]. destruct (f_fail m) as [|t l]; [reflexivity|]. cbn [tl skipn]. destruct l as [|[|] l]; [reflexivity| |reflexivity].
      exfalso. cbn in Fl. destruct (id t); discriminate Fl. }
    rewrite A2.
    rewrite (store_at _ a (FInfo FWild FWild)) by (rewrite fset_other by lia; unfold m1; cbn [f_blk]; apply fset_same). cbn [bind].
    rewrite (store_at _ (S a) (FStr (repeat 0 (length nm + 1)))) by (rewrite fset_other by lia; apply fset_same). cbn [bind].
    rewrite (store_at _ a (FInfo (FAt (S a)) FWild)) by (rewrite fset_other by lia; apply fset_same). cbn [bind]. rewrite copied. reflexivity.
  - apply (own_step m v w g _ _ _ _ j R); sel; fold a; try reflexivity; try apply R.
    + rewrite (rp_fail _ _ _ _ _ R). reflexivity.
    + lia.
    + intros i D. destruct (Nat.eqb_spec i j); [contradiction|]. auto.
    + intros y Y. destruct (Nat.eqb_spec y a); [lia|]. destruct (Nat.eqb_spec y (S a)); [lia|reflexivity].
    + intros y Y. rewrite !fset_other by lia. reflexivity.
    + intros y Y. destruct (Nat.eqb_spec y a); [auto|]. destruct (Nat.eqb_spec y (S a)); [auto|]. rewrite !fset_other by lia. auto.
    + intros y Y. rewrite !fset_other by lia. apply (rp_high _ _ _ _ _ R). fold a. lia.
    + rewrite Nat.eqb_refl. exists a, (S a). cbn [o_name o_pos]. rewrite !Nat.eqb_refl, orb_true_r. cbn [orb].
      rewrite fset_same. rewrite (fset_other _ a) by lia. rewrite fset_same.
      repeat (split; [first [reflexivity | assumption | lia]|]). intros y Y G. rewrite !fset_blk.
      destruct (Nat.eqb_spec y a); [auto|]. destruct (Nat.eqb_spec y (S a)); [auto|]. cbn [orb] in G. cbn [f_blk]. intros L. exfalso.
      destruct (rp_own _ _ _ _ _ R y Y L) as (i & Gi & Oi). congruence.
Qed.

Lemma one_step m v w g k r : rep base m v w g -> ostep x js w k = Some r -> step_ok m v k r.
Proof.
  destruct k; [apply setup_step|apply open_step|apply close_step|apply flush_step|apply req_step|apply down_step|apply string_step|apply forget_step].
Qed.

Lemma run_rep p : forall m v w g r, rep base m v w g -> orun x js w p = Some r ->
  match r with
  | Ok (w', l) => exists m' v' g', frun x m v p = Ok (m', v', l) /\ rep base m' v' w' g'
  | UB => frun x m v p = UB
  | Fuel => frun x m v p = Fuel
  end.
Proof.
  induction p as [|k p IH]; intros m v w g r R HS; cbn [orun frun] in *; [injection HS as <-; eauto|].
  destruct (ostep x js w k) as [[[w1 a]| |]|] eqn:E; try discriminate HS; pose proof (one_step m v w g k _ R E) as H; cbn [step_ok] in H.
  - destruct H as (m1 & v1 & g1 & E1 & R1). rewrite E1. cbn [bind].
    destruct (orun x js w1 p) as [[[w2 l]| |]|] eqn:E2; try discriminate HS; injection HS as <-; specialize (IH m1 v1 w1 g1 _ R1 E2); cbn in IH.
    + destruct IH as (m2 & v2 & g2 & E3 & R2). rewrite E3. cbn [bind]. eauto.
    + rewrite IH. reflexivity.
    + rewrite IH. reflexivity.
  - injection HS as <-. rewrite H. reflexivity.
  - injection HS as <-. rewrite H. reflexivity.
Qed.
End Steps.

Theorem objects_ok : forall x js m w v p r, client m w -> orun x js w p = Some r ->
  match r with
  | Ok (w', l) => exists m' v', frun x m v p = Ok (m', v', l) /\
      (forall n, f_fs m' n = w_fs w' n) /\
      (forall b, (b < f_next m)%nat -> f_blk m' b = match w_str w' b with Some s => Some (FStr s) | None => None end) /\
      ((forall j, w_obj w' j = None) -> forall b, (f_next m <= b)%nat -> f_blk m' b = None)
  | UB => frun x m v p = UB
  | Fuel => frun x m v p = Fuel
  end.
Proof.
  intros x js m w v p r (Ob & Fs & Fa & De & Bl & St) HS.
  assert (R : rep (f_next m) m v w (fun _ => None)).
  { split; try assumption; auto.
    - intros b B. rewrite Bl, St by assumption. reflexivity.
    - intros j o O. rewrite Ob in O. discriminate O.
    - intros b B L. rewrite Bl, St in L by assumption. contradiction. }
  pose proof (run_rep x js (f_next m) p m v w _ r R HS) as H. destruct r as [[w' l]| |]; try exact H.
  destruct H as (m' & v' & g' & E & R'). exists m', v'. split; [assumption|]. split; [intros n; symmetry; apply R'|]. split; [apply R'|].
  intros Done b B. destruct (f_blk m' b) eqn:L; [|reflexivity]. destruct (rp_own _ _ _ _ _ R' b B ltac:(congruence)) as (j & _ & O).
  exfalso. apply O. apply Done.
Qed.

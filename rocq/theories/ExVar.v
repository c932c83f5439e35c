(** Concrete histories meeting the hypotheses of the variable-data theorems. *)
From Verif Require Import Base BaseFacts Config Spline Storage DB VarData Recovery Spec Util UtilFacts SpecPage SpecStore Run SpecRun
  SpecVar ReachFacts ExFacts.
Open Scope Z_scope.

(** 4 records of 4+4 bytes and an address on 64-byte pages; 8 data pages and 8
    variable pages (56 payload bytes each) in blocks of 2. *)
Definition eV := ex_cfg 64 (16 + 32) 8 2 8 1 None None.
(** The same with an erase that destroys the block. *)
Definition eVe := ex_cfg 64 (16 + 32) 8 2 8 1 (Some 255) None.
(** The same with binary search. *)
Definition eVb := ex_cfg 64 (16 + 32 + 128 + 256) 8 2 8 1 None (Some 0).

Lemma eV_set : setting eV (2 ^ 31) (2 ^ 31).
Proof. setting_ex. lay. Qed.
Lemma eVe_set : setting eVe (2 ^ 31) (2 ^ 31).
Proof. setting_ex. lay. Qed.
Lemma eVb_set : setting eVb (2 ^ 31) (2 ^ 31).
Proof. setting_ex. lay. Qed.
Lemma eV_var : var_setting eV (2 ^ 32).
Proof. constructor; try reflexivity; try (vm_compute; discriminate). left. reflexivity. Qed.
Lemma eVe_var : var_setting eVe 512.
Proof. constructor; try reflexivity; try (vm_compute; discriminate). right. vm_compute. discriminate. Qed.
Lemma eVb_var : var_setting eVb (2 ^ 32).
Proof. constructor; try reflexivity; try (vm_compute; discriminate); [repeat split; reflexivity|left; reflexivity]. Qed.

(** Puts of [n] keys from [k] on, each with [len] bytes of variable data. *)
Fixpoint vputs (n : nat) (k len : Z) : list vop :=
  match n with
  | O => []
  | S n' => VPut k (le_enc 4 (k * 3)) (Some (repeat (k mod 256) (Z.to_nat len))) :: vputs n' (k + 1) len
  end.
(** The same without variable data. *)
Fixpoint vplain (n : nat) (k : Z) : list vop :=
  match n with O => [] | S n' => VPut k (le_enc 4 (k * 3)) None :: vplain n' (k + 1) end.

(** ** Checking the hypotheses *)
Definition vop_okb (c : cfg) (KB : Z) (L : log) (o : vop) : bool :=
  match o with
  | VPut k d v =>
      (0 <=? k) && (k <? KB) && (length d =? dsz c)%nat &&
      (negb (refused L k) || negb (match cur L with [] => true | _ => false end)
       || (zlen (nth (Z.to_nat (zlen (pages L) - 1)) (pages L) []) =? maxRec c))
  | VFlush => true
  | VGet k => (0 <=? k) && (k <? KB)
  | VGetVar k ns =>
      (0 <=? k) && (k <? KB) && forallb (fun n => (0 <=? n) && (n <? 2 ^ 32)) ns &&
      forallb (fun r => negb (rkey r =? k)) (cur L)
  end.
Fixpoint vhist_okb (c : cfg) (KB : Z) (S : vstore) (h : list vop) : bool :=
  match h with
  | [] => true
  | o :: h' => vop_okb c KB (vlog S) o && vhist_okb c KB (vspec_step (maxRec c) (numData c) (eraseSize c) S o) h'
  end.
Lemma vhist_okb_ok c KB h : forall S, vhist_okb c KB S h = true -> vhist_ok c KB S h.
Proof.
  induction h as [|o h IH]; intros S H; [exact I|]. cbn [vhist_okb] in H. apply andb_prop in H as [H1 H2].
  split; [|auto]. destruct o as [k d v| |k|k ns]; cbn [vop_okb vop_ok] in *; auto.
  - rewrite !andb_true_iff in H1. destruct H1 as ((H1 & H3) & H4). apply Nat.eqb_eq in H3. split; [lia|]. split; [auto|].
    intros R C. rewrite R, C in H4. cbn [negb orb] in H4. lia.
  - lia.
  - rewrite !andb_true_iff in H1. destruct H1 as ((H1 & H3) & H4). split; [lia|]. rewrite forallb_forall in H3, H4. split.
    + apply Forall_forall. intros n Hn. specialize (H3 n Hn). lia.
    + intros r Hr. specialize (H4 r Hr). lia.
Qed.

Definition is_vflush (o : vop) : bool := match o with VFlush => true | _ => false end.
Fixpoint vcalmb (c : cfg) (s : state) (h : list vop) : bool :=
  match h with
  | [] => true
  | o :: h' =>
      (if is_vflush o && useIndex c
       then match get_count (iwbuf (si s)) with Ok n => n <? maxIdx c | _ => false end else true) &&
      match vstep c s o with
      | Ok (s', _) =>
          ((nextD (sd s') =? nextD (sd s)) || negb (nextD (sd s) mod numData c =? bufD (sd s))) && vcalmb c s' h'
      | _ => true
      end
  end.
Lemma vcalmb_ok c h : forall s, vcalmb c s h = true -> vcalm c s h.
Proof.
  induction h as [|o h IH]; intros s H; [exact I|]. cbn [vcalmb] in H. apply andb_prop in H as [H1 H2]. split.
  - intros -> U. rewrite U in H1. cbn [is_vflush andb] in H1. destruct (get_count (iwbuf (si s))) as [n| |]; try discriminate.
    exists n. split; [auto|lia].
  - intros s' x E. rewrite E in H2. apply andb_prop in H2 as [H2 H3]. split; [|auto]. intros Ne.
    destruct (Z.eqb_spec (nextD (sd s')) (nextD (sd s))); [congruence|]. cbn [orb] in H2.
    destruct (Z.eqb_spec (nextD (sd s) mod numData c) (bufD (sd s))); [discriminate|auto].
Qed.

Definition vgo (c : cfg) (h : list vop) : option state :=
  match embedDBInit c noDisk [] with
  | Ok (s, r) => if (r =? 0) && vcalmb c s h then match vrun c s h with Ok (s, _) => Some s | _ => None end else None
  | _ => None
  end.
Lemma vgo_ok c h s : vgo c h = Some s -> vreached c noDisk h s.
Proof.
  unfold vgo, vreached. destruct (embedDBInit c noDisk []) as [[s0 r]| |]; try discriminate. destruct (Z.eqb_spec r 0) as [->|]; [|discriminate].
  cbn [andb]. destruct (vcalmb c s0 h) eqn:C; [|discriminate]. destruct (vrun c s0 h) as [[s1 xs]| |] eqn:E; try discriminate.
  intros H. injection H as ->. exists s0, xs. split; [auto|]. split; [apply vcalmb_ok|]; auto.
Qed.

Definition freshb (s : state) : bool :=
  (bufV (sv s) =? NOPAGE) || if list_eq_dec Z.eq_dec (vrbuf (sv s)) (fpg (fV (sio s)) (bufV (sv s))) then true else false.
Lemma freshb_ok s : freshb s = true -> var_fresh s.
Proof.
  unfold freshb, var_fresh. intros H. apply orb_prop in H as [H|H]; [left; lia|]. right.
  destruct (list_eq_dec Z.eq_dec _ _); [auto|discriminate].
Qed.
Definition cleanb (c : cfg) (s : state) : bool :=
  freshb s && match embedDBFlushVar c s with Ok (s', _) => freshb s' | _ => true end.
Lemma cleanb_ok c s : cleanb c s = true -> var_clean c s.
Proof.
  unfold cleanb. intros H. apply andb_prop in H as [H1 H2]. split; [apply freshb_ok; auto|].
  intros s' r E. rewrite E in H2. apply freshb_ok; auto.
Qed.

Fixpoint insideb (c : cfg) (s : state) (st : stream) (ns : list Z) : bool :=
  match ns with
  | [] => true
  | n :: ns' =>
      (0 <=? n) && (n <? 2 ^ 32) &&
      (negb (fileOffset st mod pageSize c =? 0) || (bytesRead st =? totalBytes st)) &&
      match embedDBVarDataStreamRead c s st n with Ok (s', st', _) => insideb c s' st' ns' | _ => true end
  end.
Lemma insideb_ok c ns : forall s st, insideb c s st ns = true -> reads_inside c s st ns.
Proof.
  induction ns as [|n ns IH]; intros s st H; [exact I|]. cbn [insideb] in H. rewrite !andb_true_iff in H.
  destruct H as ((H1 & H2) & H3). split; [lia|]. split; [apply orb_prop in H2 as [H2|H2]; lia|].
  intros s' st' o E. rewrite E in H3. auto.
Qed.
Definition lookupb (c : cfg) (s : state) (k : Z) (ns : list Z) : bool :=
  match embedDBGetVar c s k with Ok (s', _, _, Some st) => insideb c s' st ns | _ => true end.
Lemma lookupb_ok c s k ns : lookupb c s k ns = true -> lookup_inside c s k ns.
Proof. unfold lookupb. intros H s' r d st E. rewrite E in H. apply insideb_ok; auto. Qed.

Lemma vscen_check c VB h : setting c (2 ^ 31) (2 ^ 31) -> var_setting c VB -> useReset c = true ->
  vhist_okb c (2 ^ 31) emptyVS h = true -> (zlen h + maxErr c <? 2 ^ 31) && (vcosts c h + 2 * pageSize c <? VB) = true ->
  vscenario c (2 ^ 31) (2 ^ 31) VB h.
Proof. intros. constructor; auto; [apply vhist_okb_ok; auto|lia|lia]. Qed.
Ltac vscen := apply vscen_check;
  [first [exact eV_set|exact eVe_set|exact eVb_set]|first [exact eV_var|exact eVe_var|exact eVb_var]
  |reflexivity|vm_compute; reflexivity|vm_compute; reflexivity].

(** Everything the lookup theorem asks of a reached state. *)
Definition ready (c : cfg) (h : list vop) (k : Z) (ns : list Z) : bool :=
  match vgo c h with Some s => cleanb c s && lookupb c s k ns | None => false end.
Lemma ready_ok c h k ns : ready c h k ns = true ->
  exists s, vreached c noDisk h s /\ var_clean c s /\ lookup_inside c s k ns.
Proof.
  unfold ready. destruct (vgo c h) as [s|] eqn:E; [|discriminate]. intros H. apply andb_prop in H as [H1 H2].
  exists s. split; [apply vgo_ok; auto|]. split; [apply cleanb_ok|apply lookupb_ok]; auto.
Qed.
Definition capb (c : cfg) (h h1 : list vop) : bool :=
  match vgo c h, vgo c h1 with
  | Some s, Some s1 => nextV (sv s) + 1 - nextV (sv s1) <=? numVar c - eraseSize c
  | _, _ => false
  end.
Lemma vreached_fun c k h s s' : vreached c k h s -> vreached c k h s' -> s = s'.
Proof. intros (s0 & xs & E & _ & R) (s0' & xs' & E' & _ & R'). congruence. Qed.
Lemma capb_ok c VB h1 k d b h2 s : capb c (h1 ++ VPut k d (Some b) :: h2) h1 = true ->
  refused (vlog (vstore_of c h1)) k = false -> vreached c noDisk (h1 ++ VPut k d (Some b) :: h2) s ->
  var_intact c VB noDisk (h1 ++ VPut k d (Some b) :: h2) s k.
Proof.
  unfold capb. intros H Hr R. destruct (vgo c (h1 ++ VPut k d (Some b) :: h2)) as [s'|] eqn:E; [|discriminate].
  destruct (vgo c h1) as [s1|] eqn:E1; [|discriminate]. rewrite (vreached_fun _ _ _ _ _ R (vgo_ok _ _ _ E)).
  right. exists h1, d, b, h2, s1. split; [auto|]. split; [apply vgo_ok; auto|]. split; [auto|lia].
Qed.

(** Concrete lifetimes meeting the hypotheses of the variable-data reopening
    theorems. *)
From Verif Require Import Base BaseFacts Config Spline Storage DB VarData Recovery Spec Util UtilFacts SpecPage SpecStore Run SpecRun
  SpecReopen SpecReopenIdx SpecVar SpecVarReopen ReachFacts ExFacts ExVar.
Open Scope Z_scope.

(** The configurations of ExVar.v opened without the reset flag; [eVrb] searches
    the data pages by binary search. *)
Definition eVr := ex_cfg 64 16 8 2 8 1 None None.
Definition eVrb := ex_cfg 64 (16 + 128 + 256) 8 2 8 1 None (Some 0).
Lemma eVr_set : setting eVr (2 ^ 31) (2 ^ 31).
Proof. setting_ex. lay. Qed.
Lemma eVrb_set : setting eVrb (2 ^ 31) (2 ^ 31).
Proof. setting_ex. lay. Qed.
Lemma eVr_var : var_setting eVr (2 ^ 32).
Proof. constructor; try reflexivity; try (vm_compute; discriminate). left. reflexivity. Qed.
Lemma eVrb_var : var_setting eVrb (2 ^ 32).
Proof. constructor; try reflexivity; try (vm_compute; discriminate); [repeat split; reflexivity|left; reflexivity]. Qed.

(** A configuration that storage of [eV] may be reopened with. *)
Record again (cr : cfg) : Prop := {
  ag_same : forall c, c = eV \/ c = eVr \/ c = eVrb -> same_store c cr /\ numVar cr = numVar c;
  ag_set : setting cr (2 ^ 31) (2 ^ 31);
  ag_var : var_setting cr (2 ^ 32);
  ag_idx : useIndex cr = false;
  ag_buf : 4 <= bufBlocks cr;
  ag_blank : blank cr;
  ag_reset : useReset cr = false;
  ag_err : maxErr cr = 1;
  ag_is : cr = eVr \/ cr = eVrb
}.
Lemma eVr_again : again eVr.
Proof.
  constructor; [|exact eVr_set|exact eVr_var|reflexivity|vm_compute; discriminate|split; [reflexivity|exact I]|reflexivity|reflexivity|auto].
  intros c [-> | [-> | ->]]; (split; [constructor; reflexivity|reflexivity]).
Qed.
Lemma eVrb_again : again eVrb.
Proof.
  constructor; [|exact eVrb_set|exact eVrb_var|reflexivity|vm_compute; discriminate|split; [reflexivity|exact I]|reflexivity|reflexivity|auto].
  intros c [-> | [-> | ->]]; (split; [constructor; reflexivity|reflexivity]).
Qed.

(** Operations, [VLinear] and [VBinary] reopening with [eVr] and [eVrb]; [VCrash] is
    a crash inside a put, before reopening with [eVr]. *)
Inductive vcode := VC (o : vop) | VLinear | VBinary | VCrash (k : Z) (d : list Z) (v : option (list Z)) (i : nat) (b : bool).
Definition vev (x : vcode) : vevent :=
  match x with VC o => VEvOp o | VLinear => VEvReopen eVr | VBinary => VEvReopen eVrb
  | VCrash k d v i b => VEvCrash (VPut k d v) i eVr b end.

Definition vput_okb (x : vspec_state) (o : vop) : bool :=
  let '(c, V, seen) := x in
  vop_okb c (2 ^ 31) (vlog V) o &&
  match o with VPut k _ _ => refused (vlog V) k || forallb (fun y => y <? k) seen | _ => true end &&
  (zlen (pages (vlog V)) + 1 + maxErr c <? 2 ^ 31).
Lemma vput_okb_ok x o : vput_okb x o = true -> vput_ok (2 ^ 31) (2 ^ 31) x o.
Proof.
  destruct x as [[c V] seen]. unfold vput_okb, vput_ok. rewrite !andb_true_iff. intros ((H1 & H3) & H4). split; [|split; [|lia]].
  - pose proof (vhist_okb_ok c (2 ^ 31) [o] V) as Q. cbn [vhist_okb] in Q. rewrite H1 in Q. exact (proj1 (Q eq_refl)).
  - intros k d v -> R y Hy. rewrite R in H3. cbn [orb] in H3. rewrite forallb_forall in H3. specialize (H3 y Hy). lia.
Qed.
Definition vcode_okb (x : vspec_state) (e : vcode) : bool :=
  let '(c, V, seen) := x in
  match e with
  | VC o => vput_okb x o
  | VCrash k d v _ _ => vput_okb x (VPut k d v) && (zlen (pages (vlog V)) + 2 <? 2 ^ 31)
  | _ => zlen (pages (vlog V)) + 1 <? 2 ^ 31
  end.
Fixpoint vcodes_okb (x : vspec_state) (es : list vcode) : bool :=
  match es with [] => true | e :: es' => vcode_okb x e && vcodes_okb (vevent_spec x (vev e)) es' end.

Lemma vcodes_ok es : forall x, fst (fst x) = eV \/ fst (fst x) = eVr \/ fst (fst x) = eVrb -> vcodes_okb x es = true ->
  vlife_ok (2 ^ 31) (2 ^ 31) (2 ^ 32) x (map vev es).
Proof.
  induction es as [|e es IH]; intros [[c V] seen] Hc H; [exact I|]. cbn [vcodes_okb map vlife_ok fst] in *. apply andb_prop in H as [H1 H2].
  assert (Re : forall cr n, again cr -> (n + 1 <? 2 ^ 31) = true -> vreopen_ok c cr (2 ^ 31) (2 ^ 31) (2 ^ 32) n).
  { intros cr n Ha H. destruct (ag_same _ Ha c Hc). constructor; try apply Ha; auto; pose proof (ag_err _ Ha); pose proof (ag_buf _ Ha); rewrite ?(ag_idx _ Ha); try lia. }
  split.
  - destruct e as [o| | |k d v i b]; cbn [vcode_okb vev vevent_ok] in *; [now apply (vput_okb_ok (c, V, seen))|apply Re; [exact eVr_again|auto]|apply Re; [exact eVrb_again|auto]|].
    apply andb_prop in H1 as [H1 H3]. split; [eauto|]. split; [now apply (vput_okb_ok (c, V, seen))|].
    split; [left; destruct Hc as [-> | [-> | ->]]; reflexivity|]. apply Re; [exact eVr_again|]. rewrite <- Z.add_assoc. exact H3.
  - apply IH; auto. destruct e; cbn [vev vevent_spec fst]; auto.
Qed.

Definition anchoredb (c : cfg) (s : state) : bool :=
  negb (nextV (sv s) =? 1) || negb (le_dec (rd (fpg (fV (sio s)) 0) 4 (Z.to_nat (keySize c))) =? 0).
Definition im_anchoredb (c : cfg) (im : file * file * file) : bool :=
  negb (flen (snd im) =? 1) || negb (le_dec (rd (fpg (snd im) 0) 4 (Z.to_nat (keySize c))) =? 0).
Definition crashb (c : cfg) (s : state) (o : vop) (i : nat) (c' : cfg) (b : bool) : bool :=
  match vstep c s o with
  | Ok (s1, _) => im_anchoredb c (crash_image s s1 i) &&
      match embedDBInit c' (disk_of_image (crash_image s s1 i)) [] with
      | Ok (s2, _) => nextD (sd s2) =? (if b then nextD (sd s1) else nextD (sd s))
      | _ => true
      end
  | _ => true
  end.
Lemma im_anchoredb_ok c im : im_anchoredb c im = true -> image_anchored c im.
Proof. unfold im_anchoredb. intros H E. rewrite E in H. cbn [Z.eqb negb orb Pos.eqb] in H. lia. Qed.
Lemma crashb_ok c s o i c' b : vcalmb c s [o] = true -> crashb c s o i c' b = true -> crash_calm c s o i c' b.
Proof.
  intros H1 H. split; [now apply vcalmb_ok|]. unfold crashb in H. intros s1 x E. rewrite E in H. apply andb_prop in H as [Ha H].
  split; [now apply im_anchoredb_ok|]. intros s2 r E2. rewrite E2 in H. lia.
Qed.
Fixpoint vlife_calmb (c : cfg) (s : state) (es : list vevent) : bool :=
  match es with
  | [] => true
  | e :: es' =>
      match e with
      | VEvOp o => vcalmb c s [o]
      | VEvReopen _ => anchoredb c s
      | VEvCrash o i c' b => vcalmb c s [o] && crashb c s o i c' b
      end &&
      match vevent_step c s e with Ok (c', s', _) => vlife_calmb c' s' es' | _ => true end
  end.
Lemma vlife_calmb_ok es : forall c s, vlife_calmb c s es = true -> vlife_calm c s es.
Proof.
  induction es as [|e es IH]; intros c s H; [exact I|]. cbn [vlife_calmb] in H. apply andb_prop in H as [H1 H2]. split.
  - destruct e; [apply vcalmb_ok; auto| |apply andb_prop in H1 as [H1 H3]; now apply crashb_ok]. unfold anchoredb in H1. intros E. rewrite E in H1. cbn [Z.eqb negb orb Pos.eqb] in H1. lia.
  - intros c' s' x E. rewrite E in H2. auto.
Qed.

Lemma crash_parts KB PB VB x o i c' b cx : vevent_ok KB PB VB x (VEvCrash o i c' b) -> fst (fst x) = cx ->
  vput_ok KB PB x o /\ block0_safe cx (zlen (pages (vlog (snd (fst x))))) /\
  vreopen_ok cx c' KB PB VB (zlen (pages (vlog (snd (fst x)))) + 1).
Proof. destruct x as [[c V] seen]. cbn [fst snd]. intros (_ & H) <-. exact H. Qed.

(** The state after a lifetime of [eV]. *)
Definition vstart : res state := '(s, r) <- embedDBInit eV noDisk [] ;; if r =? 0 then Ok s else UB.
Definition vlife_check (es : list vcode) : bool :=
  match vstart with
  | Ok s => vcodes_okb (eV, emptyVS, []) es && vlife_calmb eV s (map vev es) && (vlife_cost eV (map vev es) + 128 <? 2 ^ 32)
  | _ => false
  end.
Lemma vlife_check_ok es : vlife_check es = true ->
  exists s, vstart = Ok s /\ vlife eV (2 ^ 31) (2 ^ 31) (2 ^ 32) noDisk s (map vev es).
Proof.
  unfold vlife_check, vstart. destruct (embedDBInit eV noDisk []) as [[s r]| |] eqn:E; cbn [bind]; try discriminate.
  destruct (Z.eqb_spec r 0) as [->|]; [|discriminate]. rewrite !andb_true_iff. intros ((H1 & H2) & H3). exists s. split; [auto|].
  constructor; [exact eV_set|exact eV_var|reflexivity|reflexivity|auto| |now apply vlife_calmb_ok|].
  - apply vcodes_ok; auto.
  - change (pageSize eV) with 64. lia.
Qed.

(** What the lookup theorems ask of the last state: its read buffer, the reads,
    and the number of pages written since the state after [es1]. *)
Definition vend (es : list vcode) : res (cfg * state) :=
  s <- vstart ;; '(c1, s1, _) <- vlifetime eV s (map vev es) ;; Ok (c1, s1).
Definition end_check (es : list vcode) (k : Z) (ns : list Z) : bool :=
  match vend es with Ok (c1, s1) => freshb s1 && lookupb c1 s1 k ns | _ => false end.
Lemma end_check_ok es k ns s c1 s1 xs : end_check es k ns = true -> vstart = Ok s -> vlifetime eV s (map vev es) = Ok (c1, s1, xs) ->
  var_fresh s1 /\ lookup_inside c1 s1 k ns.
Proof.
  unfold end_check, vend. intros H Es E. rewrite Es in H. cbn [bind] in H. rewrite E in H. cbn [bind] in H. apply andb_prop in H as [H1 H2].
  split; [now apply freshb_ok|now apply lookupb_ok].
Qed.
Definition inside_check (es : list vcode) (k : Z) (ns : list Z) : bool :=
  match vend es with Ok (c1, s1) => lookupb c1 s1 k ns | _ => false end.
Lemma inside_check_ok es k ns s c1 s1 xs : inside_check es k ns = true -> vstart = Ok s -> vlifetime eV s (map vev es) = Ok (c1, s1, xs) ->
  lookup_inside c1 s1 k ns.
Proof.
  unfold inside_check, vend. intros H Es E. rewrite Es in H. cbn [bind] in H. rewrite E in H. cbn [bind] in H. now apply lookupb_ok.
Qed.
Definition room_check (es1 es : list vcode) : bool :=
  match vend es1, vend es with Ok (_, s1), Ok (_, s2) => nextV (sv s2) + 2 - nextV (sv s1) <=? 6 | _, _ => false end.
Lemma room_check_ok es1 k d b es2 s c2 s2 xs2 : room_check es1 (es1 ++ VC (VPut k d (Some b)) :: es2) = true -> vstart = Ok s ->
  vlifetime eV s (map vev (es1 ++ VC (VPut k d (Some b)) :: es2)) = Ok (c2, s2, xs2) ->
  refused (vlog (snd (fst (vlife_spec eV (map vev es1))))) k = false ->
  vlife_intact (2 ^ 32) eV s (map vev (es1 ++ VC (VPut k d (Some b)) :: es2)) s2 k.
Proof.
  unfold room_check, vend. intros H Es E Rf. rewrite !Es in H. cbn [bind] in H. rewrite E in H. cbn [bind] in H.
  destruct (vlifetime eV s (map vev es1)) as [[[c1 s1] xs1]| |] eqn:E1; cbn [bind] in H; try discriminate.
  right. exists (map vev es1), d, b, (map vev es2), c1, s1, xs1. split; [now rewrite map_app|]. split; [auto|]. split; [auto|].
  change (numVar eV - eraseSize eV) with 6. lia.
Qed.

Lemma vlife_cfg es : forall x, fst (fst (fold_left vevent_spec es x)) = fold_left (fun c e => match e with VEvReopen c' | VEvCrash _ _ c' _ => c' | VEvOp _ => c end) es (fst (fst x)).
Proof.
  induction es as [|e es IH]; intros x; [reflexivity|]. cbn [fold_left]. rewrite IH. destruct x as [[c V] seen]. destruct e; reflexivity.
Qed.
Lemma vlife_last es c1 : fold_left (fun c e => match e with VEvReopen c' | VEvCrash _ _ c' _ => c' | VEvOp _ => c end) es eV = c1 -> fst (fst (vlife_spec eV es)) = c1.
Proof. intros H. unfold vlife_spec. rewrite vlife_cfg. exact H. Qed.
Definition far_check (es1 es : list vcode) : bool :=
  match vend es1, vend es with Ok (_, s1), Ok (_, s2) => nextV (sv s1) + 1 + numVar eV <? nextV (sv s2) | _, _ => false end.
Lemma far_check_ok es1 es s c1 s1 xs1 c2 s2 xs2 : far_check es1 es = true -> vstart = Ok s ->
  vlifetime eV s (map vev es1) = Ok (c1, s1, xs1) -> vlifetime eV s (map vev es) = Ok (c2, s2, xs2) ->
  nextV (sv s1) + 1 + numVar eV < nextV (sv s2).
Proof.
  unfold far_check, vend. intros H Es E1 E2. rewrite !Es in H. cbn [bind] in H. rewrite E1, E2 in H. cbn [bind] in H. lia.
Qed.

(** ** A database with variable data and a bitmap index *)
(** 5 records on 128-byte pages with bitmaps of 8 bytes, 14 bitmaps on an index page. *)
Definition eVI := ex_cfg 128 (1 + 8 + 16 + 32) 8 2 8 1 None None.
Definition eVIr := ex_cfg 128 (1 + 8 + 16) 8 2 8 1 None None.
Lemma eVI_set : setting eVI (2 ^ 31) (2 ^ 31).
Proof. setting_ex. lay. cbn [eVI ex_cfg updBM]. now rewrite ex_upd_length. Qed.
Lemma eVIr_set : setting eVIr (2 ^ 31) (2 ^ 31).
Proof. setting_ex. lay. cbn [eVIr ex_cfg updBM]. now rewrite ex_upd_length. Qed.
Lemma eVI_var : var_setting eVI (2 ^ 32).
Proof. constructor; try reflexivity; try (vm_compute; discriminate). left. reflexivity. Qed.
Lemma eVIr_var : var_setting eVIr (2 ^ 32).
Proof. constructor; try reflexivity; try (vm_compute; discriminate). left. reflexivity. Qed.
Lemma eVI_reopen c n : c = eVI \/ c = eVIr -> n + 1 < 2 ^ 31 -> vreopen_ok c eVIr (2 ^ 31) (2 ^ 31) (2 ^ 32) n.
Proof.
  intros Hc Hn. constructor; [destruct Hc as [-> | ->]; constructor; reflexivity|destruct Hc as [-> | ->]; reflexivity|
    exact eVIr_set|exact eVIr_var| |vm_compute; discriminate|split; [reflexivity|exact I]|reflexivity|left; vm_compute; discriminate|exact Hn].
  intros _. split; [split; [reflexivity|split; [left; reflexivity|left; reflexivity]]|]. split; [vm_compute; discriminate|]. split; [reflexivity|vm_compute; discriminate].
Qed.

(** Calls, and [None] for stopping and reopening. *)
Definition xev (x : option vop) : vevent := match x with Some o => VEvOp o | None => VEvReopen eVIr end.
Fixpoint xcodes_okb (x : vspec_state) (es : list (option vop)) : bool :=
  match es with
  | [] => true
  | e :: es' => match e with Some o => vcode_okb x (VC o) | None => vcode_okb x VLinear end && xcodes_okb (vevent_spec x (xev e)) es'
  end.
Lemma xcodes_ok es : forall x, fst (fst x) = eVI \/ fst (fst x) = eVIr -> xcodes_okb x es = true ->
  vlife_ok (2 ^ 31) (2 ^ 31) (2 ^ 32) x (map xev es).
Proof.
  induction es as [|e es IH]; intros [[c V] seen] Hc H; [exact I|]. cbn [xcodes_okb map vlife_ok fst] in *. apply andb_prop in H as [H1 H2].
  split.
  - destruct e as [o|]; cbn [vcode_okb xev vevent_ok] in *; [|apply eVI_reopen; auto; lia].
    now apply (vput_okb_ok (c, V, seen)).
  - apply IH; auto. destruct e; cbn [xev vevent_spec fst]; auto.
Qed.
Definition xstart : res state := '(s, r) <- embedDBInit eVI noDisk [] ;; if r =? 0 then Ok s else UB.
Definition xlife_check (es : list (option vop)) : bool :=
  match xstart with
  | Ok s => xcodes_okb (eVI, emptyVS, []) es && vlife_calmb eVI s (map xev es) && (vlife_cost eVI (map xev es) + 256 <? 2 ^ 32)
  | _ => false
  end.
Lemma xlife_check_ok es : xlife_check es = true ->
  exists s, xstart = Ok s /\ vlife eVI (2 ^ 31) (2 ^ 31) (2 ^ 32) noDisk s (map xev es).
Proof.
  unfold xlife_check, xstart. destruct (embedDBInit eVI noDisk []) as [[s r]| |] eqn:E; cbn [bind]; try discriminate.
  destruct (Z.eqb_spec r 0) as [->|]; [|discriminate]. rewrite !andb_true_iff. intros ((H1 & H2) & H3). exists s. split; [auto|].
  constructor; [exact eVI_set|exact eVI_var|reflexivity|reflexivity|auto| |now apply vlife_calmb_ok|].
  - apply xcodes_ok; auto.
  - change (pageSize eVI) with 128. lia.
Qed.
Definition xend (es : list (option vop)) : res (cfg * state) :=
  s <- xstart ;; '(c1, s1, _) <- vlifetime eVI s (map xev es) ;; Ok (c1, s1).
Lemma xend_ok es s c1 s1 xs : xstart = Ok s -> vlifetime eVI s (map xev es) = Ok (c1, s1, xs) -> xend es = Ok (c1, s1).
Proof. intros Es E. unfold xend. rewrite Es. cbn [bind]. rewrite E. reflexivity. Qed.
Definition xinside_check (es : list (option vop)) (k : Z) (ns : list Z) : bool :=
  match xend es with Ok (c1, s1) => lookupb c1 s1 k ns | _ => false end.
Lemma xinside_check_ok es k ns s c1 s1 xs : xinside_check es k ns = true -> xstart = Ok s -> vlifetime eVI s (map xev es) = Ok (c1, s1, xs) ->
  lookup_inside c1 s1 k ns.
Proof.
  unfold xinside_check, xend. intros H Es E. rewrite Es in H. cbn [bind] in H. rewrite E in H. cbn [bind] in H. now apply lookupb_ok.
Qed.
Definition xroom_check (es1 es : list (option vop)) : bool :=
  match xend es1, xend es with Ok (_, s1), Ok (_, s2) => nextV (sv s2) + 2 - nextV (sv s1) <=? 6 | _, _ => false end.
Lemma xroom_check_ok es1 k d b es2 s c2 s2 xs2 : xroom_check es1 (es1 ++ Some (VPut k d (Some b)) :: es2) = true -> xstart = Ok s ->
  vlifetime eVI s (map xev (es1 ++ Some (VPut k d (Some b)) :: es2)) = Ok (c2, s2, xs2) ->
  refused (vlog (snd (fst (vlife_spec eVI (map xev es1))))) k = false ->
  vlife_intact (2 ^ 32) eVI s (map xev (es1 ++ Some (VPut k d (Some b)) :: es2)) s2 k.
Proof.
  unfold xroom_check, xend. intros H Es E Rf. rewrite !Es in H. cbn [bind] in H. rewrite E in H. cbn [bind] in H.
  destruct (vlifetime eVI s (map xev es1)) as [[[c1 s1] xs1]| |] eqn:E1; cbn [bind] in H; try discriminate.
  right. exists (map xev es1), d, b, (map xev es2), c1, s1, xs1. split; [now rewrite map_app|]. split; [auto|]. split; [auto|].
  change (numVar eVI - eraseSize eVI) with 6. lia.
Qed.

(** Concrete lifetimes of databases with an index whose bitmaps are used after reopening. *)
From Verif Require Import Base BaseFacts Config Spline Storage DB Recovery Spec Util SpecUtil UtilFacts SpecPage SpecStore Run SpecRun
  SpecIter SpecIndex SpecReopen SpecReopenIdx SpecReopenBm ReachFacts ExFacts ExIndex ExReopen ExReopenIdx.
Open Scope Z_scope.

(** 4 records of 4+4 bytes on 40-byte pages, 16 data pages in blocks of 2, 12 two-byte
    bitmaps on an index page, 4 index pages; visible or invisible erases. *)
Definition eW (par : Z) (ef : option Z) : cfg :=
  mkCfg 4 4 40 2 2 16 4 8 8 1 6 par int32Comparator_wrap ex_cmpD ex_upd16 ex_build16
        (fun _ _ => 1) ef None (repeat 171 40) (7, 7) false 0 true.
Definition eWv := eW (1 + 8 + 32) (Some 255).
Definition eWvr := eW (1 + 8) (Some 255).
Definition eWn := eW (1 + 8 + 32) None.
Definition eWnr := eW (1 + 8) None.
Lemma eWv_set : setting eWv (2 ^ 31) (2 ^ 31).
Proof. setting_ex. lay. cbn [eWv eW updBM]. now rewrite ex_upd16_length. Qed.
Lemma eWv_modes : modes eWv.
Proof. constructor; [reflexivity|reflexivity|num|discriminate|discriminate]. Qed.
Lemma eWv_idx : idx_db eWv (2 ^ 31) (2 ^ 31).
Proof. idx_ex eWv_set eWv_modes. Qed.
Lemma eWvr_set : setting eWvr (2 ^ 31) (2 ^ 31).
Proof. setting_ex. lay. cbn [eWvr eW updBM]. now rewrite ex_upd16_length. Qed.
Lemma eWvr_modes : modes eWvr.
Proof. constructor; [reflexivity|reflexivity|num|discriminate|discriminate]. Qed.
Lemma eWvr_idx : idx_db eWvr (2 ^ 31) (2 ^ 31).
Proof. idx_ex eWvr_set eWvr_modes. Qed.
Lemma eWn_set : setting eWn (2 ^ 31) (2 ^ 31).
Proof. setting_ex. lay. cbn [eWn eW updBM]. now rewrite ex_upd16_length. Qed.
Lemma eWn_modes : modes eWn.
Proof. constructor; [reflexivity|reflexivity|num|discriminate|discriminate]. Qed.
Lemma eWn_idx : idx_db eWn (2 ^ 31) (2 ^ 31).
Proof. idx_ex eWn_set eWn_modes. Qed.
Lemma eWnr_set : setting eWnr (2 ^ 31) (2 ^ 31).
Proof. setting_ex. lay. cbn [eWnr eW updBM]. now rewrite ex_upd16_length. Qed.
Lemma eWnr_modes : modes eWnr.
Proof. constructor; [reflexivity|reflexivity|num|discriminate|discriminate]. Qed.
Lemma eWnr_idx : idx_db eWnr (2 ^ 31) (2 ^ 31).
Proof. idx_ex eWnr_set eWnr_modes. Qed.
Lemma eWv_created : exists s, idx_created eWv (2 ^ 31) (2 ^ 31) noDisk s.
Proof.
  assert (E : exists s, embedDBInit eWv noDisk [] = Ok (s, 0)).
  { apply (fresh_exists _ _ _ noDisk eWv_set); try reflexivity. vm_compute; intuition congruence. }
  destruct E as (s & E). exists s. split; [exact eWv_idx|]. split; [reflexivity|]. split; [reflexivity|exact E].
Qed.
Lemma eWvr_codes xs : icodes_okb eWv eWvr emptyLog 0 xs = true -> ilife_ok eWv (2 ^ 31) (2 ^ 31) emptyLog 0 (map (ev eWvr) xs).
Proof. apply icodes_ok; [exact eWvr_idx|reflexivity|discriminate|constructor; reflexivity|constructor; reflexivity]. Qed.
Lemma eWvr_client : bitmap_client eWvr 2 updateBitmapInt16 buildBitmapInt16FromRange val32 small.
Proof. destruct eI_client. constructor; auto. Qed.
Lemma eWn_created : exists s, idx_created eWn (2 ^ 31) (2 ^ 31) noDisk s.
Proof.
  assert (E : exists s, embedDBInit eWn noDisk [] = Ok (s, 0)).
  { apply (fresh_exists _ _ _ noDisk eWn_set); try reflexivity. vm_compute; intuition congruence. }
  destruct E as (s & E). exists s. split; [exact eWn_idx|]. split; [reflexivity|]. split; [reflexivity|exact E].
Qed.
Lemma eWnr_codes xs : icodes_okb eWn eWnr emptyLog 0 xs = true -> ilife_ok eWn (2 ^ 31) (2 ^ 31) emptyLog 0 (map (ev eWnr) xs).
Proof. apply icodes_ok; [exact eWnr_idx|reflexivity|discriminate|constructor; reflexivity|constructor; reflexivity]. Qed.
Lemma eWnr_client : bitmap_client eWnr 2 updateBitmapInt16 buildBitmapInt16FromRange val32 small.
Proof. destruct eI_client. constructor; auto. Qed.

(** Deciding [aligned_life] and [icalm]. *)
Definition keepsb (L : log) (o : hop) : bool :=
  match o with HPut _ _ => false | HFlush => match cur L with [] => true | _ => false end | HGet _ => true end.
Fixpoint aligned_lifeb (c : cfg) (L : log) (ic : Z) (al : bool) (es : list event) : bool :=
  match es with
  | [] => true
  | e :: es' =>
      match e with
      | EvOp o => al || keepsb L o
      | EvReopen c' => numIndex c' =? numIndex c
      | EvCrash _ _ _ => false
      end &&
      let '(c1, L1, ic1) := iev_spec c L ic e in aligned_lifeb c1 L1 ic1 (aligned_next c L ic al e) es'
  end.
Lemma aligned_lifeb_ok es : forall c L ic al, aligned_lifeb c L ic al es = true -> aligned_life c L ic al es.
Proof.
  induction es as [|e es IH]; intros c L ic al H; [exact I|]. cbn [aligned_lifeb aligned_life] in *. apply andb_prop in H as [H1 H2].
  split.
  - destruct e as [o|c'|o i c']; [|lia|discriminate]. destruct al; [auto|right]. cbn [orb] in H1.
    destruct o as [k d| |k]; cbn [keepsb log_step] in *; [discriminate| |reflexivity].
    unfold log_flush. destruct (cur L); [reflexivity|discriminate].
  - destruct (iev_spec c L ic e) as [[c1 L1] ic1]. auto.
Qed.
Fixpoint icalmb (c : cfg) (s : state) (h : list hop) : bool :=
  match h with
  | [] => true
  | o :: h' =>
      match step c s o with
      | Ok (s1, _) => ((nextI (si s1) =? nextI (si s)) || negb (nextI (si s) mod numIndex c =? bufI (si s))) && icalmb c s1 h'
      | _ => true
      end
  end.
Lemma icalmb_ok c h : forall s, icalmb c s h = true -> icalm c s h.
Proof.
  induction h as [|o h IH]; intros s H; [exact I|]. cbn [icalmb icalm] in *. destruct (step c s o) as [[s1 x]| |]; [|exact I|exact I].
  apply andb_prop in H as [H1 H2]. split; [|auto]. intros Hn. destruct (Z.eqb_spec (nextI (si s1)) (nextI (si s))); [congruence|].
  cbn [orb] in H1. apply negb_true_iff, Z.eqb_neq in H1. auto.
Qed.
(** The state at the end of a lifetime. *)
Definition life_state (c : cfg) (es : list event) (P : cfg -> state -> bool) : bool :=
  match embedDBInit c noDisk [] with
  | Ok (s, _) => match ilife c s es with Ok (c1, s1, _) => P c1 s1 | _ => false end
  | _ => false
  end.
Lemma life_state_ok c es P s c1 s1 xs KB PB : idx_created c KB PB noDisk s -> ilife c s es = Ok (c1, s1, xs) ->
  life_state c es P = true -> P c1 s1 = true.
Proof. intros (_ & _ & _ & E) E1 H. unfold life_state in H. rewrite E, E1 in H. exact H. Qed.
(** Deciding an expected answer. *)
Definition row_dec (a b : Z * list Z) : {a = b} + {a <> b}.
Proof. repeat decide equality. Defined.
Definition answerb (c : cfg) (p : log * list hout) (q : query) (n : nat) (rs : list (Z * list Z)) : bool :=
  forallb (fun r => smallb (rdata r)) (accepted (fst p)) && (length (retained (fst p)) <? n)%nat &&
  (if list_eq_dec row_dec (answer c (fst p) q) rs then true else false).
Lemma answerb_ok c p q n rs : answerb c p q n rs = true ->
  Forall (fun r => small (rdata r)) (accepted (fst p)) /\ (length (retained (fst p)) < n)%nat /\ answer c (fst p) q = rs.
Proof.
  unfold answerb. rewrite !andb_true_iff. intros ((A & B) & D). split; [apply smalls_ok; exact A|]. split; [apply Nat.ltb_lt; exact B|].
  destruct (list_eq_dec row_dec (answer c (fst p) q) rs); [auto|discriminate].
Qed.

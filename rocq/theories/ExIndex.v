(** A concrete configuration with an index file and 2-byte bitmaps. *)
From Verif Require Import Base BaseFacts Config Spline Storage DB Recovery Spec Util SpecUtil UtilFacts
  SpecPage SpecStore SpecIter SpecIndex Run SpecRun ReachFacts ExFacts.
Open Scope Z_scope.

(** 7 records of 4+4 bytes on 64-byte pages, 32 data pages in blocks of 2, 24
    bitmaps on an index page; the int16 bitmap functions of the repository. *)
Definition eI : cfg :=
  mkCfg 4 4 64 2 2 32 8 8 8 1 6 (1 + 8 + 32) int32Comparator_wrap ex_cmpD ex_upd16 ex_build16
        (fun _ _ => 1) None None (repeat 171 64) (7, 7) false 0 true.

Lemma ex_upd16_length d b : length (ex_upd16 d b) = length b.
Proof.
  unfold ex_upd16. destruct (updateBitmapInt16 d b) as [r| |] eqn:E; auto. unfold updateBitmapInt16 in E.
  apply bind_inv in E as (v & _ & E). apply bind_inv in E as (num & _ & E). apply bind_inv in E as (x & _ & E).
  apply st_inv in E as (A & B & ->). pose proof (zwr_length b _ _ A B) as Z. unfold zlen in Z. lia.
Qed.
Lemma eI_set : setting eI (2 ^ 31) (2 ^ 31).
Proof. setting_ex. lay. cbn [eI updBM]. now rewrite ex_upd16_length. Qed.
Lemma eI_modes : modes eI.
Proof. modes_ex. Qed.

(** Non-negative 4-byte values below a million. *)
Definition small (d : list Z) : Prop := exists v, 0 <= v < 1000000 /\ d = le_enc 4 v.
Lemma small_val v : 0 <= v < 1000000 -> val32 (le_enc 4 v) = v /\ le_dec (le_enc 4 v) = v.
Proof.
  intros H. assert (E : le_dec (le_enc 4 v) = v) by (apply le_dec_enc; change (256 ^ Z.of_nat 4) with (2 ^ 32); lia).
  split; [|auto]. unfold val32. rewrite firstn_all2 by (rewrite le_enc_length; auto). rewrite E. apply i32_id. lia.
Qed.
Lemma eI_client : bitmap_client eI 2 updateBitmapInt16 buildBitmapInt16FromRange val32 small.
Proof.
  constructor.
  - reflexivity.
  - intros d b x E. cbn [eI updBM]. unfold ex_upd16. now rewrite E.
  - intros mn mx x E. cbn [eI buildBM]. unfold ex_build16. now rewrite E.
  - intros a b (v & Hv & ->) (w & Hw & ->). cbn [eI cmpD]. unfold ex_cmpD, sign3.
    destruct (small_val v Hv) as [-> ->], (small_val w Hw) as [-> ->].
    destruct (Z.ltb_spec (v - w) 0), (Z.gtb_spec (v - w) 0), (Z.leb_spec w v); auto; lia.
  - intros a b (v & Hv & ->) (w & Hw & ->). cbn [eI cmpD]. unfold ex_cmpD, sign3.
    destruct (small_val v Hv) as [-> ->], (small_val w Hw) as [-> ->].
    destruct (Z.ltb_spec (v - w) 0), (Z.gtb_spec (v - w) 0), (Z.leb_spec v w); auto; lia.
Qed.
Lemma small_int16 d : small d -> int16_value d.
Proof.
  intros (v & Hv & ->). split; [rewrite le_enc_length; auto|]. destruct (small_val v Hv) as [-> _]. lia.
Qed.

Definition smallb (d : list Z) : bool :=
  let v := le_dec d in (0 <=? v) && (v <? 1000000) && (if list_eq_dec Z.eq_dec d (le_enc 4 v) then true else false).
Lemma smallb_ok d : smallb d = true -> small d.
Proof.
  unfold smallb. destruct (list_eq_dec Z.eq_dec d (le_enc 4 (le_dec d))) as [E|]; [|rewrite Bool.andb_false_r; discriminate].
  intros H. exists (le_dec d). split; [lia|auto].
Qed.
Lemma smalls_ok rs : forallb (fun r => smallb (rdata r)) rs = true -> Forall (fun r => small (rdata r)) rs.
Proof.
  intros H. apply Forall_forall. intros r Hr. rewrite forallb_forall in H. apply smallb_ok. auto.
Qed.

(** Deciding [index_aligned]. *)
Definition sealing (L : log) (o : hop) : bool :=
  match o, cur L with HFlush, _ :: _ => true | _, _ => false end.
Definition keeps_log (c : cfg) (L : log) (o : hop) : bool :=
  match o with
  | HPut k _ => refused L k
  | HFlush => match cur L with [] => true | _ => false end
  | HGet _ => true
  end.
Fixpoint index_alignedb (c : cfg) (L : log) (h : list hop) : bool :=
  match h with
  | [] => true
  | o :: h' =>
      let L1 := fst (spec_step (maxRec c) (numData c) (eraseSize c) L o) in
      (negb (sealing L o) || (zlen (pages L1) mod maxIdx c =? 0) || forallb (keeps_log c L1) h') &&
      index_alignedb c L1 h'
  end.
Lemma keeps_log_ok c L o : keeps_log c L o = true -> fst (spec_step (maxRec c) (numData c) (eraseSize c) L o) = L.
Proof.
  destruct o as [k d| |k]; cbn [keeps_log spec_step].
  - intros ->. reflexivity.
  - unfold log_flush. destruct (cur L); [reflexivity|discriminate].
  - reflexivity.
Qed.
Lemma index_alignedb_ok c h : forall L, index_alignedb c L h = true -> index_aligned c L h.
Proof.
  induction h as [|o h IH]; intros L H; [exact I|]. cbn [index_alignedb index_aligned] in *.
  apply andb_prop in H as [H1 H2]. split; [|auto]. intros -> Hc.
  assert (Es : sealing L HFlush = true) by (unfold sealing; destruct (cur L); [congruence|auto]).
  rewrite Es in H1. cbn [negb orb] in H1. apply orb_prop in H1 as [H1|H1]; [left; lia|right].
  apply Forall_forall. intros o' Ho. rewrite forallb_forall in H1. apply keeps_log_ok. auto.
Qed.

(** The same with the int8 functions and 1-byte bitmaps (48 on an index page),
    and an erase that destroys the block. *)
Definition ex_upd8 (d b : list Z) : list Z :=
  match updateBitmapInt8 d b with Ok r => r | _ => b end.
Definition ex_build8 (a b : option (list Z)) : list Z :=
  match buildBitmapInt8FromRange a b with Ok r => r | _ => [] end.
Definition eI8 : cfg :=
  mkCfg 4 4 64 1 2 32 8 8 8 1 6 (1 + 8 + 32) int32Comparator_wrap ex_cmpD ex_upd8 ex_build8
        (fun _ _ => 1) (Some 255) None (repeat 171 64) (7, 7) false 0 true.
Lemma ex_upd8_length d b : length (ex_upd8 d b) = length b.
Proof.
  unfold ex_upd8. destruct (updateBitmapInt8 d b) as [r| |] eqn:E; auto. unfold updateBitmapInt8 in E.
  apply bind_inv in E as (v & _ & E). apply bind_inv in E as (x & _ & E).
  apply st_inv in E as (A & B & ->). pose proof (zwr_length b _ _ A B) as Z. unfold zlen in Z. lia.
Qed.
Lemma eI8_set : setting eI8 (2 ^ 31) (2 ^ 31).
Proof. setting_ex. lay. cbn [eI8 updBM]. now rewrite ex_upd8_length. Qed.
Lemma eI8_modes : modes eI8.
Proof. constructor; [reflexivity|reflexivity|num|discriminate|discriminate]. Qed.

Definition small8 (d : list Z) : Prop := exists v, 0 <= v < 32768 /\ d = le_enc 4 v.
Lemma small8_val v : 0 <= v < 32768 -> val16 (le_enc 4 v) = v /\ le_dec (le_enc 4 v) = v.
Proof.
  intros H. split; [|apply le_dec_enc; change (256 ^ Z.of_nat 4) with (2 ^ 32); lia].
  unfold val16. change (firstn 2 (le_enc 4 v)) with (le_enc 2 v).
  rewrite le_dec_enc by (change (256 ^ Z.of_nat 2) with 65536; lia). apply i16_id. lia.
Qed.
Lemma eI8_client : bitmap_client eI8 1 updateBitmapInt8 buildBitmapInt8FromRange val16 small8.
Proof.
  constructor.
  - reflexivity.
  - intros d b x E. cbn [eI8 updBM]. unfold ex_upd8. now rewrite E.
  - intros mn mx x E. cbn [eI8 buildBM]. unfold ex_build8. now rewrite E.
  - intros a b (v & Hv & ->) (w & Hw & ->). cbn [eI8 cmpD]. unfold ex_cmpD, sign3.
    destruct (small8_val v Hv) as [-> ->], (small8_val w Hw) as [-> ->].
    destruct (Z.ltb_spec (v - w) 0), (Z.gtb_spec (v - w) 0), (Z.leb_spec w v); auto; lia.
  - intros a b (v & Hv & ->) (w & Hw & ->). cbn [eI8 cmpD]. unfold ex_cmpD, sign3.
    destruct (small8_val v Hv) as [-> ->], (small8_val w Hw) as [-> ->].
    destruct (Z.ltb_spec (v - w) 0), (Z.gtb_spec (v - w) 0), (Z.leb_spec v w); auto; lia.
Qed.
Lemma small8_int8 d : small8 d -> int8_value d.
Proof. intros (v & Hv & ->). unfold int8_value. rewrite le_enc_length. auto. Qed.
Lemma smalls8_ok rs : forallb (fun r => smallb (rdata r) && (le_dec (rdata r) <? 32768)) rs = true ->
  Forall (fun r => small8 (rdata r)) rs.
Proof.
  intros H. apply Forall_forall. intros r Hr. rewrite forallb_forall in H. specialize (H r Hr). apply andb_prop in H as [H1 H2].
  apply smallb_ok in H1 as (v & Hv & E). rewrite E in *. exists v. split; [|auto]. destruct (small_val v Hv). lia.
Qed.

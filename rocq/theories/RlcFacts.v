(** Record-level consistency: the data file and the operations. *)
From Verif Require Import Base BaseFacts Config Spline Storage DB Recovery Spec SpecSpline SplineFacts
  SpecPage SpecStore SpecIter Run SpecRun SpecReopen SpecRlc LogFacts PageFacts SearchFacts StoreFacts PutFacts
  GetFacts RunFacts RecoverFacts.
Open Scope Z_scope.
Ltac Zify.zify_post_hook ::= ZifyBool.elim_bool_cstr.
Ltac Zify.zify_convert_to_euclidean_division_equations_flag ::= constr:(false).

(** ** Blocks *)
Lemma al_lt B a b : 0 < B -> a mod B = 0 -> b mod B = 0 -> a < b -> a + B <= b.
Proof.
  intros HB Ha Hb H. apply Z.mod_divide in Ha as [x ->]; [|lia]. apply Z.mod_divide in Hb as [y ->]; [|lia].
  assert (x < y) by (apply Z.mul_lt_mono_pos_r in H; lia).
  assert ((x + 1) * B <= y * B) by (apply Z.mul_le_mono_nonneg_r; lia). lia.
Qed.
Lemma al_add B a b : 0 < B -> a mod B = 0 -> b mod B = 0 -> (a + b) mod B = 0.
Proof. intros HB Ha Hb. rewrite Z.add_mod, Ha, Hb by lia. apply Z.mod_0_l. lia. Qed.
Lemma al_sub B a b : 0 < B -> a mod B = 0 -> b mod B = 0 -> (a - b) mod B = 0.
Proof. intros HB Ha Hb. rewrite Zminus_mod, Ha, Hb by lia. apply Z.mod_0_l. lia. Qed.
Lemma al_mul B k : 0 < B -> (k * B) mod B = 0.
Proof. intros. apply Z.mod_mul. lia. Qed.
Lemma al_self B : 0 < B -> B mod B = 0.
Proof. intros. apply Z.mod_same. lia. Qed.
Lemma nb_al B n : 0 < B -> nb B n mod B = 0.
Proof. intros. unfold nb. apply al_mul. auto. Qed.
Lemma nb_b B n : 0 < B -> n < nb B n <= n + B.
Proof.
  intros HB. unfold nb. pose proof (Z.div_mod n B ltac:(lia)). pose proof (Z.mod_pos_bound n B HB). lia.
Qed.
Lemma nb_S B n : 0 < B -> 0 <= n -> nb B (n + 1) = if (n + 1) mod B =? 0 then nb B n + B else nb B n.
Proof.
  intros HB Hn. unfold nb. pose proof (Z.div_mod n B ltac:(lia)) as E1. pose proof (Z.mod_pos_bound n B HB) as M1.
  pose proof (Z.div_mod (n + 1) B ltac:(lia)) as E2. pose proof (Z.mod_pos_bound (n + 1) B HB) as M2.
  set (q := n / B) in *. set (r := n mod B) in *. set (q' := (n + 1) / B) in *. set (r' := (n + 1) mod B) in *. clearbody q r q' r'.
  destruct (Z.eqb_spec r' 0) as [->|Nr].
  - assert (q' = q + 1); [|subst; lia]. nia.
  - assert (q' = q); [|subst; lia]. nia.
Qed.
Lemma nb_bound B n : 0 < B -> (n + 1) mod B = 0 -> n + 1 = nb B n.
Proof.
  intros HB H. pose proof (nb_b B n HB) as Q. pose proof (nb_al B n HB) as A.
  destruct (Z.eq_dec (n + 1) (nb B n)); auto. pose proof (al_lt B (n + 1) (nb B n) HB H A ltac:(lia)). lia.
Qed.
Lemma nb_at B n : 0 < B -> n mod B = 0 -> nb B n = n + B.
Proof.
  intros HB H. pose proof (nb_b B n HB) as Q. pose proof (nb_al B n HB) as A.
  pose proof (al_lt B n (nb B n) HB H A ltac:(lia)). lia.
Qed.
Lemma rlc_lo_nb D B n : rlc_lo D B n = Z.max 0 (nb B n + 2 * B - D).
Proof. unfold rlc_lo, nb. lia. Qed.

Section Rlc.
  Variables (c : cfg) (KB PB : Z).
  Hypothesis R : rlc_db c KB PB.
  Notation N := (maxRec c).
  Notation D := (numData c).
  Notation B := (eraseSize c).
  Notation nb := (nb (eraseSize c)).
  Notation rlo := (rlc_lo (numData c) (eraseSize c)).
  Let G := rl_set _ _ _ R.
  Let L0 := L0 c KB PB G.
  Notation rdisk := (rdisk c).
  Notation spare := (spare c).
  Notation rimg := (rimg c).

  Lemma B_pos : 0 < B.
  Proof. pose proof (g_B _ _ _ G). lia. Qed.
  Lemma D_four : 4 * B <= D < 2 ^ 31.
  Proof. pose proof (g_D _ _ _ G). pose proof (rl_D _ _ _ R). lia. Qed.
  Lemma D_al : D mod B = 0.
  Proof. exact (g_DB _ _ _ G). Qed.
  Lemma md a : 0 <= a mod D < D.
  Proof. apply (mod_D c KB PB G). Qed.
  Lemma minj a b : a mod D = b mod D -> a <= b < a + D -> a = b.
  Proof. apply (mod_inj c KB PB G). Qed.
  Lemma minj2 l a b : a mod D = b mod D -> l <= a < l + D -> l <= b < l + D -> a = b.
  Proof.
    intros E Ha Hb. destruct (Z.le_ge_cases a b); [apply minj; auto; lia|symmetry; apply minj; auto; lia].
  Qed.
  Lemma mod_al a : a mod B = 0 -> (a mod D) mod B = 0.
  Proof.
    intros H. pose proof B_pos. pose proof D_four. pose proof D_al as HD. apply Z.mod_divide in HD as [k Hk]; [|lia].
    apply Z.mod_divide in H as [x ->]; [|lia]. assert (Kp : k <> 0) by (intros ->; lia). rewrite Hk, Z.mul_mod_distr_r by (auto; lia). apply al_mul. lia.
  Qed.
  (** Offsets inside an aligned block do not wrap. *)
  Lemma mod_in a r : a mod B = 0 -> 0 <= r < B -> (a + r) mod D = a mod D + r.
  Proof.
    intros Ha Hr. pose proof B_pos. pose proof D_four. pose proof D_al as HD.
    pose proof (aligned_block a D B ltac:(lia) ltac:(lia) HD Ha) as Q. pose proof (md a).
    rewrite Z.add_mod, (Z.mod_small r) by lia. apply Z.mod_small. lia.
  Qed.
  Lemma in_block a q : a mod B = 0 -> a mod D <= q < a mod D + B -> q < D /\ exists r, 0 <= r < B /\ (a + r) mod D = q.
  Proof.
    intros Ha Hq. pose proof B_pos. pose proof D_four. pose proof D_al as HD.
    pose proof (aligned_block a D B ltac:(lia) ltac:(lia) HD Ha) as Q. split; [lia|].
    exists (q - a mod D). split; [lia|]. rewrite mod_in by (auto; lia). lia.
  Qed.

  Lemma rlo_b n : 0 <= n -> 0 <= rlo n <= n /\ (0 < n -> rlo n < n) /\ n - rlo n + 1 <= D - 2 * B /\ rlo n mod B = 0 /\
    rlo n + D >= nb n + 2 * B /\ (0 < rlo n -> rlo n + D = nb n + 2 * B).
  Proof.
    intros Hn. rewrite rlc_lo_nb. pose proof B_pos as HB. pose proof D_four as HD. pose proof (nb_b B n HB) as Nb.
    pose proof (nb_al B n HB) as Na.
    assert (Al : (nb n + 2 * B - D) mod B = 0).
    { apply al_sub; [auto| |apply D_al]. apply al_add; auto. apply al_mul. auto. }
    assert (nb n + 2 * B < D \/ 0 <= nb n + 2 * B - D) as [Lt|Ge] by lia.
    - rewrite Z.max_l by lia. rewrite Z.mod_0_l by lia.
      pose proof (al_lt B (nb n + 2 * B) D HB) as Q.
      assert (nb n + 2 * B + B <= D).
      { apply Q; auto; [|apply D_al]. apply al_add; auto. apply al_mul. auto. }
      repeat split; lia.
    - rewrite Z.max_r by lia. repeat split; auto; lia.
  Qed.
  Lemma rlo_mono n : 0 <= n -> rlo n <= rlo (n + 1).
  Proof.
    intros Hn. rewrite !rlc_lo_nb, nb_S by (auto using B_pos). pose proof B_pos. destruct (_ =? _); lia.
  Qed.
  Lemma rlo_same n : 0 <= n -> (n + 1) mod B <> 0 -> rlo (n + 1) = rlo n.
  Proof.
    intros Hn H. rewrite !rlc_lo_nb, nb_S by (auto using B_pos). destruct (Z.eqb_spec ((n + 1) mod B) 0); [lia|auto].
  Qed.

  (** ** Blank pages *)
  Lemma zlen_rep (b : Z) : zlen (repeat b (psz c)) = pageSize c.
  Proof. rewrite zlen_repeat. apply (L_psz c L0). Qed.
  Lemma page_big : 16 <= pageSize c.
  Proof. pose proof (l_init c L0). pose proof (l_ks c L0). pose proof (l_ds c L0). lia. Qed.
  Lemma rep_pid b : get_pid (repeat b (psz c)) = Ok (16843009 * b).
  Proof.
    unfold get_pid. pose proof page_big. pose proof (L_psz c L0). rewrite ldz_ok by (rewrite ?zlen_rep; lia).
    rewrite zrd_repeat by lia. f_equal. change (b + 256 * (b + 256 * (b + 256 * (b + 256 * 0))) = 16843009 * b). lia.
  Qed.
  Lemma rep_count b : get_count (repeat b (psz c)) = Ok (257 * b).
  Proof.
    unfold get_count. pose proof page_big. pose proof (L_psz c L0). rewrite ldz_ok by (rewrite ?zlen_rep; lia).
    rewrite zrd_repeat by lia. f_equal. change (b + 256 * (b + 256 * 0) = 257 * b). lia.
  Qed.
  Lemma pid_of p rs : holds c p rs -> get_pid p = Ok (page_id p).
  Proof.
    intros A. unfold get_pid, page_id. pose proof (h_len _ _ _ A). pose proof page_big. rewrite ldz_ok by lia. reflexivity.
  Qed.
  (** A blank page: its number is 0 or at least [PB]. *)
  Lemma blank_pid p : blankp c p -> exists b, p = repeat b (psz c) /\ (b = 0 \/ 1 <= b < 256 /\ PB <= 16843009 * b).
  Proof.
    intros (b & E & ->). exists b. split; [auto|]. assert (H : erased_byte c PB b) by (destruct (rl_erased _ _ _ R) as [H1 H2]; destruct E as [->|E]; [auto|rewrite E in H2; auto]).
    pose proof (g_PB _ _ _ G). destruct H as [H|[H|(H & H1 & _)]]; [auto|right; lia|right; lia].
  Qed.
  (** Recovery does not take a blank page for the first page of a block. *)
  Lemma blank_hdr p q : blankp c p -> q mod B = 0 -> 0 <= q < D -> exists id, hdr_ok c p q = Ok (id, false).
  Proof.
    intros Hb Hq HqD. destruct Hb as (b & E & ->).
    unfold hdr_ok. rewrite rep_pid, rep_count. cbn [bind]. eexists. f_equal. f_equal.
    assert (C : b = 0 \/ 128 <= b < 256 \/ 1 <= b < 128 /\ (16843009 * b) mod B <> 0).
    { assert (H : erased_byte c PB b) by (destruct (rl_erased _ _ _ R) as [H1 H2]; destruct E as [->|E]; [auto|rewrite E in H2; auto]). unfold erased_byte in H. tauto. }
    destruct C as [->|[C|[C1 C2]]].
    - change (i8 (257 * 0)) with 0. change (0 >? 0) with false. now rewrite andb_false_r.
    - assert (i8 (257 * b) = b - 256).
      { unfold i8, sgn_of. change (2 ^ 8) with 256. change (2 ^ (8 - 1)) with 128.
        assert (X : (257 * b) mod 256 = b). { replace (257 * b) with (b + b * 256) by lia. rewrite Z_mod_plus_full. apply Z.mod_small. lia. }
        rewrite X. destruct (Z.ltb_spec b 128); lia. }
      rewrite H. destruct (Z.gtb_spec (b - 256) 0); [lia|]. now rewrite andb_false_r.
    - destruct (Z.eqb_spec ((16843009 * b) mod D) q) as [E1|]; [|auto]. exfalso. apply C2.
      pose proof B_pos as HB. pose proof D_four. rewrite (Z.div_mod (16843009 * b) D) by lia. rewrite E1.
      apply al_add; auto. rewrite Z.mul_comm. rewrite Z.mul_mod, D_al by lia. rewrite Z.mul_0_r. apply Z.mod_0_l. lia.
  Qed.

  (** ** The file *)
  Section File.
    Variables (F : file) (P : list (list rcd)) (l : Z) (w : list rcd).
    Hypothesis Dk : rdisk F P l w.
    Notation n := (zlen P).
    Let N0 : 0 <= n := zlen_nonneg P.

    Lemma rd_in id : l <= id < n -> 0 <= id mod D < flen F.
    Proof.
      intros H. pose proof (md id). pose proof (rd_flen _ _ _ _ _ Dk). pose proof (rd_lo _ _ _ _ _ Dk).
      destruct (Z.lt_ge_cases n D); [|lia]. rewrite Z.mod_small by lia. lia.
    Qed.
    Lemma rd_ok lo' : l <= lo' -> live_ok c F P lo'.
    Proof.
      intros H id Hid. pose proof (rd_in id ltac:(lia)). split; [|apply (rd_live _ _ _ _ _ Dk); lia].
      unfold file_read. destruct (Z.leb_spec 0 (id mod D)); [|lia]. destruct (Z.ltb_spec (id mod D) (flen F)); [auto|lia].
    Qed.
    Lemma rd_win : n < nb n <= l + D /\ l + D <= rlo n + D.
    Proof. pose proof (nb_b B n B_pos). pose proof (rd_room _ _ _ _ _ Dk). pose proof (rd_lo _ _ _ _ _ Dk). lia. Qed.

    (** Pages outside [X] are untouched, the file does not shrink. *)
    Definition same_out (F' : file) (X : Z -> Prop) : Prop :=
      flen F <= flen F' /\ forall q, 0 <= q < flen F -> ~ X q -> fpg F' q = fpg F q.
    Lemma same_keep F' X l' : same_out F' X -> l <= l' -> (forall id, l' <= id < n -> ~ X (id mod D)) -> keep c F F' n l'.
    Proof. intros [_ S] H1 H2 id Hid. apply S; auto. apply rd_in. lia. Qed.

    Lemma spare_ext F' a : spare F P w a -> (a mod D < flen F -> fpg F' (a mod D) = fpg F (a mod D)) ->
      (flen F <= a mod D -> flen F' <= a mod D \/ blankp c (fpg F' (a mod D))) -> spare F' P w a.
    Proof.
      intros S H1 H2. unfold SpecRlc.spare in *. destruct (Z.lt_ge_cases (a mod D) (flen F)) as [Lt|Ge].
      - rewrite (H1 Lt). destruct S as [S|S]; [lia|auto].
      - destruct (H2 Ge); auto.
    Qed.

    (** Erasing the block at position [a]. *)
    Lemma erase_ok a : a mod B = 0 -> n <= a -> a <= l + D \/ eraseFill c = None -> a + B <= nb n + 2 * B ->
      let F' := file_erase c F (a mod D) (a mod D + B) in
      exists l', l <= l' /\ (a + B <= l' + D \/ eraseFill c = None) /\ rdisk F' P l' w /\
        same_out F' (fun q => a mod D <= q < a mod D + B) /\ keep c F F' n l'.
    Proof.
      intros Ha Hn0 Hn1 Hb F'. unfold F', file_erase. destruct (eraseFill c) as [b|] eqn:E.
      2:{ exists l. split; [lia|]. split; [auto|]. split; [exact Dk|]. split; [split; [lia|auto]|]. intros id Hid. reflexivity. }
      destruct Hn1 as [Hn1|]; [|discriminate]. assert (Hn : n <= a <= l + D) by auto. clear Hn0 Hn1.
      pose proof B_pos as HB. pose proof D_four as HD. pose proof (md a) as Ma. pose proof rd_win as Wn.
      pose proof (rd_lo _ _ _ _ _ Dk) as Rl. pose proof (rlo_b n N0) as (b1 & _ & b3 & _ & b5 & _).
      pose proof (rd_al _ _ _ _ _ Dk) as Al.
      assert (Ald : (l + D) mod B = 0) by (apply al_add; auto; apply D_al).
      set (l' := if a =? l + D then l + B else l).
      assert (Cs : a + B <= l + D /\ l' = l \/ a = l + D /\ l' = l + B).
      { unfold l'. destruct (Z.eqb_spec a (l + D)); [right; auto|]. left. split; [|auto]. apply al_lt; auto. lia. }
      assert (Blk : forall x, l' <= x < l' + D -> ~ (a <= x < a + B) -> a mod D <= x mod D < a mod D + B -> False).
      { intros x Hx Nx Hq. destruct (in_block a _ Ha Hq) as (_ & r & Hr & Er).
        assert (x = a + r); [|lia]. symmetry in Er. apply (minj2 l'); auto; lia. }
      assert (Blk2 : forall x, l' <= x < n -> a mod D <= x mod D < a mod D + B -> False).
      { intros x Hx Hq. apply (Blk x); auto; [|lia]. destruct Cs as [[? ->]|[? ->]]; lia. }
      set (F1 := mkFile _ _).
      assert (So : same_out F1 (fun q => a mod D <= q < a mod D + B)).
      { split; cbn [F1 flen fpg]; [lia|]. intros q Hq Nq. destruct ((a mod D <=? q) && (q <? a mod D + B)) eqn:Q; [exfalso; apply Nq; lia|].
        destruct (Z.ltb_spec q (flen F)); [auto|lia]. }
      assert (Ke : keep c F F1 n l').
      { eapply same_keep; [exact So| |]; [destruct Cs as [[? ->]|[? ->]]; lia|]. intros id Hid Hq. apply (Blk2 id Hid Hq). }
      exists l'. split; [destruct Cs as [[? ->]|[? ->]]; lia|].
      split; [left; destruct Cs as [[? ->]|[? ->]]; lia|]. split; [|auto].
      - constructor; cbn [F1 flen fpg].
        + destruct Cs as [[? ->]|[? ->]]; [auto|]. lia.
        + destruct Cs as [[? ->]|[? ->]]; [auto|]. apply al_add; auto. apply al_self. auto.
        + destruct Cs as [[? ->]|[? ->]]; lia.
        + intros id Hid.
          destruct ((a mod D <=? id mod D) && (id mod D <? a mod D + B)) eqn:Q.
          { exfalso. apply (Blk2 id Hid). lia. }
          assert (Hi : l <= id < n) by (destruct Cs as [[? E1]|[? E1]]; rewrite E1 in Hid; lia).
          pose proof (rd_in id Hi). destruct (Z.ltb_spec (id mod D) (flen F)); [|lia]. apply (rd_live _ _ _ _ _ Dk). auto.
        + intros x Hx. destruct ((a mod D <=? x mod D) && (x mod D <? a mod D + B)) eqn:Q.
          { unfold SpecRlc.spare. cbn [F1 fpg flen]. rewrite Q. right; left. exists b; auto. }
          assert (x < l + D).
          { destruct Cs as [[? E1]|[E0 E1]]; rewrite E1 in Hx; [lia|]. destruct (Z.lt_ge_cases x (l + D)); auto. exfalso.
            pose proof (mod_in a (x - a) Ha ltac:(lia)) as Z1. replace (a + (x - a)) with x in Z1 by lia. lia. }
          apply spare_ext; cbn [F1 fpg flen]; rewrite ?Q.
          * apply (rd_spare _ _ _ _ _ Dk). lia.
          * intros Lt. destruct (Z.ltb_spec (x mod D) (flen F)); [auto|lia].
          * intros Ge. right. destruct (Z.ltb_spec (x mod D) (flen F)); [lia|]. exists (holeFill c); auto.
        + pose proof (rd_flen _ _ _ _ _ Dk). lia.
        + intros Hw. pose proof (rd_len _ _ _ _ _ Dk Hw). rewrite Z.mod_small by lia. lia.
    Qed.

    (** Writing a temporary page on reserved page [k]. *)
    Lemma temp_ok k p w' : 0 <= k < 2 * B -> nb n + k <= l + D -> holds c p w' -> page_id p = n -> zlen w < zlen w' ->
      let F' := file_write c F ((nb n + k) mod D) p in
      exists l', (l' = l /\ nb n + k < l + D \/ (nb n + k = l + D /\ l' = l + B)) /\ rdisk F' P l' w' /\
        same_out F' (fun q => q = (nb n + k) mod D) /\ keep c F F' n l' /\ (nb n + k) mod D < flen F' /\ fpg F' ((nb n + k) mod D) = p.
    Proof.
      intros Hk Hl Hp Hid Hw F'. set (a := nb n + k) in *.
      pose proof B_pos as HB. pose proof D_four as HD. pose proof (md a) as Ma. pose proof rd_win as Wn.
      pose proof (rd_lo _ _ _ _ _ Dk) as Rl. pose proof (rlo_b n N0) as (b1 & _ & b3 & _ & b5 & _).
      pose proof (rd_al _ _ _ _ _ Dk) as Al. pose proof (nb_b B n HB) as Nb. pose proof (nb_al B n HB) as Na.
      assert (Ald : (l + D) mod B = 0) by (apply al_add; auto; apply D_al).
      assert (Hw0 : w' <> []). { intros ->. pose proof (zlen_nonneg w). unfold zlen in Hw at 2. cbn in Hw. lia. }
      set (l' := if a =? l + D then l + B else l).
      assert (Cs : a < l + D /\ l' = l \/ a = l + D /\ l' = l + B /\ l + B <= rlo n).
      { unfold l'. destruct (Z.eqb_spec a (l + D)) as [E|]; [right|left; split; [lia|auto]]. split; [auto|]. split; [auto|].
        assert (a + B <= nb n + 2 * B); [|lia]. apply al_lt; auto; [rewrite E; auto| |unfold a; lia].
        apply al_add; auto. apply al_mul; auto. }
      assert (Ne : forall x, l' <= x < l' + D -> x <> a -> x mod D <> a mod D).
      { intros x Hx Nx E. apply Nx. apply (minj2 l'); auto. unfold a in *. lia. }
      assert (Tmp : temp c p (a mod D) n w').
      { exists w'. split; [auto|]. split; [auto|]. split; [lia|]. split; [|auto]. rewrite Hid. intros E.
        assert (n = a); [|unfold a in *; lia]. apply (minj n a); auto. unfold a. lia. }
      assert (So : same_out F' (fun q => q = a mod D)).
      { unfold F'. split; cbn [file_write flen fpg]; [lia|]. intros q Hq Nq.
        destruct (Z.eqb_spec q (a mod D)); [contradiction|]. destruct (Z.ltb_spec q (flen F)); [auto|lia]. }
      assert (Ke : keep c F F' n l').
      { eapply same_keep; [exact So| |]; [destruct Cs as [[? ->]|(? & -> & ?)]; lia|]. intros id Hd.
        apply Ne; [|unfold a; lia]. destruct Cs as [[? ?]|(? & ? & ?)]; lia. }
      exists l'. split; [unfold l'; destruct (Z.eqb_spec a (l + D)); [auto|left; split; [auto|lia]]|]. split; [|split; [exact So|split; [exact Ke|split]]].
      - unfold F'. constructor; cbn [file_write flen fpg].
        + destruct Cs as [[? ->]|(? & -> & ?)]; lia.
        + destruct Cs as [[? ->]|(? & -> & ?)]; [auto|]. apply al_add; auto. apply al_self. auto.
        + destruct Cs as [[? ->]|(? & -> & ?)]; lia.
        + intros id Hd. destruct (Z.eqb_spec (id mod D) (a mod D)) as [E|_].
          { exfalso. revert E. apply Ne; [|unfold a; lia]. destruct Cs as [[? ?]|(? & ? & ?)]; lia. }
          assert (Hi : l <= id < n) by (destruct Cs as [[? ?]|(? & ? & ?)]; lia).
          pose proof (rd_in id Hi). destruct (Z.ltb_spec (id mod D) (flen F)); [|lia]. apply (rd_live _ _ _ _ _ Dk). auto.
        + intros x Hx. destruct (Z.eq_dec x a) as [->|Nx].
          { unfold SpecRlc.spare. cbn [file_write fpg flen]. rewrite Z.eqb_refl. right; right; left. auto. }
          assert (Nm : x mod D <> a mod D) by (apply Ne; [destruct Cs as [[? ?]|(? & ? & ?)]; lia|auto]).
          assert (Old : spare F P w x \/ (flen F > x mod D /\ x mod B <> 0 /\ D <= x /\ img c P (x - D) (fpg F (x mod D)))).
          { destruct Cs as [[? E1]|(E0 & E1 & E2)]; rewrite E1 in Hx.
            - left. apply (rd_spare _ _ _ _ _ Dk). lia.
            - destruct (Z.lt_ge_cases x (l + D)); [left; apply (rd_spare _ _ _ _ _ Dk); lia|]. right.
              assert (E3 : (x - D) mod D = x mod D) by (replace x with (x - D + 1 * D) at 2 by lia; now rewrite Z_mod_plus_full).
              pose proof (rd_in (x - D) ltac:(lia)) as Q. rewrite E3 in Q. split; [lia|]. split.
              + intros E4. pose proof (al_lt B (l + D) x HB Ald E4 ltac:(lia)). lia.
              + split; [lia|]. rewrite <- E3. apply (rd_live _ _ _ _ _ Dk). lia. }
          unfold SpecRlc.spare. cbn [file_write fpg flen]. destruct (Z.eqb_spec (x mod D) (a mod D)); [lia|].
          destruct (Z.ltb_spec (x mod D) (flen F)) as [Lt|Ge].
          * destruct Old as [[O|[O|[O|O]]]|(_ & O)]; [lia|auto| |auto|auto]. right; right; left.
            destruct O as (rs & A1 & A2 & A3 & A4 & A5). exists rs. do 4 (split; [auto|]). intros E. left. destruct (A5 E) as [ | -> ]; lia.
          * right; left. exists (holeFill c); auto.
        + pose proof (rd_flen _ _ _ _ _ Dk). lia.
        + intros Hw1. pose proof (rd_len _ _ _ _ _ Dk Hw1). rewrite Z.mod_small by (unfold a; lia). unfold a in *. lia.
      - unfold F'. cbn [file_write flen]. lia.
      - unfold F'. cbn [file_write fpg]. now rewrite Z.eqb_refl.
    Qed.

    (** Writing the page being filled. *)
    Lemma page_ok p : w <> [] -> img c (P ++ [w]) n p -> nb (n + 1) <= l + D ->
      let F' := file_write c F (n mod D) p in
      rdisk F' (P ++ [w]) l [] /\ same_out F' (fun q => q = n mod D) /\ keep c F F' n l.
    Proof.
      intros Hw Hp Hl F'.
      pose proof B_pos as HB. pose proof D_four as HD. pose proof (md n) as Ma. pose proof rd_win as Wn.
      pose proof (rd_lo _ _ _ _ _ Dk) as Rl. pose proof (rlo_b n N0) as (b1 & _ & b3 & _ & b5 & _).
      assert (Z1 : zlen (P ++ [w]) = n + 1) by (rewrite zlen_app; auto).
      assert (Ne : forall x, l <= x < l + D -> x <> n -> x mod D <> n mod D).
      { intros x Hx Nx E. apply Nx. apply (minj2 l); auto. lia. }
      assert (So : same_out F' (fun q => q = n mod D)).
      { unfold F'. split; cbn [file_write flen fpg]; [lia|]. intros q Hq Nq.
        destruct (Z.eqb_spec q (n mod D)); [contradiction|]. destruct (Z.ltb_spec q (flen F)); [auto|lia]. }
      assert (Ke : keep c F F' n l).
      { eapply same_keep; [exact So|lia|]. intros id Hid. apply Ne; lia. }
      split; [|auto].
      - unfold F'. constructor; cbn [file_write flen fpg]; rewrite ?Z1.
        + pose proof (rlo_mono n N0). lia.
        + apply (rd_al _ _ _ _ _ Dk).
        + auto.
        + intros id Hd. destruct (Z.eqb_spec (id mod D) (n mod D)) as [E|NE].
          { assert (id = n) by (apply (minj2 l); auto; lia). subst id. auto. }
          assert (Hi : l <= id < n) by (assert (id <> n) by congruence; lia).
          pose proof (rd_in id Hi). destruct (Z.ltb_spec (id mod D) (flen F)); [|lia].
          apply img_app; [lia|]. apply (rd_live _ _ _ _ _ Dk). auto.
        + intros x Hx. pose proof (Ne x ltac:(lia) ltac:(lia)) as Nm.
          pose proof (rd_spare _ _ _ _ _ Dk x ltac:(lia)) as S. unfold SpecRlc.spare in *. cbn [file_write fpg flen].
          destruct (Z.eqb_spec (x mod D) (n mod D)); [lia|]. rewrite Z1.
          destruct (Z.ltb_spec (x mod D) (flen F)) as [Lt|Ge].
          * destruct S as [S|[S|[S|S]]]; [lia|auto| |].
            -- right; right; left. destruct S as (rs & A1 & A2 & A3 & A4 & A5). exists rs. do 2 (split; [auto|]). split; [lia|]. split; [auto|]. lia.
            -- right; right; right. destruct S as (S1 & S2 & S3). do 2 (split; [auto|]). apply img_app; auto. lia.
          * right; left. exists (holeFill c); auto.
        + pose proof (rd_flen _ _ _ _ _ Dk). destruct (Z.lt_ge_cases n D); [rewrite Z.mod_small by lia; lia|lia].
        + intros Hw1. assert (NbS : nb n <= nb (n + 1)) by (rewrite nb_S by auto; destruct (_ =? _); lia).
          assert (Hw2 : nb n + 2 * B < D) by lia. pose proof (rd_len _ _ _ _ _ Dk Hw2). rewrite Z.mod_small by lia. lia.
    Qed.
  End File.
End Rlc.

(** Variable pages: the area on storage, its cache, and the functions that write
    and read it. *)
From Verif Require Import Base BaseFacts Config Spline Storage DB VarData Recovery Spec SpecSpline SplineFacts
  SpecPage SpecStore Run SpecRun SpecVar LogFacts PageFacts SearchFacts StoreFacts PutFacts TapeFacts.
Open Scope Z_scope.
Ltac Zify.zify_post_hook ::= ZifyBool.elim_bool_cstr.
Ltac Zify.zify_convert_to_euclidean_division_equations_flag ::= constr:(false).

(** The key in the header of a variable page. *)
Definition hkey (c : cfg) (p : page) : Z := le_dec (zrd p 4 (ksz c)).
Definition vpg (VP : list page) (v : Z) : page := nth (Z.to_nat v) VP [].

Lemma vpg_app1 VP X v : 0 <= v < zlen VP -> vpg (VP ++ X) v = vpg VP v.
Proof. intros H. unfold vpg. apply app_nth1. unfold zlen in H. lia. Qed.
Lemma vpg_app2 VP x : vpg (VP ++ [x]) (zlen VP) = x.
Proof. unfold vpg, zlen. rewrite Nat2Z.id, app_nth2, Nat.sub_diag by lia. reflexivity. Qed.
Lemma vget_vpg P VP a : vget P VP a = nth (Z.to_nat (a mod P)) (vpg VP (a / P)) 0.
Proof. reflexivity. Qed.

(** What [var_setting] says of the variable area, whether or not record-level
    consistency is on. *)
Record var_area (c : cfg) (VB : Z) : Prop := {
  va_use : useVar c = true;
  va_rec : maxRec c <= 127;
  va_bin : useBinary c = true -> (plain_storage c /\ fallthru c = Some 0) /\ useRLC c = false;
  va_num : 2 * eraseSize c <= numVar c;
  va_mod : numVar c mod eraseSize c = 0;
  va_area : numVar c * pageSize c <= 2 ^ 31;
  va_VB : VB <= 2 ^ 32;
  va_fill : eraseFill c = None \/ VB <= numVar c * pageSize c
}.
Lemma area_of c VB : var_setting c VB -> var_area c VB.
Proof. intros []. constructor; auto. Qed.
Coercion area_of : var_setting >-> var_area.

Section Var.
  Variables (c : cfg) (KB PB f VB : Z).
  Hypothesis G : setting c KB PB.
  Hypothesis V : var_area c VB.
  Notation P := (pageSize c).
  Notation H := (keySize c + 4).
  Notation NV := (numVar c).
  Notation B := (eraseSize c).
  Let L0 := L0 c KB PB G.

  Lemma vHdr : varHdr c = H.
  Proof. unfold varHdr. pose proof (l_ks c L0). apply i8_id. lia. Qed.
  Lemma vPH : 0 <= H /\ H + 4 <= P.
  Proof. pose proof (l_ks c L0). pose proof (l_ds c L0). pose proof (l_init c L0). lia. Qed.
  Lemma vP : 5 <= H <= 12 /\ H + 4 <= P < 65536.
  Proof. pose proof (l_ks c L0). pose proof (l_ds c L0). pose proof (l_init c L0). pose proof (l_ps c L0). lia. Qed.
  Lemma vB : 1 <= B /\ 2 * B <= NV < 2 ^ 31 /\ NV * P <= 2 ^ 31.
  Proof.
    pose proof (g_B _ _ _ G). pose proof (va_num _ _ V). pose proof (va_area _ _ V). pose proof vP.
    split; [auto|]. split; [|auto]. nia.
  Qed.
  Lemma nv_pos : (NV =? 0) = false.
  Proof. pose proof vB. lia. Qed.
  Lemma mod_V v : 0 <= v mod NV < NV.
  Proof. pose proof vB. apply Z.mod_pos_bound. lia. Qed.
  Lemma modV_inj a b : a mod NV = b mod NV -> a <= b < a + NV -> a = b.
  Proof.
    intros E Hw. pose proof vB as DP.
    pose proof (Z_div_mod_eq_full a NV) as A. pose proof (Z_div_mod_eq_full b NV) as B1.
    rewrite E in A. set (q := a / NV) in *. set (r := b / NV) in *. clearbody q r.
    assert (q = r) by nia. subst. lia.
  Qed.
  Lemma modV_plus a : (a + NV) mod NV = a mod NV.
  Proof. replace (a + NV) with (a + 1 * NV) by lia. apply Z_mod_plus_full. Qed.
  Lemma NOPAGE_notV v : v mod NV <> NOPAGE.
  Proof. pose proof (mod_V v). pose proof vB. unfold NOPAGE. lia. Qed.

  (** The variable area after pages [VP] were written, of which those below [lv]
      have been given up.  The cached page may be stale only within the block
      being written. *)
  Record VS0 (s : state) (VP : list page) (lv : Z) : Prop := {
    z_faults : faults (sio s) = [];
    z_next : nextV (sv s) = zlen VP;
    z_lv : 0 <= lv <= zlen VP;
    z_lmod : lv mod B = 0;
    z_live : zlen VP - lv <= NV;
    z_ring : lv = 0 \/ NV - B <= zlen VP - lv;
    z_avail : availV (sv s) = NV - (zlen VP - lv);
    z_flen : flen (fV (sio s)) = Z.min (zlen VP) NV;
    z_fpg : forall v, 0 <= v -> zlen VP - NV <= v < zlen VP -> fpg (fV (sio s)) (v mod NV) = vpg VP v;
    z_plen : forall v, 0 <= v < zlen VP -> zlen (vpg VP v) = P;
    z_wlen : zlen (vwbuf (sv s)) = P;
    z_rb : bufV (sv s) = NOPAGE \/
      exists v, 0 <= v < zlen VP /\ bufV (sv s) = v mod NV /\ vrbuf (sv s) = vpg VP v /\
        (zlen VP - NV <= v \/
         (B * ((zlen VP - 1) / B) <= v + NV < zlen VP /\ (lv = 0 \/ NV - B < zlen VP - lv)));
    z_pid : forall v, 0 <= v < zlen VP -> get_pid (vpg VP v) = Ok v
  }.

  (** Only these parts of the state matter. *)
  Lemma VS0_other s s' VP lv : VS0 s VP lv -> sv s' = sv s -> fV (sio s') = fV (sio s) -> faults (sio s') = [] -> VS0 s' VP lv.
  Proof. intros [] E1 E2 E3. constructor; rewrite ?E1, ?E2; auto. Qed.
  Lemma VS0_sv s v VP lv : VS0 s VP lv -> nextV v = nextV (sv s) -> availV v = availV (sv s) -> zlen (vwbuf v) = P ->
    bufV v = bufV (sv s) -> vrbuf v = vrbuf (sv s) -> VS0 (set_v s v) VP lv.
  Proof.
    intros [] E1 E2 E3 E4 E5. constructor; unfold set_v; cbn [sv sio]; rewrite ?E1, ?E2, ?E3, ?E4, ?E5; auto.
  Qed.

  (** ** Reading a variable page *)
  Definition same_but_var (s s' : state) : Prop :=
    sio s' = sio s /\ sd s' = sd s /\ si s' = si s /\
    exists p q, sv s' = v_rbuf (sv s) p q.
  Lemma same_var_refl s : same_but_var s s.
  Proof. do 3 (split; [auto|]). exists (vrbuf (sv s)), (bufV (sv s)). destruct (sv s); reflexivity. Qed.
  Lemma same_var_trans a b d : same_but_var a b -> same_but_var b d -> same_but_var a d.
  Proof.
    intros (A1 & A2 & A3 & p & q & A4) (B1 & B2 & B3 & p' & q' & B4).
    split; [congruence|]. split; [congruence|]. split; [congruence|]. exists p', q'. rewrite B4, A4. reflexivity.
  Qed.

  Lemma file_readV0 s VP lv v : VS0 s VP lv -> 0 <= v -> zlen VP - NV <= v < zlen VP ->
    file_read (fV (sio s)) (v mod NV) = Some (vpg VP v).
  Proof.
    intros X V0 Hv. unfold file_read. rewrite (z_flen _ _ _ X), (z_fpg _ _ _ X v V0 Hv). pose proof (mod_V v).
    assert (v mod NV < Z.min (zlen VP) NV).
    { destruct (Z.lt_ge_cases (zlen VP) NV); [rewrite Z.mod_small by lia|]; lia. }
    replace ((0 <=? v mod NV) && (v mod NV <? Z.min (zlen VP) NV)) with true by lia. reflexivity.
  Qed.

  (** A place is in the file exactly when a page of the window sits there. *)
  Lemma place_page (VP : list page) q : 0 <= q < Z.min (zlen VP) NV -> exists v, 0 <= v /\ zlen VP - NV <= v < zlen VP /\ v mod NV = q.
  Proof.
    intros Hq. pose proof vB as Bd. destruct (Z.lt_ge_cases (zlen VP) NV).
    { exists q. rewrite Z.mod_small by lia. lia. }
    exists (zlen VP - NV + (q - (zlen VP - NV)) mod NV).
    pose proof (mod_V (q - (zlen VP - NV))) as M. split; [lia|]. split; [lia|].
    rewrite Z.add_mod_idemp_r by lia. replace (zlen VP - NV + (q - (zlen VP - NV))) with q by lia.
    apply Z.mod_small. lia.
  Qed.

  (** Any read: it fails and changes nothing, or leaves a page of the area. *)
  Lemma readV_any0 s VP lv n : VS0 s VP lv -> 0 <= n < NV ->
    exists s' r, readVariablePage s n = (s', r) /\ VS0 s' VP lv /\ same_but_var s s' /\
      (r = 0 \/ r = -1) /\ (r = 0 -> zlen (vrbuf (sv s')) = P) /\ (var_fresh s -> var_fresh s').
  Proof.
    intros X Hn. unfold readVariablePage. destruct (Z.eqb_spec n (bufV (sv s))) as [E|NE].
    - exists s, 0. split; [reflexivity|]. split; [auto|]. split; [apply same_var_refl|]. split; [auto|]. split; [|auto].
      intros _. destruct (z_rb _ _ _ X) as [R|(v & R1 & R2 & R3 & _)].
      + pose proof (NOPAGE_notV n) as Nn. rewrite Z.mod_small in Nn by lia. congruence.
      + rewrite R3. apply (z_plen _ _ _ X). lia.
    - rewrite io_read_nf by apply (z_faults _ _ _ X). cbn [getF].
      destruct (Z.lt_ge_cases n (Z.min (zlen VP) NV)) as [Lt|Ge].
      + destruct (place_page VP n ltac:(lia)) as (v & V0 & Vw & Vm). rewrite <- Vm.
        rewrite (file_readV0 s VP lv v X V0 Vw).
        eexists _, 0. split; [reflexivity|].
        split; [|split; [|split; [auto|split]]].
        * destruct X. constructor; cbn [sv sio v_rbuf nextV availV vwbuf vrbuf bufV]; auto.
          right. exists v. split; [lia|]. split; [auto|]. split; [auto|]. left. lia.
        * do 3 (split; [reflexivity|]). do 2 eexists; reflexivity.
        * intros _. cbn [sv v_rbuf vrbuf]. apply (z_plen _ _ _ X). lia.
        * intros _. right. cbn [sv sio v_rbuf vrbuf bufV]. symmetry. apply (z_fpg _ _ _ X); auto.
      + unfold file_read. rewrite (z_flen _ _ _ X).
        replace ((0 <=? n) && (n <? Z.min (zlen VP) NV)) with false by lia.
        exists (set_io s (sio s)), (-1). split; [reflexivity|].
        replace (set_io s (sio s)) with s by (destruct s; reflexivity).
        split; [auto|]. split; [apply same_var_refl|]. split; [auto|]. split; [lia|auto].
  Qed.

  (** Reading a page of the window through a fresh cache. *)
  Lemma readV_ok0 s VP lv v : VS0 s VP lv -> var_fresh s -> 0 <= v -> zlen VP - NV <= v < zlen VP ->
    exists s', readVariablePage s (v mod NV) = (s', 0) /\ VS0 s' VP lv /\ same_but_var s s' /\ var_fresh s' /\
      vrbuf (sv s') = vpg VP v /\ bufV (sv s') = v mod NV.
  Proof.
    intros X Fr V0 Vw. pose proof (readV_any0 s VP lv (v mod NV) X (mod_V v)) as (s' & r & E & X' & Sm & _ & _ & Fr').
    specialize (Fr' Fr). unfold readVariablePage in *. destruct (Z.eqb_spec (v mod NV) (bufV (sv s))) as [Eb|Nb].
    - injection E as <- <-. exists s. split; [reflexivity|]. split; [auto|]. split; [apply same_var_refl|]. split; [auto|].
      split; [|auto]. destruct Fr as [Fr|Fr]; [pose proof (NOPAGE_notV v); congruence|].
      rewrite Fr, <- Eb. apply (z_fpg _ _ _ X); auto.
    - rewrite io_read_nf in * by apply (z_faults _ _ _ X). cbn [getF] in *.
      rewrite (file_readV0 s VP lv v X V0 Vw) in *. injection E as <- <-.
      eexists. split; [reflexivity|]. split; [auto|]. split; [auto|]. split; [auto|]. split; reflexivity.
  Qed.

  (** ** Writing a variable page *)
  Definition next_lv (VP : list page) (lv : Z) : Z := if zlen VP - lv =? NV then lv + B else lv.
  Definition next_min (VP : list page) (lv m : Z) : Z :=
    if zlen VP - lv =? NV then u64 (set_low c m (hkey c (vpg VP (lv + B - 1))) + 1) else m.
  Definition vsealed (s : state) (VP : list page) : page := zwr (vwbuf (sv s)) 0 (le_enc 4 (zlen VP)).

  Lemma full_block (VP : list page) lv : zlen VP - lv = NV -> lv mod B = 0 -> zlen VP mod B = 0 /\ zlen VP mod NV = lv mod NV.
  Proof.
    intros E M. pose proof vB as Bd. pose proof (va_mod _ _ V) as VM. split.
    - replace (zlen VP) with (NV + lv) by lia. rewrite Z.add_mod, VM, M by lia. now rewrite Z.mod_0_l by lia.
    - replace (zlen VP) with (lv + NV) by lia. apply modV_plus.
  Qed.
  Lemma block_end lv : lv mod B = 0 -> (lv mod NV + B - 1) mod NV = (lv + B - 1) mod NV.
  Proof. intros M. pose proof vB. replace (lv + B - 1) with (lv + (B - 1)) by lia. rewrite <- Z.add_mod_idemp_l by lia. f_equal. lia. Qed.

  Lemma div_block n : 0 <= n -> n mod B <> 0 -> (n - 1) / B = n / B.
  Proof.
    intros Hn M. pose proof vB as Bd. pose proof (Z_div_mod_eq_full n B) as E. pose proof (Z.mod_pos_bound n B ltac:(lia)).
    symmetry. apply (Z.div_unique_pos (n - 1) B (n / B) (n mod B - 1)); lia.
  Qed.
  Lemma mul_block n : n mod B = 0 -> B * (n / B) = n.
  Proof. intros M. pose proof vB. pose proof (Z_div_mod_eq_full n B). lia. Qed.

  Lemma write_file s VP lv p : VS0 s VP lv -> zlen p = P ->
    let F := file_write c (fV (sio s)) (zlen VP mod NV) p in
    flen F = Z.min (zlen VP + 1) NV /\
    forall v, 0 <= v -> zlen VP + 1 - NV <= v < zlen VP + 1 -> fpg F (v mod NV) = vpg (VP ++ [p]) v.
  Proof.
    intros X Hp F. pose proof vB as Bd. pose proof (zlen_nonneg VP) as Z0. unfold F, file_write. cbn [flen fpg].
    rewrite (z_flen _ _ _ X). split.
    - destruct (Z.lt_ge_cases (zlen VP) NV); [rewrite Z.mod_small by lia; lia|]. pose proof (mod_V (zlen VP)). lia.
    - intros v V0 Vw. destruct (Z.eqb_spec (v mod NV) (zlen VP mod NV)) as [E|NE].
      + assert (v = zlen VP) by (apply modV_inj; auto; lia). subst v. now rewrite vpg_app2.
      + assert (v <> zlen VP) by congruence. rewrite vpg_app1 by lia.
        assert (v mod NV < Z.min (zlen VP) NV).
        { destruct (Z.lt_ge_cases (zlen VP) NV); [rewrite Z.mod_small by lia; lia|]. pose proof (mod_V v). lia. }
        destruct (Z.ltb_spec (v mod NV) (Z.min (zlen VP) NV)); [|lia]. apply (z_fpg _ _ _ X); lia.
  Qed.

  Lemma writeV_ok0 s VP lv : VS0 s VP lv -> zlen VP + 1 < 2 ^ 32 -> eraseFill c = None \/ zlen VP - lv < NV ->
    exists s', writeVariablePage c s = Ok (s', zlen VP) /\ VS0 s' (VP ++ [vsealed s VP]) (next_lv VP lv) /\
      sd s' = sd s /\ si s' = si s /\ fD (sio s') = fD (sio s) /\ fI (sio s') = fI (sio s) /\
      vwbuf (sv s') = vsealed s VP /\ curVarLoc (sv s') = curVarLoc (sv s) /\ hasVar (sv s') = hasVar (sv s) /\
      minVarRec (sv s') = next_min VP lv (minVarRec (sv s)).
  Proof.
    intros X Hn Hf. pose proof vB as Bd. pose proof vP as Pd. pose proof (zlen_nonneg VP) as Z0.
    pose proof (z_lv _ _ _ X) as Lv. pose proof (z_live _ _ _ X) as Lw. pose proof (z_wlen _ _ _ X) as Wl.
    unfold writeVariablePage. rewrite nv_pos. rewrite (z_next _ _ _ X), (z_avail _ _ _ X).
    set (w := vsealed s VP).
    assert (Hw : set_pid (vwbuf (sv s)) (zlen VP) = Ok w).
    { unfold set_pid, w, vsealed. apply st_ok; rewrite ?le_enc_zlen; lia. }
    assert (Lw' : zlen w = P) by (unfold w, vsealed; rewrite zwr_length; rewrite ?le_enc_zlen; lia).
    (* the part after the erase *)
    assert (Rest : forall s1, VS0 s1 VP (next_lv VP lv - (if zlen VP - lv =? NV then B else 0)) ->
      sd s1 = sd s -> si s1 = si s -> fD (sio s1) = fD (sio s) -> fI (sio s1) = fI (sio s) ->
      vwbuf (sv s1) = vwbuf (sv s) -> curVarLoc (sv s1) = curVarLoc (sv s) -> hasVar (sv s1) = hasVar (sv s) ->
      minVarRec (sv s1) = next_min VP lv (minVarRec (sv s)) ->
      forall av, availV av = NV - (zlen VP - next_lv VP lv) -> nextV av = nextV (sv s1) ->
        bufV av = bufV (sv s1) -> vrbuf av = vrbuf (sv s1) -> vwbuf av = vwbuf (sv s1) -> curVarLoc av = curVarLoc (sv s1) ->
        hasVar av = hasVar (sv s1) -> minVarRec av = minVarRec (sv s1) ->
      (zlen VP mod B = 0 -> bufV (sv s1) = NOPAGE \/ exists v, 0 <= v < zlen VP /\ bufV (sv s1) = v mod NV /\ vrbuf (sv s1) = vpg VP v /\ zlen VP - NV <= v /\ (v = zlen VP - NV -> True)) ->
      exists s',
       (w0 <- set_pid (vwbuf av) (nextV av) ;;
        let s2 := set_v (set_v s1 av) (v_wbuf av w0) in
        let '(o, ok) := io_write c WV (zlen VP mod NV) (vwbuf (sv s2)) (sio s2) in
        let s3 := set_io s2 o in
        if ok then
          let v := v_next (sv s3) (u32 (nextV (sv s3) + 1)) in
          let v := v_avail v (u32 (availV v - 1)) in
          Ok (set_v s3 v, u32 (nextV v - 1))
        else Ok (s3, NOPAGE)) = Ok (s', zlen VP) /\ VS0 s' (VP ++ [w]) (next_lv VP lv) /\
      sd s' = sd s /\ si s' = si s /\ fD (sio s') = fD (sio s) /\ fI (sio s') = fI (sio s) /\
      vwbuf (sv s') = w /\ curVarLoc (sv s') = curVarLoc (sv s) /\ hasVar (sv s') = hasVar (sv s) /\
      minVarRec (sv s') = next_min VP lv (minVarRec (sv s))).
    { intros s1 X1 e1 e2 e3 e4 e5 e6 e7 e8 av a1 a2 a3 a4 a5 a6 a7 a8 Blk.
      rewrite a5, e5, a2, (z_next _ _ _ X1), Hw. cbn [bind]. cbv zeta.
      unfold set_v, set_io, v_wbuf, v_next, v_avail. cbn [sv sio sd si vwbuf nextV availV].
      rewrite io_write_nf by apply (z_faults _ _ _ X1). cbn [getF putF].
      cbn [sv sio sd si vwbuf nextV availV vrbuf minVarRec curVarLoc bufV hasVar faults fD fI fV trace].
      eexists. rewrite a2, (z_next _ _ _ X1). rewrite (u32_id (zlen VP + 1)) by lia. rewrite (u32_id (zlen VP + 1 - 1)) by lia.
      replace (zlen VP + 1 - 1) with (zlen VP) by lia. split; [reflexivity|].
      cbn [sv sio sd si vwbuf nextV availV vrbuf minVarRec curVarLoc bufV hasVar faults fD fI fV trace].
      split; [|repeat (split; [solve [congruence]|]); congruence].
      destruct (write_file s1 VP _ w X1 Lw') as [Fl Fp].
      assert (Z1 : zlen (VP ++ [w]) = zlen VP + 1) by (rewrite zlen_app; reflexivity).
      assert (Nl : 0 <= next_lv VP lv <= zlen VP /\ zlen VP - next_lv VP lv < NV /\ next_lv VP lv mod B = 0 /\
                   (next_lv VP lv = 0 \/ NV - B < zlen VP + 1 - next_lv VP lv)).
      { unfold next_lv. pose proof (z_lmod _ _ _ X) as Lm. pose proof (z_ring _ _ _ X) as Rg.
        destruct (Z.eqb_spec (zlen VP - lv) NV) as [Fu|NF].
        - split; [lia|]. split; [lia|]. split; [|right; lia].
          rewrite Z.add_mod, Lm, Z.mod_same by lia. now rewrite Z.mod_0_l by lia.
        - split; [lia|]. split; [lia|]. split; [auto|lia]. }
      destruct Nl as (N1 & N2 & N3 & N4).
      constructor; cbn [sv sio vwbuf nextV availV vrbuf minVarRec curVarLoc bufV hasVar faults fD fI fV trace]; rewrite ?Z1; auto.
      - apply (z_faults _ _ _ X1).
      - lia.
      - lia.
      - lia.
      - rewrite a1. rewrite u32_id; lia.
      - intros v Hv. destruct (Z.eq_dec v (zlen VP)) as [->|Ne]; [now rewrite vpg_app2|].
        rewrite vpg_app1 by lia. apply (z_plen _ _ _ X1). lia.
      - rewrite a3, a4. replace (zlen VP + 1 - 1) with (zlen VP) by lia.
        destruct (Z.eq_dec (zlen VP mod B) 0) as [M0|M1].
        + destruct (Blk M0) as [R|(v & R1 & R2 & R3 & R4 & _)]; [auto|]. right. exists v.
          split; [lia|]. split; [auto|]. split; [rewrite vpg_app1 by lia; auto|].
          rewrite (mul_block _ M0). destruct (Z.eq_dec v (zlen VP - NV)); [right; split; [lia|auto]|left; lia].
        + destruct (z_rb _ _ _ X1) as [R|(v & R1 & R2 & R3 & R4)]; [auto|]. right. exists v.
          split; [lia|]. split; [auto|]. split; [rewrite vpg_app1 by lia; auto|].
          destruct R4 as [R4|R4].
          * destruct (Z.eq_dec v (zlen VP - NV)); [right|left; lia].
            pose proof (Z.mul_div_le (zlen VP) B ltac:(lia)). split; [lia|auto].
          * right. rewrite (div_block _ Z0 M1) in R4. split; [lia|auto].
      - intros v Hv. destruct (Z.eq_dec v (zlen VP)) as [->|Ne].
        + rewrite vpg_app2. unfold get_pid. rewrite ldz_ok by (change (Z.of_nat 4) with 4; lia). unfold w, vsealed.
          rewrite zrd_zwr_same by (rewrite ?le_enc_zlen, ?le_enc_length; change (Z.of_nat 4) with 4; lia).
          rewrite le_dec_enc; [auto|]. change (256 ^ Z.of_nat 4) with (2 ^ 32). lia.
        + rewrite vpg_app1 by lia. apply (z_pid _ _ _ X1). lia. }
    destruct (Z.eq_dec (zlen VP - lv) NV) as [Fu|NF].
    - (* full *)
      destruct Hf as [Hf|Hf]; [|lia]. replace (NV - (zlen VP - lv) <=? 0) with true by lia.
      destruct (full_block VP lv Fu (z_lmod _ _ _ X)) as [M0 M1].
      rewrite io_erase_nf by apply (z_faults _ _ _ X). cbn [getF putF negb].
      unfold file_erase. rewrite Hf.
      set (s1 := set_v _ _).
      assert (Ev : (zlen VP mod NV + B - 1) mod NV = (lv + B - 1) mod NV).
      { rewrite M1. apply block_end. apply (z_lmod _ _ _ X). }
      rewrite Ev. unfold readVariablePage.
      assert (T : 0 <= lv + B - 1 < zlen VP /\ zlen VP - NV <= lv + B - 1) by lia.
      (* what the read leaves *)
      assert (Rd : exists s2, (if (lv + B - 1) mod NV =? bufV (sv s1) then (s1, 0)
          else let '(o, r) := io_read WV ((lv + B - 1) mod NV) (sio s1) in
               match r with
               | None => (set_io s1 o, -1)
               | Some p => (mkS o (sd s1) (si s1) (v_rbuf (sv s1) p ((lv + B - 1) mod NV)), 0)
               end) = (s2, 0) /\ sio s2 = sio s1 /\ sd s2 = sd s1 /\ si s2 = si s1 /\
               sv s2 = v_rbuf (sv s1) (vpg VP (lv + B - 1)) ((lv + B - 1) mod NV)).
      { destruct (Z.eqb_spec ((lv + B - 1) mod NV) (bufV (sv s1))) as [Eb|Nb].
        - exists s1. split; [reflexivity|]. do 3 (split; [reflexivity|]).
          assert (Hv : vrbuf (sv s1) = vpg VP (lv + B - 1)).
          { unfold s1, set_v in Eb |- *. cbn [sv v_avail vrbuf bufV set_io] in Eb |- *.
            destruct (z_rb _ _ _ X) as [R|(v & R1 & R2 & R3 & R4)].
            - rewrite R in Eb. exfalso. now apply (NOPAGE_notV (lv + B - 1)).
            - rewrite R3. f_equal. rewrite R2 in Eb. destruct R4 as [R4|R4].
              + destruct (Z.le_ge_cases v (lv + B - 1)); [apply modV_inj; auto; lia|symmetry; apply modV_inj; auto; lia].
              + exfalso. destruct R4 as [R4 _]. assert (lv + B - 1 = v + NV).
                { apply modV_inj; [rewrite modV_plus; auto|]. 
                  assert (M2 : B * ((zlen VP - 1) / B) = zlen VP - B).
                  { assert (Hq : (zlen VP - 1) / B = zlen VP / B - 1).
                    { pose proof (mul_block _ M0) as Mb. symmetry.
                      apply (Z.div_unique_pos (zlen VP - 1) B (zlen VP / B - 1) (B - 1)); lia. }
                    rewrite Hq. pose proof (mul_block _ M0). lia. }
                  rewrite M2 in R4. lia. }
                assert (M2 : B * ((zlen VP - 1) / B) = zlen VP - B).
                { assert (Hq : (zlen VP - 1) / B = zlen VP / B - 1).
                  { pose proof (mul_block _ M0) as Mb. symmetry.
                    apply (Z.div_unique_pos (zlen VP - 1) B (zlen VP / B - 1) (B - 1)); lia. }
                  rewrite Hq. pose proof (mul_block _ M0). lia. }
                lia. }
          rewrite <- Hv, Eb. destruct s1 as [? ? ? []]; reflexivity.
        - rewrite io_read_nf by (apply (z_faults _ _ _ X)). cbn [getF].
          change (fV (sio s1)) with (fV (sio s)). rewrite (file_readV0 s VP lv (lv + B - 1) X ltac:(lia) ltac:(lia)).
          eexists. split; [reflexivity|]. repeat (split; [reflexivity|]). reflexivity. }
      destruct Rd as (s2 & -> & g1 & g2 & g3 & g4). cbn [negb Z.eqb].
      rewrite g4. cbn [v_rbuf vrbuf].
      pose proof (z_plen _ _ _ X (lv + B - 1) ltac:(lia)) as Pl. pose proof (L_ksz c L0) as Ks.
      rewrite ldz_ok by lia. cbn [bind]. cbn [negb].
      unfold s1 in *. unfold set_v, set_io in *. cbn [sv sio sd si] in *.
      rewrite g1, g2, g3. clear g1 g2 g3 g4 s2.
      cbn [v_rbuf v_avail v_minrec vwbuf vrbuf availV nextV minVarRec curVarLoc bufV hasVar] in *.
      clear s1.
      set (av := mkV (vwbuf (sv s)) (vpg VP (lv + B - 1)) (u32 (availV (sv s) + B)) (nextV (sv s))
                     (u64 (set_low c (minVarRec (sv s)) (le_dec (zrd (vpg VP (lv + B - 1)) 4 (ksz c))) + 1))
                     (curVarLoc (sv s)) ((lv + B - 1) mod NV) (hasVar (sv s))).
      set (o1 := mkIO _ _ _ _ _).
      assert (Avail : availV (sv s) = 0) by (rewrite (z_avail _ _ _ X); lia).
      destruct (Rest (mkS o1 (sd s) (si s) (mkV (vwbuf (sv s)) (vpg VP (lv + B - 1)) (availV (sv s)) (nextV (sv s))
           (u64 (set_low c (minVarRec (sv s)) (hkey c (vpg VP (lv + B - 1))) + 1)) (curVarLoc (sv s)) ((lv + B - 1) mod NV) (hasVar (sv s)))))
        with (av := av) as (s' & E & R); try reflexivity.
      + unfold next_lv. replace (zlen VP - lv =? NV) with true by lia. replace (lv + B - B) with lv by lia.
        destruct X. constructor; cbn [sv sio vwbuf nextV availV vrbuf bufV o1 fV faults flen fpg]; auto.
        right. exists (lv + B - 1). split; [lia|]. split; [auto|]. split; [auto|]. left. lia.
      + cbn [sv minVarRec]. unfold next_min. replace (zlen VP - lv =? NV) with true by lia. reflexivity.
      + unfold av. cbn [availV]. rewrite Avail. unfold next_lv. replace (zlen VP - lv =? NV) with true by lia.
        rewrite u32_id; lia.
      + intros _. right. exists (lv + B - 1). cbn [sv bufV vrbuf]. split; [lia|]. split; [auto|]. split; [auto|]. split; [lia|auto].
      + exists s'. split; [|exact R]. rewrite <- E. reflexivity.
    - replace (NV - (zlen VP - lv) <=? 0) with false by lia. cbn [bind negb].
      assert (Nm : next_min VP lv (minVarRec (sv s)) = minVarRec (sv s)).
      { unfold next_min. replace (zlen VP - lv =? NV) with false by lia. auto. }
      destruct (Rest s) with (av := sv s) as (s' & E & R); try reflexivity; auto.
      + unfold next_lv. replace (zlen VP - lv =? NV) with false by lia. rewrite Z.sub_0_r. auto.
      + unfold next_lv. replace (zlen VP - lv =? NV) with false by lia. apply (z_avail _ _ _ X).
      + intros M0. destruct (z_rb _ _ _ X) as [R|(v & R1 & R2 & R3 & R4)]; [auto|]. right. exists v.
        do 3 (split; [solve [auto]|]). split; [|auto]. destruct R4 as [R4|R4]; [auto|].
        exfalso. destruct R4 as [R4 [Rg|Rg]]; [lia|].
        (* full after all *)
        pose proof (z_lmod _ _ _ X) as Lm. pose proof (va_mod _ _ V) as VM.
        assert (Q : (zlen VP - lv) mod B = 0).
        { rewrite Zminus_mod, M0, Lm. now rewrite Z.mod_0_l by lia. }
        pose proof (mul_block _ Q) as Q1. pose proof (mul_block _ VM) as Q2.
        set (x := (zlen VP - lv) / B) in *. set (y := NV / B) in *. clearbody x y.
        assert (y - 1 < x) by (apply (Z.mul_lt_mono_pos_l B); lia).
        assert (x < y) by (apply (Z.mul_lt_mono_pos_l B); lia). lia.
      + exists s'. split; [|exact R]. rewrite <- E. rewrite (z_next _ _ _ X).
        replace (set_v s (sv s)) with s by (destruct s; reflexivity). reflexivity.
  Qed.
End Var.

(** The variable area as far as it can be read: the records that start on page
    [lv] or later.  After a recovery that is the page after the first one kept. *)
Definition VS (c : cfg) (s : state) (VP : list page) (lv : Z) : Prop :=
  exists l, VS0 c s VP l /\ l <= lv <= zlen VP /\ (lv = l \/ (lv = l + 1 /\ 0 < l)).

Section Fields.
  Variables (c : cfg) (s : state) (VP : list page) (lv : Z).
  Hypothesis X : VS c s VP lv.
  Lemma x_faults : faults (sio s) = []. Proof. destruct X as (l & Y & _). apply Y. Qed.
  Lemma x_next : nextV (sv s) = zlen VP. Proof. destruct X as (l & Y & _). apply Y. Qed.
  Lemma x_lv : 0 <= lv <= zlen VP. Proof. destruct X as (l & Y & H). pose proof (z_lv _ _ _ _ Y). lia. Qed.
  Lemma x_live : zlen VP - lv <= numVar c. Proof. destruct X as (l & Y & H). pose proof (z_live _ _ _ _ Y). lia. Qed.
  Lemma x_ring : lv = 0 \/ numVar c - eraseSize c - 1 <= zlen VP - lv.
  Proof. destruct X as (l & Y & H). pose proof (z_ring _ _ _ _ Y). lia. Qed.
  Lemma x_nowrap : 0 < eraseSize c <= numVar c -> zlen VP < numVar c -> lv = 0.
  Proof.
    intros HB Hn. destruct X as (l & Y & H). pose proof (z_lv _ _ _ _ Y). pose proof (z_lmod _ _ _ _ Y) as Lm.
    destruct (z_ring _ _ _ _ Y) as [R|R]; [lia|]. destruct (Z.eq_dec l 0); [lia|].
    destruct (Z.lt_ge_cases l (eraseSize c)); [rewrite Z.mod_small in Lm by lia; lia|lia].
  Qed.
  Lemma x_flen : flen (fV (sio s)) = Z.min (zlen VP) (numVar c). Proof. destruct X as (l & Y & _). apply Y. Qed.
  Lemma x_fpg v : 0 <= v -> zlen VP - numVar c <= v < zlen VP -> fpg (fV (sio s)) (v mod numVar c) = vpg VP v.
  Proof. destruct X as (l & Y & _). apply Y. Qed.
  Lemma x_plen v : 0 <= v < zlen VP -> zlen (vpg VP v) = pageSize c. Proof. destruct X as (l & Y & _). apply Y. Qed.
  Lemma x_wlen : zlen (vwbuf (sv s)) = pageSize c. Proof. destruct X as (l & Y & _). apply Y. Qed.
  Lemma x_pid v : 0 <= v < zlen VP -> get_pid (vpg VP v) = Ok v. Proof. destruct X as (l & Y & _). apply Y. Qed.
End Fields.

(** Writing a page moves the first readable page only together with the smallest
    readable key. *)
Definition moved (c : cfg) (VP : list page) (lv m lv' m' : Z) : Prop :=
  (lv' = lv /\ m' = m) \/
  (lv <= lv' /\ 1 <= lv' <= zlen VP /\ numVar c - eraseSize c <= zlen VP + 1 - lv' /\
   m' = u64 (set_low c m (hkey c (vpg VP (lv' - 1))) + 1)).

Section VarArea.
  Variables (c : cfg) (KB PB VB : Z).
  Hypothesis G : setting c KB PB.
  Hypothesis V : var_area c VB.
  Notation VS := (VS c).

  Lemma VS_other s s' VP lv : VS s VP lv -> sv s' = sv s -> fV (sio s') = fV (sio s) -> faults (sio s') = [] -> VS s' VP lv.
  Proof. intros (l & Y & Hl) E1 E2 E3. exists l. split; [|auto]. apply (VS0_other c s); auto. Qed.
  Lemma VS_sv s v VP lv : VS s VP lv -> nextV v = nextV (sv s) -> availV v = availV (sv s) -> zlen (vwbuf v) = pageSize c ->
    bufV v = bufV (sv s) -> vrbuf v = vrbuf (sv s) -> VS (set_v s v) VP lv.
  Proof. intros (l & Y & Hl) E1 E2 E3 E4 E5. exists l. split; [|auto]. apply VS0_sv; auto. Qed.
  Lemma readV_any s VP lv n : VS s VP lv -> 0 <= n < numVar c ->
    exists s' r, readVariablePage s n = (s', r) /\ VS s' VP lv /\ same_but_var s s' /\
      (r = 0 \/ r = -1) /\ (r = 0 -> zlen (vrbuf (sv s')) = pageSize c) /\ (var_fresh s -> var_fresh s').
  Proof.
    intros (l & Y & Hl) Hn. destruct (readV_any0 c KB PB VB G V s VP l n Y Hn) as (s' & r & E & Y' & R).
    exists s', r. split; [auto|]. split; [exists l; auto|auto].
  Qed.
  Lemma readV_ok s VP lv v : VS s VP lv -> var_fresh s -> 0 <= v -> zlen VP - numVar c <= v < zlen VP ->
    exists s', readVariablePage s (v mod numVar c) = (s', 0) /\ VS s' VP lv /\ same_but_var s s' /\ var_fresh s' /\
      vrbuf (sv s') = vpg VP v /\ bufV (sv s') = v mod numVar c.
  Proof.
    intros (l & Y & Hl) Fr H1 H2. destruct (readV_ok0 c KB PB VB G V s VP l v Y Fr H1 H2) as (s' & E & Y' & R).
    exists s'. split; [auto|]. split; [exists l; auto|auto].
  Qed.
  Lemma writeV_ok s VP lv : VS s VP lv -> zlen VP + 1 < 2 ^ 32 -> eraseFill c = None \/ zlen VP < numVar c ->
    exists s' lv', writeVariablePage c s = Ok (s', zlen VP) /\ VS s' (VP ++ [vsealed s VP]) lv' /\
      sd s' = sd s /\ si s' = si s /\ fD (sio s') = fD (sio s) /\ fI (sio s') = fI (sio s) /\
      vwbuf (sv s') = vsealed s VP /\ curVarLoc (sv s') = curVarLoc (sv s) /\ hasVar (sv s') = hasVar (sv s) /\
      moved c VP lv (minVarRec (sv s)) lv' (minVarRec (sv s')).
  Proof.
    intros (l & Y & Hl & Hd) Hn Hf. pose proof (z_lv _ _ _ _ Y). pose proof (vB c KB PB VB G V) as Bd.
    destruct (writeV_ok0 c KB PB VB G V s VP l Y Hn ltac:(destruct Hf; [now left|right; lia])) as (s' & E & Y' & e1 & e2 & e3 & e4 & e5 & e6 & e7 & e8).
    assert (Z1 : zlen (VP ++ [vsealed s VP]) = zlen VP + 1) by (rewrite zlen_app; reflexivity).
    unfold next_lv, next_min in *. destruct (Z.eqb_spec (zlen VP - l) (numVar c)) as [Fu|NF].
    - exists s', (l + eraseSize c). split; [auto|]. split; [exists (l + eraseSize c); split; [auto|rewrite Z1; lia]|].
      repeat (split; [solve [auto]|]). right. split; [lia|]. split; [lia|]. split; [lia|]. exact e8.
    - exists s', lv. split; [auto|]. split; [exists l; split; [auto|rewrite Z1; lia]|].
      repeat (split; [solve [auto]|]). left. auto.
  Qed.
End VarArea.

(** Storage holds the newest variable pages. *)
Record VDisk (c : cfg) (F : file) (VP : list page) : Prop := {
  q_flen : flen F = Z.min (zlen VP) (numVar c);
  q_fpg : forall v, 0 <= v -> zlen VP - numVar c <= v < zlen VP -> fpg F (v mod numVar c) = vpg VP v;
  q_plen : forall v, 0 <= v < zlen VP -> zlen (vpg VP v) = pageSize c;
  q_pid : forall v, 0 <= v < zlen VP -> get_pid (vpg VP v) = Ok v;
  q_small : zlen VP + 1 < 2 ^ 32
}.
Lemma VS_disk c s VP lv : VS c s VP lv -> zlen VP + 1 < 2 ^ 32 -> VDisk c (fV (sio s)) VP.
Proof.
  intros X H. constructor; auto; [apply (x_flen _ _ _ _ X)|apply (x_fpg _ _ _ _ X)|apply (x_plen _ _ _ _ X)|apply (x_pid _ _ _ _ X)].
Qed.

Lemma readVariablePage_frame s n : let '(s', _) := readVariablePage s n in
  fD (sio s') = fD (sio s) /\ fI (sio s') = fI (sio s) /\ fV (sio s') = fV (sio s) /\ trace (sio s') = trace (sio s) /\
  (faults (sio s) = [] -> faults (sio s') = []).
Proof.
  unfold readVariablePage. destruct (_ =? _); [auto|]. unfold io_read, take_fault.
  destruct (faults (sio s)) as [|[|] fs] eqn:E; [destruct (file_read _ _)| |destruct (file_read _ _)];
    cbn [sio set_io set_v fD fI fV trace faults]; repeat split; auto; discriminate.
Qed.
(** What storage holds while a variable page is written. *)
Lemma writeV_imgs c s s' r : writeVariablePage c s = Ok (s', r) -> faults (sio s) = [] ->
  eraseFill c = None \/ 0 < availV (sv s) ->
  exists new, trace (sio s') = new ++ trace (sio s) /\
    Forall (fun im => im = (fD (sio s), fI (sio s), fV (sio s)) \/ im = (fD (sio s), fI (sio s), fV (sio s'))) new.
Proof.
  intros H Hf Ha. unfold writeVariablePage in H. destruct (numVar c =? 0); [discriminate H|].
  match type of H with bind ?x _ = _ => destruct x as [[s1 ok]| |] eqn:E1; cbn [bind] in H; try discriminate H end.
  assert (S1 : faults (sio s1) = [] /\ fD (sio s1) = fD (sio s) /\ fI (sio s1) = fI (sio s) /\ fV (sio s1) = fV (sio s) /\
    exists new, trace (sio s1) = new ++ trace (sio s) /\ Forall (fun im => im = (fD (sio s), fI (sio s), fV (sio s))) new).
  { destruct (Z.leb_spec (availV (sv s)) 0) as [L|L].
    2:{ injection E1 as <- <-. repeat split; auto. exists []. split; [auto|constructor]. }
    destruct Ha as [Ha|Ha]; [|lia]. unfold io_erase, take_fault in E1. rewrite Hf in E1. cbn [putF getF] in E1.
    unfold file_erase in E1. rewrite Ha in E1. cbn [negb] in E1.
    match type of E1 with context [readVariablePage ?a ?b] => pose proof (readVariablePage_frame a b) as R; destruct (readVariablePage a b) as [s2 r2] end.
    destruct R as (R1 & R2 & R3 & R4 & R5). cbn [set_v set_io sio fD fI fV trace faults] in R1, R2, R3, R4, R5.
    assert (Es : sio s1 = sio s2).
    { destruct (negb (r2 =? 0)); [now injection E1 as <- <-|].
      destruct (ldz _ _ _); cbn [bind] in E1; try discriminate E1. now injection E1 as <- <-. }
    rewrite Es. rewrite R1, R2, R3, R4, R5 by auto. repeat split; auto.
    eexists [_]. split; [reflexivity|]. constructor; [reflexivity|constructor]. }
  destruct S1 as (F1 & D1 & I1 & V1 & new & T1 & N1).
  destruct ok; cbn [negb] in H.
  2:{ injection H as <- <-. exists new. split; [auto|]. eapply Forall_impl; [|exact N1]. auto. }
  destruct (set_pid _ _) as [w| |]; cbn [bind] in H; try discriminate H.
  unfold io_write, take_fault in H. cbn [set_v sio] in H. rewrite F1 in H. cbn [putF getF] in H. injection H as <- <-.
  cbn [set_v set_io sio trace fV]. exists ((fD (sio s), fI (sio s), file_write c (fV (sio s1)) (nextV (sv s) mod numVar c) w) :: new).
  rewrite T1, D1, I1. split; [reflexivity|]. constructor; [right; reflexivity|]. eapply Forall_impl; [|exact N1]. auto.
Qed.

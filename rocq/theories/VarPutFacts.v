(** embedDBPutVar and embedDBFlushVar on the variable area. *)
From Verif Require Import Base BaseFacts Config Spline Storage DB VarData Recovery Spec SpecSpline SplineFacts
  SpecPage SpecStore Run SpecRun SpecVar LogFacts PageFacts SearchFacts StoreFacts PutFacts TapeFacts VarFacts.
Open Scope Z_scope.
Ltac Zify.zify_post_hook ::= ZifyBool.elim_bool_cstr.
Ltac Zify.zify_convert_to_euclidean_division_equations_flag ::= constr:(false).

Section VarPut.
  Variables (c : cfg) (KB PB f VB : Z).
  Hypothesis G : setting c KB PB.
  Hypothesis V : var_area c VB.
  Notation P := (pageSize c).
  Notation HD := (keySize c + 4).
  Notation NV := (numVar c).
  Notation B := (eraseSize c).
  Notation VS := (VS c).
  Notation M := (256 ^ keySize c).
  Let L0 := L0 c KB PB G.
  Let HP := vPH c KB PB G.

  (** ** Bytes below a position stay *)
  Definition keeps (PS PS' : list page) (cu : Z) : Prop :=
    forall p, inside P HD p -> p < cu -> vget P PS p = vget P PS' p.
  Lemma keeps_refl PS cu : keeps PS PS cu.
  Proof. intros p _ _. auto. Qed.
  Lemma keeps_trans A1 A2 A3 x y : keeps A1 A2 x -> keeps A2 A3 y -> x <= y -> keeps A1 A3 x.
  Proof. intros K1 K2 Hxy p I1 I2. rewrite K1 by auto. apply K2; auto. lia. Qed.

  Lemma keeps_le A1 A2 x y : keeps A1 A2 y -> x <= y -> keeps A1 A2 x.
  Proof. intros K Hxy p I1 I2. apply K; auto. lia. Qed.

  Lemma addr_lt p n o : inside P HD p -> p < n * P + o -> o <= P ->
    0 <= p / P /\ (p / P < n \/ (p / P = n /\ p mod P < o)).
  Proof.
    intros [I1 I2] Hp Ho. destruct (asplit P HD HP p) as [E Hm].
    assert (0 <= p / P) by (apply Z.div_pos; lia). split; [auto|].
    set (v := p / P) in *. set (q := p mod P) in *. clearbody v q. subst p.
    assert (v <= n) by nia. destruct (Z.eq_dec v n); [right; split; [auto|subst; lia]|left; lia].
  Qed.

  Lemma vget_old (VP X : list page) p : 0 <= p / P < zlen VP -> vget P (VP ++ X) p = vget P VP p.
  Proof. intros Hp. rewrite !vget_vpg, vpg_app1; auto. Qed.
  Lemma vget_last (VP : list page) (w : page) p : p / P = zlen VP -> vget P (VP ++ [w]) p = nth (Z.to_nat (p mod P)) w 0.
  Proof. intros E. rewrite vget_vpg, E, vpg_app2. auto. Qed.

  Lemma nth_zwr (w : page) of bs i : 0 <= of -> of + zlen bs <= zlen w -> 0 <= i -> i < of \/ of + zlen bs <= i ->
    nth (Z.to_nat i) (zwr w of bs) 0 = nth (Z.to_nat i) w 0.
  Proof.
    intros H1 H2 H3 H4. unfold zwr, zlen in *. rewrite wr_nth by lia.
    destruct (Nat.leb_spec (Z.to_nat of) (Z.to_nat i)); cbn [andb]; auto.
    destruct (Nat.ltb_spec (Z.to_nat i) (Z.to_nat of + length bs)); auto. lia.
  Qed.

  Lemma keeps_write (VP : list page) (w : page) o bs : zlen w = P -> 0 <= o -> o + zlen bs <= P ->
    keeps (VP ++ [w]) (VP ++ [zwr w o bs]) (zlen VP * P + o).
  Proof.
    intros Hw H1 H2 p I1 I2. pose proof (zlen_nonneg bs). destruct (addr_lt p _ _ I1 I2 ltac:(lia)) as [D0 [D1|[D1 D2]]].
    - rewrite !vget_old by lia. auto.
    - rewrite !vget_last by auto. destruct (asplit P HD HP p) as [_ Hm]. symmetry. apply nth_zwr; lia.
  Qed.
  Lemma keeps_header (VP : list page) (w : page) of bs cu : zlen w = P -> 0 <= of -> of + zlen bs <= HD -> cu <= (zlen VP + 1) * P ->
    keeps (VP ++ [w]) (VP ++ [zwr w of bs]) cu.
  Proof.
    intros Hw H1 H2 Hc p I1 I2. pose proof (zlen_nonneg bs).
    destruct (addr_lt p (zlen VP) P I1 ltac:(lia) ltac:(lia)) as [D0 [D1|[D1 D2]]].
    - rewrite !vget_old by lia. auto.
    - rewrite !vget_last by auto. destruct (asplit P HD HP p) as [_ Hm]. destruct I1 as [_ I1].
      symmetry. apply nth_zwr; lia.
  Qed.
  Lemma keeps_snoc (VP : list page) (w x : page) : keeps (VP ++ [w]) ((VP ++ [w]) ++ [x]) ((zlen VP + 1) * P + HD).
  Proof.
    intros p I1 I2. destruct (addr_lt p (zlen VP + 1) HD I1 I2 ltac:(lia)) as [D0 [D1|[D1 D2]]].
    - symmetry. apply vget_old. rewrite zlen_app. change (zlen [w]) with 1. lia.
    - destruct I1 as [_ I1]. lia.
  Qed.

  Lemma keeps_vread PS PS' cu a n : keeps PS PS' cu -> inside P HD a -> vskip P HD a n <= cu ->
    vread P HD PS a n = vread P HD PS' a n.
  Proof. intros K I1 Hn. apply vread_ext; auto. intros p P1 P2. apply K; auto. lia. Qed.

  (** ** Header keys and the smallest readable key *)

  (** The header of every page carries the largest key up to it. *)
  Definition dense (VP : list page) (E : list (Z * Z)) : Prop :=
    forall v k a, 0 <= v < zlen VP -> In (k, a) E -> a / P <= v -> k <= hkey c (vpg VP v).
  Lemma M_pos : 0 < M /\ (M | 2 ^ 64).
  Proof.
    pose proof (l_ks c L0) as K. split; [apply Z.pow_pos_nonneg; lia|].
    exists (256 ^ (8 - keySize c)). rewrite <- Z.pow_add_r by lia. replace (8 - keySize c + keySize c) with 8 by lia. reflexivity.
  Qed.
  Lemma set_low_mod m k : set_low c m k mod M = k mod M.
  Proof.
    destruct M_pos as [Mp _]. unfold set_low. pose proof (Z_div_mod_eq_full m M) as E.
    replace (m - m mod M + k) with (k + m / M * M) by lia. apply Z_mod_plus_full.
  Qed.
  Lemma u64_mod z : u64 z mod M = z mod M.
  Proof.
    destruct M_pos as [Mp [q Hq]]. unfold u64. rewrite Hq. pose proof (Z_div_mod_eq_full z (q * M)) as E.
    assert (0 < q) by (assert (0 < q * M) by (rewrite <- Hq; lia); nia).
    replace (z mod (q * M)) with (z + (- (q * (z / (q * M)))) * M) by lia. apply Z_mod_plus_full.
  Qed.

  (** Keys below [kl] are not looked up; [sl]: pages more than an erase block that recovery gave up. *)
  Variables kl sl : Z.
  Hypothesis Hsl : 0 <= sl <= 1.

  Record VH (w : page) (m : Z) (VP : list page) (lv : Z) (E : list (Z * Z)) (acc : list Z) : Prop := {
    hA : forall v k a, 0 <= v < zlen VP -> In (k, a) E -> v < a / P -> hkey c (vpg VP v) < k;
    hB : forall v, 0 <= v < zlen VP -> 0 <= hkey c (vpg VP v) /\ exists x, In x acc /\ hkey c (vpg VP v) <= x;
    hW : 0 <= hkey c w /\ ((acc = [] /\ hkey c w = 0) \/ exists x, In x acc /\ hkey c w <= x);
    hE : forall k a, In (k, a) E -> a / P <= zlen VP;
    hM : forall k a, In (k, a) E -> kl <= k -> lv <= a / P -> m mod M <= k;
    hM2 : m = 2 ^ 64 - 1 \/ exists x, In x acc /\ m mod M <= x + 1;
    hL : dense VP E -> (forall x, In x acc -> x + 1 < M) -> 
      forall k a, In (k, a) E -> a / P < lv -> exists x, In x acc /\ k < m mod M <= x + 1;
    hR : lv = 0 \/ NV - B - sl <= zlen VP - lv
  }.

  Lemma dense_old VP X E e : dense (VP ++ X) (e ++ E) -> dense VP E.
  Proof.
    intros Hd v k a Hv Hi Ha. rewrite <- (vpg_app1 VP X) by auto. apply (Hd v k a); auto.
    - rewrite zlen_app. pose proof (zlen_nonneg X). lia.
    - apply in_or_app. auto.
  Qed.

  Lemma VH_write w w' w2 m VP lv lv' m' E acc : VH w m VP lv E acc -> acc <> [] ->
    hkey c w' = hkey c w -> (0 <= hkey c w2 /\ exists x, In x acc /\ hkey c w2 <= x) -> moved c VP lv m lv' m' ->
    VH w2 m' (VP ++ [w']) lv' E acc.
  Proof.
    intros [A1 B1 W1 E1 M1 M2 Lo Rg] Hn Hw Hw2 Mv.
    assert (Z1 : zlen (VP ++ [w']) = zlen VP + 1) by (rewrite zlen_app; reflexivity).
    assert (Mc : (lv' = lv /\ m' = m) \/ ((1 <= lv' <= zlen VP /\ NV - B <= zlen VP + 1 - lv') /\ m' mod M = (hkey c (vpg VP (lv' - 1)) + 1) mod M)).
    { destruct Mv as [Mv|Mv]; [auto|right]. destruct Mv as (H1 & H2 & H3 & ->). split; [auto|]. destruct M_pos as [Mp _].
      rewrite u64_mod, <- Z.add_mod_idemp_l, set_low_mod, Z.add_mod_idemp_l by lia. reflexivity. }
    clear Mv. destruct M_pos as [Mp _].
    constructor; rewrite ?Z1; try solve [tauto].
    - intros v k a Hv Hi Hlt. destruct (Z.eq_dec v (zlen VP)) as [->|Ne].
      + specialize (E1 _ _ Hi). lia.
      + rewrite vpg_app1 by lia. eapply A1; eauto. lia.
    - intros v Hv. destruct (Z.eq_dec v (zlen VP)) as [->|Ne].
      + rewrite vpg_app2, Hw. destruct W1 as [W1 [[W2 _]|W2]]; [congruence|auto].
      + rewrite vpg_app1 by lia. apply B1. lia.
    - intros k a Hi. specialize (E1 _ _ Hi). lia.
    - intros k a Hi Hkl Hl. destruct Mc as [[-> ->]|[H1 H2]]; [eauto|].
      destruct (B1 (lv' - 1) ltac:(lia)) as [B2 _]. specialize (A1 (lv' - 1) k a ltac:(lia) Hi ltac:(lia)).
      rewrite H2. pose proof (Z.mod_le (hkey c (vpg VP (lv' - 1)) + 1) M ltac:(lia) ltac:(lia)). lia.
    - destruct Mc as [[-> ->]|[H1 H2]]; [auto|]. right. destruct (B1 (lv' - 1) ltac:(lia)) as [B2 (x & Hx & Hxx)]. exists x. split; [auto|].
      rewrite H2. pose proof (Z.mod_le (hkey c (vpg VP (lv' - 1)) + 1) M ltac:(lia) ltac:(lia)). lia.
    - intros Hd Hx k a Hi Hl. destruct Mc as [[-> ->]|[H1 H2]]; [apply (Lo (dense_old VP [w'] E [] Hd) Hx k a Hi Hl)|].
      destruct (B1 (lv' - 1) ltac:(lia)) as [B2 (x & Xi & Xl)]. specialize (Hx x Xi).
      rewrite H2, Z.mod_small by lia. exists x.
      pose proof (dense_old VP [w'] E [] Hd (lv' - 1) k a ltac:(lia) Hi ltac:(lia)). split; [auto|lia].
    - destruct Mc as [[-> ->]|[H1 H2]]; lia.
  Qed.

  Lemma hkey_zwr p of bs : zlen p = P -> 0 <= of -> of + zlen bs <= P -> of + zlen bs <= 4 \/ HD <= of ->
    hkey c (zwr p of bs) = hkey c p.
  Proof.
    intros Hp H1 H2 H3. unfold hkey. pose proof (L_ksz c L0) as Ks. pose proof HP as Hp0. rewrite zrd_zwr_other by lia. auto.
  Qed.
  Lemma hkey_set p key : zlen p = P -> 0 <= key < M -> hkey c (zwr p 4 (le_enc (ksz c) key)) = key.
  Proof.
    intros Hp Hk. unfold hkey. pose proof (L_ksz c L0) as Ks. pose proof HP as Hp0.
    rewrite zrd_zwr_same; rewrite ?le_enc_zlen, ?le_enc_length; try lia. apply le_dec_enc. rewrite Ks. auto.
  Qed.
  Lemma hkey_init : hkey c (init_var_page c) = 0.
  Proof.
    unfold hkey, init_var_page. pose proof (L_ksz c L0). pose proof (L_psz c L0). pose proof HP.
    rewrite zrd_repeat by lia. apply le_dec_zeros.
  Qed.
  Lemma init_len : zlen (init_var_page c) = P.
  Proof. unfold init_var_page. rewrite zlen_repeat. apply (L_psz c L0). Qed.
  Lemma hkey_sealed s VP : zlen (vwbuf (sv s)) = P -> hkey c (vsealed s VP) = hkey c (vwbuf (sv s)).
  Proof. intros E. unfold vsealed. pose proof HP. apply hkey_zwr; rewrite ?le_enc_zlen; auto; lia. Qed.

  (** By how much the page counter is ahead of the stored byte position: what recovery took off it. *)
  Variable off : Z.
  Hypothesis Hoff : 0 <= off /\ off mod pageSize c = 0.

  (** The position of the next free byte. *)
  Definition at_cur (s : state) (VP : list page) (o : Z) : Prop :=
    curVarLoc (sv s) + off = zlen VP * P + o /\ off <= zlen VP * P.
  Lemma cur_mod s VP o : at_cur s VP o -> curVarLoc (sv s) mod P = o mod P.
  Proof.
    intros [Hc _]. pose proof (vP c KB PB G) as Pd. destruct Hoff as (_ & Ho).
    apply Z.mod_divide in Ho as [z Eq]; [|lia].
    replace (curVarLoc (sv s)) with (o + (zlen VP - z) * P) by lia. apply Z_mod_plus_full.
  Qed.

  (** Everything but the variable part is as before, and what storage holds in
      between is one of the lists of pages on the way. *)
  Definition vimg (VP VP' : list page) (s : state) (im : file * file * file) : Prop :=
    exists F X Y, im = (fD (sio s), fI (sio s), F) /\ VP' = (VP ++ X) ++ Y /\ VDisk c F (VP ++ X).
  Definition same_data (s : state) (VP : list page) (s' : state) (VP' : list page) : Prop :=
    sd s' = sd s /\ si s' = si s /\ fD (sio s') = fD (sio s) /\ fI (sio s') = fI (sio s) /\ hasVar (sv s') = hasVar (sv s) /\
    (exists X, VP' = VP ++ X) /\
    exists new, trace (sio s') = new ++ trace (sio s) /\ Forall (vimg VP VP' s) new.
  Lemma same_data_refl s VP : same_data s VP s VP.
  Proof. repeat split; [exists []; now rewrite app_nil_r|exists []; split; [auto|constructor]]. Qed.
  Lemma same_data_trans a VP b VP1 d VP2 : same_data a VP b VP1 -> same_data b VP1 d VP2 -> same_data a VP d VP2.
  Proof.
    intros (A1 & A2 & A3 & A4 & A5 & (X & ->) & n1 & A6 & A7) (B1 & B2 & B3 & B4 & B5 & (Y & ->) & n2 & B6 & B7).
    do 5 (split; [congruence|]). split; [exists (X ++ Y); now rewrite app_assoc|].
    exists (n2 ++ n1). split; [rewrite B6, A6; apply app_assoc|]. apply Forall_app. split.
    - eapply Forall_impl; [|exact B7]. intros im (F & X1 & Y1 & -> & E & Q). exists F, (X ++ X1), Y1.
      rewrite A3, A4, app_assoc. auto.
    - eapply Forall_impl; [|exact A7]. intros im (F & X1 & Y1 & -> & E & Q). exists F, X1, (Y1 ++ Y).
      rewrite E, app_assoc. auto.
  Qed.
  Lemma same_data_var s VP v : hasVar v = hasVar (sv s) -> same_data s VP (set_v s v) VP.
  Proof. intros E. destruct (same_data_refl s VP) as (E1 & E2 & E3 & E4 & E5 & E6). repeat (split; [assumption|]). exact E6. Qed.

  Lemma room_write (VP : list page) : zlen VP * P < VB -> eraseFill c = None \/ zlen VP < NV.
  Proof.
    intros Hb. pose proof (vP c KB PB G). destruct (va_fill _ _ V) as [E|E]; [auto|right]. nia.
  Qed.
  Lemma pages_bound (VP : list page) o : 0 <= o -> zlen VP * P + o < 2 ^ 32 -> zlen VP + 1 < 2 ^ 32.
  Proof. intros H1 H2. pose proof (vP c KB PB G). pose proof (zlen_nonneg VP). nia. Qed.

  (** Writing the page being filled and starting an empty one; [l] is the new
      position. *)
  Lemma write_next s VP lv E acc w2 l : VS s VP lv -> VH (vwbuf (sv s)) (minVarRec (sv s)) VP lv E acc -> acc <> [] ->
    zlen VP * P < VB -> zlen w2 = P -> (0 <= hkey c w2 /\ exists x, In x acc /\ hkey c w2 <= x) ->
    exists s1 lv', writeVariablePage c s = Ok (s1, zlen VP) /\ curVarLoc (sv s1) = curVarLoc (sv s) /\
      zlen VP <> NOPAGE /\
      let s' := set_v s1 (v_loc (v_wbuf (sv s1) w2) l) in
      let VP' := VP ++ [vsealed s VP] in
      VS s' VP' lv' /\ VH w2 (minVarRec (sv s')) VP' lv' E acc /\ same_data s VP s' VP' /\
      zlen VP' = zlen VP + 1 /\ keeps (VP ++ [vwbuf (sv s)]) (VP' ++ [w2]) ((zlen VP + 1) * P).
  Proof.
    intros X HH Hn Hb Hw Hk. pose proof (va_VB _ _ V) as HVB. pose proof (x_lv _ _ _ _ X) as Lv. pose proof (vP c KB PB G) as Pd.
    pose proof (zlen_nonneg VP) as Z0.
    assert (N1 : zlen VP + 1 < 2 ^ 32) by (assert (zlen VP * 9 < 2 ^ 32) by nia; lia).
    destruct (writeV_ok c KB PB VB G V s VP lv X N1) as (s1 & lv' & Ew & X1 & e1 & e2 & e3 & e4 & e5 & e6 & e7 & e8).
    { apply room_write; lia. }
    rewrite Ew.
    exists s1, lv'. split; [reflexivity|]. split; [auto|]. split; [unfold NOPAGE; lia|]. cbv zeta.
    assert (Z1 : zlen (VP ++ [vsealed s VP]) = zlen VP + 1) by (rewrite zlen_app; reflexivity).
    split; [|split; [|split; [|split; [auto|]]]].
    - apply (VS_sv c s1); auto.
    - cbn [set_v sv v_loc v_wbuf minVarRec].
      apply (VH_write (vwbuf (sv s)) _ _ (minVarRec (sv s)) _ lv); auto.
    - unfold same_data, set_v. cbn [sd si sio sv v_loc v_wbuf hasVar]. do 5 (split; [solve [auto]|]). split; [eauto|].
      assert (Fl : faults (sio s) = []) by (destruct X as (l0 & Y & _); apply Y).
      destruct (writeV_imgs c s s1 _ Ew Fl) as (new & T & N).
      { destruct (room_write VP ltac:(lia)); [now left|right]. destruct X as (l0 & Y & _).
        pose proof (z_avail _ _ _ _ Y). pose proof (z_lv _ _ _ _ Y). lia. }
      exists new. split; [auto|]. eapply Forall_impl; [|exact N]. intros im [-> | ->].
      + exists (fV (sio s)), [], [vsealed s VP]. rewrite app_nil_r. split; [auto|]. split; [auto|]. apply (VS_disk c s VP lv X N1).
      + exists (fV (sio s1)), [vsealed s VP], []. rewrite app_nil_r. split; [auto|]. split; [auto|].
        apply (VS_disk c s1 _ lv' X1). assert (zlen VP * 9 < 2 ^ 32) by nia. lia.
    - eapply keeps_trans with (y := (zlen VP + 1) * P + HD); [|apply keeps_snoc|lia].
      unfold vsealed. apply keeps_header; rewrite ?le_enc_zlen; try lia. apply (x_wlen _ _ _ _ X).
  Qed.

  Lemma set_key_ok s key : zlen (vwbuf (sv s)) = P ->
    var_set_key c s key = Ok (set_v s (v_wbuf (sv s) (zwr (vwbuf (sv s)) 4 (le_enc (ksz c) key)))).
  Proof.
    intros Hz. unfold var_set_key. pose proof (L_ksz c L0) as Ks. pose proof HP as Hp0.
    rewrite st_ok by (rewrite ?le_enc_zlen; lia). reflexivity.
  Qed.

  Lemma roll_ok s VP lv E acc key : VS s VP lv -> VH (vwbuf (sv s)) (minVarRec (sv s)) VP lv E acc ->
    at_cur s VP P -> (zlen VP + 1) * P + HD < VB -> In key acc -> 0 <= key < M ->
    exists s' lv', var_roll c s key = Ok s' /\
      let VP' := VP ++ [vsealed s VP] in
      VS s' VP' lv' /\ VH (vwbuf (sv s')) (minVarRec (sv s')) VP' lv' E acc /\ same_data s VP s' VP' /\
      at_cur s' VP' HD /\ hkey c (vwbuf (sv s')) = key /\ zlen VP' = zlen VP + 1 /\
      keeps (VP ++ [vwbuf (sv s)]) (VP' ++ [vwbuf (sv s')]) ((zlen VP + 1) * P).
  Proof.
    intros X HH Hc Hb Ha Hk. pose proof (va_VB _ _ V) as HVB. pose proof (vP c KB PB G) as Pd.
    pose proof (zlen_nonneg VP) as Z0. pose proof (L_ksz c L0) as Ks. pose proof init_len as Il.
    set (w2 := zwr (init_var_page c) 4 (le_enc (ksz c) key)).
    assert (Lw2 : zlen w2 = P) by (unfold w2; rewrite zwr_length; rewrite ?le_enc_zlen; lia).
    assert (Hk2 : hkey c w2 = key) by (apply hkey_set; auto).
    destruct Hc as [Hc Hc2]. destruct Hoff as [Hof _].
    destruct (write_next s VP lv E acc w2 ((zlen VP + 1) * P + HD - off) X HH ltac:(intros ->; contradiction) ltac:(lia) Lw2) as (s1 & lv' & Ew & Ec & _ & R).
    { rewrite Hk2. split; [lia|]. exists key. split; [auto|lia]. }
    unfold var_roll. rewrite Ew. cbn [bind]. rewrite set_key_ok by exact Il. cbn [bind].
    cbn [set_v sv v_wbuf vwbuf curVarLoc v_loc]. fold w2.
    assert (0 <= zlen VP * P) by (apply Z.mul_nonneg_nonneg; lia). rewrite Ec, (vHdr c KB PB G). rewrite (u32_id (curVarLoc (sv s) + HD)) by lia.
    replace (curVarLoc (sv s) + HD) with ((zlen VP + 1) * P + HD - off) by lia.
    eexists. exists lv'. split; [reflexivity|]. cbv zeta in R |- *.
    destruct R as (R1 & R2 & R3 & R4 & R5). cbn [set_v sv v_wbuf vwbuf curVarLoc v_loc minVarRec] in *.
    repeat (split; [first [exact R1|exact R2|exact R3|exact R4|exact Hk2|idtac]|]); auto.
    all: unfold at_cur; cbn [set_v sv v_wbuf v_loc curVarLoc]; rewrite R4; lia.
  Qed.

  (** ** The copy loop *)
  Lemma zlen_firstn {A} (l : list A) n : 0 <= n <= zlen l -> zlen (firstn (Z.to_nat n) l) = n.
  Proof. unfold zlen. intros. rewrite firstn_length_le by lia. lia. Qed.

  (** Storing bytes at the current position of the page being filled. *)
  Lemma VH_w w w2 m VP lv E acc : VH w m VP lv E acc -> hkey c w2 = hkey c w -> VH w2 m VP lv E acc.
  Proof. intros [] E2. constructor; rewrite ?E2; auto. Qed.

  (** The bytes [bs] are stored from the current position on, as far as they fit
      the page; the page is written if it is full. *)
  Lemma put_chunk s VP lv E acc key o bs : VS s VP lv -> VH (vwbuf (sv s)) (minVarRec (sv s)) VP lv E acc ->
    at_cur s VP o -> HD <= o -> o + zlen bs <= P -> 0 < zlen bs -> hkey c (vwbuf (sv s)) = key ->
    vskip P HD (zlen VP * P + o) (length bs) < VB -> In key acc -> 0 <= key < M ->
    exists w s', st (vwbuf (sv s)) o bs = Ok w /\
      (let s1 := set_v s (v_loc (v_wbuf (sv s) w) (u32 (curVarLoc (sv s) + zlen bs))) in
       if curVarLoc (sv s1) mod P =? 0 then var_roll c s1 key else Ok s1) = Ok s' /\
      exists VP' lv' o', VS s' VP' lv' /\ VH (vwbuf (sv s')) (minVarRec (sv s')) VP' lv' E acc /\ same_data s VP s' VP' /\
        at_cur s' VP' o' /\ HD <= o' < P /\ curVarLoc (sv s') + off = vskip P HD (zlen VP * P + o) (length bs) /\
        hkey c (vwbuf (sv s')) = key /\
        (exists X, VP' = VP ++ X) /\ (forall v, zlen VP <= v < zlen VP' -> hkey c (vpg VP' v) = key) /\
        keeps (VP ++ [vwbuf (sv s)]) (VP' ++ [vwbuf (sv s')]) (zlen VP * P + o) /\
        vread P HD (VP' ++ [vwbuf (sv s')]) (zlen VP * P + o) (length bs) = bs.
  Proof.
    intros X HH Hc Ho Hl Hbs Hh Hb Ha Hk. pose proof (va_VB _ _ V) as HVB. pose proof (vP c KB PB G) as Pd.
    pose proof (zlen_nonneg VP) as Z0. pose proof (x_wlen _ _ _ _ X) as Wl.
    exists (zwr (vwbuf (sv s)) o bs). set (w := zwr (vwbuf (sv s)) o bs).
    assert (Lw : zlen w = P) by (unfold w; rewrite zwr_length; lia).
    assert (Hw : hkey c w = key) by (unfold w; rewrite hkey_zwr; auto; lia).
    assert (K1 : keeps (VP ++ [vwbuf (sv s)]) (VP ++ [w]) (zlen VP * P + o)) by (apply keeps_write; lia).
    assert (R1 : forall PS, keeps (VP ++ [w]) PS (vskip P HD (zlen VP * P + o) (length bs)) ->
              vread P HD PS (zlen VP * P + o) (length bs) = bs).
    { intros PS K. rewrite <- (keeps_vread (VP ++ [w]) PS _ _ _ K); [| apply (inside_addr P HD HP); lia|lia].
      pose proof (vpg_app2 VP w) as Ew. assert (Lz : Z.of_nat (length bs) = zlen bs) by reflexivity.
      pose proof (vread_in P HD HP (VP ++ [w]) (zlen VP) (length bs) o) as Rd.
      change (nth (Z.to_nat (zlen VP)) (VP ++ [w]) []) with (vpg (VP ++ [w]) (zlen VP)) in Rd.
      rewrite Ew in Rd. rewrite Rd by (auto; lia). unfold w. apply zrd_zwr_same; auto; lia. }
    set (s1 := set_v s (v_loc (v_wbuf (sv s) w) (u32 (curVarLoc (sv s) + zlen bs)))).
    destruct (vskip_inside P HD HP (length bs) (zlen VP * P + o) ltac:(apply (inside_addr P HD HP); lia)) as [_ Sk].
    destruct Hc as [Hc Hc2]. destruct Hoff as [Hof _].
    assert (C1 : curVarLoc (sv s1) + off = zlen VP * P + (o + zlen bs)).
    { unfold s1. cbn [set_v sv v_loc v_wbuf curVarLoc]. unfold zlen in *. rewrite u32_id; lia. }
    assert (A1 : at_cur s1 VP (o + zlen bs)) by (split; auto). pose proof (cur_mod s1 VP _ A1) as Cm.
    assert (X1 : VS s1 VP lv) by (apply (VS_sv c s); auto).
    assert (H1 : VH (vwbuf (sv s1)) (minVarRec (sv s1)) VP lv E acc).
    { unfold s1. cbn [set_v sv v_loc v_wbuf vwbuf minVarRec]. eapply VH_w; eauto. congruence. }
    assert (Eq : st (vwbuf (sv s)) o bs = Ok w) by (apply st_ok; lia).
    destruct (Z.eq_dec (o + zlen bs) P) as [Full|NF].
    - assert (Ev : vskip P HD (zlen VP * P + o) (length bs) = (zlen VP + 1) * P + HD).
      { apply (vskip_end P HD HP); unfold zlen in *; lia. }
      rewrite Ev in *.
      destruct (roll_ok s1 VP lv E acc key X1 H1) as (s' & lv' & Er & R); auto.
      { rewrite <- Full. auto. }
      exists s'. split; [auto|]. split.
      { cbv zeta. rewrite Cm, Full, Z.mod_same by lia. cbn [Z.eqb]. exact Er. }
      cbv zeta in R. destruct R as (Y1 & Y2 & Y3 & Y4 & Y5 & Y6 & Y7).
      assert (Ws : vsealed s1 VP = zwr w 0 (le_enc 4 (zlen VP))) by reflexivity.
      exists (VP ++ [vsealed s1 VP]), lv', HD. split; [auto|]. split; [auto|]. split; [auto|]. split; [auto|].
      split; [lia|]. split; [destruct Y4 as [Y4 _]; rewrite Y4, Y6; auto|]. split; [auto|]. split; [eauto|]. split.
      { intros v Hv. assert (v = zlen VP) as -> by lia. rewrite vpg_app2, hkey_sealed by exact Lw. exact Hw. }
      change (vwbuf (sv s1)) with w in Y7.
      assert (K2 : keeps (VP ++ [w]) ((VP ++ [vsealed s1 VP]) ++ [vwbuf (sv s')]) ((zlen VP + 1) * P + HD)).
      { intros p I1 I2. apply Y7; auto. destruct (addr_lt p _ _ I1 I2 ltac:(lia)) as [D0 [D1|[D1 D2]]].
        - destruct (asplit P HD HP p) as [Es Hm]. clear - Es Hm D0 D1 Pd. nia.
        - destruct I1. lia. }
      split; [|apply R1; auto]. eapply keeps_trans; [exact K1|exact K2|lia].
    - assert (Ev : vskip P HD (zlen VP * P + o) (length bs) = zlen VP * P + (o + zlen bs)).
      { unfold zlen in *. apply (vskip_in P HD HP); lia. }
      exists s1. split; [auto|]. split.
      { cbv zeta. rewrite Cm, Z.mod_small by lia. destruct (Z.eqb_spec (o + zlen bs) 0); [lia|reflexivity]. }
      exists VP, lv, (o + zlen bs). split; [auto|]. split; [auto|]. split; [now apply same_data_var|]. split; [exact A1|].
      split; [lia|]. split; [congruence|]. split; [auto|]. split; [exists []; now rewrite app_nil_r|]. split; [lia|].
      split; [exact K1|]. apply R1. apply keeps_refl.
  Qed.

  Lemma loop_ok fuel : forall bs s VP lv E acc key o, (length bs < fuel)%nat ->
    VS s VP lv -> VH (vwbuf (sv s)) (minVarRec (sv s)) VP lv E acc -> at_cur s VP o -> HD <= o < P ->
    hkey c (vwbuf (sv s)) = key ->
    vskip P HD (zlen VP * P + o) (length bs) < VB -> In key acc -> 0 <= key < M ->
    exists s' VP' lv' o', putvar_loop c s key fuel bs = Ok s' /\
      VS s' VP' lv' /\ VH (vwbuf (sv s')) (minVarRec (sv s')) VP' lv' E acc /\ same_data s VP s' VP' /\
      at_cur s' VP' o' /\ HD <= o' < P /\ curVarLoc (sv s') + off = vskip P HD (zlen VP * P + o) (length bs) /\
      hkey c (vwbuf (sv s')) = key /\
      (exists X, VP' = VP ++ X) /\ (forall v, zlen VP <= v < zlen VP' -> hkey c (vpg VP' v) = key) /\
      keeps (VP ++ [vwbuf (sv s)]) (VP' ++ [vwbuf (sv s')]) (zlen VP * P + o) /\
      vread P HD (VP' ++ [vwbuf (sv s')]) (zlen VP * P + o) (length bs) = bs.
  Proof.
    induction fuel as [|fuel IH]; intros bs s VP lv E acc key o Hf X HH Hc Ho Hh Hb Ha Hk; [lia|].
    pose proof (vP c KB PB G) as Pd. pose proof (zlen_nonneg VP) as Z0. cbn [putvar_loop].
    destruct (Z.gtb_spec (zlen bs) 0) as [Hz|Hz].
    2:{ assert (bs = []) by (destruct bs; [auto|unfold zlen in Hz; cbn in Hz; lia]). subst bs. cbn [length vskip vread].
        exists s, VP, lv, o. split; [reflexivity|]. split; [auto|]. split; [auto|]. split; [apply same_data_refl|].
        do 2 (split; [solve [auto]|]). split; [apply Hc|]. split; [auto|]. split; [exists []; now rewrite app_nil_r|].
        split; [lia|]. split; [apply keeps_refl|auto]. }
    replace (curVarLoc (sv s) mod P) with o by (rewrite (cur_mod s VP o Hc), Z.mod_small by lia; auto).
    set (amt := Z.min (P - o) (zlen bs)). assert (Am : 0 < amt <= zlen bs /\ o + amt <= P) by (unfold amt; lia).
    rewrite u16_id by lia.
    pose proof (zlen_firstn bs amt ltac:(lia)) as Fz.
    set (b1 := firstn (Z.to_nat amt) bs) in *. set (b2 := skipn (Z.to_nat amt) bs).
    assert (Eb : bs = b1 ++ b2) by (symmetry; apply firstn_skipn).
    assert (Lb1 : length b1 = Z.to_nat amt) by (unfold zlen in Fz; lia).
    assert (Lb : length bs = (length b1 + length b2)%nat) by (rewrite Eb at 1; apply app_length).
    assert (In0 : inside P HD (zlen VP * P + o)) by (apply (inside_addr P HD HP); lia).
    destruct (vskip_inside P HD HP (length b1) _ In0) as [In1 _].
    assert (Hle : vskip P HD (zlen VP * P + o) (length b1) <= vskip P HD (zlen VP * P + o) (length bs))
      by (apply (vskip_le P HD HP); auto; lia).
    destruct (put_chunk s VP lv E acc key o b1 X HH Hc ltac:(lia) ltac:(lia) ltac:(lia) Hh ltac:(lia) Ha Hk)
      as (w & s1 & Es & Er & VP1 & lv1 & o1 & X1 & H1 & Sd1 & Hc1 & Ho1 & Cv1 & Hh1 & (Y1 & EY1) & Hy1 & K1 & Rd1).
    rewrite Es. cbn [bind].
    cbv zeta in Er. rewrite Fz in Er. rewrite Er. cbn [bind].
    assert (Ec1 : zlen VP1 * P + o1 = vskip P HD (zlen VP * P + o) (length b1)) by (rewrite <- (proj1 Hc1); exact Cv1).
    destruct (IH b2 s1 VP1 lv1 E acc key o1) as (s2 & VP2 & lv2 & o2 & El & X2 & H2 & Sd2 & Hc2 & Ho2 & Cv2 & Hh2 & (Y2 & EY2) & Hy2 & K2 & Rd2); auto.
    { lia. }
    { rewrite Ec1, <- vskip_app, <- Lb. auto. }
    exists s2, VP2, lv2, o2. split; [exact El|]. split; [auto|]. split; [auto|].
    split; [eapply same_data_trans; eauto|]. do 2 (split; [solve [auto]|]).
    split; [rewrite Cv2, Ec1, <- vskip_app, <- Lb; auto|]. split; [auto|].
    split; [exists (Y1 ++ Y2); rewrite EY2, EY1, app_assoc; auto|]. split.
    { intros v Hv. destruct (Z.lt_ge_cases v (zlen VP1)) as [Lt|Ge].
      - rewrite EY2, vpg_app1 by lia. apply Hy1. lia.
      - apply Hy2. lia. }
    assert (Hmono : zlen VP * P + o <= zlen VP1 * P + o1).
    { rewrite Ec1. destruct (vskip_inside P HD HP (length b1) _ In0). lia. }
    split; [eapply keeps_trans; eauto|].
    rewrite Lb, vread_app, <- Ec1, Rd2. rewrite Eb at 1. f_equal.
    rewrite <- (keeps_vread _ _ _ _ _ K2); auto. lia.
  Qed.

  (** ** The area with its position, and its growth *)
  Record VA (s : state) (VP : list page) (lv o : Z) (E : list (Z * Z)) (acc : list Z) : Prop := {
    a_S : VS s VP lv;
    a_H : VH (vwbuf (sv s)) (minVarRec (sv s)) VP lv E acc;
    a_cur : at_cur s VP o;
    a_o : HD <= o < P
  }.
  Record grows (s : state) (VP : list page) (s' : state) (VP' : list page) : Prop := {
    gr_data : same_data s VP s' VP';
    gr_ext : exists X, VP' = VP ++ X;
    gr_keep : keeps (VP ++ [vwbuf (sv s)]) (VP' ++ [vwbuf (sv s')]) (curVarLoc (sv s) + off);
    gr_cur : curVarLoc (sv s) <= curVarLoc (sv s')
  }.
  Lemma grows_refl s VP : grows s VP s VP.
  Proof. constructor; [apply same_data_refl|exists []; now rewrite app_nil_r|apply keeps_refl|lia]. Qed.
  Lemma grows_trans s VP s1 VP1 s2 VP2 : grows s VP s1 VP1 -> grows s1 VP1 s2 VP2 -> grows s VP s2 VP2.
  Proof.
    intros [A1 [X ->] A3 A4] [B1 [Y ->] B3 B4]. constructor.
    - eapply same_data_trans; eauto.
    - exists (X ++ Y). now rewrite app_assoc.
    - eapply keeps_trans; eauto; lia.
    - lia.
  Qed.
  Lemma acc_pos (acc : list Z) : (forall x, In x acc -> 0 <= x) -> acc <> [] -> exists x, In x acc /\ 0 <= x.
  Proof. intros Hp Hn. destruct acc as [|x acc]; [congruence|]. exists x. split; [now left|]. apply Hp. now left. Qed.

  (** Writing the page being filled, by embedDBPutVar before the record or by
      embedDBFlushVar. *)
  Lemma next_page s VP lv o E acc : VA s VP lv o E acc -> acc <> [] -> (forall x, In x acc -> 0 <= x) ->
    (zlen VP + 1) * P + HD < VB ->
    exists s1, writeVariablePage c s = Ok (s1, zlen VP) /\ zlen VP <> NOPAGE /\ curVarLoc (sv s1) = curVarLoc (sv s) /\
      let s' := set_v s1 (v_loc (v_wbuf (sv s1) (init_var_page c)) ((zlen VP + 1) * P + HD - off)) in
      exists VP' lv', VA s' VP' lv' HD E acc /\ grows s VP s' VP' /\ zlen VP' = zlen VP + 1 /\
        exists x, VP' = VP ++ [x] /\ hkey c x = hkey c (vwbuf (sv s)).
  Proof.
    intros [X HH Hc Ho] Hn Hp Hb. pose proof (vP c KB PB G) as Pd. pose proof (zlen_nonneg VP) as Z0.
    destruct Hc as [Hc Hc2].
    destruct (write_next s VP lv E acc (init_var_page c) ((zlen VP + 1) * P + HD - off) X HH Hn ltac:(lia) init_len) as (s1 & lv' & Ew & Ec & Np & R).
    { rewrite hkey_init. split; [lia|]. apply acc_pos; auto. }
    exists s1. split; [auto|]. split; [auto|]. split; [exact Ec|]. cbv zeta in R |- *.
    destruct R as (R1 & R2 & R3 & R4 & R5). do 2 eexists. split; [|split; [|split; [exact R4|]]].
    3:{ eexists. split; [reflexivity|]. apply hkey_sealed. apply (x_wlen _ _ _ _ X). }
    - constructor; [exact R1|exact R2| |lia]. unfold at_cur. rewrite R4. cbn [set_v sv v_loc curVarLoc]. lia.
    - constructor; auto.
      + eauto.
      + apply (keeps_le _ _ _ _ R5). lia.
      + cbn [set_v sv v_loc curVarLoc]. lia.
  Qed.

  Lemma flushVar_ok s VP lv o E acc : VA s VP lv o E acc -> acc <> [] -> (forall x, In x acc -> 0 <= x) ->
    (zlen VP + 1) * P + HD < VB ->
    exists s' VP' lv', embedDBFlushVar c s = Ok (s', 0) /\ VA s' VP' lv' HD E acc /\ grows s VP s' VP' /\
      (o = HD -> s' = s /\ VP' = VP) /\ curVarLoc (sv s') <= curVarLoc (sv s) + P /\
      (o <> HD -> exists x, VP' = VP ++ [x] /\ hkey c x = hkey c (vwbuf (sv s))).
  Proof.
    intros A Hn Hp Hb. pose proof (va_VB _ _ V) as HVB. pose proof (vP c KB PB G) as Pd. pose proof (zlen_nonneg VP) as Z0.
    pose proof (a_cur _ _ _ _ _ _ A) as Hc. pose proof (a_o _ _ _ _ _ _ A) as Ho. pose proof (cur_mod s VP o Hc) as Hm.
    rewrite (Z.mod_small o) in Hm by lia. destruct Hc as [Hc Hc2]. destruct Hoff as [Hof _].
    unfold embedDBFlushVar. rewrite Hm, (vHdr c KB PB G).
    destruct (Z.eqb_spec o HD) as [E1|E1].
    - exists s, VP, lv. split; [auto|]. split; [rewrite E1 in A; exact A|]. split; [apply grows_refl|]. split; [auto|]. split; [lia|congruence].
    - destruct (next_page s VP lv o E acc A Hn Hp Hb) as (s1 & -> & Np & Ec & VP' & lv' & A' & Gr & Zl & Hx).
      cbn [bind]. destruct (Z.eqb_spec (zlen VP) NOPAGE); [congruence|]. cbv zeta. cbn [v_wbuf curVarLoc].
      assert (M0 : 0 <= zlen VP * P) by (apply Z.mul_nonneg_nonneg; lia).
      rewrite Ec, Hm. replace (curVarLoc (sv s) + (P - o) + HD) with ((zlen VP + 1) * P + HD - off) by lia.
      rewrite u32_id by lia. do 3 eexists. split; [reflexivity|]. split; [exact A'|]. split; [exact Gr|].
      split; [congruence|]. cbn [set_v sv v_loc curVarLoc]. split; [lia|auto].
  Qed.

  (** Recording key, length and bytes of a record accepted just before. *)
  Definition minrec_set (s : state) (key : Z) : state :=
    if minVarRec (sv s) =? 2 ^ 64 - 1 then set_v s (v_minrec (sv s) (set_low c (minVarRec (sv s)) key)) else s.

  Lemma VH_put w w' m VP lv E acc acc' key a0 : VH w m VP lv E acc -> (forall x, In x acc -> x < key) ->
    (forall k a, In (k, a) E -> In k acc) -> a0 / P = zlen VP ->
    incl acc acc' -> In key acc' -> 0 <= key < M -> hkey c w' = key -> lv <= zlen VP ->
    VH w' (if m =? 2 ^ 64 - 1 then set_low c m key else m) VP lv ((key, a0) :: E) acc'.
  Proof.
    intros [A1 B1 W1 E1 M1 M2 Lo Rg] Hlt HE Ha Hi Hk Hr Hw Hlv. destruct M_pos as [Mp _].
    assert (Nm : m = 2 ^ 64 - 1 -> m mod M = M - 1).
    { intros ->. destruct M_pos as [_ [q Hq]]. rewrite Hq. replace (q * M - 1) with (M - 1 + (q - 1) * M) by lia.
      rewrite Z_mod_plus_full. apply Z.mod_small. lia. }
    constructor.
    - intros v k a Hv [E2|E2] Hl; [|eauto]. injection E2 as <- <-. destruct (B1 v Hv) as [_ (x & X1 & X2)].
      specialize (Hlt x X1). lia.
    - intros v Hv. destruct (B1 v Hv) as [B2 (x & X1 & X2)]. split; [auto|]. exists x. auto.
    - rewrite Hw. split; [lia|]. right. exists key. split; [auto|lia].
    - intros k a [E2|E2]; [injection E2 as <- <-; lia|eauto].
    - intros k a [E2|E2] Hkl Hl.
      + injection E2 as <- <-. destruct (Z.eqb_spec m (2 ^ 64 - 1)) as [Em|Em].
        * rewrite set_low_mod. rewrite Z.mod_small by lia. lia.
        * destruct M2 as [M2|(x & X1 & X2)]; [congruence|]. specialize (Hlt x X1). lia.
      + destruct (Z.eqb_spec m (2 ^ 64 - 1)) as [Em|Em]; [|eauto].
        specialize (M1 k a E2 Hkl Hl). rewrite Nm in M1 by auto. specialize (Hlt k (HE k a E2)). lia.
    - right. destruct (Z.eqb_spec m (2 ^ 64 - 1)) as [Em|Em].
      + exists key. split; [auto|]. rewrite set_low_mod, Z.mod_small by lia. lia.
      + destruct M2 as [M2|(x & X1 & X2)]; [congruence|]. exists x. auto.
    - intros Hd Hx k a [E2|E2] Hl; [injection E2 as <- <-; lia|].
      destruct (Z.eqb_spec m (2 ^ 64 - 1)) as [Em|Em].
      + rewrite set_low_mod, Z.mod_small by lia. exists key. split; [auto|]. specialize (Hlt k (HE k a E2)). lia.
      + destruct Lo with (k := k) (a := a) as (x & X1 & X2); auto; [|exists x; auto]. intros v k0 a1 Hv Hi0 Ha1. apply (Hd v k0 a1); auto. now right.
    - exact Rg.
  Qed.

  (** Accepting a record without data. *)
  Lemma VH_more w m VP lv E acc acc' : VH w m VP lv E acc -> incl acc acc' -> (acc = [] -> forall x, In x acc' -> 0 <= x) ->
    VH w m VP lv E acc'.
  Proof.
    intros [A1 B1 W1 E1 M1 M2 Lo Rg] Hi Hp. constructor; auto.
    - intros v Hv. destruct (B1 v Hv) as [B2 (x & X1 & X2)]. split; [auto|]. exists x. auto.
    - destruct W1 as [W1 [[W2 W3]|(x & X1 & X2)]]; (split; [auto|]).
      + destruct acc' as [|x acc']; [auto|]. right. exists x. split; [now left|]. rewrite W3. apply Hp; [auto|now left].
      + right. exists x. auto.
    - destruct M2 as [M2|(x & X1 & X2)]; [auto|]. right. exists x. auto.
    - intros Hd Hx k a H1 H2. destruct (Lo Hd ltac:(auto) k a H1 H2) as (x & X1 & X2). exists x. auto.
  Qed.

  Lemma store_ok s VP lv o E acc acc' key bs : VA s VP lv o E acc -> (forall x, In x acc -> x < key) ->
    (forall k a, In (k, a) E -> In k acc) -> o <= P - 4 ->
    incl acc acc' -> In key acc' -> 0 <= key < M ->
    let a := zlen VP * P + o in
    vskip P HD a (4 + length bs) < VB ->
    exists s' VP' lv' o',
      (s <- var_set_key c (minrec_set s key) key ;;
       w <- st (vwbuf (sv s)) (curVarLoc (sv s) mod P) (le_enc 4 (zlen bs)) ;;
       let s := set_v s (v_loc (v_wbuf (sv s) w) (u32 (curVarLoc (sv s) + 4))) in
       s <- (if curVarLoc (sv s) mod P =? 0 then var_roll c s key else Ok s) ;;
       putvar_loop c s key (S (length bs)) bs) = Ok s' /\
      VA s' VP' lv' o' ((key, a) :: E) acc' /\ grows s VP s' VP' /\
      curVarLoc (sv s') + off = vskip P HD a (4 + length bs) /\
      vread P HD (VP' ++ [vwbuf (sv s')]) a (4 + length bs) = le_enc 4 (zlen bs) ++ bs /\
      hkey c (vwbuf (sv s')) = key /\ (forall v, zlen VP <= v < zlen VP' -> hkey c (vpg VP' v) = key).
  Proof.
    intros [X HH Hc Ho] Hlt HE Ho4 Hi Hk Hr a Hb. pose proof (va_VB _ _ V) as HVB. pose proof (vP c KB PB G) as Pd.
    pose proof (zlen_nonneg VP) as Z0. pose proof (L_ksz c L0) as Ks.
    assert (Ia : inside P HD a) by (apply (inside_addr P HD HP); lia).
    set (s1 := minrec_set s key).
    assert (S1 : VS s1 VP lv /\ vwbuf (sv s1) = vwbuf (sv s) /\ curVarLoc (sv s1) = curVarLoc (sv s) /\ same_data s VP s1 VP /\
              minVarRec (sv s1) = (if minVarRec (sv s) =? 2 ^ 64 - 1 then set_low c (minVarRec (sv s)) key else minVarRec (sv s))).
    { unfold s1, minrec_set. destruct (minVarRec (sv s) =? 2 ^ 64 - 1).
      - split; [|do 2 (split; [reflexivity|]); split; [now apply same_data_var|reflexivity]]. apply (VS_sv c s); auto. apply (x_wlen _ _ _ _ X).
      - split; [auto|]. do 2 (split; [reflexivity|]). split; [apply same_data_refl|reflexivity]. }
    destruct S1 as (X1 & W1 & C1 & D1 & M1). pose proof (x_wlen _ _ _ _ X1) as Wl1.
    rewrite set_key_ok by auto. cbn [bind].
    set (w2 := zwr (vwbuf (sv s1)) 4 (le_enc (ksz c) key)).
    assert (Lw2 : zlen w2 = P) by (unfold w2; rewrite zwr_length; rewrite ?le_enc_zlen; lia).
    assert (Hk2 : hkey c w2 = key) by (apply hkey_set; auto).
    set (s2 := set_v s1 (v_wbuf (sv s1) w2)).
    assert (X2 : VS s2 VP lv) by (apply (VS_sv c s1); auto).
    assert (H2 : VH (vwbuf (sv s2)) (minVarRec (sv s2)) VP lv ((key, a) :: E) acc').
    { unfold s2. cbn [set_v sv v_wbuf vwbuf minVarRec]. rewrite M1. eapply VH_put; eauto; [apply (adiv P HD); lia|apply (x_lv _ _ _ _ X)]. }
    assert (C2 : at_cur s2 VP o) by (unfold at_cur, s2 in *; cbn [set_v sv v_wbuf curVarLoc]; rewrite C1; exact Hc).
    assert (K2 : keeps (VP ++ [vwbuf (sv s)]) (VP ++ [vwbuf (sv s2)]) (curVarLoc (sv s) + off)).
    { unfold s2. cbn [set_v sv v_wbuf vwbuf]. unfold w2. rewrite <- W1. apply keeps_header; rewrite ?le_enc_zlen; try lia.
      unfold at_cur in Hc. lia. }
    pose proof (vskip_app P HD a 4 (length bs)) as Va.
    destruct (vskip_inside P HD HP 4 a Ia) as [Ia4 Ga4].
    destruct (vskip_inside P HD HP (length bs) _ Ia4) as [Ia5 Ga5].
    pose proof (le_enc_length 4 (zlen bs)) as Ll.
    destruct (put_chunk s2 VP lv ((key, a) :: E) acc' key o (le_enc 4 (zlen bs)) X2 H2 C2)
      as (w & s3 & Es & Er & VP3 & lv3 & o3 & X3 & H3 & Sd3 & Hc3 & Ho3 & Cv3 & Hh3 & (Y3 & EY3) & Hy3 & K3 & Rd3);
      rewrite ?le_enc_zlen, ?Ll; auto; try lia.
    { fold a. lia. }
    assert (Eo : curVarLoc (sv s2) mod P = o) by (rewrite (cur_mod s2 VP o C2), Z.mod_small by lia; auto).
    fold s2. rewrite Eo, Es. cbn [bind].
    cbv zeta in Er. rewrite le_enc_zlen in Er. change (Z.of_nat 4) with 4 in Er. cbv zeta. rewrite Er. cbn [bind].
    rewrite Ll in Cv3, Rd3. fold a in Cv3, Rd3, K3.
    assert (Ec3 : zlen VP3 * P + o3 = vskip P HD a 4) by (rewrite <- (proj1 Hc3); exact Cv3).
    destruct (loop_ok (S (length bs)) bs s3 VP3 lv3 ((key, a) :: E) acc' key o3) as
      (s4 & VP4 & lv4 & o4 & El & X4 & H4 & Sd4 & Hc4 & Ho4' & Cv4 & Hh4 & (Y4 & EY4) & Hy4 & K4 & Rd4); auto.
    { rewrite Ec3, <- Va. auto. }
    exists s4, VP4, lv4, o4. split; [exact El|]. split; [constructor; auto|]. rewrite Ec3 in *.
    assert (Hca : curVarLoc (sv s) + off = a) by apply Hc.
    split; [|split; [rewrite Cv4, Va; auto|]].
    - constructor.
      + eapply same_data_trans; [exact D1|]. eapply same_data_trans; [|exact Sd4].
        exact Sd3.
      + exists (Y3 ++ Y4). rewrite EY4, EY3, app_assoc. auto.
      + apply (keeps_trans _ _ _ _ a K2); [|lia]. apply (keeps_trans _ _ _ _ _ K3 K4). lia.
      + lia.
    - split; [|split; [auto|]].
      + rewrite vread_app, Rd4. f_equal. rewrite <- Rd3. symmetry. apply (keeps_vread _ _ _ _ _ K4); auto. lia.
      + intros v Hv. destruct (Z.lt_ge_cases v (zlen VP3)) as [Lt|Ge]; [|apply Hy4; lia].
        rewrite EY4, vpg_app1 by lia. apply Hy3. lia.
  Qed.
End VarPut.

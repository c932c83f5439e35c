(** Executions with variable data keep every payload where its record points. *)
From Verif Require Import Base BaseFacts Config Spline Storage DB VarData Recovery Spec SpecSpline SplineFacts
  SpecPage SpecStore Run SpecRun SpecVar LogFacts PageFacts SearchFacts StoreFacts PutFacts GetFacts BinFacts RunFacts
  TapeFacts VarFacts VarPutFacts VarReadFacts ImageFacts.
Open Scope Z_scope.
Ltac Zify.zify_post_hook ::= ZifyBool.elim_bool_cstr.
Ltac Zify.zify_convert_to_euclidean_division_equations_flag ::= constr:(false).

(** ** Logs without the stored locations *)
Definition bare (r : rcd) : rcd := mkR (rkey r) (rdata r) 0.
Definition bareL (L : log) : log := mkLog (map (map bare) (pages L)) (lo L) (map bare (cur L)).

Lemma bare_keys l : map rkey (map bare l) = map rkey l.
Proof. rewrite map_map. reflexivity. Qed.
Lemma bare_accepted L : accepted (bareL L) = map bare (accepted L).
Proof. unfold accepted, bareL. cbn [pages cur]. now rewrite map_app, concat_map. Qed.
Lemma bare_retained L : retained (bareL L) = map bare (retained L).
Proof.
  unfold retained, livePages, bareL. cbn [pages cur lo]. rewrite map_app, concat_map, skipn_map. reflexivity.
Qed.
Lemma find_bare k l : find_key k (map bare l) = option_map bare (find_key k l).
Proof. unfold find_key. induction l as [|r l IH]; cbn [map find]; [auto|]. cbn [bare rkey]. destruct (rkey r =? k); auto. Qed.
Lemma zlen_map {A C} (g : A -> C) l : zlen (map g l) = zlen l.
Proof. unfold zlen. now rewrite map_length. Qed.
Lemma last_bare l : last_key (map bare l) = last_key l.
Proof. unfold last_key. rewrite <- map_rev. destruct (rev l); reflexivity. Qed.
Lemma refused_bare L k : refused (bareL L) k = refused L k.
Proof. unfold refused. now rewrite bare_accepted, last_bare. Qed.
Lemma seal_bare D B L : seal D B (bareL L) = bareL (seal D B L).
Proof. unfold seal, bareL. cbn [pages cur lo]. rewrite zlen_map, map_app. reflexivity. Qed.
Lemma put_bare N D B L k d v : log_put N D B (bareL L) (mkR k d 0) = bareL (log_put N D B L (mkR k d v)).
Proof.
  unfold log_put. cbn [bareL cur]. rewrite zlen_map. destruct (zlen (cur L) >=? N).
  - change (mkLog (map (map bare) (pages L)) (lo L) (map bare (cur L))) with (bareL L). rewrite seal_bare. reflexivity.
  - unfold bareL. cbn [pages cur lo]. rewrite map_app. reflexivity.
Qed.
Lemma flush_bare D B L : log_flush D B (bareL L) = bareL (log_flush D B L).
Proof.
  unfold log_flush. cbn [bareL cur]. destruct (cur L) eqn:E; cbn [map].
  - unfold bareL. now rewrite E.
  - rewrite <- seal_bare. unfold bareL. rewrite E. reflexivity.
Qed.

(** The two halves of embedDBPutVar. *)
Definition pre_write (c : cfg) (s : state) (n : Z) : res state :=
  if (curVarLoc (sv s) mod pageSize c >? pageSize c - 4) || (negb (useRLC c) && (n >=? maxRec c)) then
    '(s, _) <- writeVariablePage c s ;;
    let v := v_wbuf (sv s) (init_var_page c) in
    let l := curVarLoc v in
    Ok (set_v s (v_loc v (u32 (l + (pageSize c - l mod pageSize c + varHdr c)))))
  else Ok s.
Definition store_bytes (c : cfg) (s : state) (key : Z) (bs : list Z) : res state :=
  s <- var_set_key c (minrec_set c s key) key ;;
  w <- st (vwbuf (sv s)) (curVarLoc (sv s) mod pageSize c) (le_enc 4 (zlen bs)) ;;
  let s := set_v s (v_loc (v_wbuf (sv s) w) (u32 (curVarLoc (sv s) + 4))) in
  s <- (if curVarLoc (sv s) mod pageSize c =? 0 then var_roll c s key else Ok s) ;;
  putvar_loop c s key (S (length bs)) bs.
Definition put_rest (c : cfg) (s : state) (key : Z) (data : list Z) (vd : option (list Z)) : res (state * Z) :=
  match vd with
  | None => embedDBPut c (set_v s (v_has (sv s) false)) key data
  | Some bs =>
      '(s, r) <- embedDBPut c (set_v s (v_has (sv s) true)) key data ;;
      if negb (r =? 0) then Ok (s, r) else s <- store_bytes c s key bs ;; Ok (s, 0)
  end.
Lemma bind_assoc {X Y Z} (a : res X) (g : X -> res Y) (h : Y -> res Z) :
  (y <- (x <- a ;; g x) ;; h y) = (x <- a ;; y <- g x ;; h y).
Proof. now destruct a. Qed.
Lemma bind_ext {X Y} (a : res X) (g h : X -> res Y) : (forall x, g x = h x) -> bind a g = bind a h.
Proof. intros E. destruct a; cbn [bind]; auto. Qed.
Lemma putvar_split c s key data vd : useVar c = true -> useRLC c = false ->
  embedDBPutVar c s key data vd = (n <- get_count (wbuf (sd s)) ;; s <- pre_write c s n ;; put_rest c s key data vd).
Proof.
  intros Hu Hr. unfold embedDBPutVar. rewrite Hu. apply bind_ext. intros n. apply bind_ext. intros s1.
  destruct vd as [bs|]; [|reflexivity]. apply bind_ext. intros [s2 r]. destruct (negb (r =? 0)); [reflexivity|].
  unfold store_bytes, minrec_set. rewrite Hr. rewrite bind_assoc. apply bind_ext. intros s3.
  rewrite bind_assoc. apply bind_ext. intros w. cbv zeta. now rewrite bind_assoc.
Qed.

(** A payload: key, position, bytes. *)
Definition entry : Type := Z * (Z * list Z).
Definition where_is (e : entry) : Z * Z := (fst e, fst (snd e)).
Definition what_is (e : entry) : Z * list Z := (fst e, snd (snd e)).

(** What storage holds at some moment of a put: the variable pages up to some
    point, and the data pages of before ([b = false]) or after it; every payload
    of a record on these data pages is on these variable pages. *)
Definition mid_image (c : cfg) (L L' : log) (VR VR' : list entry) (VP VP' : list page) (im : file * file * file) : Prop :=
  exists (b : bool) l X Y, VP' = (VP ++ X) ++ Y /\ VDisk c (snd im) (VP ++ X) /\
    at_point c im (pages (if b then L' else L), l) /\
    (if b then l = lo L'
     else l = lo L \/ (zlen (cur L) >= maxRec c /\ zlen (pages L) - lo L >= numData c /\ l = lo L + eraseSize c)) /\
    forall k a bs, In (k, (a, bs)) (if b then VR' else VR) -> ~ In k (map rkey (cur (if b then L' else L))) ->
      vskip (pageSize c) (keySize c + 4) a (4 + length bs) <= zlen (VP ++ X) * pageSize c + (keySize c + 4).

(** What a call does to the data file: nothing, or sealing one page. *)
Definition data_step (c : cfg) (L L' : log) (F F' : file) : Prop :=
  (F' = F /\ pages L' = pages L /\ lo L' = lo L) \/
  (exists p, img c (pages (seal (numData c) (eraseSize c) L)) (zlen (pages L)) p /\ F' = sealed_file c F L p /\
     pages L' = pages (seal (numData c) (eraseSize c) L) /\ lo L' = lo (seal (numData c) (eraseSize c) L)).

(** No key is torn. *)
Definition notorn (_ : Z) : Prop := False.
Lemma notorn_no k : ~ notorn k.
Proof. intros []. Qed.
Lemma notorn_dec k : notorn k \/ ~ notorn k.
Proof. right. apply notorn_no. Qed.

Section VarRun.
  Variables (c : cfg) (KB PB f VB : Z).
  Hypothesis G : setting c KB PB.
  Hypothesis V : var_area c VB.
  Notation P := (pageSize c).
  Notation HD := (keySize c + 4).
  Notation NV := (numVar c).
  Notation N := (maxRec c).
  Notation D := (numData c).
  Notation B := (eraseSize c).
  Notation VS := (VS c).
  Notation Inv := (Inv c KB PB f).
  Notation pg L id := (nth (Z.to_nat id) (pages L) []).
  Let L0 := L0 c KB PB G.
  Let HP := vPH c KB PB G.

  Lemma wf_of s L : Inv s L -> wf_log c KB L.
  Proof. intros I. exact (i_wf _ _ _ _ _ _ _ _ I). Qed.
  Lemma KB_M : KB <= 256 ^ keySize c.
  Proof. apply (g_KB _ _ _ G). Qed.
  Lemma acc_nonneg L : wf_log c KB L -> forall x, In x (map rkey (accepted L)) -> 0 <= x < KB.
  Proof.
    intros W x Hx. apply in_map_iff in Hx as (r & <- & Hr). pose proof (w_recs _ _ _ W) as R.
    rewrite Forall_forall in R. apply (R r Hr).
  Qed.
  Lemma area_u32 : u32 (NV * P) = NV * P /\ 0 < NV * P <= 2 ^ 31.
  Proof.
    pose proof (vP c KB PB G). pose proof (vB c KB PB VB G V). assert (0 < NV * P) by (apply Z.mul_pos_pos; lia).
    rewrite u32_id by lia. lia.
  Qed.

  Lemma Inv_same s s' L : Inv s L -> sd s' = sd s -> si s' = si s -> fD (sio s') = fD (sio s) ->
    fI (sio s') = fI (sio s) -> faults (sio s') = [] -> Inv s' L.
  Proof.
    intros I E1 E2 E3 E5 E4. destruct I. unfold idx_safe in *. constructor; unfold idx_safe; rewrite ?E1, ?E2, ?E3, ?E5; auto.
  Qed.
  Lemma coh_same s s' L : coh c s L -> sd s' = sd s -> coh c s' L.
  Proof. unfold coh. intros Co ->. auto. Qed.

  (** [kl]: keys below it are not looked up; [off]: what recovery took off the byte position. *)
  (** [T]: keys of records whose payload was cut off by a crash. *)
  Variables (kl sl off : Z) (T : Z -> Prop).
  Hypothesis Hsl : 0 <= sl <= 1.
  Hypothesis Hoff : 0 <= off /\ off mod (NV * P) = 0.
  Notation VA := (VA c kl sl off).
  Notation grows := (grows c off).
  (** [acc]: the keys put so far, those lost by reopening included. *)
  Record VInv (s : state) (L : log) (VR : list entry) (VP : list page) (lv o : Z) (acc : list Z) : Prop := {
    y_inv : Inv s L;
    y_A : VA s VP lv o (map where_is VR) acc;
    y_laid : forall k a bs, In (k, (a, bs)) VR ->
      0 <= a /\ HD <= a mod P <= P - 4 /\ zlen bs < 2 ^ 32 /\
      vread P HD (VP ++ [vwbuf (sv s)]) a (4 + length bs) = le_enc 4 (zlen bs) ++ bs /\
      vskip P HD a (4 + length bs) <= curVarLoc (sv s) + off;
    y_nodup : NoDup (map fst VR);
    y_rec : forall r, In r (accepted L) -> ~ T (rkey r) ->
      (rvar r = NOVAR /\ ~ In (rkey r) (map fst VR)) \/
      exists a bs, In (rkey r, (a, bs)) VR /\ rvar r = a mod (NV * P);
    y_in : forall k, In k (map fst VR) -> In k acc;
    y_sealed : forall k a bs, In (k, (a, bs)) VR -> ~ In k (map rkey (cur L)) ->
      vskip P HD a (4 + length bs) <= zlen VP * P + HD;
    y_start : acc = [] -> o = HD;
    y_acc : incl (map rkey (accepted L)) acc;
    y_keys : forall x, In x acc -> 0 <= x < KB;
    y_torn : forall r, In r (accepted L) -> T (rkey r) -> rvar r mod P <= P - 4 /\ ~ In (rkey r) (map fst VR)
  }.

  Lemma off_page : 0 <= off /\ off mod P = 0.
  Proof.
    destruct Hoff as [H1 H2]. split; [auto|]. pose proof (vP c KB PB G). destruct area_u32 as [_ Ar].
    apply Z.mod_divide in H2 as [q ->]; [|lia]. rewrite Z.mul_assoc. apply Z_mod_mult.
  Qed.
  Lemma mod_off a : a mod (NV * P) = (a + off) mod (NV * P).
  Proof.
    destruct Hoff as [H1 H2]. destruct area_u32 as [_ Ar]. apply Z.mod_divide in H2 as [q ->]; [|lia].
    symmetry. apply Z_mod_plus_full.
  Qed.

  (** Growth of the variable area alone. *)
  Lemma VInv_grow s L VR VP lv o acc s' VP' lv' o' : VInv s L VR VP lv o acc ->
    VA s' VP' lv' o' (map where_is VR) acc -> grows s VP s' VP' -> (acc = [] -> o' = HD) ->
    VInv s' L VR VP' lv' o' acc.
  Proof.
    intros [I A La Nd Re Ri Se St Ic Ky To] A' [(e1 & e2 & e3 & e4 & e5) (X & EX) K Cu] So.
    pose proof (vP c KB PB G) as Pd.
    constructor; auto.
    - apply (Inv_same s); auto. apply (x_faults _ _ _ _ (a_S _ _ _ _ _ _ _ _ _ _ A')).
    - intros k a bs Hi. destruct (La k a bs Hi) as (L1 & L2 & L3 & L4 & L5). do 3 (split; [solve [auto]|]). split; [|lia].
      rewrite <- L4. symmetry. apply (keeps_vread c KB PB G _ _ _ _ _ K); auto. split; lia.
    - intros k a bs Hi Hn. specialize (Se k a bs Hi Hn). subst VP'. rewrite zlen_app. pose proof (zlen_nonneg X). nia.
  Qed.

  Lemma VA_has s VP lv o E acc b : VA s VP lv o E acc -> VA (set_v s (v_has (sv s) b)) VP lv o E acc.
  Proof.
    intros [X1 X2 X3 X4]. constructor; auto. apply (VS_sv c s); auto. apply (x_wlen _ _ _ _ X1).
  Qed.
  Lemma VInv_has s L VR VP lv o acc b : VInv s L VR VP lv o acc -> VInv (set_v s (v_has (sv s) b)) L VR VP lv o acc.
  Proof.
    intros [I A La Nd Re Ri Se St Ic Ky To]. constructor; auto.
    - apply (Inv_same s); auto. apply (i_faults _ _ _ _ _ _ _ _ I).
    - apply VA_has. auto.
  Qed.

  (** Only the cache of the variable area changes. *)
  Lemma VInv_cache s s' L VR VP lv o acc : VInv s L VR VP lv o acc -> same_but_var s s' -> VS s' VP lv -> VInv s' L VR VP lv o acc.
  Proof.
    intros [I A La Nd Re Ri Se St Ic Ky To] (e1 & e2 & e3 & p & q & e4) X.
    constructor; auto.
    - apply (Inv_same s); auto; rewrite ?e1; auto. apply (i_faults _ _ _ _ _ _ _ _ I).
    - destruct A as [A1 A2 A3 A4]. unfold at_cur in A3. constructor; auto; unfold at_cur; rewrite ?e4; cbn [v_rbuf vwbuf minVarRec curVarLoc]; auto.
    - rewrite e4. cbn [v_rbuf vwbuf curVarLoc]. auto.
  Qed.

  (** Only the data read buffer changes. *)
  Lemma VInv_rbuf s s' L VR VP lv o acc : VInv s L VR VP lv o acc -> same_but_rbuf s s' -> Inv s' L -> VInv s' L VR VP lv o acc.
  Proof.
    intros [I A La Nd Re Ri Se St Ic Ky To] (e1 & e2 & e3 & _) I'.
    constructor; auto.
    - destruct A as [A1 A2 A3 A4]. unfold at_cur in A3. constructor; auto; unfold at_cur; rewrite ?e3; auto.
      apply (VS_other c s); auto; rewrite ?e1; auto. apply (i_faults _ _ _ _ _ _ _ _ I).
    - rewrite e3. auto.
  Qed.

  (** Every page written carries the largest key stored up to it, and so does the
      page being filled unless nothing was put on it yet. *)
  Definition VD (L : log) (VR : list entry) (VP : list page) (w : page) (o : Z) : Prop :=
    dense c VP (map where_is VR) /\
    ((forall k a, In (k, a) (map where_is VR) -> k <= hkey c w) \/ (cur L = [] /\ o = HD)).

  Lemma dense_snoc VP E x : dense c VP E -> (forall k a, In (k, a) E -> k <= hkey c x) -> dense c (VP ++ [x]) E.
  Proof.
    intros Hd Hx v k a Hv Hi Ha. rewrite zlen_app in Hv. change (zlen [x]) with 1 in Hv.
    destruct (Z.eq_dec v (zlen VP)) as [->|Ne]; [rewrite vpg_app2; eauto|]. rewrite vpg_app1 by lia. apply (Hd v k a); auto. lia.
  Qed.

  Hypothesis NR : useRLC c = false.
  Hypothesis NT : forall k, ~ T k.

  (** ** embedDBPutVar *)
  Lemma pre_page s L VR VP lv o acc : VInv s L VR VP lv o acc -> curVarLoc (sv s) + off + P < VB ->
    exists s1 VP1 lv1 o1,
      pre_write c s (zlen (cur L)) = Ok s1 /\
      VInv s1 L VR VP1 lv1 o1 acc /\ grows s VP s1 VP1 /\ HD <= o1 <= P - 4 /\ (zlen (cur L) >= N -> o1 = HD) /\
      curVarLoc (sv s1) <= curVarLoc (sv s) + P /\ (o1 = HD \/ s1 = s) /\
      (VD L VR VP (vwbuf (sv s)) o -> dense c VP1 (map where_is VR)).
  Proof.
    intros Y Hb. pose proof (vP c KB PB G) as Pd. pose proof (y_A _ _ _ _ _ _ _ Y) as A.
    pose proof (a_cur _ _ _ _ _ _ _ _ _ _ A) as Hc. pose proof (a_o _ _ _ _ _ _ _ _ _ _ A) as Ho.
    pose proof (cur_mod c KB PB G off off_page s VP o Hc) as Hm. rewrite (Z.mod_small o) in Hm by lia. destruct Hc as [Hc Hc2].
    destruct Hoff as [Hof _]. pose proof (va_VB _ _ V) as HVB. pose proof (l_fit c L0) as Fit.
    pose proof (y_inv _ _ _ _ _ _ _ Y) as I. pose proof (wf_of s L I) as W.
    assert (Z0 : 0 <= zlen VP * P) by (apply Z.mul_nonneg_nonneg; [apply zlen_nonneg|lia]).
    unfold pre_write. rewrite NR, Hm. cbn [negb andb].
    destruct ((o >? P - 4) || (zlen (cur L) >=? N)) eqn:C.
    - assert (Ac : acc <> []).
      { intros E. assert (E0 : accepted L = []).
        { pose proof (y_acc _ _ _ _ _ _ _ Y) as Ic. rewrite E in Ic. destruct (accepted L) as [|r l]; [auto|].
          destruct (Ic (rkey r)). now left. }
        pose proof (y_start _ _ _ _ _ _ _ Y E) as So. rewrite So in C.
        assert (cur L = []) as E1 by (unfold accepted in E0; apply app_eq_nil in E0; tauto). rewrite E1 in C.
        change (zlen (@nil rcd)) with 0 in C. lia. }
      destruct (next_page c KB PB VB G V kl sl Hsl off off_page s VP lv o _ _ A Ac) as (s1 & Ew & Np & Ec & VP' & lv' & A' & Gr & Zl & x & Ex & Hx).
      { intros x Hx. apply (y_keys _ _ _ _ _ _ _ Y x Hx). }
      { lia. }
      rewrite Ew. cbn [bind]. cbv zeta. cbn [v_wbuf curVarLoc].
      rewrite Ec, Hm, (vHdr c KB PB G).
      replace (curVarLoc (sv s) + (P - o + HD)) with ((zlen VP + 1) * P + HD - off) by lia.
      rewrite (u32_id ((zlen VP + 1) * P + HD - off)) by lia.
      do 4 eexists. split; [reflexivity|]. split; [exact (VInv_grow s L VR VP lv o acc _ _ _ _ Y A' Gr (fun _ => eq_refl))|].
      split; [exact Gr|]. split; [lia|]. split; [auto|]. split; [cbn [set_v sv v_loc curVarLoc]; lia|]. split; [auto|].
      intros [Hd Hw]. rewrite Ex. apply dense_snoc; auto. rewrite Hx. destruct Hw as [Hw|[H1 H2]]; [auto|exfalso].
      rewrite H1, H2 in C. change (zlen (@nil rcd)) with 0 in C. lia.
    - exists s, VP, lv, o. split; [auto|]. split; [auto|]. split; [apply grows_refl|].
      split; [lia|]. split; [lia|]. split; [lia|]. split; [auto|]. intros [Hd _]. exact Hd.
  Qed.

  Lemma map_key_app l r : map rkey (l ++ [r]) = map rkey l ++ [rkey r].
  Proof. now rewrite map_app. Qed.

  Lemma log_put_accepted L r : accepted (log_put N D B L r) = accepted L ++ [r].
  Proof.
    unfold log_put. destruct (zlen (cur L) >=? N); unfold accepted; cbn [pages cur].
    - unfold seal. cbn [pages]. rewrite concat_app. cbn [concat]. now rewrite app_nil_r.
    - now rewrite app_assoc.
  Qed.

  (** What a put leaves of the records before it. *)
  Lemma put_cur_keys L r k : ~ In k (map rkey (cur (log_put N D B L r))) -> zlen (cur L) < N -> ~ In k (map rkey (cur L)).
  Proof.
    unfold log_put. intros Hn Hl. destruct (Z.geb_spec (zlen (cur L)) N); [lia|]. cbn [cur] in Hn.
    rewrite map_app in Hn. intros Hi. apply Hn. apply in_or_app. auto.
  Qed.

  Definition new_entry (k a : Z) (v : option (list Z)) : list entry :=
    match v with Some b => [(k, (a, b))] | None => [] end.

  Definition bytes_cost (v : option (list Z)) : Z := match v with Some b => 4 * zlen b + 16 | None => 0 end.

  Lemma at_inv s L F : Inv s L -> at_point c (fD (sio s), fI (sio s), F) (pages L, lo L).
  Proof.
    intros I. split; cbn [fst snd]; [apply (plain_disk _ _ _ _ _ _ _ _ NR I)|].
    intros U. destruct (i_idx _ _ _ _ _ _ _ _ I U) as (_ & _ & _ & Ip). rewrite (i_nextD _ _ _ _ _ _ _ _ I) in Ip. exact Ip.
  Qed.
  (** While only variable pages are written before the record. *)
  Lemma mid_pre s L VR VP lv o acc L' VR' VP1 Z new : VInv s L VR VP lv o acc -> Forall (vimg c VP VP1 s) new ->
    Forall (mid_image c L L' VR VR' VP (VP1 ++ Z)) new.
  Proof.
    intros Y H. pose proof (vP c KB PB G) as Pd. eapply Forall_impl; [|exact H]. intros im (F & X & Y0 & -> & -> & Q).
    exists false, (lo L), X, (Y0 ++ Z). cbn [snd]. rewrite !app_assoc. split; [auto|]. split; [exact Q|].
    split; [apply at_inv; apply (y_inv _ _ _ _ _ _ _ Y)|]. split; [auto|]. intros k a bs Hi Hn.
    pose proof (y_sealed _ _ _ _ _ _ _ Y k a bs Hi Hn). rewrite zlen_app. pose proof (zlen_nonneg X). nia.
  Qed.
  (** While the data page and the index page are written. *)
  Lemma mid_put s1 L L' VR VR' VP X1 Z lv o acc new : VInv s1 L VR (VP ++ X1) lv o acc ->
    Forall (fun im => snd im = fV (sio s1)) new -> crash_ok c new (put_points N D B L) ->
    (zlen (cur L) >= N -> pages L' = pages (seal D B L) /\ lo L' = lo (seal D B L)) ->
    (forall k a bs, In (k, (a, bs)) VR' -> ~ In k (map rkey (cur L')) -> vskip P HD a (4 + length bs) <= zlen (VP ++ X1) * P + HD) ->
    zlen (VP ++ X1) + 1 < 2 ^ 32 ->
    Forall (mid_image c L L' VR VR' VP ((VP ++ X1) ++ Z)) new.
  Proof.
    intros Y Hs [Hc _] HL Se Hz. rewrite Forall_forall in Hs, Hc |- *. intros im Him. destruct (Hc im Him) as ([P0 l] & Hp & Dk & Ip).
    cbn [fst snd] in Dk, Ip. specialize (Hs im Him).
    assert (Q : VDisk c (snd im) (VP ++ X1)).
    { rewrite Hs. apply (VS_disk c s1 _ lv); [|exact Hz]. apply (a_S _ _ _ _ _ _ _ _ _ _ (y_A _ _ _ _ _ _ _ Y)). }
    unfold put_points in Hp. destruct (Z.geb_spec (zlen (cur L)) N) as [Ge|]; [|destruct Hp].
    destruct (HL ltac:(lia)) as [HL1 HL2].
    destruct Hp as [E|Hp].
    - injection E as <- <-. exists true, (lo L'), X1, Z. rewrite HL2, HL1. split; [auto|]. split; [exact Q|].
      split; [split; [exact Dk|exact Ip]|]. split; [auto|exact Se].
    - destruct (Z.geb_spec (zlen (pages L) - lo L) D) as [Gd|]; [|destruct Hp]. destruct Hp as [E|[]]. injection E as <- <-.
      exists false, (lo L + B), X1, Z. split; [auto|]. split; [exact Q|]. split; [split; [exact Dk|exact Ip]|].
      split; [right; repeat split; lia|]. exact (y_sealed _ _ _ _ _ _ _ Y).
  Qed.
  (** While further variable pages are written after it. *)
  Lemma mid_post s3 L L' VR VR' VP X1 VP' new : Inv s3 L' -> Forall (vimg c (VP ++ X1) VP' s3) new ->
    (forall k a bs, In (k, (a, bs)) VR' -> ~ In k (map rkey (cur L')) -> vskip P HD a (4 + length bs) <= zlen (VP ++ X1) * P + HD) ->
    Forall (mid_image c L L' VR VR' VP VP') new.
  Proof.
    intros I H Se. pose proof (vP c KB PB G) as Pd. eapply Forall_impl; [|exact H]. intros im (F & X & Y0 & -> & -> & Q).
    rewrite <- app_assoc in Q.
    exists true, (lo L'), (X1 ++ X), Y0. cbn [snd]. split; [now rewrite !app_assoc|]. split; [exact Q|].
    split; [now apply at_inv|]. split; [auto|]. intros k a bs Hi Hn. specialize (Se k a bs Hi Hn).
    rewrite app_assoc, zlen_app. pose proof (zlen_nonneg X). nia.
  Qed.

  Lemma putvar_ok s L VR VP lv o acc key data v : VInv s L VR VP lv o acc -> 0 <= key < KB -> length data = dsz c ->
    (forall x, In x acc -> x < key) -> zlen (pages L) + 1 + maxErr c < PB ->
    curVarLoc (sv s) + off + P + bytes_cost v < VB ->
    exists s' w a VP' lv' o', embedDBPutVar c s key data v = Ok (s', 0) /\
      VInv s' (log_put N D B L (mkR key data w)) (new_entry key a v ++ VR) VP' lv' o' (acc ++ [key]) /\
      zlen VP * P <= a <= curVarLoc (sv s) + off + P /\ (exists X, VP' = VP ++ X) /\
      curVarLoc (sv s') <= curVarLoc (sv s) + P + bytes_cost v /\
      (v <> None -> VD L VR VP (vwbuf (sv s)) o ->
         VD (log_put N D B L (mkR key data w)) (new_entry key a v ++ VR) VP' (vwbuf (sv s')) o') /\
      (coh c s L -> no_hazard_put c s L -> coh c s' (log_put N D B L (mkR key data w))) /\
      data_step c L (log_put N D B L (mkR key data w)) (fD (sio s)) (fD (sio s')) /\
      exists new, trace (sio s') = new ++ trace (sio s) /\
        Forall (mid_image c L (log_put N D B L (mkR key data w)) VR (new_entry key a v ++ VR) VP VP') new.
  Proof.
    intros Y Hk Hd Hkey Hp Hb. pose proof (vP c KB PB G) as Pd. pose proof (va_VB _ _ V) as HVB.
    assert (Ha : forall x, In x (accepted L) -> rkey x < key).
    { intros x Hx. apply Hkey. apply (y_acc _ _ _ _ _ _ _ Y). now apply in_map. }
    pose proof KB_M as KM. destruct area_u32 as [Au Ap].
    assert (Bc : 0 <= bytes_cost v) by (unfold bytes_cost; destruct v as [b|]; [pose proof (zlen_nonneg b); lia|lia]).
    destruct (pre_page s L VR VP lv o acc Y ltac:(lia)) as (s1 & VP1 & lv1 & o1 & E1 & Y1 & Gr & Ho1 & Hfull & Cu1 & Alt & Dn).
    pose proof (y_inv _ _ _ _ _ _ _ Y) as I.
    rewrite (putvar_split _ _ _ _ _ (va_use _ _ V) NR).
    rewrite (get_count_ok c L0 _ _ (i_w _ _ _ _ _ _ _ _ I)). cbn [bind]. rewrite E1. cbn [bind]. unfold put_rest.
    assert (Sd1 : sd s1 = sd s) by apply (gr_data _ _ _ _ _ _ Gr).
    assert (Fd1 : fD (sio s1) = fD (sio s)) by apply (gr_data _ _ _ _ _ _ Gr).
    (* common part: the record itself *)
    assert (Put : forall b, exists s3 new, embedDBPut c (set_v s1 (v_has (sv s1) b)) key data = Ok (s3, 0) /\
        let w := if b then curVarLoc (sv s1) mod (NV * P) else NOVAR in
        let L' := log_put N D B L (mkR key data w) in
        Inv s3 L' /\ sv s3 = v_has (sv s1) b /\ fV (sio s3) = fV (sio s1) /\
        (coh c s L -> no_hazard_put c s L -> coh c s3 L') /\ trace (sio s3) = new ++ trace (sio s1) /\
        crash_ok c new (put_points N D B L) /\ Forall (fun im => snd im = fV (sio s1)) new /\
        data_step c L L' (fD (sio s)) (fD (sio s3))).
    { intros b. pose proof (VInv_has _ _ _ _ _ _ _ b Y1) as Yb. pose proof (y_inv _ _ _ _ _ _ _ Yb) as Ib.
      set (sb := set_v s1 (v_has (sv s1) b)) in *.
      assert (Vl : vloc c sb = if b then curVarLoc (sv s1) mod (NV * P) else NOVAR).
      { unfold vloc, var_loc. rewrite (va_use _ _ V), Au. unfold sb. cbn [set_v sv v_has hasVar curVarLoc]. reflexivity. }
      destruct (put_ok c KB PB f G sb L key data Ib NR Hk Hd Ha Hp) as
        (s3 & new & E & I3 & e1 & e2 & e3 & e4 & e5 & e6 & e7 & e8).
      { intros _. rewrite Vl. destruct b; [|unfold NOVAR; lia].
        pose proof (Z.mod_pos_bound (curVarLoc (sv s1)) (NV * P) ltac:(lia)). lia. }
      rewrite Vl in *. exists s3, new. split; [exact E|]. cbv zeta. split; [exact I3|]. split; [exact e1|]. split; [exact e2|].
      split; [|split; [exact e3|split; [exact e4|]]].
      2:{ destruct (put_still_any c sb key data s3 0 E) as (_ & new2 & T2 & F2).
          rewrite e3 in T2. apply app_inv_tail in T2. subst new2. split; [exact F2|].
          rewrite <- Fd1. change (fD (sio s1)) with (fD (sio sb)).
          unfold log_put in *. destruct (Z.geb_spec (zlen (cur L)) N) as [Ge|Lt].
          - right. destruct (e5 ltac:(lia)) as (p & Im & Ef). exists p. auto.
          - left. destruct (e6 ltac:(lia)) as [-> _]. auto. }
      intros Co Nh. apply e7.
      - apply (coh_same s); auto.
      - unfold no_hazard_put in *. unfold sb. cbn [set_v sd]. rewrite Sd1. auto. }
    (* facts about the state after the put *)
    pose proof (y_A _ _ _ _ _ _ _ Y1) as A1.
    assert (VAp : forall b s3 ac, sv s3 = v_has (sv s1) b -> fV (sio s3) = fV (sio s1) -> faults (sio s3) = [] ->
        VA s1 VP1 lv1 o1 (map where_is VR) ac -> VA s3 VP1 lv1 o1 (map where_is VR) ac).
    { intros b s3 ac q1 q2 q3 Aa. apply (VA_has _ _ _ _ _ _ b) in Aa. destruct Aa as [X1 X2 X3 X4].
      constructor; auto.
      - apply (VS_other c (set_v s1 (v_has (sv s1) b))); auto.
      - rewrite q1. exact X2.
      - unfold at_cur in *. rewrite q1. exact X3. }
    pose proof (wf_of s L I) as W.
    assert (Kn : ~ In key (map fst VR)).
    { intros Hi. specialize (Hkey key (y_in _ _ _ _ _ _ _ Y key Hi)). lia. }
    assert (Sealed : forall w k a bs, In (k, (a, bs)) VR -> ~ In k (map rkey (cur (log_put N D B L (mkR key data w)))) ->
        vskip P HD a (4 + length bs) <= zlen VP1 * P + HD).
    { intros w k a bs Hi Hn. destruct (Z.lt_ge_cases (zlen (cur L)) N) as [Lt|Ge].
      - apply (y_sealed _ _ _ _ _ _ _ Y1 k a bs Hi). eapply put_cur_keys; eauto.
      - destruct (y_laid _ _ _ _ _ _ _ Y1 k a bs Hi) as (_ & _ & _ & _ & Sk).
        pose proof (a_cur _ _ _ _ _ _ _ _ _ _ A1) as [Hc _]. rewrite (Hfull ltac:(lia)) in Hc. lia. }
    assert (HL : forall w, zlen (cur L) >= N -> pages (log_put N D B L (mkR key data w)) = pages (seal D B L) /\
                  lo (log_put N D B L (mkR key data w)) = lo (seal D B L)).
    { intros w Ge. unfold log_put. destruct (Z.geb_spec (zlen (cur L)) N); [auto|lia]. }
    destruct (gr_data _ _ _ _ _ _ Gr) as (_ & _ & _ & _ & _ & (X1 & EX1) & newp & Tp & Fp).
    assert (Cur1 : curVarLoc (sv s1) + off = zlen VP1 * P + o1) by apply (a_cur _ _ _ _ _ _ _ _ _ _ A1).
    assert (Zv : zlen VP * P <= zlen VP1 * P).
    { destruct (gr_ext _ _ _ _ _ _ Gr) as [X ->]. rewrite zlen_app. pose proof (zlen_nonneg X). apply Z.mul_le_mono_nonneg_r; lia. }
    assert (Zs : zlen (VP ++ X1) + 1 < 2 ^ 32).
    { rewrite <- EX1. pose proof (zlen_nonneg VP1). assert (zlen VP1 * 4 <= zlen VP1 * P) by (apply Z.mul_le_mono_nonneg_l; lia). lia. }
    destruct v as [bs|]; cbn [new_entry bytes_cost] in *.
    - (* with data *)
      destruct (Put true) as (s3 & new & E & I3 & q1 & q2 & Co & Tn & Cn & Fn & Ds). rewrite E. cbn [bind Z.eqb negb].
      set (w := curVarLoc (sv s1) mod (NV * P)) in *. set (L' := log_put N D B L (mkR key data w)) in *. cbv iota in Co, I3.
      change (if true then w else NOVAR) with w in *. fold L' in I3, Co.
      assert (A3 : VA s3 VP1 lv1 o1 (map where_is VR) acc).
      { apply (VAp true); auto. apply (i_faults _ _ _ _ _ _ _ _ I3). }
      set (a := zlen VP1 * P + o1) in *.
      assert (Z1 : 0 <= zlen VP1) by apply zlen_nonneg.
      assert (Ia : inside P HD a) by (apply (inside_addr P HD HP); lia).
      assert (Vb : vskip P HD a (4 + length bs) <= curVarLoc (sv s) + off + P + (4 * zlen bs + 16)).
      { pose proof (vskip_bound P HD HP ltac:(lia) (4 + length bs) (4 + length bs) (zlen VP1) o1 ltac:(lia) ltac:(lia)) as Bo.
        fold a in Bo. unfold zlen in *. destruct Alt as [Ea|Ea].
        - rewrite Ea, Z.eqb_refl in Bo. lia.
        - subst s1. assert (P >= 12). { clear - L0. pose proof (l_ks c L0). pose proof (l_ds c L0). pose proof (l_init c L0). lia. }
          destruct (o1 =? HD); lia. }
      assert (Acc' : map rkey (accepted L') = map rkey (accepted L) ++ [key]).
      { unfold L'. rewrite log_put_accepted, map_key_app. reflexivity. }
      destruct (store_ok c KB PB VB G V kl sl Hsl off off_page s3 VP1 lv1 o1 (map where_is VR) acc (acc ++ [key]) key bs A3)
        as (s4 & VP4 & lv4 & o4 & El & A4 & Gr4 & Cv4 & Rd4 & Hh4 & Hy4); auto; try lia.
      { intros k a0 Hi. apply in_map_iff in Hi as ([k1 [a1 b1]] & He & Hi). cbn in He. injection He as -> ->.
        apply (y_in _ _ _ _ _ _ _ Y). apply in_map_iff. exists (k, (a0, b1)). auto. }
      { apply incl_appl, incl_refl. }
      { apply in_or_app. right. now left. }
      { fold a. lia. }
      fold a in A4, Cv4, Rd4. change (store_bytes c s3 key bs = Ok s4) in El.
      rewrite El. cbn [bind].
      exists s4, w, a, VP4, lv4, o4. split; [reflexivity|].
      pose proof (gr_data _ _ _ _ _ _ Gr4) as (g1 & g2 & g3 & g4 & g5 & (X5 & EX5) & newq & Tq & Fq).
      assert (Se : forall k a0 b0, In (k, (a0, b0)) ((key, (a, bs)) :: VR) -> ~ In k (map rkey (cur L')) ->
                vskip P HD a0 (4 + length b0) <= zlen (VP ++ X1) * P + HD).
      { rewrite <- EX1. intros k a0 b0 [He|Hi] Hn; [|exact (Sealed w k a0 b0 Hi Hn)].
        injection He as <- <- <-. exfalso. apply Hn. unfold L', log_put. destruct (zlen (cur L) >=? N); cbn [cur].
        - now left.
        - rewrite map_key_app. apply in_or_app. right. now left. }
      split; [|split; [unfold a; lia|split; [|split; [lia|split]]]].
      3:{ intros _ Vd. specialize (Dn Vd).
          assert (Hlt : forall k a0, In (k, a0) (map where_is VR) -> k < key).
          { intros k a0 Hi. apply in_map_iff in Hi as ([k1 [a1 b1]] & He & Hi). cbn in He. injection He as -> ->.
            apply Hkey. apply (y_in _ _ _ _ _ _ _ Y). apply in_map_iff. exists (k, (a0, b1)). auto. }
          split; [|left]; cbn [app map where_is fst snd].
          - destruct (gr_ext _ _ _ _ _ _ Gr4) as [X4 EX4].
            intros v k a0 Hv Hi Hl. destruct (Z.lt_ge_cases v (zlen VP1)) as [Lt|Ge].
            + rewrite EX4, vpg_app1 by lia. destruct Hi as [He|Hi]; [|apply (Dn v k a0); auto; lia].
              injection He as <- <-. unfold a in Hl. rewrite (adiv P HD HP) in Hl by lia. lia.
            + rewrite (Hy4 v) by lia. destruct Hi as [He|Hi]; [injection He as <- _; lia|]. specialize (Hlt _ _ Hi). lia.
          - rewrite Hh4. intros k a0 [He|Hi]; [injection He as <- _; lia|]. specialize (Hlt _ _ Hi). lia. }
      + fold L'. destruct Y1 as [J1 J2 J3 J4 J5 J6 J7 J8 J9 J10 J11]. constructor.
        * apply (Inv_same s3); auto. apply (x_faults _ _ _ _ (a_S _ _ _ _ _ _ _ _ _ _ A4)).
        * exact A4.
        * intros k a0 bs0 [He|Hi].
          { injection He as <- <- <-. split; [apply Ia|]. split; [unfold a; rewrite (amod P) by lia; lia|].
            destruct (vskip_inside P HD HP (4 + length bs) a Ia) as [_ Sk].
            split; [unfold zlen in *; pose proof (proj1 Ia); lia|]. split; [auto|lia]. }
          { destruct (J3 k a0 bs0 Hi) as (j1 & j2 & j3 & j4 & j5). do 3 (split; [solve [auto]|]).
            assert (Ew : vwbuf (sv s3) = vwbuf (sv s1)) by (rewrite q1; reflexivity).
            assert (Ec : curVarLoc (sv s3) = curVarLoc (sv s1)) by (rewrite q1; reflexivity).
            pose proof (gr_cur _ _ _ _ _ _ Gr4). split; [|lia].
            rewrite <- j4, <- Ew. symmetry. apply (keeps_vread c KB PB G _ _ _ _ _ (gr_keep _ _ _ _ _ _ Gr4)); [split; lia|lia]. }
        * cbn [new_entry app map fst]. constructor; auto.
        * intros r Hr Tr. unfold L' in Hr. rewrite log_put_accepted in Hr. apply in_app_or in Hr as [Hr|[<-|[]]].
          { destruct (J5 r Hr Tr) as [[n1 n2]|(a0 & b0 & n1 & n2)].
            - left. split; [auto|]. cbn [app map fst]. intros [Hc|Hc]; [|auto]. specialize (Ha r Hr). lia.
            - right. exists a0, b0. split; [now right|auto]. }
          { right. exists a, bs. cbn [rkey rvar]. split; [now left|]. unfold w. rewrite mod_off. f_equal. exact Cur1. }
        * cbn [app map fst]. intros k [<-|Hi]; apply in_or_app; [right; now left|left; auto].
        * intros k a0 bs0 [He|Hi] Hn.
          { injection He as <- <- <-. exfalso. apply Hn. unfold L', log_put. destruct (zlen (cur L) >=? N); cbn [cur].
            - now left.
            - rewrite map_key_app. apply in_or_app. right. now left. }
          { specialize (Sealed w k a0 bs0 Hi Hn). destruct (gr_ext _ _ _ _ _ _ Gr4) as [X ->]. rewrite zlen_app.
            pose proof (zlen_nonneg X). nia. }
        * intros Hz. destruct acc; discriminate.
        * rewrite Acc'. apply incl_app; [apply incl_appl; exact J9|apply incl_appr, incl_refl].
        * intros x Hx. apply in_app_or in Hx as [Hx|[<-|[]]]; [auto|lia].
        * intros r _ Hr. destruct (NT _ Hr).
      + destruct (gr_ext _ _ _ _ _ _ Gr) as [X ->]. destruct (gr_ext _ _ _ _ _ _ Gr4) as [X4 ->]. exists (X ++ X4). now rewrite app_assoc.
      + split; [intros C1 C2; apply (coh_same s3); auto|]. split; [rewrite g3; exact Ds|]. exists (newq ++ new ++ newp).
        split; [rewrite Tq, Tn, Tp, <- !app_assoc; reflexivity|]. apply Forall_app. split; [|apply Forall_app; split].
        * rewrite EX1 in Fq. exact (mid_post s3 L L' VR _ VP X1 VP4 newq I3 Fq Se).
        * rewrite EX5, EX1. rewrite EX1 in Y1. apply (mid_put s1 L L' VR _ VP X1 X5 lv1 o1 acc); auto. apply HL.
        * rewrite EX5. exact (mid_pre s L VR VP lv o acc L' _ VP1 X5 newp Y Fp).
    - (* without data *)
      destruct (Put false) as (s3 & new & E & I3 & q1 & q2 & Co & Tn & Cn & Fn & Ds). rewrite E.
      set (L' := log_put N D B L (mkR key data NOVAR)) in *.
      change (if false then curVarLoc (sv s1) mod (NV * P) else NOVAR) with NOVAR in *. fold L' in I3, Co.
      assert (Acc' : map rkey (accepted L') = map rkey (accepted L) ++ [key]).
      { unfold L'. rewrite log_put_accepted, map_key_app. reflexivity. }
      exists s3, NOVAR, (zlen VP * P), VP1, lv1, o1. split; [reflexivity|].
      pose proof (y_A _ _ _ _ _ _ _ Y) as Ay. pose proof (a_cur _ _ _ _ _ _ _ _ _ _ Ay) as Cy. pose proof (a_o _ _ _ _ _ _ _ _ _ _ Ay) as Oy.
      destruct Cy as [Cy Cy2].
      split; [|split; [lia|split; [apply (gr_ext _ _ _ _ _ _ Gr)|split; [rewrite q1; cbn [v_has curVarLoc]; lia|split; [congruence|split; [auto|split; [exact Ds|]]]]]]].
      2:{ exists (new ++ newp). split; [rewrite Tn, Tp; apply app_assoc|]. cbn [app]. apply Forall_app. split.
          - rewrite <- (app_nil_r VP1), EX1. rewrite EX1 in Y1. apply (mid_put s1 L L' VR VR VP X1 [] lv1 o1 acc); auto; [apply HL|].
            rewrite <- EX1. intros k a bs Hi Hn. exact (Sealed NOVAR k a bs Hi Hn).
          - rewrite <- (app_nil_r VP1). exact (mid_pre s L VR VP lv o acc L' VR VP1 [] newp Y Fp). }
      clear Ay Cy Oy.
      fold L'. destruct Y1 as [J1 J2 J3 J4 J5 J6 J7 J8 J9 J10 J11]. constructor.
      + exact I3.
      + cbn [app]. apply (VAp false); auto; [apply (i_faults _ _ _ _ _ _ _ _ I3)|].
        destruct J2 as [U1 U2 U3 U4]. constructor; auto. eapply VH_more; eauto.
        * apply incl_appl, incl_refl.
        * intros Ez x Hx. rewrite Ez in Hx. destruct Hx as [<-|[]]. lia.
      + cbn [app]. rewrite q1. exact J3.
      + exact J4.
      + cbn [app]. intros r Hr Tr. unfold L' in Hr. rewrite log_put_accepted in Hr. apply in_app_or in Hr as [Hr|[<-|[]]]; [auto|].
        left. split; [reflexivity|exact Kn].
      + cbn [app]. intros k Hi. apply in_or_app. left. auto.
      + cbn [app]. intros k a0 bs0 Hi Hn. apply (Sealed NOVAR k a0 bs0 Hi Hn).
      + intros Hz. destruct acc; discriminate.
      + rewrite Acc'. apply incl_app; [apply incl_appl; exact J9|apply incl_appr, incl_refl].
      + intros x Hx. apply in_app_or in Hx as [Hx|[<-|[]]]; [auto|lia].
      + intros r _ Hr. destruct (NT _ Hr).
  Qed.

  Lemma putvar_refused s L VR VP lv o acc key data v k0 : VInv s L VR VP lv o acc -> 0 <= key < KB ->
    last_key (accepted L) = Some k0 -> key <= k0 ->
    (cur L = [] -> coh c s L /\ zlen (pg L (zlen (pages L) - 1)) = N) ->
    curVarLoc (sv s) + off + P < VB ->
    exists s' VP' lv' o', embedDBPutVar c s key data v = Ok (s', 1) /\ VInv s' L VR VP' lv' o' acc /\
      (exists X, VP' = VP ++ X) /\ curVarLoc (sv s') <= curVarLoc (sv s) + P /\ (coh c s L -> coh c s' L) /\ fD (sio s') = fD (sio s) /\
      exists new, trace (sio s') = new ++ trace (sio s) /\ Forall (mid_image c L L VR VR VP VP') new.
  Proof.
    intros Y Hk Lk Hle Hf Hb.
    destruct (pre_page s L VR VP lv o acc Y Hb) as (s1 & VP1 & lv1 & o1 & E1 & Y1 & Gr & Ho1 & Hfull & Cu1 & Alt & Dn).
    pose proof (y_inv _ _ _ _ _ _ _ Y) as I.
    rewrite (putvar_split _ _ _ _ _ (va_use _ _ V) NR).
    rewrite (get_count_ok c L0 _ _ (i_w _ _ _ _ _ _ _ _ I)). cbn [bind]. rewrite E1. cbn [bind]. unfold put_rest.
    assert (Sd1 : sd s1 = sd s) by apply (gr_data _ _ _ _ _ _ Gr).
    assert (Fd1 : fD (sio s1) = fD (sio s)) by apply (gr_data _ _ _ _ _ _ Gr).
    assert (Rj : forall b, exists s', embedDBPut c (set_v s1 (v_has (sv s1) b)) key data = Ok (s', 1) /\
       VInv s' L VR VP1 lv1 o1 acc /\ curVarLoc (sv s') = curVarLoc (sv s1) /\ (coh c s L -> coh c s' L) /\ sio s' = sio s1).
    { intros b. pose proof (VInv_has _ _ _ _ _ _ _ b Y1) as Yb.
      destruct (put_reject c KB PB f G _ L key data k0 (y_inv _ _ _ _ _ _ _ Yb) Hk Lk Hle) as (s' & E & I' & S & Co & _).
      { intros Hc. destruct (Hf Hc) as [F1 F2]. split; [|auto]. apply (coh_same s); auto. }
      exists s'. split; [exact E|]. split; [apply (VInv_rbuf _ _ _ _ _ _ _ _ Yb S I')|].
      split; [destruct S as (_ & _ & -> & _); reflexivity|]. split; [|destruct S as (-> & _); reflexivity]. intros C1. apply Co. apply (coh_same s); auto. }
    destruct (gr_data _ _ _ _ _ _ Gr) as (_ & _ & _ & _ & _ & _ & newp & Tp & Fp).
    assert (Im : exists new, trace (sio s1) = new ++ trace (sio s) /\ Forall (mid_image c L L VR VR VP VP1) new).
    { exists newp. split; [auto|]. rewrite <- (app_nil_r VP1). exact (mid_pre s L VR VP lv o acc L VR VP1 [] newp Y Fp). }
    destruct v as [bs|].
    - destruct (Rj true) as (s' & -> & Y' & C' & Co & Eio). cbn [bind Z.eqb negb]. exists s', VP1, lv1, o1.
      split; [reflexivity|]. split; [auto|]. split; [apply (gr_ext _ _ _ _ _ _ Gr)|]. split; [lia|]. rewrite Eio. auto.
    - destruct (Rj false) as (s' & -> & Y' & C' & Co & Eio). exists s', VP1, lv1, o1.
      split; [reflexivity|]. split; [auto|]. split; [apply (gr_ext _ _ _ _ _ _ Gr)|]. split; [lia|]. rewrite Eio. auto.
  Qed.

  (** ** embedDBFlush *)
  Lemma flushv_ok s L VR VP lv o acc : VInv s L VR VP lv o acc -> zlen (pages L) + 1 + maxErr c < PB ->
    (cur L <> [] -> index_room c s) -> curVarLoc (sv s) + off + P < VB ->
    exists s' VP' lv' o', embedDBFlush c s = Ok (s', 0) /\ VInv s' (log_flush D B L) VR VP' lv' o' acc /\
      (exists X, VP' = VP ++ X) /\ curVarLoc (sv s') <= curVarLoc (sv s) + P /\
      (VD L VR VP (vwbuf (sv s)) o -> VD (log_flush D B L) VR VP' (vwbuf (sv s')) o') /\
      (coh c s L -> (cur L <> [] -> zlen (pages L) mod D <> bufD (sd s)) -> coh c s' (log_flush D B L)) /\
      data_step c L (log_flush D B L) (fD (sio s)) (fD (sio s')).
  Proof.
    intros Y Hp Hr Hb. pose proof (vP c KB PB G) as Pd. pose proof (y_inv _ _ _ _ _ _ _ Y) as I. pose proof (wf_of s L I) as W.
    destruct (cur L) as [|r0 l0] eqn:Ec.
    { rewrite (flush_empty c KB PB f G s L I Ec). assert (log_flush D B L = L) as -> by (unfold log_flush; now rewrite Ec).
      exists s, VP, lv, o. split; [reflexivity|]. split; [auto|]. split; [exists []; now rewrite app_nil_r|]. split; [lia|]. split; [auto|]. split; [auto|]. left. auto. }
    assert (Ne : cur L <> []) by congruence.
    assert (log_flush D B L = seal D B L) as -> by (unfold log_flush; now rewrite Ec).
    destruct (flush_data_ok c KB PB f G s L NR I Ne Hp (Hr ltac:(congruence))) as (s1 & new & E & Sd & _).
    rewrite E, (va_use _ _ V). destruct Sd as (I1 & e1 & e2 & (p & Im & Ef1) & _ & _ & _ & _ & Co).
    assert (Acc : accepted (seal D B L) = accepted L).
    { unfold accepted, seal. cbn [pages cur]. rewrite concat_app. cbn [concat]. now rewrite !app_nil_r. }
    assert (Ac : acc <> []).
    { intros E0. pose proof (y_acc _ _ _ _ _ _ _ Y (rkey r0)) as Ic. rewrite E0 in Ic. apply Ic. apply in_map.
      unfold accepted. rewrite Ec. apply in_or_app. right. now left. }
    assert (A1 : VA s1 VP lv o (map where_is VR) acc).
    { destruct (y_A _ _ _ _ _ _ _ Y) as [X1 X2 X3 X4]. unfold at_cur in X3. constructor; auto; unfold at_cur; rewrite ?e1; auto.
      apply (VS_other c s); auto. apply (i_faults _ _ _ _ _ _ _ _ I1). }
    destruct (flushVar_ok c KB PB VB G V kl sl Hsl off off_page s1 VP lv o _ _ A1 Ac) as (s' & VP' & lv' & Ef & A' & Gr & Hsame & Cu & Hnew).
    { intros x Hx. apply (y_keys _ _ _ _ _ _ _ Y x Hx). }
    { pose proof (a_cur _ _ _ _ _ _ _ _ _ _ A1) as Hc. pose proof (a_o _ _ _ _ _ _ _ _ _ _ A1). destruct Hc as [Hc _]. rewrite e1 in Hc. lia. }
    rewrite Ef. cbn [bind Z.eqb]. exists s', VP', lv', HD. split; [reflexivity|].
    pose proof (gr_data _ _ _ _ _ _ Gr) as (g1 & g2 & g3 & g4 & g5).
    assert (Ecu : curVarLoc (sv s1) = curVarLoc (sv s)) by (now rewrite e1).
    split; [|split; [apply (gr_ext _ _ _ _ _ _ Gr)|split; [lia|split]]].
    2:{ intros [Hd Hw]. assert (Hw1 : forall k a, In (k, a) (map where_is VR) -> k <= hkey c (vwbuf (sv s))).
        { destruct Hw as [Hw|[H1 _]]; [auto|congruence]. }
        destruct (Z.eq_dec o HD) as [Eo|Eo].
        - destruct (Hsame Eo) as [-> ->]. split; [auto|]. left. rewrite e1. auto.
        - destruct (Hnew Eo) as (x & -> & Hx). split; [apply dense_snoc; auto; rewrite Hx, e1; auto|]. right. auto. }
    - destruct Y as [J1 J2 J3 J4 J5 J6 J7 J8 J9 J10 J11]. constructor; rewrite ?Acc; auto.
      + apply (Inv_same s1); auto. apply (x_faults _ _ _ _ (a_S _ _ _ _ _ _ _ _ _ _ A')).
      + intros k a bs Hi. destruct (J3 k a bs Hi) as (j1 & j2 & j3 & j4 & j5). do 3 (split; [solve [auto]|]).
        pose proof (gr_cur _ _ _ _ _ _ Gr). split; [|lia].
        rewrite <- j4. rewrite <- e1. symmetry. apply (keeps_vread c KB PB G _ _ _ _ _ (gr_keep _ _ _ _ _ _ Gr)); [split; lia|lia].
      + intros k a bs Hi _. destruct (J3 k a bs Hi) as (j1 & j2 & j3 & j4 & j5).
        pose proof (gr_cur _ _ _ _ _ _ Gr) as Gc. pose proof (a_cur _ _ _ _ _ _ _ _ _ _ A') as [Hc _]. lia.
    - split.
      + intros C1 C2. apply (coh_same s1); auto. apply Co; auto. apply C2. congruence.
      + right. exists p. rewrite g3. auto.
  Qed.
End VarRun.

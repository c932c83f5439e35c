(** The drivers on failing library calls (property C40). *)
From Verif Require Import Base Config Storage Recovery Drivers BaseFacts SpecDrivers DriverFacts SpecDriverFault.
Open Scope Z_scope.
Ltac Zify.zify_post_hook ::= ZifyBool.elim_bool_cstr.
Ltac Zify.zify_convert_to_euclidean_division_equations_flag ::= constr:(false).

Lemma confined_refl ps q b : confined ps q b b.
Proof. split; [lia|auto]. Qed.
Lemma confined_over ps q b off bs : 0 <= off -> (forall i, off <= i < off + zlen bs -> touches ps q i) -> confined ps q b (overwrite b off bs).
Proof.
  intros O T. split; [rewrite over_zlen by auto; lia|]. intros i Hi N. change (gz (overwrite b off bs) i = gz b i).
  rewrite over_gz by lia. destruct ((off <=? i) && (i <? off + zlen bs)) eqn:In; [exfalso; apply N, T; lia|].
  destruct (Z.ltb_spec i (zlen b)); [reflexivity|lia].
Qed.
Lemma firstn_zlen k (l : list Z) : zlen (firstn k l) <= Z.of_nat k /\ zlen (firstn k l) <= zlen l.
Proof. unfold zlen. rewrite firstn_length. lia. Qed.
Lemma items_short n size : 0 <= n < size -> items n size = 0.
Proof. intros. unfold items. destruct (Z.eqb_spec size 0); [reflexivity|]. apply Z.div_small. lia. Qed.

(** * Desktop *)
Theorem desk_fault mock ps num d q k fs : 0 < ps -> num * ps < 2 ^ 32 -> fates d = Fine :: Bad k :: fs -> req_ok ps num q ->
  Z.of_nat k < moved mock ps q ->
  exists d' a, desk_step mock ps d q = Ok (d', a) /\ result a = 0 /\ confined ps q (bts d) (bts d').
Proof.
  intros P N F Q K. destruct q as [n buf|n p|a b|w]; cbn [req_ok] in Q; cbn [moved] in K; cbn [desk_step].
  - unfold desk_read, lib_seek, next_fate. rewrite F. cbn [andb bts bpos fates]. unfold lib_read, next_fate. cbn [bts bpos fates].
    match goal with |- context [firstn k ?L] => pose proof (firstn_zlen k L) as [Z1 _]; pose proof (zlen_nonneg (firstn k L)) as Z0; set (g := firstn k L) in * end.
    rewrite items_short by lia. eexists _, _. split; [reflexivity|]. split; [reflexivity|]. apply confined_refl.
  - destruct Q as [Q Qp]. assert (0 <= n * ps) by nia. assert (n * ps < 2 ^ 32) by nia.
    unfold desk_write, lib_seek, next_fate. rewrite F. cbn [andb bts bpos fates]. unfold lib_write, next_fate. cbn [bts bpos fates].
    match goal with |- context [firstn k ?L] => pose proof (firstn_zlen k L) as [Z1 _]; pose proof (zlen_nonneg (firstn k L)) as Z0; set (g := firstn k L) in * end.
    rewrite items_short by lia. eexists _, _. split; [reflexivity|]. split; [reflexivity|]. cbn [bts]. rewrite u32_id by lia.
    apply confined_over; [auto|]. cbn [touches]. intros i Hi. nia.
  - destruct mock; [|lia]. assert (0 <= a * ps) by nia. assert (a * ps < 2 ^ 32) by nia. assert (b * ps <= num * ps) by nia.
    unfold mock_erase, lib_seek, next_fate. rewrite F. cbn [andb bts bpos fates negb]. unfold lib_write, next_fate. cbn [bts bpos fates].
    match goal with |- context [firstn k ?L] => pose proof (firstn_zlen k L) as [Z1 _]; pose proof (zlen_nonneg (firstn k L)) as Z0; set (g := firstn k L) in * end.
    assert (b - a <= (b - a) * ps) by nia. rewrite (u32_id (b - a)) by lia. rewrite !u32_id by lia.
    rewrite items_short by lia. eexists _, _. split; [reflexivity|]. split; [reflexivity|]. cbn [bts].
    apply confined_over; [auto|]. cbn [touches]. intros i Hi. lia.
  - lia.
Qed.

(** * SD card *)
Lemma over_end b bs : overwrite b (zlen b) bs = b ++ bs.
Proof.
  unfold overwrite, wr. replace (Z.to_nat (zlen b - zlen b)) with 0%nat by lia. cbn [repeat]. rewrite app_nil_r.
  unfold zlen. rewrite Nat2Z.id, firstn_all, skipn_all2 by lia. now rewrite app_nil_r.
Qed.
Lemma app_confined ps q b x : confined ps q b (b ++ x).
Proof. split; [rewrite zlen_app; pose proof (zlen_nonneg x); lia|]. intros i Hi _. apply gz_app1. auto. Qed.
Lemma confined_trans ps q a b c : confined ps q a b -> confined ps q b c -> confined ps q a c.
Proof. intros [L1 H1] [L2 H2]. split; [lia|]. intros i Hi N. rewrite H2 by (auto; lia). auto. Qed.

Lemma pad_any bits : forall fuel d cur req, 0 <= bits -> bpos d = zlen (bts d) -> req - cur <= Z.of_nat fuel -> req + 4 <= 2 ^ bits -> 0 <= cur ->
  exists d' ok x, sd_pad fuel bits d cur req = Ok (d', ok) /\ bts d' = bts d ++ x.
Proof.
  induction fuel as [|fuel IH]; intros d cur req Hb Hp Hfu Hr Hc; cbn [sd_pad].
  - destruct (Z.ltb_spec cur req); [lia|]. exists d, true, []. now rewrite app_nil_r.
  - destruct (Z.ltb_spec cur req); [|exists d, true, []; now rewrite app_nil_r].
    unfold sd_fwrite, lib_write. destruct (next_fate d) as [x d1] eqn:E.
    assert (B : bts d1 = bts d /\ bpos d1 = bpos d) by (unfold next_fate in E; destruct (fates d); inversion E; auto).
    destruct B as [B1 B2]. rewrite B1, B2, Hp, over_end.
    set (g := match x with Fine => repeat 255 4 | Bad k => firstn k (repeat 255 4) end).
    match goal with |- context [if ?t then Ok _ else _] => destruct t end.
    + eexists _, _, g. split; reflexivity.
    + rewrite Z.mod_small by lia. match goal with |- context [sd_pad fuel bits ?D _ _] => destruct (IH D (cur + 4) req) as (d' & ok & y & R & V) end; auto; try lia.
      { cbn [bts bpos]. now rewrite zlen_app. }
      exists d', ok, (g ++ y). split; [exact R|]. rewrite V. cbn [bts]. now rewrite app_assoc.
Qed.
Lemma pad_fail bits k fs : (k < 4)%nat -> forall j fuel d cur req, 0 <= bits -> fates d = repeat Fine j ++ Bad k :: fs -> req - cur <= Z.of_nat fuel -> req + 4 <= 2 ^ bits -> 0 <= cur ->
  cur + 4 * Z.of_nat j < req -> exists d', sd_pad fuel bits d cur req = Ok (d', false).
Proof.
  intros K. induction j as [|j IH]; intros fuel d cur req Hb F Hfu Hr Hc J; destruct fuel as [|fuel]; try lia; cbn [sd_pad];
    (destruct (Z.ltb_spec cur req); [|lia]); unfold sd_fwrite, lib_write, next_fate; rewrite F; cbn [repeat app bts bpos fates].
  - assert (E : zlen (firstn k [255; 255; 255; 255]) = Z.of_nat k) by (unfold zlen; rewrite firstn_length; cbn [length]; lia).
    rewrite E. change (zlen [255; 255; 255; 255]) with 4. destruct (Z.eqb_spec (Z.of_nat k) 4); [lia|]. cbn [Z.eqb]. eexists. reflexivity.
  - change (zlen [255; 255; 255; 255]) with 4. change (4 =? 4) with true. cbv iota. change (4 =? 0) with false. cbv iota. rewrite Z.mod_small by lia.
    apply IH; auto; lia.
Qed.

Lemma next_same d x d' : next_fate d = (x, d') -> bts d' = bts d /\ bpos d' = bpos d.
Proof. unfold next_fate. destruct (fates d); intros E; inversion E; auto. Qed.
Lemma seek_any d off d' ok : lib_seek true d off = (d', ok) -> bts d' = bts d /\ (ok = true -> bpos d' = off /\ off <= zlen (bts d)).
Proof.
  unfold lib_seek. destruct (next_fate d) as [x d1] eqn:E. destruct (next_same _ _ _ E) as [B1 B2]. cbn [andb].
  destruct x; [destruct (Z.ltb_spec (zlen (bts d1)) off)|]; intros G; inversion G; subst; split; auto; intros; try congruence.
  cbn [bpos bts]. rewrite <- B1. lia.
Qed.
Theorem sd_any bits ps num d q : 4 <= ps -> 0 <= bits <= 32 -> num * ps <= 2 ^ bits -> zlen (bts d) < 2 ^ bits -> req_ok ps num q -> q <> QOpen true ->
  exists d' a, sd_step bits ps d q = Ok (d', a) /\ confined ps q (bts d) (bts d').
Proof.
  intros P Hb N L Q NO. assert (2 ^ bits <= 2 ^ 32) by (apply Z.pow_le_mono_r; lia). pose proof (zlen_nonneg (bts d)) as L0.
  destruct q as [n buf|n p|a b|w]; cbn [req_ok] in Q; cbn [sd_step].
  - unfold sd_read. destruct (lib_seek true d (u32 (ps * n))) as [d1 ok] eqn:E. destruct (seek_any _ _ _ _ E) as [B _].
    unfold sd_fread, lib_read. destruct (next_fate d1) as [x d2] eqn:E2. destruct (next_same _ _ _ E2) as [B2 _].
    destruct x; eexists _, _; (split; [reflexivity|]); cbn [bts]; rewrite B2, B; apply confined_refl.
  - destruct Q as [Q Qp]. assert (0 <= n * ps) by nia. assert (n * ps + ps <= num * ps) by nia.
    assert (LAST : forall d0, confined ps (QWrite n p) (bts d) (bts d0) ->
      exists d' a, ('(d', r) <- (let '(d1, ok) := lib_seek true d0 (n * ps) in
        if negb ok then Ok (d1, -1) else let '(d2, _) := sd_fwrite d1 (firstn (Z.to_nat ps) p) in Ok (d2, 1)) ;; Ok (d', ADone r)) = Ok (d', a) /\
        confined ps (QWrite n p) (bts d) (bts d')).
    { intros d0 C. destruct (lib_seek true d0 (n * ps)) as [d1 ok] eqn:E. destruct (seek_any _ _ _ _ E) as [B S1].
      destruct ok; cbn [negb bind].
      - destruct (S1 eq_refl) as [B2 B3]. unfold sd_fwrite, lib_write. destruct (next_fate d1) as [x d2] eqn:E2. destruct (next_same _ _ _ E2) as [C1 C2].
        cbn [bind]. eexists _, _. split; [reflexivity|]. cbn [bts]. eapply confined_trans; [exact C|]. rewrite C1, C2, B, B2. apply confined_over; [auto|].
        cbn [touches]. intros i Hi. pose proof (firstn_zlen (Z.to_nat ps) p) as [Z1 _].
        destruct x as [|k]; [lia|]. pose proof (firstn_zlen k (firstn (Z.to_nat ps) p)) as [_ Z2]. lia.
      - eexists _, _. split; [reflexivity|]. now rewrite B. }
    unfold sd_write. rewrite u32_id by lia. rewrite !Z.mod_small by lia.
    destruct (Z.ltb_spec (zlen (bts d)) (n * ps)); [|apply LAST; apply confined_refl].
    destruct (lib_seek true d (zlen (bts d))) as [d1 ok] eqn:E. destruct (seek_any _ _ _ _ E) as [B S1].
    destruct ok; cbn [negb]; [|cbn [bind]; eexists _, _; (split; [reflexivity|]); rewrite B; apply confined_refl].
    destruct (S1 eq_refl) as [B2 _].
    destruct (pad_any bits (Z.to_nat (n * ps - zlen (bts d))) d1 (zlen (bts d)) (n * ps)) as (d2 & ok & x & R & V); try lia.
    { now rewrite B2, B. }
    rewrite R. cbn [bind]. assert (C : confined ps (QWrite n p) (bts d) (bts d2)) by (rewrite V, B; apply app_confined).
    destruct ok; cbn [negb]; [apply LAST, C|]. cbn [bind]. eexists _, _. split; [reflexivity|exact C].
  - unfold no_erase. eexists _, _. split; [reflexivity|]. apply confined_refl.
  - unfold sd_open. eexists _, _. split; [reflexivity|]. cbn [bts]. destruct w; [congruence|apply confined_refl].
Qed.

Theorem sd_pad_fault bits ps num d n p j k fs : 4 <= ps -> 0 <= bits <= 32 -> num * ps <= 2 ^ bits -> req_ok ps num (QWrite n p) ->
  (k < 4)%nat -> fates d = Fine :: repeat Fine j ++ Bad k :: fs -> zlen (bts d) + 4 * Z.of_nat j < n * ps ->
  exists d', sd_step bits ps d (QWrite n p) = Ok (d', ADone (-1)) /\ confined ps (QWrite n p) (bts d) (bts d').
Proof.
  intros P Hb N Q K F J. pose proof Q as Q'. cbn [req_ok] in Q'. destruct Q' as [Qn Qp].
  assert (2 ^ bits <= 2 ^ 32) by (apply Z.pow_le_mono_r; lia). pose proof (zlen_nonneg (bts d)) as L0.
  assert (0 <= n * ps) by nia. assert (n * ps + ps <= num * ps) by nia.
  destruct (sd_any bits ps num d (QWrite n p)) as (d' & a & E & C); auto; try lia; [congruence|].
  exists d'. split; [|exact C]. rewrite E. cbn [sd_step] in E. revert E. unfold sd_write. rewrite u32_id by lia. rewrite !Z.mod_small by lia.
  replace (zlen (bts d) <? n * ps) with true by lia. assert (SK : lib_seek true d (zlen (bts d)) = (mkDev (bts d) (zlen (bts d)) (repeat Fine j ++ Bad k :: fs), true)).
  { unfold lib_seek, next_fate. rewrite F. cbn [bts fates bpos]. rewrite (Z.ltb_irrefl (zlen (bts d))). reflexivity. }
  rewrite SK. cbn [negb].
  match goal with |- context [sd_pad ?F bits ?D ?x ?y] => destruct (pad_fail bits k fs K j F D x y) as (d2 & R) end; cbn [bts bpos fates]; auto; try lia.
  rewrite R. cbn [bind negb]. congruence.
Qed.
Theorem sd_read_fault bits ps d n buf x k fs : 0 < ps -> fates d = x :: Bad k :: fs ->
  exists d' buf', sd_step bits ps d (QRead n buf) = Ok (d', ARead 0 buf') /\ bts d' = bts d.
Proof.
  intros P F. cbn [sd_step]. unfold sd_read, lib_seek, next_fate. rewrite F. cbn [bts bpos fates].
  destruct x; [destruct (true && (zlen (bts d) <? u32 (ps * n)))|]; unfold sd_fread, lib_read, next_fate; cbn [bts bpos fates];
    change (-1 <? 0) with true; cbv iota; eexists _, _; (split; [reflexivity|]); reflexivity.
Qed.

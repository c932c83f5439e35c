(** The drivers refine page files (property C40). *)
From Verif Require Import Base Config Storage Recovery Drivers BaseFacts SpecDrivers.
Open Scope Z_scope.
Ltac Zify.zify_post_hook ::= ZifyBool.elim_bool_cstr.
Ltac Zify.zify_convert_to_euclidean_division_equations_flag ::= constr:(false).

(** * Bytes *)
Definition gz (l : list Z) (i : Z) : Z := nth (Z.to_nat i) l 0.
Lemma gz_app1 a b i : 0 <= i < zlen a -> gz (a ++ b) i = gz a i.
Proof. unfold gz, zlen. intros. apply app_nth1. lia. Qed.
Lemma gz_app2 a b i : zlen a <= i -> gz (a ++ b) i = gz b (i - zlen a).
Proof. unfold gz, zlen. intros. rewrite app_nth2 by lia. f_equal. lia. Qed.
Lemma gz_repeat x n i : 0 <= i < Z.of_nat n -> gz (repeat x n) i = x.
Proof. intros. unfold gz. apply nth_repeat_z. lia. Qed.
Lemma gz_rd b o n i : 0 <= o -> 0 <= n -> o + n <= zlen b -> 0 <= i < n -> gz (rd b (Z.to_nat o) (Z.to_nat n)) i = gz b (o + i).
Proof. unfold gz, zlen. intros. rewrite rd_nth by lia. f_equal. lia. Qed.
Lemma rd_zlen b o n : 0 <= o -> 0 <= n -> o + n <= zlen b -> zlen (rd b (Z.to_nat o) (Z.to_nat n)) = n.
Proof. intros. unfold zlen in *. rewrite rd_length by lia. lia. Qed.
Lemma gz_ext a b : zlen a = zlen b -> (forall i, 0 <= i < zlen a -> gz a i = gz b i) -> a = b.
Proof.
  unfold zlen, gz. intros L H. apply nth_ext with (d := 0) (d' := 0); [lia|]. intros n Hn.
  specialize (H (Z.of_nat n) ltac:(lia)). now rewrite Nat2Z.id in H.
Qed.
Lemma rd_eq b o n x : 0 <= o -> 0 <= n -> o + n <= zlen b -> zlen x = n -> (forall i, 0 <= i < n -> gz b (o + i) = gz x i) ->
  rd b (Z.to_nat o) (Z.to_nat n) = x.
Proof. intros. apply gz_ext; rewrite rd_zlen by auto; [auto|]. intros. rewrite gz_rd by auto. auto. Qed.

(** Writing [bs] at [off], which may be behind the end. *)
Lemma over_zlen b off bs : 0 <= off -> zlen (overwrite b off bs) = Z.max (zlen b) (off + zlen bs).
Proof.
  intros H. unfold overwrite, wr, zlen. rewrite !app_length, firstn_length, skipn_length, app_length, repeat_length. lia.
Qed.
Lemma over_gz b off bs i : 0 <= off -> 0 <= i < Z.max (zlen b) (off + zlen bs) ->
  gz (overwrite b off bs) i = if (off <=? i) && (i <? off + zlen bs) then gz bs (i - off) else if i <? zlen b then gz b i else 0.
Proof.
  intros H Hi. unfold overwrite, wr. set (e := b ++ repeat 0 (Z.to_nat (off - zlen b))).
  assert (He : zlen e = Z.max (zlen b) off) by (unfold e; rewrite zlen_app, zlen_repeat; pose proof (zlen_nonneg b); lia).
  assert (Hf : zlen (firstn (Z.to_nat off) e) = off) by (unfold zlen in *; rewrite firstn_length; lia).
  assert (Ge : forall j, 0 <= j < zlen e -> gz e j = if j <? zlen b then gz b j else 0).
  { intros j Hj. unfold e. destruct (Z.ltb_spec j (zlen b)); [now apply gz_app1; lia|]. rewrite gz_app2 by lia. apply gz_repeat. lia. }
  pose proof (zlen_nonneg bs) as B0.
  destruct (Z.ltb_spec i off).
  { rewrite gz_app1 by lia. replace ((off <=? i) && (i <? off + zlen bs)) with false by lia.
    unfold gz. rewrite nth_firstn by lia. apply Ge. lia. }
  rewrite gz_app2 by lia. rewrite Hf. destruct (Z.ltb_spec i (off + zlen bs)).
  { rewrite gz_app1 by lia. replace ((off <=? i) && true) with true by lia. reflexivity. }
  replace ((off <=? i) && false) with false by lia. rewrite gz_app2 by lia.
  unfold gz at 1. rewrite nth_skipn. transitivity (gz e i); [|apply Ge; lia].
  unfold gz, zlen in *. f_equal. lia.
Qed.

Section Pages.
  Variable c : cfg.
  Notation ps := (pageSize c).
  Hypothesis PS : 0 < ps.

  Lemma psz_ps : psz c = Z.to_nat ps. Proof. reflexivity. Qed.
  Lemma in_page q i : 0 <= q -> 0 <= i < ps -> 0 <= q * ps + i. Proof. nia. Qed.
  Lemma pg_lt n m i : n < m -> i < ps -> n * ps + i < m * ps. Proof. nia. Qed.
  Lemma pg_le n m : n <= m -> n * ps <= m * ps. Proof. nia. Qed.

  (** [m] pages written at page [a]; skipped bytes are [x]. *)
  Lemma blocks b f a m bs b' x (F : file) : bytes_of ps b f -> 0 <= a -> 0 < m -> zlen bs = m * ps ->
    zlen b' = Z.max (zlen b) ((a + m) * ps) ->
    (forall i, 0 <= i < zlen b' -> gz b' i = if (a * ps <=? i) && (i <? (a + m) * ps) then gz bs (i - a * ps) else if i <? zlen b then gz b i else x) ->
    flen F = Z.max (flen f) (a + m) ->
    (forall q, 0 <= q < flen F -> fpg F q = if (a <=? q) && (q <? a + m) then rd bs (Z.to_nat ((q - a) * ps)) (Z.to_nat ps) else if q <? flen f then fpg f q else repeat x (psz c)) ->
    bytes_of ps b' F.
  Proof.
    intros R A M Hbs L G Fl Fp. destruct R as [r1 r2 r3]. assert (E : zlen b' = flen F * ps) by (rewrite L, r1, Fl; nia).
    constructor; [auto|lia|]. intros q Hq. rewrite (Fp q Hq). pose proof (pg_le (q + 1) (flen F) ltac:(lia)) as Q1.
    pose proof (pg_le 0 q ltac:(lia)) as Q0.
    assert (Hb : forall i, 0 <= i < ps -> 0 <= q * ps + i < zlen b') by (intros i Hi; split; [lia|]; rewrite E; lia).
    destruct (Z.leb_spec a q) as [H1|H1]; cbn [andb].
    { destruct (Z.ltb_spec q (a + m)) as [H2|H2]; cbn [andb].
      - pose proof (pg_le a q H1). pose proof (pg_le (q + 1) (a + m) ltac:(lia)).
        apply rd_eq; try lia; [apply rd_zlen; lia|]. intros i Hi. rewrite G by auto.
        replace ((a * ps <=? q * ps + i) && (q * ps + i <? (a + m) * ps)) with true by lia.
        rewrite gz_rd by lia. f_equal. lia.
      - pose proof (pg_le (a + m) q H2). destruct (Z.ltb_spec q (flen f)) as [H3|H3]; [|lia].
        rewrite <- r3 by lia. pose proof (pg_le (q + 1) (flen f) ltac:(lia)).
        apply rd_eq; try lia; [apply rd_zlen; lia|]. intros i Hi. rewrite G by auto.
        replace ((a * ps <=? q * ps + i) && (q * ps + i <? (a + m) * ps)) with false by lia.
        replace (q * ps + i <? zlen b) with true by lia. rewrite gz_rd by lia. reflexivity. }
    pose proof (pg_le (q + 1) a ltac:(lia)). destruct (Z.ltb_spec q (flen f)) as [H3|H3].
    - rewrite <- r3 by lia. pose proof (pg_le (q + 1) (flen f) ltac:(lia)).
      apply rd_eq; try lia; [apply rd_zlen; lia|]. intros i Hi. rewrite G by auto.
      replace ((a * ps <=? q * ps + i) && (q * ps + i <? (a + m) * ps)) with false by lia.
      replace (q * ps + i <? zlen b) with true by lia. rewrite gz_rd by lia. reflexivity.
    - pose proof (pg_le (flen f) q H3). apply rd_eq; try lia; [rewrite zlen_repeat, psz_ps; lia|]. intros i Hi. rewrite G by auto.
      replace ((a * ps <=? q * ps + i) && (q * ps + i <? (a + m) * ps)) with false by lia.
      replace (q * ps + i <? zlen b) with false by lia. rewrite gz_repeat by (rewrite psz_ps; lia). reflexivity.
  Qed.

  Lemma rd_all (l : list Z) n : Z.of_nat n = zlen l -> rd l 0 n = l.
  Proof. intros H. unfold rd. cbn [skipn]. apply firstn_all2. unfold zlen in H. lia. Qed.
  Lemma rd_same n (p : list Z) : zlen p = ps -> rd p (Z.to_nat ((n - n) * ps)) (Z.to_nat ps) = p.
  Proof. intros H. replace ((n - n) * ps) with 0 by lia. apply rd_all. lia. Qed.

  Lemma write_bytes b f n p b' : bytes_of ps b f -> 0 <= n -> zlen p = ps -> zlen b' = Z.max (zlen b) ((n + 1) * ps) ->
    (forall i, 0 <= i < zlen b' -> gz b' i = if (n * ps <=? i) && (i <? (n + 1) * ps) then gz p (i - n * ps) else if i <? zlen b then gz b i else holeFill c) ->
    bytes_of ps b' (file_write c f n p).
  Proof.
    intros R N Hp L G. apply (blocks b f n 1 p b' (holeFill c)); auto; try lia.
    intros q Hq. cbn [file_write fpg flen]. destruct (Z.eqb_spec q n) as [->|Ne].
    - replace ((n <=? n) && (n <? n + 1)) with true by lia. symmetry. now apply rd_same.
    - replace ((n <=? q) && (q <? n + 1)) with false by lia. reflexivity.
  Qed.
  Lemma write_over b f n p : bytes_of ps b f -> 0 <= n -> zlen p = ps -> holeFill c = 0 ->
    bytes_of ps (overwrite b (n * ps) p) (file_write c f n p).
  Proof.
    intros R N Hp H0. pose proof (pg_le 0 n N). apply (write_bytes b f n p); auto.
    - rewrite over_zlen by lia. lia.
    - intros i Hi. rewrite over_zlen in Hi by lia. rewrite over_gz, H0, Hp by lia. replace (n * ps + ps) with ((n + 1) * ps) by lia. reflexivity.
  Qed.
  Lemma erase_over b f a e x : bytes_of ps b f -> 0 <= a < e -> eraseFill c = Some x -> holeFill c = 0 ->
    bytes_of ps (overwrite b (a * ps) (repeat x (Z.to_nat ((e - a) * ps)))) (file_erase c f a e).
  Proof.
    intros R A Ex H0. pose proof (pg_le 0 a ltac:(lia)). pose proof (pg_le a e ltac:(lia)).
    assert (Hr : zlen (repeat x (Z.to_nat ((e - a) * ps))) = (e - a) * ps) by (rewrite zlen_repeat; lia).
    apply (blocks b f a (e - a) (repeat x (Z.to_nat ((e - a) * ps))) _ (holeFill c)); auto; try lia.
    - rewrite over_zlen, Hr by lia. lia.
    - intros i Hi. rewrite over_zlen, Hr in Hi by lia. rewrite over_gz, H0, Hr by lia.
      replace (a * ps + (e - a) * ps) with ((a + (e - a)) * ps) by lia. reflexivity.
    - unfold file_erase. rewrite Ex. cbn [flen]. lia.
    - unfold file_erase. rewrite Ex. cbn [flen fpg]. intros q Hq. replace (a + (e - a)) with e by lia.
      destruct ((a <=? q) && (q <? e)) eqn:I; [|reflexivity]. pose proof (pg_le (q + 1) e ltac:(lia)). pose proof (pg_le a q ltac:(lia)).
      rewrite psz_ps. symmetry. apply rd_eq; try (rewrite ?zlen_repeat; lia). intros i Hi. rewrite !gz_repeat by lia. reflexivity.
  Qed.

  (** Reading page [n]. *)
  Lemma read_bytes b f n : bytes_of ps b f -> 0 <= n ->
    rd b (Z.to_nat (n * ps)) (Z.to_nat ps) = match file_read f n with Some p => p | None => [] end /\
    (forall p, file_read f n = Some p -> zlen p = ps).
  Proof.
    intros [r1 r2 r3] N. unfold file_read. pose proof (pg_le 0 n N). destruct (Z.ltb_spec n (flen f)).
    - replace ((0 <=? n) && true) with true by lia. rewrite r3 by lia. split; [auto|]. intros p [= <-].
      rewrite <- r3 by lia. pose proof (pg_le (n + 1) (flen f) ltac:(lia)). apply rd_zlen; lia.
    - replace ((0 <=? n) && false) with false by lia. pose proof (pg_le (flen f) n ltac:(lia)). split; [|discriminate].
      unfold rd. rewrite skipn_all2 by (unfold zlen in r1; lia). apply firstn_nil.
  Qed.
  Lemma into_full buf p : zlen buf = zlen p -> into buf p = p.
  Proof. intros H. unfold into. rewrite skipn_all2 by (unfold zlen in H; lia). apply app_nil_r. Qed.
  Lemma items_one n : 0 < n -> items n n = 1.
  Proof. intros H. unfold items. destruct (Z.eqb_spec n 0); [lia|]. apply Z.div_same. lia. Qed.
  Lemma items_nil n : 0 < n -> items 0 n = 0.
  Proof. intros H. unfold items. destruct (Z.eqb_spec n 0); [lia|]. apply Z.div_0_l. lia. Qed.
  Lemma empty_bytes : bytes_of ps [] emptyFile.
  Proof. constructor; cbn; try lia. Qed.

  (** * Desktop *)
  Lemma desk_step_ok mock num d f q : desktop_cfg c mock -> num * ps < 2 ^ 32 -> fates d = [] -> bytes_of ps (bts d) f -> req_ok ps num q ->
    exists d', desk_step mock ps d q = Ok (d', snd (page_step c f q)) /\ fates d' = [] /\ bytes_of ps (bts d') (fst (page_step c f q)).
  Proof.
    intros (C1 & C2 & C3) Hn Hf R Q. destruct q as [n buf|n p|a b|w]; cbn [req_ok] in Q; cbn [desk_step page_step fst snd].
    - destruct Q as [N Hb]. pose proof (pg_le (n + 1) num ltac:(lia)). pose proof (pg_le 0 n ltac:(lia)).
      unfold desk_read, lib_seek, next_fate. rewrite Hf. cbn [andb]. unfold lib_read, next_fate. cbn [fates bts bpos]. rewrite Hf.
      rewrite u32_id by lia. replace (ps * n) with (n * ps) by lia. destruct (read_bytes (bts d) f n R ltac:(lia)) as [E L]. cbn [bts bpos]. rewrite E.
      destruct (file_read f n) as [p|].
      + rewrite (L p eq_refl), items_one, into_full by (rewrite ?(L p eq_refl); auto). eexists. split; [reflexivity|]. split; [reflexivity|exact R].
      + change (zlen (@nil Z)) with 0. rewrite items_nil by auto. eexists. split; [reflexivity|]. split; [reflexivity|exact R].
    - destruct Q as [N Hp]. pose proof (pg_le (n + 1) num ltac:(lia)). pose proof (pg_le 0 n ltac:(lia)).
      unfold desk_write, lib_seek, next_fate. rewrite Hf. cbn [andb]. unfold lib_write, next_fate. cbn [fates bts bpos]. rewrite Hf.
      rewrite u32_id by lia. cbn [bts bpos]. rewrite firstn_all2 by (unfold zlen in Hp; lia). rewrite Hp, items_one by auto.
      eexists. split; [reflexivity|]. split; [reflexivity|]. cbn [bts]. apply write_over; auto; lia.
    - destruct Q as [A B]. destruct mock.
      + pose proof (pg_le b num ltac:(lia)). pose proof (pg_le 0 a ltac:(lia)). pose proof (pg_lt a b 0 ltac:(lia) PS).
        unfold mock_erase, lib_seek, next_fate. rewrite Hf. cbn [andb negb]. unfold lib_write, next_fate. cbn [fates bts bpos]. rewrite Hf. cbn [bts bpos].
        rewrite (u32_id (a * ps)) by lia. assert (Hm : 0 < (b - a) * ps < 2 ^ 32) by (clear - PS H H0 H1 A Hn; lia). assert (Hd : 0 < b - a < 2 ^ 32) by (clear - PS Hm A; nia).
        rewrite (u32_id (b - a)) by lia. rewrite (u32_id ((b - a) * ps)) by lia.
        rewrite zlen_repeat. replace (Z.of_nat (Z.to_nat ((b - a) * ps))) with ((b - a) * ps) by lia. rewrite items_one by lia.
        eexists. split; [reflexivity|]. split; [reflexivity|]. cbn [bts]. apply erase_over; auto; lia.
      + unfold no_erase, file_erase. rewrite C1. eexists. split; [reflexivity|]. auto.
    - eexists. split; [reflexivity|]. split; [exact Hf|]. cbn [desk_open bts]. destruct w; [|exact R].
      unfold open_w. rewrite C3. apply empty_bytes.
  Qed.
  Theorem desk_thm mock num qs : forall d f, desktop_cfg c mock -> num * ps < 2 ^ 32 -> fates d = [] -> bytes_of ps (bts d) f -> Forall (req_ok ps num) qs ->
    exists d', serve (desk_step mock ps) d qs = Ok (d', snd (page_run c f qs)) /\ bytes_of ps (bts d') (fst (page_run c f qs)).
  Proof.
    induction qs as [|q qs IH]; intros d f C Hn Hf R Q; cbn [serve page_run].
    - eexists. split; [reflexivity|exact R].
    - inversion Q as [|? ? Q1 Q2]; subst. destruct (desk_step_ok mock num d f q C Hn Hf R Q1) as (d1 & E & F1 & R1).
      rewrite E. cbn [bind]. destruct (page_step c f q) as [f1 a] eqn:P1. cbn [fst snd] in *.
      destruct (IH d1 f1 C Hn F1 R1 Q2) as (d2 & E2 & R2). rewrite E2. cbn [bind]. destruct (page_run c f1 qs) as [f2 l]. cbn [fst snd] in *.
      eexists. split; [reflexivity|exact R2].
  Qed.

  (** * SD card *)
  Lemma pad_ok bits : forall fuel d cur req, 0 <= bits -> fates d = [] -> bpos d = zlen (bts d) -> req - cur <= Z.of_nat fuel -> req + 4 <= 2 ^ bits -> 0 <= cur ->
    exists k, sd_pad fuel bits d cur req = Ok (mkDev (bts d ++ repeat 255 (4 * k)) (bpos d + 4 * Z.of_nat k) [], true) /\
      (cur < req -> req <= cur + 4 * Z.of_nat k < req + 4) /\ (req <= cur -> k = 0%nat).
  Proof.
    induction fuel as [|fuel IH]; intros d cur req Hb Hf Hp Hfu Hr Hc; cbn [sd_pad].
    - destruct (Z.ltb_spec cur req); [lia|]. exists 0%nat. rewrite app_nil_r. split; [|split; [lia|auto]]. destruct d; cbn in *; subst. repeat f_equal. lia.
    - destruct (Z.ltb_spec cur req).
      + unfold sd_fwrite, lib_write, next_fate. rewrite Hf. cbn [repeat]. change (zlen [255; 255; 255; 255]) with 4. cbn [Z.eqb].
        change (4 =? 4) with true. cbv iota. change (4 =? 0) with false. cbv iota. rewrite Z.mod_small by lia.
        assert (Eo : overwrite (bts d) (bpos d) [255; 255; 255; 255] = bts d ++ [255; 255; 255; 255]).
        { unfold overwrite, wr. rewrite Hp. replace (Z.to_nat (zlen (bts d) - zlen (bts d))) with 0%nat by lia. cbn [repeat]. rewrite app_nil_r.
          unfold zlen. rewrite Nat2Z.id, firstn_all, skipn_all2 by lia. now rewrite app_nil_r. }
        rewrite Eo. match goal with |- context [sd_pad fuel bits ?D _ _] => destruct (IH D (cur + 4) req) as (k & E & K1 & K2) end; auto; try lia.
        { cbn [bts bpos]. rewrite zlen_app, Hp. change (zlen [255; 255; 255; 255]) with 4. lia. }
        exists (S k). rewrite E. cbn [bts bpos]. split.
        * replace (4 * S k)%nat with (4 + 4 * k)%nat by lia. rewrite repeat_app, app_assoc. replace (bpos d + 4 * Z.of_nat (S k)) with (bpos d + 4 + 4 * Z.of_nat k) by lia. reflexivity.
        * split; [|lia]. intros _. destruct (Z.lt_ge_cases (cur + 4) req); [lia|]. rewrite (K2 ltac:(lia)). lia.
      + exists 0%nat. rewrite app_nil_r. split; [|split; [lia|auto]]. destruct d; cbn in *; subst. repeat f_equal. lia.
  Qed.

  Lemma sd_step_ok bits num d f q : sd_cfg c -> 4 <= ps < 2 ^ 15 -> 16 <= bits <= 32 -> num * ps < 2 ^ bits -> flen f <= num -> fates d = [] -> bytes_of ps (bts d) f -> req_ok ps num q ->
    match q with QRead n _ => n <= flen f | _ => True end ->
    exists d', sd_step bits ps d q = Ok (d', snd (page_step c f q)) /\ fates d' = [] /\ bytes_of ps (bts d') (fst (page_step c f q)).
  Proof.
    intros (C1 & C2 & C3) Hps Hb Hn Hl Hf R Q I. pose proof (bo_len _ _ _ R) as BL. pose proof (bo_ge _ _ _ R) as BG.
    assert (Hbits : 2 ^ bits <= 2 ^ 32) by (apply Z.pow_le_mono_r; lia).
    destruct q as [n buf|n p|a b|w]; cbn [req_ok] in Q; cbn [sd_step page_step fst snd].
    - destruct Q as [N Hbf]. pose proof (pg_le (n + 1) num ltac:(lia)). pose proof (pg_le 0 n ltac:(lia)). pose proof (pg_le n (flen f) I).
      unfold sd_read, lib_seek, next_fate. rewrite Hf. rewrite u32_id by lia. replace (zlen (bts d) <? ps * n) with false by lia. cbn [andb].
      unfold sd_fread, lib_read, next_fate. cbn [fates bts bpos]. rewrite Hf. cbn [bts bpos fates].
      replace (ps * n) with (n * ps) by lia. destruct (read_bytes (bts d) f n R ltac:(lia)) as [E L]. rewrite E.
      destruct (file_read f n) as [p|].
      + rewrite (L p eq_refl). rewrite i16_id by (change (2 ^ 15) with 32768 in *; lia). destruct (Z.ltb_spec ps 0); [lia|].
        rewrite items_one, into_full by (rewrite ?(L p eq_refl); auto). eexists. split; [reflexivity|]. split; [reflexivity|exact R].
      + change (zlen (@nil Z)) with 0. change (i16 0) with 0. change (0 <? 0) with false. cbv iota. rewrite items_nil by auto. eexists. split; [reflexivity|]. split; [reflexivity|exact R].
    - destruct Q as [N Hp]. pose proof (pg_le (n + 1) num ltac:(lia)). pose proof (pg_le 0 n ltac:(lia)). pose proof (pg_le (flen f) num Hl).
      pose proof (zlen_nonneg (bts d)) as L0.
      unfold sd_write. rewrite u32_id by lia. rewrite !Z.mod_small by lia. rewrite firstn_all2 by (unfold zlen in Hp; lia).
      destruct (Z.ltb_spec (zlen (bts d)) (n * ps)) as [Hs|Hs].
      + unfold lib_seek at 1, next_fate. rewrite Hf. rewrite (Z.ltb_irrefl (zlen (bts d))). cbn [andb negb].
        match goal with |- context [sd_pad ?F bits ?D ?x ?y] => destruct (pad_ok bits F D x y) as (k & E & K1 & _) end; cbn [bts bpos fates]; auto; try lia.
        rewrite E. cbn [bind negb bts bpos]. specialize (K1 Hs). unfold lib_seek, next_fate. cbn [fates bts].
        assert (Lp : zlen (bts d ++ repeat 255 (4 * k)) = zlen (bts d) + 4 * Z.of_nat k) by (rewrite zlen_app, zlen_repeat; lia).
        rewrite Lp. replace (zlen (bts d) + 4 * Z.of_nat k <? n * ps) with false by lia. cbn [andb negb].
        unfold sd_fwrite, lib_write, next_fate. cbn [fates bts bpos]. eexists. split; [reflexivity|]. split; [reflexivity|]. cbn [bts].
        apply (write_bytes (bts d) f n p); auto; try lia.
        * rewrite over_zlen, Lp by lia. lia.
        * intros i Hi. rewrite over_zlen, Lp in Hi by lia. rewrite over_gz, Lp, Hp by lia.
          replace (n * ps + ps) with ((n + 1) * ps) by lia. destruct ((n * ps <=? i) && (i <? (n + 1) * ps)) eqn:In; [reflexivity|].
          replace (i <? zlen (bts d) + 4 * Z.of_nat k) with true by lia. destruct (Z.ltb_spec i (zlen (bts d))); [apply gz_app1; lia|].
          rewrite gz_app2 by lia. rewrite gz_repeat by lia. auto.
      + unfold lib_seek, next_fate. rewrite Hf. replace (zlen (bts d) <? n * ps) with false by lia. cbn [andb negb].
        unfold sd_fwrite, lib_write, next_fate. cbn [fates bts bpos]. rewrite Hf. eexists. split; [reflexivity|]. split; [reflexivity|]. cbn [bts bpos].
        apply (write_bytes (bts d) f n p); auto; try lia.
        * rewrite over_zlen by lia. lia.
        * intros i Hi. rewrite over_zlen in Hi by lia. rewrite over_gz, Hp by lia. replace (n * ps + ps) with ((n + 1) * ps) by lia.
          destruct ((n * ps <=? i) && (i <? (n + 1) * ps)) eqn:In; [reflexivity|]. destruct (Z.ltb_spec i (zlen (bts d))); [reflexivity|lia].
    - unfold no_erase, file_erase. rewrite C1. eexists. split; [reflexivity|]. auto.
    - eexists. split; [reflexivity|]. split; [exact Hf|]. cbn [sd_open bts]. destruct w; [|exact R].
      unfold open_w. rewrite C3. apply empty_bytes.
  Qed.
  Lemma page_step_len num f q : 0 <= num -> eraseFill c = None -> flen f <= num -> req_ok ps num q -> flen (fst (page_step c f q)) <= num.
  Proof.
    intros N0 C1 Hl Q. destruct q as [n buf|n p|a b|w]; cbn [req_ok] in Q; cbn [page_step fst]; auto.
    - cbn [file_write flen]. lia.
    - unfold file_erase. now rewrite C1.
    - destruct w; auto. unfold open_w. destruct (truncates c); [cbn; lia|]. destruct (0 <=? flen f); [auto|cbn; lia].
  Qed.
  Theorem sd_thm bits num qs : forall d f, sd_cfg c -> 4 <= ps < 2 ^ 15 -> 16 <= bits <= 32 -> 0 <= num -> num * ps < 2 ^ bits -> flen f <= num ->
    fates d = [] -> bytes_of ps (bts d) f -> Forall (req_ok ps num) qs -> reads_inside c f qs ->
    exists d', serve (sd_step bits ps) d qs = Ok (d', snd (page_run c f qs)) /\ bytes_of ps (bts d') (fst (page_run c f qs)).
  Proof.
    induction qs as [|q qs IH]; intros d f C H1 H2 N0 Hn Hl Hf R Q I; cbn [serve page_run].
    - eexists. split; [reflexivity|exact R].
    - inversion Q as [|? ? Q1 Q2]; subst. destruct I as [I1 I2]. destruct (sd_step_ok bits num d f q C H1 H2 Hn Hl Hf R Q1 I1) as (d1 & E & F1 & R1).
      pose proof (page_step_len num f q N0 (proj1 C) Hl Q1) as L1.
      rewrite E. cbn [bind]. destruct (page_step c f q) as [f1 a] eqn:P1. cbn [fst snd] in *.
      destruct (IH d1 f1 C H1 H2 N0 Hn L1 F1 R1 Q2 I2) as (d2 & E2 & R2). rewrite E2. cbn [bind]. destruct (page_run c f1 qs) as [f2 l]. cbn [fst snd] in *.
      eexists. split; [reflexivity|exact R2].
  Qed.

  (** * DataFlash *)
  Definition chip_is (start num : which -> Z) (ch : chip) (g : which -> file) : Prop :=
    forall w, flen (g w) = num w /\ forall q, 0 <= q < num w -> fpg (g w) q = firstn (Z.to_nat ps) (ch (start w + q)) /\ ps <= zlen (ch (start w + q)).
  Lemma which_dec (w w' : which) : {w = w'} + {w <> w'}.
  Proof. decide equality. Defined.
  Lemma set_at_eq g w f : set_at g w f w = f. Proof. now destruct w. Qed.
  Lemma set_at_ne g w f w' : w <> w' -> set_at g w f w' = g w'. Proof. destruct w, w'; congruence || reflexivity. Qed.
  Lemma set_at_id g w w' : set_at g w (g w) w' = g w'.
  Proof. destruct (which_dec w w') as [<-|N]; [apply set_at_eq|now apply set_at_ne]. Qed.
  Theorem df_thm start num qs : dataflash_cfg c -> areas start num ->
    forall ch g, chip_is start num ch g ->
    Forall (fun x => req_ok ps (num (fst x)) (snd x)) qs ->
    df_serve start num ps ch qs = Ok (pages_run c g qs).
  Proof.
    intros [C1 C2] A. induction qs as [|[w q] qs IH]; intros ch g R Q; cbn [df_serve pages_run]; [reflexivity|].
    inversion Q as [|? ? Q1 Q2]; subst. cbn [fst snd] in Q1. pose proof (ar_num _ _ A w) as N0. destruct (ar_ge _ _ A w) as [G0 G1].
    assert (Same : chip_is start num ch (set_at g w (g w))) by (intros w'; rewrite set_at_id; apply R).
    destruct (R w) as [Rl Rp].
    destruct q as [n buf|n p|a b|m]; cbn [req_ok] in Q1; cbn [df_step page_step].
    - destruct Q1 as [N Hb]. unfold df_read. destruct (Z.leb_spec (num w) n); [lia|]. rewrite u32_id by lia. cbn [bind].
      destruct (Rp n N) as [P1 P2]. unfold file_read. rewrite Rl. replace ((0 <=? n) && (n <? num w)) with true by lia.
      rewrite into_full by (unfold zlen in *; rewrite firstn_length; lia). rewrite <- P1.
      rewrite (IH ch _ Same Q2). reflexivity.
    - destruct Q1 as [N Hp]. unfold df_write. destruct (Z.leb_spec (num w) n); [lia|]. rewrite u32_id by lia. cbn [bind].
      match goal with |- context [df_serve start num ps ?CH qs] => rewrite (IH CH (set_at g w (file_write c (g w) n p))) end; auto.
      intros w'. destruct (which_dec w w') as [<-|Ne].
      + rewrite set_at_eq. cbn [file_write flen fpg]. split; [lia|]. intros q Hq. rewrite Rl. destruct (Z.eqb_spec q n) as [->|Nq].
        * rewrite Z.eqb_refl. rewrite firstn_firstn, Nat.min_id. rewrite firstn_all2 by (unfold zlen in Hp; lia). split; [reflexivity|lia].
        * destruct (Z.eqb_spec (start w + q) (start w + n)); [lia|]. destruct (Z.ltb_spec q (num w)); [|lia]. apply Rp. auto.
      + rewrite set_at_ne by auto. destruct (R w') as [Rl' Rp']. split; [auto|]. intros q Hq.
        destruct (ar_apart _ _ A w w' Ne); destruct (Z.eqb_spec (start w' + q) (start w + n)); try lia; apply Rp'; auto.
    - cbn [bind]. unfold file_erase. rewrite C1, (IH ch _ Same Q2). reflexivity.
    - cbn [bind]. assert (Em : (if m then open_w c (Some (g w)) else g w) = g w).
      { destruct m; [|reflexivity]. unfold open_w. rewrite C2. destruct (Z.leb_spec 0 (flen (g w))); [reflexivity|lia]. }
      rewrite Em, (IH ch _ Same Q2). reflexivity.
  Qed.
End Pages.

Lemma df_area_thm c : 0 < pageSize c -> forall start num ch qs, dataflash_cfg c -> areas start num -> (forall q, pageSize c <= zlen (ch q)) ->
  Forall (fun x => req_ok (pageSize c) (num (fst x)) (snd x)) qs ->
  df_serve start num (pageSize c) ch qs = Ok (pages_run c (area_file start num (pageSize c) ch) qs).
Proof.
  intros P start num ch qs C A L Q. apply (df_thm c P start num qs C A); auto. intros w. split; [reflexivity|].
  intros q Hq. split; [reflexivity|apply L].
Qed.

(** Facts about the definitions of Base.v. *)
From Verif Require Import Base.
Open Scope Z_scope.

Ltac Zify.zify_post_hook ::= Z.div_mod_to_equations.

Lemma bind_ok {A B} (a : A) (f : A -> res B) : bind (Ok a) f = f a.
Proof. reflexivity. Qed.

Lemma bind_inv {A B} (m : res A) (f : A -> res B) b :
  bind m f = Ok b -> exists a, m = Ok a /\ f a = Ok b.
Proof. destruct m; simpl; intros H; try discriminate. eauto. Qed.

Lemma u32_id z : 0 <= z < 2 ^ 32 -> u32 z = z.
Proof. intros; unfold u32; apply Z.mod_small; auto. Qed.
Lemma u64_id z : 0 <= z < 2 ^ 64 -> u64 z = z.
Proof. intros; unfold u64; apply Z.mod_small; auto. Qed.
Lemma u16_id z : 0 <= z < 2 ^ 16 -> u16 z = z.
Proof. intros; unfold u16; apply Z.mod_small; auto. Qed.
Lemma u8_id z : 0 <= z < 2 ^ 8 -> u8 z = z.
Proof. intros; unfold u8; apply Z.mod_small; auto. Qed.

Lemma sgn_of_id b z : 0 < b -> - 2 ^ (b - 1) <= z < 2 ^ (b - 1) -> sgn_of b z = z.
Proof.
  intros Hb H. unfold sgn_of.
  assert (E : 2 ^ b = 2 * 2 ^ (b - 1)).
  { rewrite <- Z.pow_succ_r by lia. f_equal; lia. }
  assert (0 < 2 ^ (b - 1)) by (apply Z.pow_pos_nonneg; lia).
  destruct (Z_lt_ge_dec z 0).
  - assert (M : z mod 2 ^ b = z + 2 ^ b).
    { rewrite <- (Z_mod_plus_full z 1 (2 ^ b)). rewrite Z.mul_1_l. apply Z.mod_small; lia. }
    rewrite M. destruct (Z.ltb_spec (z + 2 ^ b) (2 ^ (b - 1))); lia.
  - rewrite Z.mod_small by lia. destruct (Z.ltb_spec z (2 ^ (b - 1))); lia.
Qed.
Lemma i8_id z : -128 <= z < 128 -> i8 z = z.
Proof. intros; apply sgn_of_id; simpl; lia. Qed.
Lemma i16_id z : -32768 <= z < 32768 -> i16 z = z.
Proof. intros; apply sgn_of_id; simpl; lia. Qed.
Lemma i32_id z : - 2 ^ 31 <= z < 2 ^ 31 -> i32 z = z.
Proof. intros; apply sgn_of_id; [lia|]. change (32 - 1) with 31. lia. Qed.
Lemma i64_id z : - 2 ^ 63 <= z < 2 ^ 63 -> i64 z = z.
Proof. intros; apply sgn_of_id; [lia|]. change (64 - 1) with 63. lia. Qed.

(** * Little-endian codec *)
Lemma le_enc_length n z : length (le_enc n z) = n.
Proof. revert z; induction n; simpl; intros; auto. Qed.

Lemma le_enc_zlen n z : zlen (le_enc n z) = Z.of_nat n.
Proof. unfold zlen; now rewrite le_enc_length. Qed.

Lemma le_dec_enc_mod n z : le_dec (le_enc n z) = z mod 256 ^ Z.of_nat n.
Proof.
  revert z; induction n; intros z.
  - simpl. now rewrite Z.mod_1_r.
  - cbn [le_enc le_dec]. rewrite IHn.
    replace (Z.of_nat (S n)) with (Z.of_nat n + 1) by lia.
    rewrite Z.pow_add_r, Z.pow_1_r by lia.
    rewrite (Z.mul_comm (256 ^ Z.of_nat n) 256).
    assert (0 < 256 ^ Z.of_nat n) by (apply Z.pow_pos_nonneg; lia). rewrite Z.rem_mul_r; lia.
Qed.

Lemma le_dec_enc n z : 0 <= z < 256 ^ Z.of_nat n -> le_dec (le_enc n z) = z.
Proof. intros; rewrite le_dec_enc_mod; now apply Z.mod_small. Qed.

Lemma le_enc_mod n z : le_enc n (z mod 256 ^ Z.of_nat n) = le_enc n z.
Proof.
  revert z; induction n; intros z; auto.
  cbn [le_enc].
  replace (Z.of_nat (S n)) with (Z.of_nat n + 1) by lia.
  assert (P : 0 < 256 ^ Z.of_nat n) by (apply Z.pow_pos_nonneg; lia).
  rewrite Z.pow_add_r, Z.pow_1_r by lia.
  rewrite (Z.mul_comm (256 ^ Z.of_nat n) 256).
  rewrite Z.rem_mul_r by lia.
  f_equal.
  - rewrite Z.mul_comm, Z_mod_plus_full. now rewrite Z.mod_mod by lia.
  - rewrite <- (IHn (z / 256)). f_equal.
    rewrite Z.mul_comm, Z_div_plus_full by lia.
    rewrite (Z.div_small (z mod 256)) by (apply Z.mod_pos_bound; lia). lia.
Qed.

Definition bytes (l : list Z) : Prop := Forall (fun b => 0 <= b < 256) l.

Lemma le_enc_bytes n z : bytes (le_enc n z).
Proof.
  revert z; induction n; intros; constructor; [|apply IHn].
  apply Z.mod_pos_bound; lia.
Qed.

Lemma le_dec_range l : bytes l -> 0 <= le_dec l < 256 ^ zlen l.
Proof.
  unfold zlen. induction 1 as [|b l Hb Hl IH].
  - simpl; lia.
  - cbn [le_dec length]. replace (Z.of_nat (S (length l))) with (Z.of_nat (length l) + 1) by lia.
    rewrite Z.pow_add_r by lia. lia.
Qed.

Lemma le_enc_dec l : bytes l -> le_enc (length l) (le_dec l) = l.
Proof.
  induction 1 as [|b l Hb Hl IH]; auto.
  cbn [length le_dec le_enc]. f_equal.
  - rewrite Z.mul_comm, Z_mod_plus_full. apply Z.mod_small; auto.
  - rewrite Z.mul_comm, Z_div_plus_full by lia. rewrite (Z.div_small b) by auto. auto.
Qed.

(** * Lists *)
Lemma nth_skipn {A} (l : list A) n i d : nth i (skipn n l) d = nth (n + i) l d.
Proof.
  revert l; induction n; intros l; simpl; auto.
  destruct l; simpl; auto. destruct i; auto.
Qed.
Lemma nth_firstn {A} (l : list A) n i d : (i < n)%nat -> nth i (firstn n l) d = nth i l d.
Proof.
  revert l i; induction n; intros l i H; [lia|].
  destruct l; simpl; auto. destruct i; auto. apply IHn; lia.
Qed.
Lemma nth_ext' {A} (d : A) l l' :
  length l = length l' -> (forall i, (i < length l)%nat -> nth i l d = nth i l' d) -> l = l'.
Proof. intros; eapply nth_ext; eauto. Qed.
Lemma nth_repeat_z (x d : Z) n i : (i < n)%nat -> nth i (repeat x n) d = x.
Proof. revert i; induction n; simpl; intros i H; [lia|]. destruct i; auto. apply IHn; lia. Qed.
Lemma zlen_nonneg {A} (l : list A) : 0 <= zlen l.
Proof. unfold zlen; lia. Qed.
Lemma zlen_app {A} (l l' : list A) : zlen (l ++ l') = zlen l + zlen l'.
Proof. unfold zlen; rewrite app_length; lia. Qed.
Lemma zlen_repeat {A} (x : A) n : zlen (repeat x n) = Z.of_nat n.
Proof. unfold zlen; now rewrite repeat_length. Qed.
Lemma zlen_cons {A} (x : A) l : zlen (x :: l) = zlen l + 1.
Proof. unfold zlen; simpl; lia. Qed.
Lemma zlen_nil {A} : zlen (@nil A) = 0.
Proof. reflexivity. Qed.

(** * Page access *)
Definition zrd (p : page) (off : Z) (n : nat) : list Z := rd p (Z.to_nat off) n.
Definition zwr (p : page) (off : Z) (bs : list Z) : page := wr p (Z.to_nat off) bs.

Lemma rd_length p off n : (off + n <= length p)%nat -> length (rd p off n) = n.
Proof. intros; unfold rd. rewrite firstn_length, skipn_length. lia. Qed.
Lemma zrd_length p off n : 0 <= off -> off + Z.of_nat n <= zlen p -> length (zrd p off n) = n.
Proof. unfold zrd, zlen; intros. apply rd_length; lia. Qed.

Lemma rd_nth p off n i : (off + n <= length p)%nat -> (i < n)%nat ->
  nth i (rd p off n) 0 = nth (off + i) p 0.
Proof. intros; unfold rd. rewrite nth_firstn by lia. apply nth_skipn. Qed.

Lemma wr_length p off bs : (off + length bs <= length p)%nat -> length (wr p off bs) = length p.
Proof.
  intros; unfold wr. rewrite !app_length, firstn_length, skipn_length. lia.
Qed.
Lemma zwr_length p off bs : 0 <= off -> off + zlen bs <= zlen p -> zlen (zwr p off bs) = zlen p.
Proof. unfold zwr, zlen; intros. rewrite wr_length; lia. Qed.

Lemma wr_nth p off bs i : (off + length bs <= length p)%nat ->
  nth i (wr p off bs) 0 =
  if ((off <=? i) && (i <? off + length bs))%nat then nth (i - off) bs 0 else nth i p 0.
Proof.
  intros H. unfold wr.
  destruct (Nat.leb_spec off i); simpl.
  - rewrite app_nth2; rewrite firstn_length, Nat.min_l by lia; [|lia].
    destruct (Nat.ltb_spec i (off + length bs)).
    + rewrite app_nth1 by lia. reflexivity.
    + rewrite app_nth2 by lia. rewrite nth_skipn. f_equal. lia.
  - rewrite app_nth1 by (rewrite firstn_length; lia). apply nth_firstn; lia.
Qed.

Lemma rd_wr_same p off bs : (off + length bs <= length p)%nat ->
  rd (wr p off bs) off (length bs) = bs.
Proof.
  intros H. apply (nth_ext' 0).
  - apply rd_length. rewrite wr_length; lia.
  - intros i Hi. rewrite rd_length in Hi by (rewrite wr_length; lia).
    rewrite rd_nth by (rewrite ?wr_length; lia). rewrite wr_nth by lia.
    destruct (Nat.leb_spec off (off + i)); try lia.
    destruct (Nat.ltb_spec (off + i) (off + length bs)); try lia. simpl.
    f_equal; lia.
Qed.

Lemma rd_wr_other p off bs o n : (off + length bs <= length p)%nat -> (o + n <= length p)%nat ->
  (o + n <= off \/ off + length bs <= o)%nat ->
  rd (wr p off bs) o n = rd p o n.
Proof.
  intros H H1 H2. apply (nth_ext' 0).
  - rewrite !rd_length; rewrite ?wr_length; lia.
  - intros i Hi. rewrite rd_length in Hi by (rewrite wr_length; lia).
    rewrite !rd_nth by (rewrite ?wr_length; lia). rewrite wr_nth by lia.
    destruct (Nat.leb_spec off (o + i)); simpl; auto.
    destruct (Nat.ltb_spec (o + i) (off + length bs)); auto. lia.
Qed.

Lemma zrd_zwr_same p off bs n : 0 <= off -> off + zlen bs <= zlen p -> n = length bs ->
  zrd (zwr p off bs) off n = bs.
Proof. unfold zrd, zwr, zlen; intros; subst. apply rd_wr_same; lia. Qed.

Lemma zrd_zwr_other p off bs o n : 0 <= off -> off + zlen bs <= zlen p ->
  0 <= o -> o + Z.of_nat n <= zlen p -> o + Z.of_nat n <= off \/ off + zlen bs <= o ->
  zrd (zwr p off bs) o n = zrd p o n.
Proof. unfold zrd, zwr, zlen; intros. apply rd_wr_other; lia. Qed.

Lemma rd_app p o n m : rd p o (n + m) = rd p o n ++ rd p (o + n) m.
Proof.
  unfold rd.
  assert (E : forall (q : list Z) a b, skipn a (skipn b q) = skipn (b + a) q).
  { intros q a b. revert q; induction b; intros q; simpl; auto.
    destruct q; auto. now rewrite skipn_nil. }
  rewrite <- (E p n o). generalize (skipn o p) as q. intros q. revert q.
  induction n; intros q; simpl; auto. destruct q; simpl; auto.
  - now rewrite firstn_nil.
  - f_equal. apply IHn.
Qed.
Lemma zrd_app p o n m : 0 <= o ->
  zrd p o (n + m) = zrd p o n ++ zrd p (o + Z.of_nat n) m.
Proof. intros; unfold zrd. rewrite rd_app. do 2 f_equal. lia. Qed.

Lemma zrd_repeat x n o m : 0 <= o -> o + Z.of_nat m <= Z.of_nat n ->
  zrd (repeat x n) o m = repeat x m.
Proof.
  intros. unfold zrd. apply (nth_ext' 0).
  - rewrite rd_length, repeat_length; rewrite ?repeat_length; lia.
  - intros i Hi. rewrite rd_length in Hi by (rewrite repeat_length; lia).
    rewrite rd_nth by (rewrite ?repeat_length; lia). rewrite !nth_repeat_z; lia.
Qed.

Lemma ld_ok p off n : 0 <= off -> off + Z.of_nat n <= zlen p -> ld p off n = Ok (zrd p off n).
Proof.
  intros; unfold ld. destruct (Z.leb_spec 0 off); try lia.
  destruct (Z.leb_spec (off + Z.of_nat n) (zlen p)); try lia. reflexivity.
Qed.
Lemma ld_inv p off n x : ld p off n = Ok x ->
  0 <= off /\ off + Z.of_nat n <= zlen p /\ x = zrd p off n.
Proof.
  unfold ld. destruct (Z.leb_spec 0 off); simpl; try discriminate.
  destruct (Z.leb_spec (off + Z.of_nat n) (zlen p)); simpl; try discriminate.
  intros E; injection E as <-. auto.
Qed.
Lemma st_ok p off bs : 0 <= off -> off + zlen bs <= zlen p -> st p off bs = Ok (zwr p off bs).
Proof.
  intros; unfold st. destruct (Z.leb_spec 0 off); try lia.
  destruct (Z.leb_spec (off + zlen bs) (zlen p)); try lia. reflexivity.
Qed.
Lemma st_inv p off bs x : st p off bs = Ok x ->
  0 <= off /\ off + zlen bs <= zlen p /\ x = zwr p off bs.
Proof.
  unfold st. destruct (Z.leb_spec 0 off); simpl; try discriminate.
  destruct (Z.leb_spec (off + zlen bs) (zlen p)); simpl; try discriminate.
  intros E; injection E as <-. auto.
Qed.
Lemma ldz_ok p off n : 0 <= off -> off + Z.of_nat n <= zlen p ->
  ldz p off n = Ok (le_dec (zrd p off n)).
Proof. intros; unfold ldz. now rewrite ld_ok. Qed.
Lemma ldz_inv p off n x : ldz p off n = Ok x ->
  0 <= off /\ off + Z.of_nat n <= zlen p /\ x = le_dec (zrd p off n).
Proof.
  unfold ldz. intros H. apply bind_inv in H as (a & H & E).
  apply ld_inv in H as (? & ? & ->). injection E as <-. auto.
Qed.

Lemma le_dec_zeros n : le_dec (repeat 0 n) = 0.
Proof. induction n; auto. cbn [repeat le_dec]. lia. Qed.

#[global] Arguments zrd : simpl never.
#[global] Arguments zwr : simpl never.
#[global] Arguments ld : simpl never.
#[global] Arguments st : simpl never.
#[global] Arguments ldz : simpl never.
#[global] Arguments le_enc : simpl never.
#[global] Arguments le_dec : simpl never.

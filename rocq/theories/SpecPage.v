(** Specification of a data page: which bytes it holds for a list of records, and
    which configurations have a layout without overlaps. *)
From Verif Require Import Base Config DB Spec.
Open Scope Z_scope.

(** Configurations whose sizes fit the int8_t fields and whose header regions do
    not overlap the records (sizes as in embedDB.h:93-99 and embedDB.c:162-198).
    [l_mm]: with max/min the header must really contain the four values (true
    exactly when an 8-byte bitmap precedes them); [l_tail]: the last record slot
    lies behind the bytes that initBufferPage sets to 1. *)
Record layout (c : cfg) : Prop := {
  l_ks : 1 <= keySize c <= 8;
  l_ds : 0 <= dataSize c;
  l_bs : 0 <= bitmapSize c;
  l_rec : recordSize c = keySize c + dataSize c + (if useVar c then 4 else 0);
  l_hdr : 6 <= headerSize c;
  l_ps : pageSize c < 65536;
  l_init : 14 + keySize c * 2 + dataSize c <= pageSize c;
  l_mm : useMaxMin c = true -> 14 + keySize c * 2 + dataSize c * 2 <= headerSize c;
  l_bm : useBmap c = true -> 6 + bitmapSize c <= headerSize c /\ bitmapSize c <= 8;
  l_upd : useBmap c = true -> forall d b, length d = dsz c -> length b = bsz c ->
          length (updBM c d b) = bsz c;
  l_fit : 1 <= maxRec c <= 32767;
  l_area : headerSize c + recordSize c * maxRec c <= pageSize c;
  l_tail : maxRec c = 1 \/ 14 + keySize c * 2 + dataSize c <= rec_off c (maxRec c - 1)
}.

(** Bytes of a record on a page: key, data, and the location of its variable data
    (embedDB.h:198-251). *)
Definition enc_rec (c : cfg) (r : rcd) : list Z :=
  le_enc (ksz c) (rkey r) ++ rdata r ++ (if useVar c then le_enc 4 (rvar r) else []).

(** A record the configuration can store. *)
Definition rec_ok (c : cfg) (KB : Z) (r : rcd) : Prop :=
  0 <= rkey r < KB /\ length (rdata r) = dsz c /\ (useVar c = true -> 0 <= rvar r < 2 ^ 32).

(** Smallest / largest data value among records, in the order of the client's
    comparator; the union of the bitmaps of the values. *)
Definition min_data (c : cfg) (d : list Z) (rs : list rcd) : list Z :=
  fold_left (fun m r => if cmpD c (rdata r) m <? 0 then rdata r else m) rs d.
Definition max_data (c : cfg) (d : list Z) (rs : list rcd) : list Z :=
  fold_left (fun m r => if cmpD c (rdata r) m >? 0 then rdata r else m) rs d.
Definition bitmap_of (c : cfg) (rs : list rcd) : list Z :=
  fold_left (fun b r => updBM c (rdata r) b) rs (repeat 0 (bsz c)).

(** [n] bytes of [p] at offset [o]. *)
Definition bytes_at (p : page) (o : Z) (n : nat) : list Z := firstn n (skipn (Z.to_nat o) p).

(** Page [p] holds exactly the records [rs], in order. *)
Record holds (c : cfg) (p : page) (rs : list rcd) : Prop := {
  h_len : zlen p = pageSize c;
  h_cnt : bytes_at p 4 2 = le_enc 2 (zlen rs);
  h_max : zlen rs <= maxRec c;
  h_recs : forall i r, nth_error rs i = Some r ->
    bytes_at p (rec_off c (Z.of_nat i)) (Z.to_nat (recordSize c)) = enc_rec c r;
  h_tail : 1 < maxRec c -> zlen rs < maxRec c ->
    bytes_at p (rec_off c (maxRec c - 1)) (ksz c) = repeat 0 (ksz c);
  h_mm : useMaxMin c = true -> forall r0 rest, rs = r0 :: rest ->
    bytes_at p off_minkey (ksz c) = le_enc (ksz c) (rkey r0) /\
    bytes_at p (off_maxkey c) (ksz c) = le_enc (ksz c) (rkey (last rs r0)) /\
    bytes_at p (off_mindata c) (dsz c) = min_data c (rdata r0) rest /\
    bytes_at p (off_maxdata c) (dsz c) = max_data c (rdata r0) rest;
  h_bm : useBmap c = true -> bytes_at p 6 (bsz c) = bitmap_of c rs
}.

(** The page number in the header of a page. *)
Definition page_id (p : page) : Z := le_dec (bytes_at p 0 4).

(** The comparator returns exactly the sign of the difference on keys below
    [KB] (embedDBPut compares its result with 1). *)
Definition cmp_exact (cmp : Z -> Z -> Z) (KB : Z) : Prop :=
  forall a b, 0 <= a < KB -> 0 <= b < KB ->
    cmp a b = if a <? b then -1 else if a =? b then 0 else 1.

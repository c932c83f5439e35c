(** Specification of memory safety on storage with any contents: which buffers and files
    have the size of a page, and what the numbers in them must satisfy. *)
From Verif Require Import Base Config Spline Storage DB VarData Recovery SpecPage SpecFlash.
Open Scope Z_scope.

(** Every page of a file that can be read is [pageSize] bytes long.  (Nothing is said about
    the bytes.) *)
Definition file_sized (c : cfg) (f : file) : Prop :=
  forall n p, file_read f n = Some p -> zlen p = pageSize c.
Definition disk_sized (c : cfg) (k : disk) : Prop :=
  forall f, kD k = Some f \/ kI k = Some f \/ kV k = Some f -> file_sized c f.

(** Configurations that embedDBInit can work with: a page layout without overlaps, buffers of
    whole pages, and no divisor that is zero. *)
Record workable (c : cfg) : Prop := {
  wk_layout : layout c;
  wk_buf : length (gpage c) = psz c;
  wk_erase : 1 <= eraseSize c;
  wk_num : 0 <= numData c /\ 0 <= numIndex c /\ 0 <= numVar c;
  wk_var : useVar c = true -> 1 <= numVar c;
  wk_idx : useIndex c = true -> 1 <= bitmapSize c /\ 16 + bitmapSize c <= pageSize c
}.

(** The six buffers and all stored pages have the size of a page; the spline exists if it is
    used. *)
Record buffers_fit (c : cfg) (s : state) : Prop := {
  bf_w : zlen (wbuf (sd s)) = pageSize c;
  bf_r : zlen (rbuf (sd s)) = pageSize c;
  bf_iw : zlen (iwbuf (si s)) = pageSize c;
  bf_ir : zlen (irbuf (si s)) = pageSize c;
  bf_vw : zlen (vwbuf (sv s)) = pageSize c;
  bf_vr : zlen (vrbuf (sv s)) = pageSize c;
  bf_D : file_sized c (fD (sio s));
  bf_I : file_sized c (fI (sio s));
  bf_V : file_sized c (fV (sio s));
  bf_spl : useBinary c = false -> spl (sd s) <> None
}.

(** The number of entries that a page claims to hold (bytes 4 and 5 of its header). *)
Definition claims (p : page) : Z := le_dec (bytes_at p 4 2).

(** The write buffers claim no more entries than they have room for. *)
Record counts_fit (c : cfg) (s : state) : Prop := {
  cf_w : 0 <= claims (wbuf (sd s)) <= maxRec c;
  cf_i : useIndex c = true -> 0 <= claims (iwbuf (si s)) <= maxIdx c
}.

(** Arguments of writing calls: data of the configured size; for variable data a page size
    that divides 2^32; no flush while the index write buffer is full. *)
Definition write_ok (c : cfg) (s : state) (o : call) : Prop :=
  match o with
  | CPut _ d => length d = dsz c
  | CPutVar _ d v => length d = dsz c /\ (v <> None -> (pageSize c | 2 ^ 32))
  | CFlush => useIndex c = true -> claims (iwbuf (si s)) < maxIdx c
  | CFlushVar => useVar c = true
  | _ => False
  end.

(** Data pages that claim at least one record and no more than fit. *)
Definition page_sane (c : cfg) (p : page) : Prop := 1 <= claims p <= maxRec c.
Record pages_sane (c : cfg) (s : state) : Prop := {
  ps_r : page_sane c (rbuf (sd s));
  ps_D : forall n p, file_read (fD (sio s)) n = Some p -> page_sane c p
}.

(** Lookups in the index itself are defined: the spline finds a place for [key], and binary
    search has a value to return when it falls off its end. *)
Definition lookup_defined (c : cfg) (s : state) (key : Z) : Prop :=
  if useBinary c then fallthru c <> None
  else forall sp, spl (sd s) = Some sp -> spl_find (cmpK c) sp key <> UB.

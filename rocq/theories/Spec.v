(** Specification of the record store, independent of pages, buffers and the
    learned index: a log of records grouped into pages, of which the oldest
    blocks are forgotten. *)
From Verif Require Import Base.
Open Scope Z_scope.

(** A record: key, fixed data, and (for tables with variable data) the location
    stored with it (embedDB.h:198-251 describes the tuple). *)
Record rcd := mkR { rkey : Z; rdata : list Z; rvar : Z }.

(** The log.  [pages] are all pages ever sealed, oldest first, page number =
    position; pages below [lo] have been evicted; [cur] is the page being filled
    (EmbedDB: the write buffer). *)
Record log := mkLog { pages : list (list rcd); lo : Z; cur : list rcd }.

Definition emptyLog : log := mkLog [] 0 [].

(** Everything ever accepted, and what is still retained. *)
Definition accepted (L : log) : list rcd := concat (pages L) ++ cur L.
Definition livePages (L : log) : list (list rcd) := skipn (Z.to_nat (lo L)) (pages L).
Definition retained (L : log) : list rcd := concat (livePages L) ++ cur L.

(** Sealing the current page: when the area of [D] pages is full, the oldest
    block of [B] pages is dropped first. *)
Definition seal (D B : Z) (L : log) : log :=
  mkLog (pages L ++ [cur L])
        (if zlen (pages L) - lo L >=? D then lo L + B else lo L) [].

(** Appending a record to pages of [N] records. *)
Definition log_put (N D B : Z) (L : log) (r : rcd) : log :=
  if zlen (cur L) >=? N
  then let L' := seal D B L in mkLog (pages L') (lo L') [r]
  else mkLog (pages L) (lo L) (cur L ++ [r]).

Definition log_flush (D B : Z) (L : log) : log :=
  match cur L with [] => L | _ => seal D B L end.

(** Lookup among the retained records. *)
Definition find_key (k : Z) (rs : list rcd) : option rcd :=
  find (fun r => rkey r =? k) rs.

(** The largest key accepted so far. *)
Definition last_key (rs : list rcd) : option Z :=
  match rev rs with [] => None | r :: _ => Some (rkey r) end.

Fixpoint ascending (rs : list rcd) : Prop :=
  match rs with
  | [] => True
  | r :: rest =>
      match rest with [] => True | r' :: _ => rkey r < rkey r' end /\ ascending rest
  end.

(** A run of the log over a list of operations. *)
Inductive hop :=
| HPut (k : Z) (d : list Z)
| HFlush
| HGet (k : Z).

Definition log_step (N D B : Z) (L : log) (o : hop) : log :=
  match o with
  | HPut k d => log_put N D B L (mkR k d 0)
  | HFlush => log_flush D B L
  | HGet _ => L
  end.

(** Keys of the puts of a history, in order. *)
Definition put_keys (h : list hop) : list Z :=
  flat_map (fun o => match o with HPut k _ => [k] | _ => [] end) h.

Fixpoint zascending (l : list Z) : Prop :=
  match l with
  | [] => True
  | k :: rest => match rest with [] => True | k' :: _ => k < k' end /\ zascending rest
  end.

(** Specification of scans: queries, and what an iterator still has to return. *)
From Verif Require Import Base Config Storage DB Spec SpecPage SpecStore Run SpecRun.
Open Scope Z_scope.

(** A query: optional bounds on the key and on the data (embedDB.h:253-261). *)
Record query := mkQ { qMinK : option Z; qMaxK : option Z; qMinD : option (list Z); qMaxD : option (list Z) }.

(** Does a record satisfy the query?  Data values are compared by the client's
    comparator. *)
Definition in_query (c : cfg) (q : query) (r : rcd) : bool :=
  match qMinK q with Some k => k <=? rkey r | None => true end &&
  match qMaxK q with Some k => rkey r <=? k | None => true end &&
  match qMinD q with Some d => cmpD c (rdata r) d >=? 0 | None => true end &&
  match qMaxD q with Some d => cmpD c (rdata r) d <=? 0 | None => true end.

Definition query_ok (KB : Z) (q : query) : Prop :=
  (forall k, qMinK q = Some k -> 0 <= k < KB) /\ (forall k, qMaxK q = Some k -> 0 <= k < KB).

(** Records from record [r] of page [p] on; page number [zlen pages] is the page
    being filled. *)
Definition after (L : log) (p r : Z) : list rcd :=
  skipn (Z.to_nat r) (concat (skipn (Z.to_nat p) (pages L ++ [cur L]))).

(** Bounds of an iterator of the model. *)
Definition it_query (it : iter) : query := mkQ (itMinK it) (itMaxK it) (itMinD it) (itMaxD it).

Definition kv (r : rcd) : Z * list Z := (rkey r, rdata r).

(** A complete scan: start an iterator and call embedDBNext until it returns 0. *)
Definition scan (c : cfg) (s : state) (q : query) (n : nat) : res (state * list (Z * list Z)) :=
  it <- embedDBInitIterator c s (qMinK q) (qMaxK q) (qMinD q) (qMaxD q) ;;
  '(s, _, xs) <- drain c s it n ;;
  Ok (s, xs).

(** What a scan has to return: the retained records that satisfy the query, in
    the order they were accepted (ascending keys). *)
Definition answer (c : cfg) (L : log) (q : query) : list (Z * list Z) :=
  map kv (filter (in_query c q) (retained L)).

(** Does starting an iterator for [q] build a query bitmap (embedDB.c:1592-1599)? *)
Definition uses_bitmap (c : cfg) (q : query) : bool :=
  useBmap c && (match qMinD q, qMaxD q with None, None => false | _, _ => true end).

(** ** Executions mixing operations and iterators *)
Inductive mop :=
| MOp (o : hop)
| MOpen (q : query)            (* start one more iterator *)
| MNext (i : nat).             (* one step of iterator [i] *)
Inductive mout :=
| ROp (x : hout)
| ROpen
| RNext (r : option (Z * list Z)).

Definition upd {A} (l : list A) (i : nat) (x : A) : list A := firstn i l ++ x :: skipn (S i) l.

(** The model: [its] are the iterators opened so far. *)
Definition mstep (c : cfg) (s : state) (its : list iter) (o : mop) : res (state * list iter * mout) :=
  match o with
  | MOp o => '(s, x) <- step c s o ;; Ok (s, its, ROp x)
  | MOpen q =>
      it <- embedDBInitIterator c s (qMinK q) (qMaxK q) (qMinD q) (qMaxD q) ;;
      Ok (s, its ++ [it], ROpen)
  | MNext i =>
      match nth_error its i with
      | None => UB
      | Some it =>
          '(s, it, r, out) <- embedDBNext c s it ;;
          Ok (s, upd its i it, RNext (if r =? 0 then None else out))
      end
  end.
Fixpoint mrun (c : cfg) (s : state) (its : list iter) (h : list mop) : res (state * list iter * list mout) :=
  match h with
  | [] => Ok (s, its, [])
  | o :: h' =>
      '(s, its, x) <- mstep c s its o ;;
      '(s, its, xs) <- mrun c s its h' ;;
      Ok (s, its, x :: xs)
  end.

(** The specification of an iterator: its query and how many of the records ever
    accepted lie before its position; [None] once it has reported the end. *)
Definition cursor := option (query * nat).

(** The first record satisfying [g], and the number of records up to it. *)
Fixpoint first_from {A} (g : A -> bool) (l : list A) : option (A * nat) :=
  match l with
  | [] => None
  | x :: l' => if g x then Some (x, 1%nat) else
      match first_from g l' with Some (y, n) => Some (y, S n) | None => None end
  end.

Definition mspec_step (c : cfg) (L : log) (cs : list cursor) (o : mop) : log * list cursor * mout :=
  match o with
  | MOp o => let '(L', x) := spec_step (maxRec c) (numData c) (eraseSize c) L o in (L', cs, ROp x)
  | MOpen q => (L, cs ++ [Some (q, length (accepted L) - length (retained L))%nat], ROpen)
  | MNext i =>
      match nth i cs None with
      | None => (L, cs, RNext None)
      | Some (q, a) =>
          match first_from (in_query c q) (skipn a (accepted L)) with
          | Some (x, n) => (L, upd cs i (Some (q, (a + n)%nat)), RNext (Some (kv x)))
          | None => (L, upd cs i None, RNext None)
          end
      end
  end.
Fixpoint mspec (c : cfg) (L : log) (cs : list cursor) (h : list mop) : list mout :=
  match h with
  | [] => []
  | o :: h' =>
      let '(L', cs', x) := mspec_step c L cs o in x :: mspec c L' cs' h'
  end.

(** Operations covered: as in [op_ok]; only iterators that have not reported the
    end are advanced. *)
Fixpoint mix_ok (c : cfg) (KB : Z) (L : log) (cs : list cursor) (h : list mop) : Prop :=
  match h with
  | [] => True
  | o :: h' =>
      match o with
      | MOp o => op_ok c KB L o
      | MOpen q => query_ok KB q /\ uses_bitmap c q = false
      | MNext i => nth i cs None <> None
      end /\
      let '(L', cs', _) := mspec_step c L cs o in mix_ok c KB L' cs' h'
  end.

(** As [calm]; in addition the page an advanced iterator stands on is not evicted. *)
Fixpoint mcalm (c : cfg) (s : state) (its : list iter) (h : list mop) : Prop :=
  match h with
  | [] => True
  | o :: h' =>
      match o with
      | MOp o => (o = HFlush -> useIndex c = true ->
                    exists n, get_count (iwbuf (si s)) = Ok n /\ n < maxIdx c)
      | MOpen _ => True
      | MNext i => forall it, nth_error its i = Some it -> minD (sd s) <= itPage it
      end /\
      forall s' its' x, mstep c s its o = Ok (s', its', x) ->
        (nextD (sd s') <> nextD (sd s) -> nextD (sd s) mod numData c <> bufD (sd s)) /\
        mcalm c s' its' h'
  end.

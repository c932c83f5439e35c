(** Specification of the client's side of memory use: what a program of calls may do,
    and what it gets, with no pointers and no blocks.

    The client has iterators and streams as values.  [None] from [icall] means that
    the call breaks the rules of the interface:
    - only embedDBInit, closing iterators and freeing streams after embedDBClose;
    - nothing at all after an embedDBInit that failed;
    - an iterator is set up when it is new or closed, used and closed when set up;
    - a stream variable is filled when it does not hold a stream, read when it does,
      and freed once for every stream (freeing NULL is allowed);
    - embedDBInit gets the memory for its spline. *)
From Verif Require Import Base Config Spline Storage DB VarData Recovery Run Resource.
Open Scope Z_scope.

Inductive phase := IsOpen | IsShut | IsBroken.
Inductive svar := VNull | VHas (st : stream) | VFreed.
Record ideal := mkId {
  i_c : cfg; i_s : state; i_ph : phase;
  i_it : list (option iter);       (* None: closed *)
  i_st : list svar;
  i_fail : list bool }.            (* which of the coming allocations fail *)

(** The next allocation, and the script after it. *)
Definition falls (l : list bool) : bool := match l with true :: _ => true | _ => false end.
(** The six allocations of a spline. *)
Definition enough (c : cfg) (l : list bool) : bool := useBinary c || negb (existsb id (firstn 6 l)).
Definition after_init (c : cfg) (l : list bool) : list bool := if useBinary c then l else skipn 6 l.

(** A stream set up by embedDBGetVar or embedDBNextVar: [vs] is the stream, [r] the
    result, [bad] the result when there is no memory for it, [written] whether the
    variable is set. *)
Definition istream (l : list bool) (sv : list svar) (j : nat) (r bad : Z) (written : bool) (vs : option stream)
  : list bool * list svar * Z :=
  let old := nth j sv VNull in
  match vs with
  | Some st => if falls l then (tl l, put_nth j old sv, bad) else (tl l, put_nth j (VHas st) sv, r)
  | None => (l, put_nth j (if written then VNull else old) sv, r)
  end.

(** Whether variable [j] may be filled: it is new, or does not hold a stream. *)
Definition vacant (sv : list svar) (j : nat) : bool :=
  match nth_error sv j with
  | Some (VHas _) => false
  | Some _ => true
  | None => Nat.eqb j (length sv)
  end.
Definition idle (its : list (option iter)) (i : nat) : bool :=
  match nth_error its i with
  | Some (Some _) => false
  | Some None => true
  | None => Nat.eqb i (length its)
  end.

Definition icall (i : ideal) (x : kcall) : option (res (ideal * kout)) :=
  let c := i_c i in let s := i_s i in
  let is_open := match i_ph i with IsOpen => true | _ => false end in
  match x with
  | KPut k d =>
      if is_open then Some ('(s, r) <- embedDBPut c s k d ;; Ok (mkId c s IsOpen (i_it i) (i_st i) (i_fail i), RInt r None))
      else None
  | KPutVar k d v =>
      if is_open then Some ('(s, r) <- embedDBPutVar c s k d v ;; Ok (mkId c s IsOpen (i_it i) (i_st i) (i_fail i), RInt r None))
      else None
  | KFlush =>
      if is_open then Some ('(s, r) <- embedDBFlush c s ;; Ok (mkId c s IsOpen (i_it i) (i_st i) (i_fail i), RInt r None))
      else None
  | KGet k =>
      if is_open then Some ('(s, r, d) <- embedDBGet c s k ;; Ok (mkId c s IsOpen (i_it i) (i_st i) (i_fail i), RInt r d))
      else None
  | KGetVar j k =>
      if is_open && vacant (i_st i) j then
        Some ('(s, r, d, vs) <- embedDBGetVar c s k ;;
              let '(l, sv, r) := istream (i_fail i) (i_st i) j r (-1) (useVar c && ((r =? 0) || (r =? 1))) vs in
              Ok (mkId c s IsOpen (i_it i) sv l, RInt r d))
      else None
  | KIter n mnk mxk mnd mxd =>
      (* the query bitmap, if the iterator has one, needs memory *)
      let bm := useBmap c && negb (match mnd, mxd with None, None => true | _, _ => false end) in
      if is_open && idle (i_it i) n && negb (bm && falls (i_fail i)) then
        Some (it <- embedDBInitIterator c s mnk mxk mnd mxd ;;
              Ok (mkId c s IsOpen (put_nth n (Some it) (i_it i)) (i_st i) (if bm then tl (i_fail i) else i_fail i), RDone))
      else None
  | KNext n =>
      match is_open, nth_error (i_it i) n with
      | true, Some (Some it) =>
          Some ('(s, it, r, o) <- embedDBNext c s it ;;
                Ok (mkId c s IsOpen (put_nth n (Some it) (i_it i)) (i_st i) (i_fail i), RRec r o))
      | _, _ => None
      end
  | KNextVar n j =>
      match is_open && vacant (i_st i) j, nth_error (i_it i) n with
      | true, Some (Some it) =>
          Some ('(s, it, r, o, vs) <- embedDBNextVar c s it ;;
                let '(l, sv, r) := istream (i_fail i) (i_st i) j r 0 (useVar c && (r =? 1)) vs in
                Ok (mkId c s IsOpen (put_nth n (Some it) (i_it i)) sv l, RRec r o))
      | _, _ => None
      end
  | KRead j len =>
      match is_open, nth_error (i_st i) j with
      | true, Some (VHas st) =>
          Some ('(s, st, bs) <- embedDBVarDataStreamRead c s st len ;;
                Ok (mkId c s IsOpen (i_it i) (put_nth j (VHas st) (i_st i)) (i_fail i), RBytes bs))
      | _, _ => None
      end
  | KFree j =>
      match i_ph i, nth_error (i_st i) j with
      | IsBroken, _ => None
      | ph, Some (VHas _) => Some (Ok (mkId c s ph (i_it i) (put_nth j VFreed (i_st i)) (i_fail i), RDone))
      | ph, Some VNull => Some (Ok (mkId c s ph (i_it i) (i_st i) (i_fail i), RDone))
      | _, _ => None
      end
  | KIterClose n =>
      match i_ph i, nth_error (i_it i) n with
      | IsBroken, _ => None
      | ph, Some (Some _) => Some (Ok (mkId c s ph (put_nth n None (i_it i)) (i_st i) (i_fail i), RDone))
      | _, _ => None
      end
  | KClose => if is_open then Some (Ok (mkId c s IsShut (i_it i) (i_st i) (i_fail i), RDone)) else None
  | KInit c' fs =>
      match i_ph i with
      | IsShut =>
          if enough c' (i_fail i) then
            Some ('(s, r) <- embedDBInit c' (disk_of s) fs ;;
                  Ok (mkId c' s (if r =? 0 then IsOpen else IsBroken) (i_it i) (i_st i) (after_init c' (i_fail i)), RInt r None))
          else None
      | _ => None
      end
  end.

(** Programs: [None] if the program breaks a rule before it ends or is undefined. *)
Fixpoint iprog (i : ideal) (p : list kcall) : option (res (ideal * list kout)) :=
  match p with
  | [] => Some (Ok (i, []))
  | x :: p =>
      match icall i x with
      | None => None
      | Some (Ok (i, y)) =>
          match iprog i p with
          | Some (Ok (i, ys)) => Some (Ok (i, y :: ys))
          | r => r
          end
      | Some UB => Some UB
      | Some Fuel => Some Fuel
      end
  end.

(** Nothing is left to be released. *)
Definition settled (i : ideal) : Prop :=
  i_ph i = IsShut /\ Forall (fun x => x = None) (i_it i) /\ Forall (fun v => forall st, v <> VHas st) (i_st i).

(** What the client sees of the database: the results and embedDBState, but no
    addresses. *)
Definition outcome {A} (r : res (world * A)) : res (state * A) :=
  match r with Ok (w, y) => Ok (w_s w, y) | UB => UB | Fuel => Fuel end.
Definition ioutcome {A} (r : res (ideal * A)) : res (state * A) :=
  match r with Ok (i, y) => Ok (i_s i, y) | UB => UB | Fuel => Fuel end.

(** The client's memory before embedDBInit: numbers not yet used belong to no block. *)
Definition client_mem (m : rmem) : Prop := forall b, (r_next m <= b)%nat -> r_blk m b = None.
(** embedDBInit in the specification. *)
Definition iopen (c : cfg) (k : disk) (fs l : list bool) : res (ideal * Z) :=
  '(s, r) <- embedDBInit c k fs ;;
  Ok (mkId c s (if r =? 0 then IsOpen else IsBroken) [] [] (after_init c l), r).

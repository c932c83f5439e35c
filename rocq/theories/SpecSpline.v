(** Specification side of the learned-index theorems: histories of adds and
    cleans, and the page that holds a key. *)
From Verif Require Import Base Spline DB Spec.
Open Scope Z_scope.

(** [SAdd k]: the next page, whose first key is [k], is added (embedDB.c:991-995);
    [SClean m]: points of pages below [m] are discarded (embedDB.c:2100-2119). *)
Inductive sop := SAdd (k : Z) | SClean (m : Z).

(** First keys of the added pages, in page order. *)
Definition added (ops : list sop) : list Z :=
  flat_map (fun o => match o with SAdd k => [k] | SClean _ => [] end) ops.

(** The spline after a history; pages are numbered from [n]. *)
Fixpoint srun (s : spline) (n : Z) (ops : list sop) : spline :=
  match ops with
  | [] => s
  | SAdd k :: r => srun (spl_add s k n) (n + 1) r
  | SClean m :: r => srun (cleanSpline s m) n r
  end.

(** A clean never asks to discard the newest page. *)
Fixpoint cleans_ok (n : Z) (ops : list sop) : Prop :=
  match ops with
  | [] => True
  | SAdd _ :: r => cleans_ok (n + 1) r
  | SClean m :: r => m < n /\ cleans_ok n r
  end.

(** Page [p] (counting from the first added page) is the last one whose first
    key is at most [q]. *)
Definition page_of (ks : list Z) (q : Z) (p : nat) : Prop :=
  exists k, nth_error ks p = Some k /\ k <= q /\
    forall k', nth_error ks (S p) = Some k' -> q < k'.

(** The comparator orders the keys below [KB]. *)
Definition cmp_ok (cmp : Z -> Z -> Z) (KB : Z) : Prop :=
  forall a b, 0 <= a < KB -> 0 <= b < KB ->
    (cmp a b < 0 <-> a < b) /\ (cmp a b > 0 <-> a > b).

(** What is assumed of floating-point rounding, and rounding to nearest as an instance. *)
From Verif Require Import Base Config Spec SpecRun.
From Coq Require Import QArith Qround Qabs.
Open Scope Z_scope.

(** [fl] rounds with a precision of [p] bits: integers of at most [p] bits are exact,
    the relative error is at most 2^-p, and tiny values stay small.  (float: 24, double:
    53, x87 long double: 64.) *)
Definition rounds (p : Z) (fl : Q -> Q) : Prop :=
  (forall x z, 0 <= z <= 2 ^ p -> (x == inject_Z z)%Q -> (fl x == inject_Z z)%Q) /\
  (forall x, (1 # 2 ^ 100 <= x <= inject_Z (2 ^ 100) -> Qabs (fl x - x) * inject_Z (2 ^ p) <= x)%Q) /\
  (forall x, (0 <= x <= 1 # 2 ^ 100 -> 0 <= fl x <= 1)%Q).

(** Rounding to the nearest number with [p] bits, ties to even; for positive [x]. *)
Definition near (p : Z) (x : Q) : Q :=
  if Qle_bool x 0 then 0%Q
  else
    let n := Qnum x in let d := Zpos (Qden x) in
    (* 2^e <= x < 2^(e+1) *)
    let e0 := Z.log2 n - Z.log2 d in
    let e := if (if e0 <? 0 then n * 2 ^ (- e0) <? d else n <? d * 2 ^ e0) then e0 - 1 else e0 in
    let s := p - 1 - e in
    let a := if s <? 0 then n else n * 2 ^ s in
    let b := if s <? 0 then d * 2 ^ (- s) else d in
    let m := a / b in let r := a mod b in
    let m := if 2 * r <? b then m else if 2 * r >? b then m + 1 else if Z.even m then m else m + 1 in
    if s <? 0 then inject_Z (m * 2 ^ (- s)) else (m # Z.to_pos (2 ^ s))%Q.

(** Lookups before the first page is full must stay between the first and the last key
    of the write buffer ([L]: the log so far; [log_step] of Spec.v). *)
Definition within (l : list rcd) (k : Z) : Prop :=
  l = [] \/ exists a b, In a l /\ In b l /\ rkey a <= k <= rkey b.
Fixpoint lookups_fit (c : cfg) (L : log) (h : list hop) : Prop :=
  match h with
  | [] => True
  | o :: h' =>
      match o with HGet k => pages L <> [] \/ within (cur L) k | _ => True end /\
      lookups_fit c (log_step (maxRec c) (numData c) (eraseSize c) L o) h'
  end.

(** C's conversion of a floating-point number to an integer discards the fraction. *)
Definition towards_zero (x : Q) (z : Z) : Prop :=
  ((0 <= x)%Q -> (inject_Z z <= x < inject_Z (z + 1))%Q) /\
  ((x <= 0)%Q -> (inject_Z (z - 1) < x <= inject_Z z)%Q).

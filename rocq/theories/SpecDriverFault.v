(** Specification of the storage interfaces on failing library calls (property C40). *)
From Verif Require Import Base Drivers.
Open Scope Z_scope.

(** Byte [i] of the file belongs to the pages that a call changes. *)
Definition touches (ps : Z) (q : req) (i : Z) : Prop :=
  match q with
  | QRead _ _ => False
  | QWrite n _ => n * ps <= i < (n + 1) * ps
  | QErase a b => a * ps <= i < b * ps
  | QOpen w => w = true
  end.
(** The number of bytes that a call of the desktop interface moves. *)
Definition moved (mock : bool) (ps : Z) (q : req) : Z :=
  match q with
  | QRead _ _ | QWrite _ _ => ps
  | QErase a b => if mock then (b - a) * ps else 0
  | QOpen _ => 0
  end.
(** The value a call returned. *)
Definition result (a : ans) : Z := match a with ARead r _ => r | ADone r => r end.
(** [b'] has the bytes of [b] outside the pages that [q] changes, and is no shorter. *)
Definition confined (ps : Z) (q : req) (b b' : list Z) : Prop :=
  zlen b <= zlen b' /\
  forall i, 0 <= i < zlen b -> ~ touches ps q i -> nth (Z.to_nat i) b' 0 = nth (Z.to_nat i) b 0.

(** Specification vocabulary for the bitmap functions, the comparators, the
    query comparison and schemas.  Nothing here is code of /repo; each definition
    says what a value stored as bytes means, so that theorems can be stated on
    integers and lists. *)
From Verif Require Import Base.
Open Scope Z_scope.

(** The integer read by the int8 bitmap functions (an int16_t, as
    embedDBUtility.c:48 does) and by the int16 and int64 ones (an int32_t,
    embedDBUtility.c:110, 173). *)
Definition val16 (d : list Z) : Z := i16 (le_dec (firstn 2 d)).
Definition val32 (d : list Z) : Z := i32 (le_dec (firstn 4 d)).

(** The bitmap of a page holding the values [vs]: the update function applied
    once per value, as embedDBPut does (embedDB.c:1110-1114). *)
Fixpoint page_bitmap (upd : list Z -> list Z -> res (list Z)) (vs : list (list Z))
  (bm : list Z) : res (list Z) :=
  match vs with
  | [] => Ok bm
  | v :: r => b <- upd v bm ;; page_bitmap upd r b
  end.

(** The integer a column of bytes encodes: two's complement if signed
    (advancedQueries.c:47-92 compares such columns). *)
Definition col_value (signed : bool) (bs : list Z) : Z :=
  let u := le_dec bs in
  if signed && (2 * u >=? 256 ^ zlen bs) then u - 256 ^ zlen bs else u.

(** The six comparison operators of advancedQueries.h:46-51 on integers. *)
Definition op_holds (operation : Z) (a b : Z) : Prop :=
  match operation with
  | 0 => a > b
  | 1 => a < b
  | 2 => a >= b
  | 3 => a <= b
  | 4 => a = b
  | 5 => a <> b
  | _ => False
  end.

(** Sum of the widths of the columns of a schema (schema.c:130-147). *)
Definition widths (s : list Z) : Z := fold_right (fun c acc => Z.abs c + acc) 0 s.

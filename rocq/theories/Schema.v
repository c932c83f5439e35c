(** Model of src/query-interface/schema.c.  A schema is the list of its
    [columnSizes] (int8_t; negative = signed column); [numCols] is its length. *)
From Verif Require Import Base.
Open Scope Z_scope.

(** embedDBSchema, schema.h:52-55. *)
Definition schema := list Z.

(** The loop of embedDBCreateSchema, schema.c:58-78.  [None] is a NULL result.
    A column is given by its size (int8_t) and its signedness flag:
    embedDB_COLUMN_SIGNED / embedDB_COLUMN_UNSIGNED are 0 / 1 (schema.h:45-46),
    modelled as [Some true] / [Some false]; any other value is [None]. *)
Fixpoint embedDBCreateSchema (cols : list (Z * option bool)) : option schema :=
  match cols with
  | [] => Some []
  | (sz, sg) :: r =>
      if u8 sz <=? 0 then None
      else match sg with
           | None => None
           | Some b =>
               match embedDBCreateSchema r with
               | None => None
               | Some s => Some (i8 (if b then - sz else sz) :: s)
               end
           end
  end.

(** embedDB_IS_COL_SIGNED, schema.h:47. *)
Definition is_signed (col : Z) : bool := col <? 0.

(** getRecordSizeFromSchema, schema.c:141-147, and the size computed by
    createBufferFromSchema, schema.c:96-102 (uint16_t). *)
Fixpoint size_from (acc : Z) (s : schema) : Z :=
  match s with
  | [] => acc
  | c :: r => size_from (u16 (acc + Z.abs c)) r
  end.
Definition getRecordSizeFromSchema (s : schema) : Z := size_from 0 s.
Definition createBufferFromSchema (s : schema) : list Z :=
  repeat 0 (Z.to_nat (getRecordSizeFromSchema s)).

(** getColOffsetFromSchema, schema.c:130-136; reading past the columns is UB. *)
Fixpoint col_off (acc : Z) (s : schema) (n : nat) : res Z :=
  match n, s with
  | O, _ => Ok acc
  | S n', c :: r => col_off (u16 (acc + Z.abs c)) r n'
  | S _, [] => UB
  end.
Definition getColOffsetFromSchema (s : schema) (col : Z) : res Z :=
  col_off 0 s (Z.to_nat (u8 col)).

(** schema->columnSizes[col], e.g. advancedQueries.c:402. *)
Definition col_size (s : schema) (col : Z) : res Z :=
  if col <? 0 then UB
  else match nth_error s (Z.to_nat col) with Some c => Ok c | None => UB end.

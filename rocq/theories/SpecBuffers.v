(** Specification of the page buffers as separate pages: an access to one buffer stays
    inside it and does not touch another. *)
From Verif Require Import Base Config Storage DB Buffers.
Open Scope Z_scope.

(** The buffers by what they are for. *)
Inductive role := DataWrite | DataRead | IndexWrite | IndexRead | VarWrite | VarRead.
(** Under which name the code keeps them. *)
Definition number (c : cfg) (r : role) : Z :=
  match r with
  | DataWrite => DATA_WRITE | DataRead => DATA_READ
  | IndexWrite => INDEX_WRITE | IndexRead => INDEX_READ
  | VarWrite => VAR_WRITE c | VarRead => VAR_READ c
  end.
Definition numbered (c : cfg) (o : bop role) : bop Z :=
  match o with
  | BInit b => BInit (number c b)
  | BStore b o bs => BStore (number c b) o bs
  | BLoad b o n => BLoad (number c b) o n
  | BFill b p => BFill (number c b) p
  | BOut b => BOut (number c b)
  | BCopy d s => BCopy (number c d) (number c s)
  end.

(** The buffers a configuration uses. *)
Definition in_use (c : cfg) (r : role) : Prop :=
  match r with
  | DataWrite | DataRead => True
  | IndexWrite | IndexRead => useIndex c = true
  | VarWrite | VarRead => useVar c = true
  end.

(** Buffers as a family of pages, one for each role. *)
Definition family : Type := role -> page.
Definition role_eqb (a b : role) : bool :=
  match a, b with
  | DataWrite, DataWrite | DataRead, DataRead | IndexWrite, IndexWrite
  | IndexRead, IndexRead | VarWrite, VarWrite | VarRead, VarRead => true
  | _, _ => false
  end.
Definition upd (f : family) (b : role) (p : page) : family := fun x => if role_eqb x b then p else f x.

(** Accesses to buffers in use; the page that is read into a buffer is a whole page. *)
Definition bop_ok (c : cfg) (o : bop role) : Prop :=
  match o with
  | BInit b | BStore b _ _ | BLoad b _ _ | BOut b => in_use c b
  | BFill b p => in_use c b /\ length p = psz c
  | BCopy d s => in_use c d /\ in_use c s
  end.

(** One access on the family: it touches one page, and [ld] and [st] check the bounds
    of that page. *)
Definition buf_step (c : cfg) (f : family) (o : bop role) : res (family * list Z) :=
  match o with
  | BInit b => p <- (match b with VarWrite => Ok (init_var_page c) | _ => init_page c end) ;; Ok (upd f b p, [])
  | BStore b o bs => p <- st (f b) o bs ;; Ok (upd f b p, [])
  | BLoad b o n => x <- ld (f b) o n ;; Ok (f, x)
  | BFill b p => Ok (upd f b p, [])
  | BOut b => Ok (f, f b)
  | BCopy d s => Ok (upd f d (f s), [])
  end.
Fixpoint buf_run (c : cfg) (f : family) (os : list (bop role)) : res (family * list (list Z)) :=
  match os with
  | [] => Ok (f, [])
  | o :: os' => '(f, x) <- buf_step c f o ;; '(f, xs) <- buf_run c f os' ;; Ok (f, x :: xs)
  end.

(** The array holds the family. *)
Definition represents (c : cfg) (m : list Z) (f : family) : Prop :=
  zlen m = bufBlocks c * pageSize c /\
  forall b, in_use c b -> length (f b) = psz c /\
    forall i, 0 <= i < pageSize c -> nth (Z.to_nat (pageSize c * number c b + i)) m 0 = nth (Z.to_nat i) (f b) 0.

(** There is room for the two data buffers.  embedDBInit does not check this
    (C45_one_block_refuted); for an index and for variable data it checks. *)
Definition data_room (c : cfg) : Prop := useIndex c = true \/ useVar c = true \/ 2 <= bufBlocks c.

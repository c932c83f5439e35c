(** Specification: iterating over records with variable data on storage with any contents. *)
From Verif Require Import Base Config Storage DB VarData SpecPage SpecAnyVar.
Open Scope Z_scope.

(** Every record slot of a page, used or not, has a location of [SpecAnyVar.page_located]. *)
Definition slots_located (c : cfg) (p : page) : Prop :=
  forall i, 0 <= i < maxRec c ->
  location c p i = NOVAR \/ location c p i mod pageSize c + 4 <= pageSize c.

(** The same for both data buffers and all stored data pages. *)
Record all_located (c : cfg) (s : state) : Prop := {
  al_w : slots_located c (wbuf (sd s));
  al_r : slots_located c (rbuf (sd s));
  al_D : forall n p, file_read (fD (sio s)) n = Some p -> slots_located c p
}.

(** Calls of embedDBNextVar until it returns 0, at most [n]: the records and streams. *)
Fixpoint walk_var (c : cfg) (s : state) (it : iter) (n : nat) : res (state * list (option (Z * list Z) * option stream)) :=
  match n with
  | O => Ok (s, [])
  | S n' =>
      '(s, it, r, out, vs) <- embedDBNextVar c s it ;;
      if r =? 0 then Ok (s, [])
      else '(s, l) <- walk_var c s it n' ;; Ok (s, (out, vs) :: l)
  end.

(** Specification of how flash storage is used: a page is programmed only when it is
    vacant, and erases act on one whole, aligned block. *)
From Verif Require Import Base Config Storage DB VarData.
Open Scope Z_scope.

(** The calls that a program may make on an open database, with any arguments: any
    iterator and any stream, whether or not the library produced them. *)
Inductive call :=
| CPut (k : Z) (d : list Z)
| CPutVar (k : Z) (d : list Z) (v : option (list Z))
| CFlush
| CFlushVar
| CGet (k : Z)
| CGetVar (k : Z)
| CNext (it : iter)
| CNextVar (it : iter)
| CRead (t : stream) (n : Z).
Definition reading (o : call) : bool :=
  match o with CGet _ | CNext _ | CRead _ _ => true | _ => false end.

Definition call_step (c : cfg) (s : state) (o : call) : res state :=
  match o with
  | CPut k d => '(s, _) <- embedDBPut c s k d ;; Ok s
  | CPutVar k d v => '(s, _) <- embedDBPutVar c s k d v ;; Ok s
  | CFlush => '(s, _) <- embedDBFlush c s ;; Ok s
  | CFlushVar => '(s, _) <- embedDBFlushVar c s ;; Ok s
  | CGet k => '(s, _, _) <- embedDBGet c s k ;; Ok s
  | CGetVar k => '(s, _, _, _) <- embedDBGetVar c s k ;; Ok s
  | CNext it => '(s, _, _, _) <- embedDBNext c s it ;; Ok s
  | CNextVar it => '(s, _, _, _, _) <- embedDBNextVar c s it ;; Ok s
  | CRead t n => '(s, _, _) <- embedDBVarDataStreamRead c s t n ;; Ok s
  end.
Fixpoint calls (c : cfg) (s : state) (os : list call) : res state :=
  match os with [] => Ok s | o :: os' => s <- call_step c s o ;; calls c s os' end.

(** Only the read buffers and the script of faults to come differ. *)
Definition read_only (s s' : state) : Prop :=
  (fD (sio s') = fD (sio s) /\ fI (sio s') = fI (sio s) /\ fV (sio s') = fV (sio s) /\ trace (sio s') = trace (sio s)) /\
  (exists fs, faults (sio s) = fs ++ faults (sio s')) /\
  (exists p n, sd s' = d_rbuf (sd s) p n) /\ (exists p n, si s' = i_rbuf (si s) p n) /\ (exists p n, sv s' = v_rbuf (sv s) p n).

(** Sets of physical pages: those programmed since their block was last erased. *)
Definition pset : Type := Z -> Prop.
(** A page that storage makes up when a write skips pages at the end of the file. *)
Definition hole (c : cfg) : page := repeat (holeFill c) (psz c).
(** Pages other than those in [R] keep their contents; skipped pages come into being
    as holes. *)
Definition rest_kept (c : cfg) (R : pset) (f f' : file) : Prop :=
  forall q, ~ R q ->
    file_read f' q = file_read f q \/ (file_read f q = None /\ file_read f' q = Some (hole c)).

(** An operation on an area of [num] pages.  Programming needs a page that is not
    programmed; erasing acts on one whole, aligned block inside the area. *)
Inductive flash_op (c : cfg) (num : Z) (P : pset) (f : file) : pset -> file -> Prop :=
| op_write p w f' : 0 <= p < num -> ~ P p ->
    file_read f' p = Some w -> rest_kept c (eq p) f f' ->
    flash_op c num P f (fun q => P q \/ q = p) f'
| op_erase b f' : 0 <= b -> b + eraseSize c <= num -> b mod eraseSize c = 0 ->
    (forall q, b <= q < b + eraseSize c ->
       file_read f' q = match eraseFill c with Some x => Some (repeat x (psz c)) | None => file_read f q end) ->
    rest_kept c (fun q => b <= q < b + eraseSize c) f f' ->
    flash_op c num P f (fun q => P q /\ ~ (b <= q < b + eraseSize c)) f'.

(** A storage operation acts on one of the three areas. *)
Definition image : Type := file * file * file.
Definition image_of (s : state) : image := (fD (sio s), fI (sio s), fV (sio s)).
Definition psets : Type := pset * pset * pset.
Definition none_programmed : psets := (fun _ => False, fun _ => False, fun _ => False).
Inductive flash_step (c : cfg) : psets -> image -> psets -> image -> Prop :=
| step_data d i v f g h d' f' : flash_op c (numData c) d f d' f' -> flash_step c (d, i, v) (f, g, h) (d', i, v) (f', g, h)
| step_index d i v f g h i' g' : flash_op c (numIndex c) i g i' g' -> flash_step c (d, i, v) (f, g, h) (d, i', v) (f, g', h)
| step_var d i v f g h v' h' : flash_op c (numVar c) v h v' h' -> flash_step c (d, i, v) (f, g, h) (d, i, v') (f, g, h').
(** From image [a], with nothing programmed, disciplined operations lead through the
    images [t], newest first. *)
Inductive flash_run (c : cfg) (a : image) : list image -> psets -> image -> Prop :=
| run_nil : flash_run c a [] none_programmed a
| run_op t P b P' b' : flash_run c a t P b -> flash_step c P b P' b' -> flash_run c a (b' :: t) P' b'.

(** In terms of contents alone: a page changes only by an erase, or from an erased
    page or a hole. *)
Definition kept (c : cfg) (x : Z) (f f' : file) : Prop :=
  forall q v v', file_read f q = Some v -> file_read f' q = Some v' ->
    v' = v \/ v' = repeat x (psz c) \/ v = repeat x (psz c) \/ v = hole c.
Definition kept_image (c : cfg) (x : Z) (a b : image) : Prop :=
  kept c x (fst (fst a)) (fst (fst b)) /\ kept c x (snd (fst a)) (snd (fst b)) /\ kept c x (snd a) (snd b).
Fixpoint no_overwrite (c : cfg) (x : Z) (t : list image) (a : image) : Prop :=
  match t with
  | [] => True
  | b :: t' => kept_image c x (hd a t') b /\ no_overwrite c x t' a
  end.

(** The sizes of a configuration, unsigned 32-bit numbers; a reset empties the areas. *)
Record sizes (c : cfg) : Prop := {
  sz_empty : truncates c = true;
  sz_erase : 0 < eraseSize c;
  sz_data : 0 < numData c < 2 ^ 32;
  sz_index : useIndex c = true -> 0 < numIndex c < 2 ^ 32;
  sz_var : useVar c = true -> 0 < numVar c < 2 ^ 32
}.

(** How the data area of flash storage is used over a whole lifetime: sessions
    separated by stops, crashes and reopenings (property C39). *)
From Verif Require Import Base Config Storage DB Recovery Spec SpecPage SpecStore Run SpecRun SpecIter SpecReopen SpecFlash.
Open Scope Z_scope.

(** An area that starts empty; disciplined operations lead through the files [t],
    newest first. *)
Inductive area_run (c : cfg) (num : Z) : list file -> pset -> file -> Prop :=
| area_nil : area_run c num [] (fun _ => False) emptyFile
| area_op t P f P' f' : area_run c num t P f -> flash_op c num P f P' f' -> area_run c num (f' :: t) P' f'.

(** The data files of the storage operations of a session, newest first. *)
Definition files (s : state) : list file := map (fun im : image => fst (fst im)) (trace (sio s)).
(** The data files of all storage operations of a lifetime, newest first, and the
    last one.  Operations that a crash cut off are left out. *)
Fixpoint story (c : cfg) (s : state) (es : list event) : res (list file * file) :=
  match es with
  | [] => Ok (files s, fD (sio s))
  | EvOp o :: es' => '(s1, _) <- step c s o ;; story c s1 es'
  | EvReopen c' :: es' =>
      '(s1, r) <- embedDBInit c' (disk_of s) [] ;;
      if r =? 0 then '(t, f) <- story c' s1 es' ;; Ok (t ++ files s, f) else UB
  | EvCrash o i c' :: es' =>
      '(s1, _) <- step c s o ;;
      match nth_error (trace (sio s1)) i with
      | None => UB
      | Some im =>
          '(s2, r) <- embedDBInit c' (disk_of_image im) [] ;;
          if r =? 0 then '(t, f) <- story c' s2 es' ;; Ok (t ++ skipn i (files s1), f) else UB
      end
  end.

(** A stop with the write position at an inner block boundary after wrap-around, the
    block there not yet erased: recovery takes that block for erased
    (C39_reopen_refuted). *)
Definition at_boundary (c : cfg) (P : list (list rcd)) (l : Z) : Prop :=
  numData c < zlen P /\ zlen P mod eraseSize c = 0 /\ zlen P mod numData c <> 0 /\ l = zlen P - numData c.
Definition clean_stop (c : cfg) (L : log) (e : event) : Prop :=
  match e with
  | EvOp _ => True
  | EvReopen _ => ~ at_boundary c (pages L) (lo L)
  | EvCrash o i _ => forall P l, nth_error (op_points c L o) i = Some (P, l) -> ~ at_boundary c P l
  end.
Fixpoint clean_stops (c : cfg) (L : log) (es : list event) : Prop :=
  match es with
  | [] => True
  | e :: es' => clean_stop c L e /\ let '(c1, L1) := event_spec c L e in clean_stops c1 L1 es'
  end.

(** In terms of contents: between two consecutive files a page changes only by an
    erase, or from an erased page or a hole. *)
Fixpoint kept_along (c : cfg) (x : Z) (t : list file) : Prop :=
  match t with
  | [] => True
  | f :: t' => kept c x (hd emptyFile t') f /\ kept_along c x t'
  end.

(** Specification of storage faults: which entries of the fault script a call has
    consumed, and the same state on storage that no longer fails. *)
From Verif Require Import Base Config Storage DB Recovery Spec SpecPage SpecStore Run SpecRun.
Open Scope Z_scope.

(** The state with another fault script. *)
Definition with_faults (s : state) (fs : list bool) : state :=
  set_io s (mkIO fs (fD (sio s)) (fI (sio s)) (fV (sio s)) (trace (sio s))).
Definition heal (s : state) : state := with_faults s [].

(** The call leading from [s] to [s'] consumed the entries [p] of the fault script:
    one per storage operation it attempted. *)
Definition consumed (s s' : state) (p : list bool) : Prop := faults (sio s) = p ++ faults (sio s').

(** The page [w] is on storage, in the data file [F]. *)
Definition on_storage (F : file) (w : page) : Prop := exists q, q < flen F /\ fpg F q = w.

(** [s'] differs from [s] only in the fault script and the read buffers, and each read
    buffer is unchanged or holds what storage has. *)
Definition refilled (s s' : state) : Prop :=
  heal s' = heal (mkS (sio s) (sd s') (si s') (sv s')) /\
  (exists p q, sd s' = d_rbuf (sd s) p q /\ ((p = rbuf (sd s) /\ q = bufD (sd s)) \/ file_read (fD (sio s)) q = Some p)) /\
  (exists p q, si s' = i_rbuf (si s) p q /\ ((p = irbuf (si s) /\ q = bufI (si s)) \/ file_read (fI (sio s)) q = Some p)) /\
  (exists p q, sv s' = v_rbuf (sv s) p q /\ ((p = vrbuf (sv s) /\ q = bufV (sv s)) \/ file_read (fV (sio s)) q = Some p)).

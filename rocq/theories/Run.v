(** Running histories of operations on the model, used by the theorems about
    whole executions and by the examples. *)
From Verif Require Import Base Config Spline Storage DB Recovery Util Spec.
Open Scope Z_scope.

(** What a client observes of one call: the return value, and the data bytes of
    a get (embedDB.h:330-380). *)
Inductive hout :=
| OPut (r : Z)
| OFlush (r : Z)
| OGet (r : Z) (d : option (list Z)).

(** One call, on the state of the model. *)
Definition step (c : cfg) (s : state) (o : hop) : res (state * hout) :=
  match o with
  | HPut k d => '(s, r) <- embedDBPut c s k d ;; Ok (s, OPut r)
  | HFlush => '(s, r) <- embedDBFlush c s ;; Ok (s, OFlush r)
  | HGet k => '(s, r, d) <- embedDBGet c s k ;; Ok (s, OGet r d)
  end.

Fixpoint run (c : cfg) (s : state) (h : list hop) : res (state * list hout) :=
  match h with
  | [] => Ok (s, [])
  | o :: h' =>
      '(s, x) <- step c s o ;;
      '(s, xs) <- run c s h' ;;
      Ok (s, x :: xs)
  end.

(** A fresh database: reset over storage [k]. *)
Definition fresh (c : cfg) (k : disk) : res (state * Z) := embedDBInit c k [].

(** The storage a closed database leaves behind. *)
Definition disk_of (s : state) : disk :=
  mkDisk (Some (fD (sio s))) (Some (fI (sio s))) (Some (fV (sio s))).
Definition disk_of_image (i : file * file * file) : disk :=
  let '(d, x, v) := i in mkDisk (Some d) (Some x) (Some v).
Definition noDisk : disk := mkDisk None None None.

(** Repeated embedDBNext until it returns 0 (at most [n] calls). *)
Fixpoint drain (c : cfg) (s : state) (it : iter) (n : nat) : res (state * iter * list (Z * list Z)) :=
  match n with
  | O => Fuel
  | S n' =>
      '(s, it, r, out) <- embedDBNext c s it ;;
      if r =? 0 then Ok (s, it, [])
      else
        '(s, it, xs) <- drain c s it n' ;;
        Ok (s, it, match out with Some x => x :: xs | None => xs end)
  end.

(** Example configurations: 4-byte keys compared by int32Comparator, 4-byte data
    compared as unsigned integers, int64 bitmaps of 8 bytes
    (the set-up of test/test_embedDB/test_embedDB.cpp uses the same functions). *)
Definition ex_cmpD (a b : list Z) : Z := sign3 (le_dec a - le_dec b).
Definition ex_upd (d b : list Z) : list Z :=
  match updateBitmapInt64 d b with Ok r => r | _ => b end.
Definition ex_build (a b : option (list Z)) : list Z :=
  match buildBitmapInt64FromRange a b with Ok r => r | _ => [] end.
Definition ex_upd16 (d b : list Z) : list Z :=
  match updateBitmapInt16 d b with Ok r => r | _ => b end.
Definition ex_build16 (a b : option (list Z)) : list Z :=
  match buildBitmapInt16FromRange a b with Ok r => r | _ => [] end.

(** [ex_cfg pageSize params numData eraseSize spline-points maxErr]. *)
Definition ex_cfg (ps par nd er np me : Z) (ef ft : option Z) : cfg :=
  mkCfg 4 4 ps 8 er nd 8 8 np me 6 par int32Comparator_wrap ex_cmpD ex_upd ex_build
        (fun _ _ => 1) ef ft (repeat 171 (Z.to_nat ps)) (7, 7) false 0 true.

(** Puts of keys [k0, k0+step, ...] with data [key * 3]. *)
Fixpoint puts (n : nat) (k st : Z) : list hop :=
  match n with
  | O => []
  | S n' => HPut k (le_enc 4 (k * 3)) :: puts n' (k + st) st
  end.

(** Observations used to state concrete executions. *)
Definition outs (x : res (state * list hout)) : res (list hout) :=
  match x with Ok (_, o) => Ok o | UB => UB | Fuel => Fuel end.
Definition last_out (x : res (state * list hout)) : res (option hout) :=
  match x with
  | Ok (_, o) => Ok (match rev o with [] => None | y :: _ => Some y end)
  | UB => UB
  | Fuel => Fuel
  end.

(** Open a reset database with fault script [fs], then run [h]. *)
Definition go (c : cfg) (fs : list bool) (h : list hop) : res (state * list hout) :=
  '(s, _) <- embedDBInit c noDisk fs ;; run c s h.
(** Run [h], close, reopen with [c'] (no reset), then run [h']. *)
Definition go_reopen (c c' : cfg) (h h' : list hop) : res (state * list hout) :=
  '(s, _) <- go c [] h ;;
  '(s, _) <- embedDBInit c' (disk_of s) [] ;;
  run c' s h'.
(** Run [h], stop after all but the last [i] storage operations, reopen, run [h']. *)
Definition go_crash (c c' : cfg) (h : list hop) (i : nat) (h' : list hop)
  : res (state * list hout) :=
  '(s, _) <- go c [] h ;;
  match nth_error (trace (sio s)) i with
  | None => UB
  | Some im => '(s, _) <- embedDBInit c' (disk_of_image im) [] ;; run c' s h'
  end.
Definition init_result (x : res (state * Z)) : res Z :=
  match x with Ok (_, r) => Ok r | UB => UB | Fuel => Fuel end.

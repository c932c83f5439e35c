(** Properties of query operators that the code does not have in full generality:
    concrete executions of the model. *)
From Verif Require Import Base Config Spline Storage DB Recovery Schema Query Util Spec SpecUtil SpecPage SpecStore Run SpecRun
  SpecIter SpecQuery.
Open Scope Z_scope.

(** Tables of one configuration filled by histories. *)
Definition envR (c : cfg) (h0 h1 : list hop) : res env :=
  '(s0, _) <- embedDBInit c noDisk [] ;; '(s0, _) <- run c s0 h0 ;;
  '(s1, _) <- embedDBInit c noDisk [] ;; '(s1, _) <- run c s1 h1 ;;
  Ok (fun n => (c, match n with O => s0 | _ => s1 end)).
Definition dbR (c : cfg) (h0 h1 : list hop) : nat -> cfg * log :=
  fun n => (c, log_of c (match n with O => h0 | _ => h1 end)).
Definition rows_of (x : res (env * list (list Z))) : res (list (list Z)) := '(_, r) <- x ;; Ok r.

(** C24: after a join has reported the end, it can go on and yield a record that
    does not belong to the result: the scan with an upper bound has copied the
    first record beyond the bound (key 13) into its record buffer, and the second
    input is advanced to that key.  [fetch] until the end, once more. *)
Definition fetch_more (f n : nat) (e : env) (p : plan) : res (list (list Z) * bool) :=
  o <- create e p ;; o <- op_init e o ;;
  (fix go (n : nat) (e : env) (o : op) : res (list (list Z) * bool) :=
     match n with
     | O => Fuel
     | S n' =>
         '(e, o, r) <- op_next f e o ;;
         if r then b <- deref (op_buf o) ;; '(xs, m) <- go n' e o ;; Ok (b :: xs, m)
         else '(_, _, r) <- op_next f e o ;; Ok ([], r)
     end) n e o.
Definition cfgR : cfg := ex_cfg 64 32 4 2 8 1 None None.
Definition joinR : plan := PJoin (PScan 0 (mkQ None (Some 12) None None) [4; 4]) (PScan 1 (mkQ None None None None) [4; 4]).
Theorem C24_join_after_end_refuted : exists c h0 h1 p xs,
  zascending (put_keys h0) /\ zascending (put_keys h1) /\
  xs = denote (dbR c h0 h1) p /\
  (e <- envR c h0 h1 ;; fetch_more 40 40 e p) = Ok (xs, true).
Proof.
  exists cfgR, (puts 24 1 1), (puts 12 9 1), joinR. eexists.
  split; [vm_compute; repeat split|]. split; [vm_compute; repeat split|]. split; [vm_compute; reflexivity|].
  vm_compute. reflexivity.
Qed.
Print Assumptions C24_join_after_end_refuted.

(** C25: therefore counting the result of that join gives eight more groups. *)
Definition countR : plan := PAgg (fun _ _ => true) [FCount] joinR.
Theorem C25_count_of_join_refuted : exists c h0 h1 p,
  zascending (put_keys h0) /\ zascending (put_keys h1) /\
  denote (dbR c h0 h1) p = [[4; 0; 0; 0]] /\
  rows_of (e <- envR c h0 h1 ;; run_plan 40 40 e p) = Ok ([4; 0; 0; 0] :: repeat [1; 0; 0; 0] 8).
Proof.
  exists cfgR, (puts 24 1 1), (puts 12 9 1), countR.
  split; [vm_compute; repeat split|]. split; [vm_compute; repeat split|]. split; vm_compute; reflexivity.
Qed.
Print Assumptions C25_count_of_join_refuted.

(** C25: the sum of a signed column of more than 4 bytes shifts the int 128 by more
    than the width of int. *)
Definition cfg8 : cfg :=
  mkCfg 4 8 64 0 2 4 8 8 8 1 6 32 int32Comparator_wrap (fun a b => Z.sgn (le_dec a - le_dec b)) (fun _ b => b) (fun _ _ => [])
        (fun _ _ => 1) None None (repeat 171 64) (7, 7) false 0 true.
Definition sumR : plan := PAgg (fun _ _ => true) [FSum 1] (PScan 0 (mkQ None None None None) [4; -8]).
Definition hWide : list hop := map (fun k => HPut k (le_enc 8 (k * 5))) [1; 2; 3].
Theorem C25_signed_wide_sum_refuted : exists c h p,
  zascending (put_keys h) /\ denote (dbR c h []) p = [[30; 0; 0; 0; 0; 0; 0; 0]] /\
  rows_of (e <- envR c h [] ;; run_plan 40 40 e (PScan 0 (mkQ None None None None) [4; -8])) =
    Ok [[1; 0; 0; 0; 5; 0; 0; 0; 0; 0; 0; 0]; [2; 0; 0; 0; 10; 0; 0; 0; 0; 0; 0; 0]; [3; 0; 0; 0; 15; 0; 0; 0; 0; 0; 0; 0]] /\
  rows_of (e <- envR c h [] ;; run_plan 40 40 e p) = UB.
Proof.
  exists cfg8, hWide, sumR. split; [vm_compute; repeat split|]. split; [vm_compute; reflexivity|].
  split; vm_compute; reflexivity.
Qed.
Print Assumptions C25_signed_wide_sum_refuted.

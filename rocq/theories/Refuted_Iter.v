(** Properties of iterators that the code does not have in full generality:
    concrete executions of the model. *)
From Verif Require Import Base Config Spline Storage DB Recovery Util Spec Run SpecRun SpecIter.
Open Scope Z_scope.

(** Keys returned by a scan after a history on a fresh database. *)
Definition scan_keys (c : cfg) (h : list hop) (q : query) : res (list Z) :=
  '(s, r) <- embedDBInit c noDisk [] ;;
  '(s, _) <- run c s h ;;
  '(_, xs) <- scan c s q 200 ;;
  Ok (map fst xs).
Definition expected_keys (c : cfg) (h : list hop) (q : query) : list Z :=
  map fst (answer c (log_of c h) q).
Definition qAll : query := mkQ None None None None.

(** 2-byte bitmaps with the int16 functions of the repository. *)
Definition cfg16 (ps par nd er : Z) : cfg :=
  mkCfg 4 4 ps 2 er nd 8 8 8 1 6 par int32Comparator_wrap ex_cmpD ex_upd16 ex_build16
        (fun _ _ => 1) None None (repeat 171 (Z.to_nat ps)) (7, 7) false 0 true.

(** C04 (and C31): in binary-search mode starting an iterator dereferences the
    spline, which was never allocated. *)
Theorem C04_binary_mode_refuted : exists c h,
  useBinary c = true /\ zascending (put_keys h) /\ (exists xs, outs (go c [] h) = Ok xs) /\
  scan_keys c h qAll = UB.
Proof.
  exists (ex_cfg 64 (32 + 128 + 256) 4 2 8 1 None (Some 0)), (puts 10 1 1).
  split; [reflexivity|]. split; [vm_compute; repeat split|]. split; [eexists; vm_compute; reflexivity|].
  vm_compute. reflexivity.
Qed.
Print Assumptions C04_binary_mode_refuted.

(** C04: a scan after wrap-around returns seven evicted records and misses seven
    retained ones, because the read cache still holds the old page. *)
Theorem C04_stale_cache_refuted : exists c h xs,
  zascending (put_keys h) /\ scan_keys c h qAll = Ok xs /\ In 1 xs /\ ~ In 29 xs /\
  ~ In 1 (expected_keys c h qAll) /\ In 29 (expected_keys c h qAll).
Proof.
  exists (ex_cfg 64 32 4 2 8 1 None None), (puts 8 1 1 ++ [HGet 1] ++ puts 49 9 1). eexists.
  split; [vm_compute; repeat split|]. split; [vm_compute; reflexivity|].
  split; [now left|]. split; [vm_compute; intuition discriminate|].
  split; [vm_compute; intuition discriminate|vm_compute; now left].
Qed.
Print Assumptions C04_stale_cache_refuted.

(** C05: a flush writes a partly filled index page; from then on the bitmaps are
    looked up in the wrong slots and a matching record is skipped. *)
Theorem C05_flush_breaks_index_refuted : exists c h q k,
  zascending (put_keys h) /\ scan_keys c h q = Ok [] /\ expected_keys c h q = [k].
Proof.
  exists (cfg16 64 (1 + 8 + 32) 8 2),
    [HPut 1 (le_enc 4 3); HFlush; HPut 2 (le_enc 4 62); HFlush; HPut 3 (le_enc 4 9); HFlush],
    (mkQ None None (Some (le_enc 4 60)) (Some (le_enc 4 75))), 2.
  split; [vm_compute; repeat split|]. split; vm_compute; reflexivity.
Qed.
Print Assumptions C05_flush_breaks_index_refuted.

(** C05: with the int64 bitmap functions a matching record is skipped even though
    the index is intact (see C27_int64_range_misses_refuted). *)
Theorem C05_int64_bitmap_refuted : exists c h q k,
  zascending (put_keys h) /\ scan_keys c h q = Ok [] /\ expected_keys c h q = [k].
Proof.
  exists (ex_cfg 64 (1 + 8 + 32) 8 2 8 1 None None), [HPut 1 (le_enc 4 500); HFlush],
    (mkQ None None (Some (le_enc 4 320)) (Some (le_enc 4 600))), 1.
  split; [vm_compute; repeat split|]. split; vm_compute; reflexivity.
Qed.
Print Assumptions C05_int64_bitmap_refuted.

(** C31 (and C05): with bitmaps but without an index file, a scan with a data
    bound divides by the uninitialised number of index records per page. *)
Theorem C31_bitmap_scan_without_index_refuted : exists c h q,
  zascending (put_keys h) /\ (exists xs, outs (go c [] h) = Ok xs) /\ scan_keys c h q = UB.
Proof.
  exists (cfg16 64 (8 + 32) 8 2), (puts 10 1 1), (mkQ None None (Some (le_enc 4 6)) None).
  split; [vm_compute; repeat split|]. split; [eexists; vm_compute; reflexivity|vm_compute; reflexivity].
Qed.
Print Assumptions C31_bitmap_scan_without_index_refuted.

(** C33: an iterator that has reported the end points behind the write buffer;
    when more records are put, its next step skips those of the current page. *)
Definition next_outs (c : cfg) (h : list mop) : res (list (option (Z * list Z))) :=
  '(s, _) <- embedDBInit c noDisk [] ;;
  '(_, _, xs) <- mrun c s [] h ;;
  Ok (flat_map (fun x => match x with RNext r => [r] | _ => [] end) xs).
Theorem C33_exhausted_iterator_skips_refuted : exists c d,
  next_outs c (map MOp (puts 1 1 1) ++ [MOpen qAll; MNext 0; MNext 0] ++ map MOp (puts 7 2 1) ++ [MNext 0])
  = Ok [Some (1, d 1); None; Some (8, d 8)].
Proof.
  exists (ex_cfg 64 32 4 2 8 1 None None), (fun k => le_enc 4 (k * 3)). vm_compute. reflexivity.
Qed.
Print Assumptions C33_exhausted_iterator_skips_refuted.

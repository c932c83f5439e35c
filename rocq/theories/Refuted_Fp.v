(** Where the floating-point computations go wrong: what the conditions of Props_Fp.v are
    needed for (property C44).  All witnesses use rounding to nearest. *)
From Verif Require Import Base Config Spline Storage DB VarData Recovery Spec SpecSpline SpecPage SpecStore Run SpecRun SpecReopen
  Util SpecVar ExFacts ExVar ExReopen Fp SpecFp ExFp Props_Spline.
From Coq Require Import QArith.
Open Scope Z_scope.

(** The results of a history on an empty database, with exact and with rounded
    arithmetic. *)
Definition exactly (c : cfg) (h : list hop) : res (list hout) :=
  '(s, _) <- embedDBInit c noDisk [] ;; '(_, xs) <- run c s h ;; Ok xs.
Definition rounded (fl fd : Q -> Q) (c : cfg) (h : list hop) : res (list hout) :=
  '(s, _) <- embedDBInit c noDisk [] ;; '(_, xs) <- run_fp fl fd c s h ;; Ok xs.

(** A get before the first page is written, of a key below or far above the records in the
    write buffer: the conversion of the estimate to int16_t is undefined
    (embedDB.c:1288). *)
Theorem C44_first_page_lookup_refuted : exists c h k1 k2,
  exactly c (h ++ [HGet k1; HGet k2]) = Ok (repeat (OPut 0) (length h) ++ [OGet (-1) None; OGet (-1) None]) /\
  rounded f32 f80 c (h ++ [HGet k1]) = UB /\ rounded f32 f80 c (h ++ [HGet k2]) = UB.
Proof.
  exists eA, (puts 2 5 1), 3, (2 ^ 20). split; [vm_compute; reflexivity|]. split; vm_compute; reflexivity.
Qed.
Print Assumptions C44_first_page_lookup_refuted.

(** A stored key is not found on a platform whose long double has 24 bits (AVR): page 1
    holds the keys 2^24 and 3 * 2^24 - 1, the range searched for the latter is pages 2 to
    4.  This happens without any undefined behaviour. *)
Definition cFar := ex_cfg 64 32 16 2 8 1 None None.
Definition hFar : list hop :=
  let G := 2 ^ 24 in let one k := [HPut k [1; 2; 3; 4]; HFlush] in
  one 0 ++ [HPut G [1; 2; 3; 4]; HPut (3 * G - 1) [5; 6; 7; 8]; HFlush] ++ one (3 * G) ++ one (3 * G + 1) ++
  one (4 * G) ++ one (5 * G) ++ one (6 * G) ++ one (7 * G).
Theorem C44_short_long_double_loses_key_refuted : exists c h k xs d,
  exactly c (h ++ [HGet k]) = Ok (xs ++ [OGet 0 (Some d)]) /\
  rounded f32 f32 c (h ++ [HGet k]) = Ok (xs ++ [OGet (-1) None]) /\
  rounded f32 f64 c (h ++ [HGet k]) = Ok (xs ++ [OGet 0 (Some d)]).
Proof.
  exists cFar, hFar, (3 * 2 ^ 24 - 1),
    ([OPut 0; OFlush 0; OPut 0; OPut 0; OFlush 0] ++ concat (repeat [OPut 0; OFlush 0] 6)), [5; 6; 7; 8].
  split; [vm_compute; reflexivity|]. split; vm_compute; reflexivity.
Qed.
Print Assumptions C44_short_long_double_loses_key_refuted.

(** The same with 53 bits (ARM) for 8-byte keys: the page of the key is outside of the
    range returned. *)
Theorem C44_double_misses_page_refuted : exists ks q p loc low high,
  zascending ks /\ Forall (fun k => 0 <= k < 2 ^ 56) ks /\ page_of ks q p /\
  spl_find_fp f64 ex_scmp (srun (spl_init 8 1 (7, 7)) 0 (map SAdd ks)) q = Ok (loc, low, high) /\ Z.of_nat p < low.
Proof.
  exists (map (fun k => k * 2 ^ 53) [0; 1; 3] ++ [3 * 2 ^ 53 + 1] ++ map (fun k => k * 2 ^ 53) [4; 5; 6; 7]), (3 * 2 ^ 53 - 1), 1%nat, 3, 2, 4.
  split; [cbn; lia|]. split; [repeat (constructor; [cbn; lia|]); constructor|].
  split; [exists (2 ^ 53); cbn; split; auto; split; [lia|]; intros k' [= <-]; lia|].
  split; [vm_compute; reflexivity|lia].
Qed.
Print Assumptions C44_double_misses_page_refuted.

(** Reopening after [h]: with exact arithmetic, and with the statistics. *)
Definition reopens (c c' : cfg) (h : list hop) : res (Z * res Z) :=
  '(s, _) <- embedDBInit c noDisk [] ;; '(s, _) <- run c s h ;;
  '(_, r) <- embedDBInit c' (disk_of s) [] ;;
  Ok (r, '(_, r) <- embedDBInit_fp f32 c' (disk_of s) ;; Ok r).

(** Reopening a database after a flush of a page that is not full: getMaxError looks at
    all maxRecordsPerPage slots, the zero keys of the unused ones wrap around, and with
    consecutive keys (slope 1) the conversion to int32_t is undefined (embedDB.c:941). *)
Theorem C44_reopen_partial_page_refuted : exists c c' h,
  reopens c c' (h ++ [HFlush]) = Ok (0, UB) /\ reopens c c' h = Ok (0, Ok 0).
Proof. exists eA, eAr, (puts 5 1 1). split; vm_compute; reflexivity. Qed.
Print Assumptions C44_reopen_partial_page_refuted.

(** Reopening with 8-byte keys: the slope is taken of the blank write buffer ("this is
    incorrect, should be buffer. TODO: fix", embedDB.c:959) and is 1, so keys of full
    pages overflow the conversion. *)
Definition c8 (par : Z) : cfg :=
  mkCfg 8 4 64 8 2 4 8 8 8 1 6 par (fun a b => sign3 (a - b)) ex_cmpD ex_upd ex_build
        (fun _ _ => 1) None None (repeat 171 64) (7, 7) false 0 true.
Theorem C44_reopen_long_keys_refuted : exists c c' h1 h2,
  reopens c c' h1 = Ok (0, UB) /\ reopens c c' h2 = Ok (0, Ok 0).
Proof. exists (c8 32), (c8 0), (puts 9 1 (2 ^ 40)), (puts 9 1 1000). split; vm_compute; reflexivity. Qed.
Print Assumptions C44_reopen_long_keys_refuted.

(** Binary search ends at a page that need not contain the key (embedDB.c:1379-1403 has
    no return for it), and the estimate of a key below that page is undefined. *)
Theorem C44_binary_search_miss_refuted : exists c h k,
  exactly c (h ++ [HGet k]) = Ok (repeat (OPut 0) (length h) ++ [OGet (-1) None]) /\
  rounded f32 f80 c (h ++ [HGet k]) = UB.
Proof. exists eB, (puts 30 10 10), 5. split; vm_compute; reflexivity. Qed.
Print Assumptions C44_binary_search_miss_refuted.

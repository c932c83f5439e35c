(** Properties of variable-length data that the code does not have in full
    generality: concrete executions of the model. *)
From Verif Require Import Base Config Spline Storage DB VarData Recovery Util Spec SpecPage SpecStore Run SpecRun SpecVar.
Open Scope Z_scope.

Definition vgoR (c : cfg) (h : list vop) : res (state * list vout) :=
  '(s, _) <- embedDBInit c noDisk [] ;; vrun c s h.
(** The results of the last [n] calls of a history. *)
Definition vlast (n : nat) (x : res (state * list vout)) : res (list vout) :=
  '(_, l) <- x ;; Ok (skipn (length l - n) l).
Fixpoint vputsR (n : nat) (k len : Z) : list vop :=
  match n with
  | O => []
  | S n' => VPut k (le_enc 4 (k * 3)) (Some (repeat (k mod 256) (Z.to_nat len))) :: vputsR n' (k + 1) len
  end.
Fixpoint vnoneR (n : nat) (k : Z) : list vop :=
  match n with O => [] | S n' => VPut k (le_enc 4 k) None :: vnoneR n' (k + 1) end.
(** 64-byte pages, 4 records each, 56 bytes of variable data each. *)
Definition cV : cfg := ex_cfg 64 48 8 2 8 1 None None.
Definition cVe : cfg := ex_cfg 64 48 8 2 8 1 (Some 255) None.
Definition cW : cfg := ex_cfg 64 48 40 2 16 1 None None.
Definition cM : cfg := ex_cfg 4096 48 8 2 16 1 None None.

(** C15: the page in the variable read buffer is not invalidated when it is
    overwritten: the payload of key 10 is read as bytes of that of key 2. *)
Theorem C15_stale_cache_refuted : exists c h k b d,
  vlookup (vstore_of c h) k [100] = OVGetVar 0 (Some d) (Some [b]) /\
  (forall x, In x b -> x = k) /\
  vlast 1 (vgoR c (h ++ [VGetVar k [100]])) = Ok [OVGetVar 0 (Some d) (Some [repeat 2 50])] /\ k <> 2.
Proof.
  exists cV, (vputsR 10 1 50), 10. eexists. eexists. split; [vm_compute; reflexivity|]. split; [|split; [vm_compute; reflexivity|discriminate]].
  intros x Hx. change (In x (repeat 10 50)) in Hx. now apply repeat_spec in Hx.
Qed.
Print Assumptions C15_stale_cache_refuted.

(** C15 and C01: looking up the stream of a buffered record writes the record out
    without checking the data read buffer: a later get of another key fails. *)
Theorem C15_buffered_lookup_breaks_get_refuted : exists c h,
  vlast 3 (vgoR c (h ++ [VGet 2; VGetVar 12 [30]; VGet 2])) =
    Ok [OVGet 0 (Some [6; 0; 0; 0]); OVGetVar 0 (Some [36; 0; 0; 0]) (Some [repeat 12 20]); OVGet (-1) None] /\
  find_key 2 (retained (vlog (vstore_of c h))) = Some (mkR 2 [6; 0; 0; 0] 0).
Proof. exists cW, (vputsR 12 1 20). split; vm_compute; reflexivity. Qed.
Print Assumptions C15_buffered_lookup_breaks_get_refuted.

(** C15 and C31: with more than 127 records on a page the binary search inside the
    page runs with a negative record number. *)
Theorem C15_many_records_refuted : exists c h k b,
  maxRec c = 340 /\ payload k (vpay (vstore_of c h)) = Some b /\ In k (map rkey (retained (vlog (vstore_of c h)))) /\
  vlast 1 (vgoR c (h ++ [VGetVar k [30]])) = UB.
Proof.
  exists cM, (vputsR 150 1 3 ++ [VFlush]), 140. eexists. split; [reflexivity|]. split; [vm_compute; reflexivity|].
  split; [vm_compute; tauto|]. vm_compute. reflexivity.
Qed.
Print Assumptions C15_many_records_refuted.

(** C16: a put that finds the data buffer full writes the variable page out even
    when it is empty; its header key is then 0, which later makes the smallest key
    with intact data fall back: the overwritten payload of key 1 is reported as present, and the stream
    delivers nothing. *)
Theorem C16_empty_pages_refuted : exists c h d,
  vlookup (vstore_of c h) 1 [30] = OVGetVar 0 (Some d) (Some [repeat 1 20]) /\
  vlast 1 (vgoR c (h ++ [VGetVar 1 [30]])) = Ok [OVGetVar 0 (Some d) (Some [[]])].
Proof.
  exists cW, (vputsR 3 1 20 ++ [VFlush] ++ vnoneR 40 4). eexists. split; vm_compute; reflexivity.
Qed.
Print Assumptions C16_empty_pages_refuted.

(** C16: when erasing destroys a block, its pages are not counted as overwritten:
    the payload of key 2 is read from erased pages (a length of 2^32 - 1, bytes
    255), with return value 0. *)
Theorem C16_destructive_erase_refuted : exists c h d x,
  vlookup (vstore_of c h) 2 [100] = OVGetVar 0 (Some d) (Some [repeat 2 50]) /\
  vlast 1 (vgoR c (h ++ [VGetVar 2 [100]])) = Ok [OVGetVar 0 (Some d) (Some [x])] /\
  zlen x = 100 /\ firstn 50 x = repeat 255 50.
Proof. exists cVe, (vputsR 10 1 50). eexists. eexists. split; [vm_compute; reflexivity|]. split; [vm_compute; reflexivity|]. split; vm_compute; reflexivity. Qed.
Print Assumptions C16_destructive_erase_refuted.

(** C17: a read that ends exactly at the end of a page makes the next read start
    with the header of the following page. *)
Theorem C17_page_end_refuted : exists c h d x,
  vlookup (vstore_of c h) 1 [52; 56] = OVGetVar 0 (Some d) (Some [repeat 1 52; repeat 1 48]) /\
  vlast 1 (vgoR c (h ++ [VGetVar 1 [52; 56]])) = Ok [OVGetVar 0 (Some d) (Some [repeat 1 52; x])] /\
  firstn 8 x = [1; 0; 0; 0; 1; 0; 0; 0].
Proof.
  exists cV, (vputsR 1 1 100 ++ [VFlush]). eexists. eexists. split; [vm_compute; reflexivity|]. split; vm_compute; reflexivity.
Qed.
Print Assumptions C17_page_end_refuted.

(** C18: embedDBPut does not clear the flag that says whether the record being
    written has variable data: after a put with variable data, a record put by
    embedDBPut has a stream. *)
Theorem C18_sticky_flag_refuted : exists c h k d,
  (forall o, In o h -> exists k' d' b, o = VPut k' d' (Some b) /\ k' < k) /\
  ('(s, _) <- vgoR c h ;; '(s, r) <- embedDBPut c s k d ;; '(_, x) <- getvar_read c s k [30] ;; Ok (r, x)) =
    Ok (0, OVGetVar 0 (Some d) (Some [[]])).
Proof.
  exists cW, (vputsR 1 1 20), 2, [1; 2; 3; 4]. split; [|vm_compute; reflexivity].
  intros o [<-|[]]. eexists. eexists. eexists. split; [reflexivity|lia].
Qed.
Print Assumptions C18_sticky_flag_refuted.

(** C04 and C15 for iterators: embedDBNextVar on a database with records in the
    write buffer, positioned on page 0, writes the buffer out over the page being
    read: key 1 comes with the payload of key 5, the keys 2, 3 and 4 are skipped,
    and key 6 comes twice. *)
Fixpoint nvs (c : cfg) (s : state) (it : iter) (n : nat) : res (list (Z * option (Z * list Z) * option (list (list Z)))) :=
  match n with
  | O => Ok []
  | S n' =>
      '(s, it, r, o, st) <- embedDBNextVar c s it ;;
      '(s, x) <- match st with
                 | None => Ok (s, None)
                 | Some st => '(s, _, xs) <- stream_reads c s st [30] ;; Ok (s, Some xs)
                 end ;;
      l <- nvs c s it n' ;; Ok ((r, o, x) :: l)
  end.
Definition nv_all (c : cfg) (h : list vop) (n : nat) :=
  '(s, _) <- vgoR c h ;; it <- embedDBInitIterator c s None None None None ;; nvs c s it n.
Theorem C04_next_var_refuted : exists c h,
  map rkey (retained (vlog (vstore_of c h))) = [1; 2; 3; 4; 5; 6] /\
  nv_all c h 5 =
    Ok [(1, Some (1, [3; 0; 0; 0]), Some [[5; 5; 5; 5]]); (1, Some (6, [18; 0; 0; 0]), Some [[6; 6; 6; 6]]);
        (1, Some (5, [15; 0; 0; 0]), Some [[5; 5; 5; 5]]); (1, Some (6, [18; 0; 0; 0]), Some [[6; 6; 6; 6]]);
        (0, None, None)].
Proof. exists cW, (vputsR 6 1 4). split; vm_compute; reflexivity. Qed.
Print Assumptions C04_next_var_refuted.

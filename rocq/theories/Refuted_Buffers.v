(** Where the page buffers are not separate (property C45). *)
From Coq Require Import Lia.
From Verif Require Import Base Config Storage DB Recovery Util BaseFacts SpecPage Run ExFacts Buffers SpecBuffers.
Open Scope Z_scope.

(** [eA] with a buffer of one block. *)
Definition eOne : cfg := mkCfg 4 4 64 8 2 4 8 8 8 1 1 32 int32Comparator_wrap ex_cmpD ex_upd ex_build
  (fun _ _ => 1) None None (repeat 171 64) (7, 7) false 0 true.

(** C45: embedDBInit accepts a buffer of one block, which every read of a page overruns. *)
Theorem C45_one_block_refuted : exists c s,
  embedDBInit c noDisk [] = Ok (s, 0) /\ in_use c DataRead /\
  forall m p, zlen m = bufBlocks c * pageSize c -> length p = psz c -> flat_run c m [numbered c (BFill DataRead p)] = UB.
Proof.
  exists eOne.
  assert (C : match embedDBInit eOne noDisk [] with Ok (_, r) => r =? 0 | _ => false end = true) by (vm_compute; reflexivity).
  destruct (embedDBInit eOne noDisk []) as [[s r]| |]; try discriminate C. apply Z.eqb_eq in C. subst r.
  exists s. split; [reflexivity|]. split; [exact I|]. intros m p Hm Hp.
  change (bufBlocks eOne * pageSize eOne) with 64 in Hm. change (psz eOne) with 64%nat in Hp.
  cbn [numbered number flat_run flat_step]. assert (st m (addr eOne DATA_READ 0) p = UB) as ->; [|reflexivity].
  unfold st. change (addr eOne DATA_READ 0) with 64.
  replace (_ && _) with false; [reflexivity|]. symmetry. apply Bool.andb_false_iff. right. apply Z.leb_gt. unfold zlen in *. lia.
Qed.
Print Assumptions C45_one_block_refuted.

(** C45: an access beyond the end of a page, which separate pages make undefined, can
    be defined on the array and change another buffer: then the model's UB stands for a
    page overwritten in silence. *)
Theorem C45_overrun_refuted : exists c m f os m' x,
  represents c m f /\ Forall (bop_ok c) os /\ buf_run c f os = UB /\ flat_run c m (map (numbered c) os) = Ok (m', x) /\
  nth 64 m 0 = 0 /\ nth 64 m' 0 = 2.
Proof.
  exists eA, (repeat 0 (Z.to_nat (bufBlocks eA * 64))), (fun _ => repeat 0 64), [BStore DataWrite 63 [1; 2]]. eexists. eexists.
  split. { split; [vm_compute; reflexivity|]. intros b _. split; [reflexivity|]. intros i _. now rewrite !nth_repeat. }
  split. { repeat constructor. }
  split; [vm_compute; reflexivity|]. split; [vm_compute; reflexivity|]. split; vm_compute; reflexivity.
Qed.
Print Assumptions C45_overrun_refuted.

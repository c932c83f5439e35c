(** Where the file objects do not hold up (property C46): each rule of SpecFileObj.v is
    needed. *)
From Verif Require Import Base Drivers FileObj SpecFileObj FileObjFacts Props_FileObj.
Open Scope Z_scope.

Definition nov : nat -> fptr := fun _ => FWild.

(** C46: setupFile and setupSDFile do not check for memory: when malloc or calloc fails
    they write through NULL (desktopFileInterface.c:9-13). *)
Theorem C46_setup_without_memory_refuted : exists fails fails',
  (forall x, frun x (mkFM 2 (f_blk m2) one_file fails []) nov [CSetup 0 0] = UB) /\
  (forall x, frun x (mkFM 2 (f_blk m2) one_file fails' []) nov [CSetup 0 0] = UB).
Proof. exists [true], [false; true]. split; intros x; vm_compute; reflexivity. Qed.
Print Assumptions C46_setup_without_memory_refuted.

(** C46: FILE_OPEN overwrites the FILE* of an object that is open: the file stays open
    after the object is torn down (block 4 in the example). *)
Theorem C46_open_twice_refuted : exists p,
  forall x, exists m' v' l, frun x m2 nov p = Ok (m', v', l) /\ f_blk m' 4%nat = Some (FHandle [100] 0).
Proof. exists [CSetup 0 0; COpen 0 1; COpen 0 1; CClose 0; CDown 0]. intros [[|] mock bits ps]; do 3 eexists; (split; [vm_compute; reflexivity|reflexivity]). Qed.
Print Assumptions C46_open_twice_refuted.

(** C46: on the desktop an object that is not open cannot be closed (fclose(NULL),
    desktopFileInterface.c:66); on an SD card it cannot be flushed (sd_fflush,
    sdcard_c_iface.cpp:73-76).  The other interface accepts it. *)
Theorem C46_closed_object_refuted : forall mock bits ps,
  frun (mkIface false mock bits ps) m2 nov [CSetup 0 0; CClose 0] = UB /\
  frun (mkIface true mock bits ps) m2 nov [CSetup 0 0; CFlush 0] = UB /\
  (exists m v l, frun (mkIface true mock bits ps) m2 nov [CSetup 0 0; CClose 0] = Ok (m, v, l)) /\
  (exists m v l, frun (mkIface false mock bits ps) m2 nov [CSetup 0 0; CFlush 0] = Ok (m, v, l)).
Proof.
  intros mock bits ps. split; [vm_compute; reflexivity|]. split; [vm_compute; reflexivity|].
  split; do 3 eexists; vm_compute; reflexivity.
Qed.
Print Assumptions C46_closed_object_refuted.

(** C46: an object that is torn down must not be used or torn down again, although the
    caller's pointer is unchanged. *)
Theorem C46_torn_down_refuted : forall x,
  frun x m2 nov [CSetup 0 0; CDown 0; CDown 0] = UB /\ frun x m2 nov [CSetup 0 0; CDown 0; COpen 0 1] = UB.
Proof. intros [[|] mock bits ps]; split; vm_compute; reflexivity. Qed.
Print Assumptions C46_torn_down_refuted.

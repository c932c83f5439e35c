(** The file objects of the storage interfaces (property C46).

    Programs of client calls run on [FileObj.v], where every FILE_INFO, name and FILE has
    an address and a use of an invalid one is undefined, and on [SpecFileObj.v], where a
    file object is a name and a position and programs that break the rules listed there
    are rejected ([None]). *)
From Verif Require Import Base Drivers FileObj SpecFileObj FileObjFacts.
Open Scope Z_scope.

(** C46: every program that keeps the rules, with any number of objects, on either
    interface, gets the answers of the specification and leaves the files it gives: no
    invalid pointer is used, nothing is freed or closed twice, and each object keeps the
    name it was set up with, whatever the client does with its string afterwards.  The
    client's memory is left alone.  When all objects are torn down, open or closed, every
    block is freed and every file closed.  (The outcomes [UB] and [Fuel] of both sides can
    only come from reading, writing and erasing in Drivers.v.)  setupFile must get its
    memory: Refuted_FileObj.v. *)
Theorem C46_file_objects_partial : forall x js m w v p r, client m w -> orun x js w p = Some r ->
  match r with
  | Ok (w', l) => exists m' v', frun x m v p = Ok (m', v', l) /\
      (forall n, f_fs m' n = w_fs w' n) /\
      (forall b, (b < f_next m)%nat -> f_blk m' b = match w_str w' b with Some s => Some (FStr s) | None => None end) /\
      ((forall j, w_obj w' j = None) -> forall b, (f_next m <= b)%nat -> f_blk m' b = None)
  | UB => frun x m v p = UB
  | Fuel => frun x m v p = Fuel
  end.
Proof. exact objects_ok. Qed.
Print Assumptions C46_file_objects_partial.

(** A client with the strings "d" and "ix" in blocks 0 and 1; a file "d" of two pages of
    8 bytes exists; the third fopen is refused. *)
Definition d8 (z : Z) : list Z := repeat z 8.
Definition two_strs (b : nat) : option (list Z) :=
  match b with 0%nat => Some [100; 0] | 1%nat => Some [105; 120; 0; 7] | _ => None end.
Definition one_file (n : list Z) : option (list Z) := if name_eqb n [100] then Some (d8 1 ++ d8 2) else None.
Definition m2 : fmem :=
  mkFM 2 (fun b => match two_strs b with Some s => Some (FStr s) | None => None end) one_file [] [false; false; true].
Definition w2 : world := mkW (fun _ => None) two_strs one_file [] [false; false; true].
Lemma m2_client : client m2 w2.
Proof.
  repeat split. intros b B. cbn in B. destruct b as [|[|b]]; [inversion B | inversion B; subst; inversion H0 | reflexivity].
Qed.
(** Both objects are set up, the strings changed and freed; "d" keeps its pages, "ix" does
    not exist, is made, written and read; "d" is closed, an open is refused, another
    succeeds; both are torn down, one of them open. *)
Definition prog2 : list fcall :=
  [CSetup 0 0; CSetup 1 1; CString 0 [120; 0]; CForget 1;
   COpen 0 1; CReq 0 (QRead 1 (d8 9)); COpen 1 1; COpen 1 0; COpen 1 0; CReq 1 (QWrite 0 (d8 5)); CReq 0 (QWrite 1 (d8 6)); CFlush 0;
   CReq 1 (QRead 0 (d8 9)); CReq 1 (QErase 0 2); CClose 0; COpen 0 7; COpen 0 1; CReq 0 (QRead 1 (d8 9)); CReq 0 (QRead 0 (d8 9));
   CClose 0; CDown 0; CDown 1].
Definition ans2 : list ans :=
  [ADone 0; ADone 0; ADone 0; ADone 0;
   ADone 1; ARead 1 (d8 2); ADone 0; ADone 0; ADone 1; ADone 1; ADone 1; ADone 1;
   ARead 1 (d8 5); ADone 1; ADone 1; ADone 0; ADone 1; ARead 1 (d8 6); ARead 1 (d8 1);
   ADone 1; ADone 0; ADone 0].
Definition desk8 : iface := mkIface false false 32 8.
Definition sd8 : iface := mkIface true false 32 8.
Lemma prog2_ok x : x = desk8 \/ x = sd8 ->
  exists w', orun x [0%nat; 1%nat] w2 prog2 = Some (Ok (w', ans2)) /\ (forall j, w_obj w' j = None) /\
    w_fs w' [100] = Some (d8 1 ++ d8 6) /\ w_fs w' [105; 120] = Some (d8 5) /\ w_str w' 0%nat = Some [120; 0] /\ w_str w' 1%nat = None.
Proof.
  intros [-> | ->]; eexists; (split; [cbv; reflexivity|]); (split; [intros [|[|j]]; reflexivity|]); repeat split.
Qed.
Example C46_example : forall x v, x = desk8 \/ x = sd8 ->
  exists m' v', frun x m2 v prog2 = Ok (m', v', ans2) /\
    f_fs m' [100] = Some (d8 1 ++ d8 6) /\ f_fs m' [105; 120] = Some (d8 5) /\
    f_blk m' 0%nat = Some (FStr [120; 0]) /\ forall b, (1 <= b)%nat -> f_blk m' b = None.
Proof.
  intros x v X. destruct (prog2_ok x X) as (w' & E & O & F1 & F2 & S0 & S1).
  destruct (C46_file_objects_partial x _ m2 w2 v prog2 _ m2_client E) as (m' & v' & E' & F & C & D).
  exists m', v'. split; [exact E'|]. split; [rewrite F; exact F1|]. split; [rewrite F; exact F2|].
  split; [rewrite (C 0%nat), S0 by (cbn; auto); reflexivity|].
  intros b B. destruct (Nat.lt_ge_cases b 2) as [L|L]; [|apply (D O); exact L].
  rewrite (C b L). assert (b = 1%nat) as -> by (apply Nat.le_antisymm; [apply Nat.lt_succ_r; exact L | exact B]). rewrite S1. reflexivity.
Qed.

(** Concrete configurations and call lists for the theorems about storage interfaces. *)
From Verif Require Import Base Config Spline Storage DB Recovery Spec Util SpecPage SpecStore Run SpecRun ReachFacts ExFacts Drivers SpecDrivers.
Open Scope Z_scope.

(** A configuration on storage with the given hole byte and truncation. *)
Definition on_storage (h : Z) (t : bool) (c : cfg) : cfg :=
  mkCfg (keySize c) (dataSize c) (pageSize c) (bitmapSize c) (eraseSize c) (numData c) (numIndex c) (numVar c)
        (numSplinePts c) (maxErr c) (bufBlocks c) (params c) (cmpK c) (cmpD c) (updBM c) (buildBM c) (est c)
        (eraseFill c) (fallthru c) (gpage c) (gpoint c) (ghasvar c) h t.

(** [eA] (64-byte pages, 4 data pages) on a DataFlash chip, and the same opened without
    the reset flag. *)
Definition eDF := on_storage 0 false eA.
Definition eDFr := on_storage 0 false (ex_cfg 64 0 4 2 8 1 None None).
Lemma eDF_set : setting eDF (2 ^ 31) (2 ^ 31).
Proof. setting_ex. lay. Qed.
Lemma eDF_modes : modes eDF.
Proof. constructor; [reflexivity|reflexivity|num|discriminate|discriminate]. Qed.
Lemma eDF_ok h : forallb (op_plainb eDF (2 ^ 31)) h = true -> zascending (put_keys h) -> (zlen h + maxErr eDF <? 2 ^ 31 = true) ->
  scenario eDF (2 ^ 31) (2 ^ 31) h.
Proof. intros. apply scenario_check; auto; [exact eDF_set|exact eDF_modes]. Qed.
Lemma eDF_open k : exists s, embedDBInit eDF k [] = Ok (s, 0).
Proof. apply (fresh_exists _ _ _ k eDF_set); try reflexivity. discriminate. Qed.
(** The storage that another database left. *)
Definition left_by (c : cfg) (h : list hop) : disk :=
  match embedDBInit c noDisk [] with
  | Ok (s, _) => match run c s h with Ok (s, _) => disk_of s | _ => noDisk end
  | _ => noDisk
  end.

(** A page of [n] equal bytes. *)
Definition pg (n x : Z) : list Z := repeat x (Z.to_nat n).
(** Writes behind the end, overwriting, reading, erasing and reopening. *)
Definition calls10 : list req :=
  [QWrite 0 (pg 10 1); QWrite 3 (pg 10 2); QRead 1 (pg 10 9); QRead 2 (pg 10 9); QRead 4 (pg 10 9); QErase 0 2; QRead 1 (pg 10 9);
   QWrite 1 (pg 10 3); QOpen false; QRead 1 (pg 10 9); QRead 3 (pg 10 9); QOpen true; QRead 0 (pg 10 9)].
Definition e10 (mock : bool) := ex_cfg 10 32 8 2 8 1 (if mock then Some 1 else None) None.
Definition e10sd := on_storage 255 true (e10 false).
Definition e10df := on_storage 0 false (e10 false).
Ltac reqs_ex := repeat (apply Forall_cons; [cbn [req_ok fst snd]; repeat split; first [reflexivity|discriminate|lia]|]); constructor.
Lemma calls10_ok : Forall (req_ok 10 8) calls10.
Proof. unfold calls10. reqs_ex. Qed.

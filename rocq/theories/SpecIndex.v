(** Specification for scans that skip pages by their bitmaps. *)
From Verif Require Import Base Config Storage DB Spec SpecPage SpecStore SpecUtil Run SpecRun SpecIter.
Open Scope Z_scope.

(** The client's bitmap functions are sound for a query and data values
    satisfying [V]: the bitmap of a page holding a record that satisfies the query
    overlaps the query's bitmap. *)
Definition bitmap_sound (c : cfg) (V : list Z -> Prop) (q : query) : Prop :=
  forall rs r, Forall (fun r => V (rdata r)) rs -> In r rs -> in_query c q r = true ->
  bitmapOverlap (buildBM c (qMinD q) (qMaxD q)) (bitmap_of c rs) = true.

(** The client uses bitmap functions [upd] and [build] of utilityFunctions.c on
    [n]-byte bitmaps; values in [V] are ordered by the integers they encode. *)
Record bitmap_client (c : cfg) (n : Z) (upd : list Z -> list Z -> res (list Z))
  (build : option (list Z) -> option (list Z) -> res (list Z)) (val : list Z -> Z)
  (V : list Z -> Prop) : Prop := {
  bc_size : bitmapSize c = n;
  bc_upd : forall d b x, upd d b = Ok x -> updBM c d b = x;
  bc_build : forall mn mx x, build mn mx = Ok x -> buildBM c mn mx = x;
  bc_ge : forall a b, V a -> V b -> (cmpD c a b >=? 0) = (val b <=? val a);
  bc_le : forall a b, V a -> V b -> (cmpD c a b <=? 0) = (val a <=? val b)
}.
Definition bounds_in (V : list Z -> Prop) (q : query) : Prop :=
  (forall d, qMinD q = Some d -> V d) /\ (forall d, qMaxD q = Some d -> V d).

(** Values the int8 and int16 bitmap functions handle (embedDB's utility
    functions read a 2-byte resp. 4-byte integer at the start of the data). *)
Definition int8_value (d : list Z) : Prop := (2 <= length d)%nat.
Definition int16_value (d : list Z) : Prop := (4 <= length d)%nat /\ val32 d < 2 ^ 31 - 17.

(** A flush writes the index page as it is, but slots are looked up by dividing
    the data page number by the number of slots.  So each flush that seals a page
    either fills the last slot of the index page, or nothing changes afterwards. *)
Fixpoint index_aligned (c : cfg) (L : log) (h : list hop) : Prop :=
  match h with
  | [] => True
  | o :: h' =>
      let next := fun L o => fst (spec_step (maxRec c) (numData c) (eraseSize c) L o) in
      let L1 := next L o in
      (o = HFlush -> cur L <> [] ->
       zlen (pages L1) mod maxIdx c = 0 \/ Forall (fun o' => next L1 o' = L1) h') /\
      index_aligned c L1 h'
  end.

(** A page held in the index read buffer is not read again, and writing an index
    page does not update the buffer.  So no index page may be written to the slot
    that is in the buffer (see C05_stale_index_buffer_refuted). *)
Fixpoint icalm (c : cfg) (s : state) (h : list hop) : Prop :=
  match h with
  | [] => True
  | o :: h' =>
      match step c s o with
      | Ok (s1, _) =>
          (nextI (si s1) <> nextI (si s) -> nextI (si s) mod numIndex c <> bufI (si s)) /\ icalm c s1 h'
      | _ => True
      end
  end.

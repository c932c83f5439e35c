(** Specification: contents of the data file from which record-level consistency restores a
    sound write buffer. *)
From Verif Require Import Base Config Storage SpecPage SpecAny.
Open Scope Z_scope.

(** The page number in the header (bytes 0 to 3). *)
Definition numbered (p : page) : Z := le_dec (bytes_at p 0 4).

(** A page has the number of erased storage (all bytes 255), or it claims no more records than
    fit.  Its number is not the last but one: the next page would have the number of erased storage. *)
Definition page_plausible (c : cfg) (p : page) : Prop :=
  u32 (numbered p + 1) <> NOPAGE /\ (numbered p = NOPAGE \/ 0 <= claims p <= maxRec c).

(** All pages of the data file, and those that erasing leaves or creates. *)
Record contents_plausible (c : cfg) (f : file) : Prop := {
  cp_pages : forall n p, file_read f n = Some p -> page_plausible c p;
  cp_fill : forall x, eraseFill c = Some x \/ x = holeFill c -> page_plausible c (repeat x (psz c))
}.

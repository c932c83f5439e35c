(** Specification of reading pages through the buffer (property C47). *)
From Verif Require Import Base Config Storage Drivers DriverRead.
Open Scope Z_scope.

(** Reads one after the other: what readPage returned and the buffer afterwards. *)
Fixpoint reads (rdr : reader) (ps : Z) (k : cache) (ns : list Z) : cache * list (Z * list Z) :=
  match ns with
  | [] => (k, [])
  | n :: ns' => let '(k, r) := readPage_on rdr ps k n in
                let '(k', l) := reads rdr ps k ns' in (k', (r, cbuf k) :: l)
  end.

(** A read that says it worked has put the page into the buffer. *)
Definition honest (f : file) (n : Z) (x : Z * list Z) : Prop := fst x = 0 -> file_read f n = Some (snd x).
(** A read works if and only if the file has the page. *)
Definition complete (f : file) (n : Z) (x : Z * list Z) : Prop := fst x = 0 <-> file_read f n <> None.

(** No seek fails, and a transfer that fails has moved nothing. *)
Inductive clean : list fate -> Prop :=
| clean_nil : clean []
| clean_ok fs : clean fs -> clean (Fine :: Fine :: fs)
| clean_bad fs : clean fs -> clean (Fine :: Bad 0 :: fs).

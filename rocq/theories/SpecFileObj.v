(** Specification of the file objects (property C46): a file object is a name and, while
    it is open, a position; there are no pointers and no blocks.

    [None] from [ostep] means that the call breaks the rules of the interface:
    - an object is set up in a variable that holds none, with a terminated string of the
      client, and when there is memory for it;
    - it is opened while closed, and not while another object has the same file open;
    - it is read, written, erased, flushed and closed while open;
    - it is torn down once, open or closed. *)
From Verif Require Import Base Drivers FileObj.
Open Scope Z_scope.

Record fobj := mkO { o_name : list Z; o_pos : option Z }.   (* [None]: closed *)
Record world := mkW {
  w_obj : nat -> option fobj;
  w_str : nat -> option (list Z);      (* the client's strings *)
  w_fs : list Z -> option (list Z);
  w_fail : list bool; w_deny : list bool }.

(** The characters before the terminator. *)
Fixpoint before0 (s : list Z) : option (list Z) :=
  match s with
  | [] => None
  | x :: s => if x =? 0 then Some [] else match before0 s with Some n => Some (x :: n) | None => None end
  end.

Definition set_obj (w : world) (j : nat) (o : option fobj) : world :=
  mkW (fun i => if Nat.eqb i j then o else w_obj w i) (w_str w) (w_fs w) (w_fail w) (w_deny w).
Definition set_fs (w : world) (n c : list Z) : world :=
  mkW (w_obj w) (w_str w) (fun x => if name_eqb x n then Some c else w_fs w x) (w_fail w) (w_deny w).
Definition set_str (w : world) (b : nat) (o : option (list Z)) : world :=
  mkW (w_obj w) (fun i => if Nat.eqb i b then o else w_str w i) (w_fs w) (w_fail w) (w_deny w).

(** One of [js] has the file [n] open. *)
Definition busy (w : world) (js : list nat) (n : list Z) : bool :=
  existsb (fun j => match w_obj w j with Some (mkO n' (Some _)) => name_eqb n' n | _ => false end) js.

(** [js]: the variables of the client. *)
Definition ostep (x : iface) (js : list nat) (w : world) (k : fcall) : option (res (world * ans)) :=
  match k with
  | CSetup j b =>
      match w_obj w j, w_str w b, existsb (Nat.eqb j) js && negb (existsb id (firstn 2 (w_fail w))) with
      | None, Some s, true =>
          match before0 s with
          | Some n => Some (Ok (mkW (w_obj (set_obj w j (Some (mkO n None)))) (w_str w) (w_fs w) (skipn 2 (w_fail w)) (w_deny w), ADone 0))
          | None => None
          end
      | _, _, _ => None
      end
  | COpen j mode =>
      match w_obj w j with
      | Some (mkO n None) =>
          if negb ((mode =? 0) || (mode =? 1)) then Some (Ok (w, ADone 0))
          else if busy w js n then None
          else
            let w1 := mkW (w_obj w) (w_str w) (w_fs w) (w_fail w) (tl (w_deny w)) in
            if hd false (w_deny w) then Some (Ok (w1, ADone 0))
            else if mode =? 0 then Some (Ok (set_obj (set_fs w1 n []) j (Some (mkO n (Some 0))), ADone 1))
            else match w_fs w n with
                 | Some _ => Some (Ok (set_obj w1 j (Some (mkO n (Some 0))), ADone 1))
                 | None => Some (Ok (w1, ADone 0))
                 end
      | _ => None
      end
  | CClose j =>
      match w_obj w j with
      | Some (mkO n (Some _)) => Some (Ok (set_obj w j (Some (mkO n None)), ADone 1))
      | _ => None
      end
  | CFlush j =>
      match w_obj w j with Some (mkO n (Some _)) => Some (Ok (w, ADone 1)) | _ => None end
  | CReq j q =>
      match w_obj w j, q with
      | Some (mkO n (Some pos)), QOpen _ => None
      | Some (mkO n (Some pos)), _ =>
          match w_fs w n with
          | Some c => Some ('(d, a) <- drive x (mkDev c pos []) q ;;
                            Ok (set_obj (set_fs w n (bts d)) j (Some (mkO n (Some (bpos d)))), a))
          | None => None
          end
      | _, _ => None
      end
  | CDown j => match w_obj w j with Some _ => Some (Ok (set_obj w j None, ADone 0)) | None => None end
  | CString b s => match w_str w b with Some _ => Some (Ok (set_str w b (Some s), ADone 0)) | None => None end
  | CForget b => match w_str w b with Some _ => Some (Ok (set_str w b None, ADone 0)) | None => None end
  end.
Fixpoint orun (x : iface) (js : list nat) (w : world) (p : list fcall) : option (res (world * list ans)) :=
  match p with
  | [] => Some (Ok (w, []))
  | k :: p =>
      match ostep x js w k with
      | None => None
      | Some (Ok (w, a)) =>
          match orun x js w p with
          | Some (Ok (w, l)) => Some (Ok (w, a :: l))
          | r => r
          end
      | Some UB => Some UB
      | Some Fuel => Some Fuel
      end
  end.

(** The client's memory: strings in the blocks below [f_next], nothing above. *)
Definition client (m : fmem) (w : world) : Prop :=
  (forall j, w_obj w j = None) /\ (forall n, w_fs w n = f_fs m n) /\ w_fail w = f_fail m /\ w_deny w = f_deny m /\
  (forall b, f_blk m b = match w_str w b with Some s => Some (FStr s) | None => None end) /\
  (forall b, (f_next m <= b)%nat -> w_str w b = None).

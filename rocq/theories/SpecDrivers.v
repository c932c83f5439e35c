(** Specification of the storage interfaces (property C40): the page files of Storage.v. *)
From Verif Require Import Base Config Storage Recovery Drivers.
Open Scope Z_scope.

(** How a file of pages answers a call: every call works, and a read behind the end of
    the file returns 0 and leaves the buffer. *)
Definition page_step (c : cfg) (f : file) (q : req) : file * ans :=
  match q with
  | QRead n buf => (f, match file_read f n with Some p => ARead 1 p | None => ARead 0 buf end)
  | QWrite n p => (file_write c f n p, ADone 1)
  | QErase a b => (file_erase c f a b, ADone 1)
  | QOpen w => (if w then open_w c (Some f) else f, ADone 1)
  end.
Fixpoint page_run (c : cfg) (f : file) (qs : list req) : file * list ans :=
  match qs with
  | [] => (f, [])
  | q :: qs' => let '(f, a) := page_step c f q in let '(f, l) := page_run c f qs' in (f, a :: l)
  end.

(** A driver answering a list of calls. *)
Fixpoint serve {D : Type} (step : D -> req -> res (D * ans)) (d : D) (qs : list req) : res (D * list ans) :=
  match qs with
  | [] => Ok (d, [])
  | q :: qs' => '(d, a) <- step d q ;; '(d, l) <- serve step d qs' ;; Ok (d, a :: l)
  end.

(** The calls of a database with an area of [num] pages: whole pages inside the area. *)
Definition req_ok (ps num : Z) (q : req) : Prop :=
  match q with
  | QRead n buf => 0 <= n < num /\ zlen buf = ps
  | QWrite n p => 0 <= n < num /\ zlen p = ps
  | QErase a b => 0 <= a < b /\ b <= num
  | QOpen _ => True
  end.

(** No read starts behind the end of the file. *)
Fixpoint reads_inside (c : cfg) (f : file) (qs : list req) : Prop :=
  match qs with
  | [] => True
  | q :: qs' => match q with QRead n _ => n <= flen f | _ => True end /\ reads_inside c (fst (page_step c f q)) qs'
  end.

(** The bytes [b] are the pages of [f], one after the other. *)
Record bytes_of (ps : Z) (b : list Z) (f : file) : Prop := {
  bo_len : zlen b = flen f * ps;
  bo_ge : 0 <= flen f;
  bo_pg : forall q, 0 <= q < flen f -> rd b (Z.to_nat (q * ps)) (Z.to_nat ps) = fpg f q
}.

(** What the database assumes of the storage in [c] when it runs on a desktop, with the
    mock interface, on an SD card, and on DataFlash. *)
Definition desktop_cfg (c : cfg) (mock : bool) : Prop :=
  eraseFill c = (if mock then Some 1 else None) /\ holeFill c = 0 /\ truncates c = true.
Definition sd_cfg (c : cfg) : Prop := eraseFill c = None /\ holeFill c = 255 /\ truncates c = true.
Definition dataflash_cfg (c : cfg) : Prop := eraseFill c = None /\ truncates c = false.

(** The three areas on one DataFlash chip. *)
Record areas (start num : which -> Z) : Prop := {
  ar_num : forall w, 0 <= num w;
  ar_ge : forall w, 0 <= start w /\ start w + num w <= 2 ^ 32;
  ar_apart : forall w w', w <> w' -> start w + num w <= start w' \/ start w' + num w' <= start w
}.
(** Calls to the three areas, and the page files answering them. *)
Definition set_at (g : which -> file) (w : which) (f : file) : which -> file :=
  fun w' => match w, w' with WD, WD | WI, WI | WV, WV => f | _, _ => g w' end.
Fixpoint pages_run (c : cfg) (g : which -> file) (qs : list (which * req)) : list ans :=
  match qs with
  | [] => []
  | (w, q) :: qs' => let '(f, a) := page_step c (g w) q in a :: pages_run c (set_at g w f) qs'
  end.
Fixpoint df_serve (start num : which -> Z) (ps : Z) (ch : chip) (qs : list (which * req)) : res (list ans) :=
  match qs with
  | [] => Ok []
  | (w, q) :: qs' => '(ch, a) <- df_step (start w) (num w) ps ch q ;; l <- df_serve start num ps ch qs' ;; Ok (a :: l)
  end.
(** The page files that an area of a chip amounts to. *)
Definition area_file (start num : which -> Z) (ps : Z) (ch : chip) (w : which) : file :=
  mkFile (num w) (fun q => firstn (Z.to_nat ps) (ch (start w + q))).

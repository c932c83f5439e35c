(** The storage interfaces shipped with EmbedDB, over files of bytes:
    lib/Desktop-File-Interface/desktopFileInterface.c,
    lib/SD-File-Interface/SDFileInterface.c with lib/SD-Wrapper/sdcard_c_iface.cpp, and
    lib/Dataflash-File-Interface/dataflashFileInterface.c with
    lib/Dataflash-Wrapper/dataflash_c_iface.cpp.  Storage.v models what EmbedDB expects
    of them. *)
From Verif Require Import Base.
Open Scope Z_scope.

(** ** The C library and SdFat *)
(** What happens to one call of the library: it works, or it fails after moving [k]
    bytes.  Not C data. *)
Inductive fate := Fine | Bad (k : nat).

(** An open file, with its position (FILE_INFO.file, desktopFileInterface.c:3-6; SD_FILE,
    sdcard_c_iface.cpp:52-56), and the fates of the library calls to come; when they are
    used up, all calls work. *)
Record dev := mkDev { bts : list Z; bpos : Z; fates : list fate }.

(** The fate of the next call.  Not C data. *)
Definition next_fate (d : dev) : fate * dev :=
  match fates d with
  | [] => (Fine, d)
  | x :: xs => (x, mkDev (bts d) (bpos d) xs)
  end.

(** fseek(SEEK_SET), desktopFileInterface.c:27, and File32::seek, sdcard_c_iface.cpp:118.
    SdFat ([fat]) refuses positions behind the end (SdFat/src/FatLib/FatFile.cpp:1144-1148);
    a refused seek leaves the position. *)
Definition lib_seek (fat : bool) (d : dev) (off : Z) : dev * bool :=
  let '(x, d) := next_fate d in
  match x with
  | Fine => if fat && (zlen (bts d) <? off) then (d, false) else (mkDev (bts d) off (fates d), true)
  | Bad _ => (d, false)
  end.

(** fread, desktopFileInterface.c:28, and File32::read, sdcard_c_iface.cpp:107: the bytes
    from the position on, up to [n]; [false] when the library reports an error. *)
Definition lib_read (d : dev) (n : Z) : dev * list Z * bool :=
  let '(x, d) := next_fate d in
  let got := rd (bts d) (Z.to_nat (bpos d)) (Z.to_nat n) in
  match x with
  | Fine => (mkDev (bts d) (bpos d + zlen got) (fates d), got, true)
  | Bad k => let got := firstn k got in (mkDev (bts d) (bpos d + zlen got) (fates d), got, false)
  end.

(** The bytes of a file after [bs] were written at [off]; bytes that were skipped are 0
    (POSIX; SdFat positions are never behind the end). *)
Definition overwrite (b : list Z) (off : Z) (bs : list Z) : list Z :=
  wr (b ++ repeat 0 (Z.to_nat (off - zlen b))) (Z.to_nat off) bs.

(** fwrite, desktopFileInterface.c:34, and File32::write, sdcard_c_iface.cpp:126: the
    number of bytes written. *)
Definition lib_write (d : dev) (bs : list Z) : dev * Z :=
  let '(x, d) := next_fate d in
  let bs := match x with Fine => bs | Bad k => firstn k bs end in
  (mkDev (overwrite (bts d) (bpos d) bs) (bpos d + zlen bs) (fates d), zlen bs).

(** The number of complete items that fread and fwrite return. *)
Definition items (got size : Z) : Z := if size =? 0 then 0 else got / size.

(** The first bytes of a buffer replaced by the bytes read. *)
Definition into (buf got : list Z) : list Z := got ++ skipn (length got) buf.

(** ** Desktop *)
(** FILE_READ, desktopFileInterface.c:25-29.  The result of fseek is ignored; the offset
    is a product of uint32_t. *)
Definition desk_read (d : dev) (buf : list Z) (pageNum pageSize : Z) : dev * list Z * Z :=
  let '(d, _) := lib_seek false d (u32 (pageSize * pageNum)) in
  let '(d, got, _) := lib_read d pageSize in
  (d, into buf got, i8 (items (zlen got) pageSize)).

(** FILE_WRITE, desktopFileInterface.c:31-35. *)
Definition desk_write (d : dev) (p : list Z) (pageNum pageSize : Z) : dev * Z :=
  let '(d, _) := lib_seek false d (u32 (pageNum * pageSize)) in
  let '(d, n) := lib_write d (firstn (Z.to_nat pageSize) p) in
  (d, i8 (items n pageSize)).

(** FILE_ERASE, desktopFileInterface.c:37-39; also SDFileInterface.c:95-97 and DF_ERASE,
    dataflashFileInterface.c:87-89. *)
Definition no_erase (d : dev) : dev * Z := (d, 1).

(** MOCK_FILE_ERASE, desktopFileInterface.c:41-62.  A failed fseek returns -1. *)
Definition mock_erase (d : dev) (startPage endPage pageSize : Z) : dev * Z :=
  let '(d, ok) := lib_seek false d (u32 (startPage * pageSize)) in
  if negb ok then (d, -1)
  else
    let memorySize := u32 (u32 (endPage - startPage) * pageSize) in
    let '(d, n) := lib_write d (repeat 1 (Z.to_nat memorySize)) in
    (d, i8 (items n memorySize)).

(** FILE_OPEN, desktopFileInterface.c:76-92, of an existing file: "w+b" empties it. *)
Definition desk_open (d : dev) (w : bool) : dev := mkDev (if w then [] else bts d) 0 (fates d).

(** ** SD card *)
(** sd_fread, sdcard_c_iface.cpp:105-112: the count of bytes is an int16_t. *)
Definition sd_fread (d : dev) (size : Z) : dev * list Z * Z :=
  let '(d, got, ok) := lib_read d size in
  let num_bytes := if ok then i16 (zlen got) else -1 in
  (d, got, if num_bytes <? 0 then 0 else items num_bytes size).

(** sd_fwrite, sdcard_c_iface.cpp:124-131. *)
Definition sd_fwrite (d : dev) (bs : list Z) : dev * Z :=
  let '(d, n) := lib_write d bs in (d, if n =? zlen bs then n else 0).

(** FILE_READ, SDFileInterface.c:60-64.  The result of the seek is ignored. *)
Definition sd_read (d : dev) (buf : list Z) (pageNum pageSize : Z) : dev * list Z * Z :=
  let '(d, _) := lib_seek true d (u32 (pageSize * pageNum)) in
  let '(d, got, n) := sd_fread d pageSize in
  (d, into buf got, i8 n).

(** The loop of FILE_WRITE that fills up to [req] with 0xFFFFFFFF, SDFileInterface.c:78-83;
    [false] when a write failed, [Fuel] when [currentSize] wraps around. *)
Fixpoint sd_pad (fuel : nat) (bits : Z) (d : dev) (cur req : Z) : res (dev * bool) :=
  if cur <? req then
    match fuel with
    | O => Fuel
    | S fuel' =>
        let '(d, n) := sd_fwrite d (repeat 255 4) in
        if n =? 0 then Ok (d, false) else sd_pad fuel' bits d ((cur + 4) mod 2 ^ bits) req
    end
  else Ok (d, true).

(** FILE_WRITE, SDFileInterface.c:66-93.  size_t has [bits] bits: 32 on ARM, 16 on AVR.
    The result of the last sd_fwrite is not used (line 90 tests seekSuccess again). *)
Definition sd_write (bits : Z) (d : dev) (p : list Z) (pageNum pageSize : Z) : res (dev * Z) :=
  let off := u32 (pageNum * pageSize) in
  let fileSize := zlen (bts d) mod 2 ^ bits in
  let requiredSize := off mod 2 ^ bits in
  let last d :=
    let '(d, ok) := lib_seek true d off in
    if negb ok then Ok (d, -1)
    else let '(d, _) := sd_fwrite d (firstn (Z.to_nat pageSize) p) in Ok (d, 1) in
  if fileSize <? off then
    let '(d, ok) := lib_seek true d fileSize in
    if negb ok then Ok (d, -1)
    else
      '(d, ok) <- sd_pad (Z.to_nat (requiredSize - fileSize)) bits d fileSize requiredSize ;;
      if negb ok then Ok (d, -1) else last d
  else last d.

(** FILE_OPEN, SDFileInterface.c:111-127, with sd_fopen, sdcard_c_iface.cpp:78-103, of an
    existing file. *)
Definition sd_open (d : dev) (w : bool) : dev := mkDev (if w then [] else bts d) 0 (fates d).

(** ** DataFlash *)
(** The chip: the contents of its pages.  dataflash.h is not part of the repository:
    df_main_memory_read and df_buffer_1_to_MM_erase are taken to read and to erase and
    write the page they are given, of at least [pageSize] bytes, of which the first
    [pageSize] are modelled. *)
Definition chip : Type := Z -> list Z.

(** DF_READ, dataflashFileInterface.c:57-70, with dfread, dataflash_c_iface.cpp:72-83;
    [start] and [num] are the fields of DF_FILE_INFO (lines 41-44). *)
Definition df_read (ch : chip) (start num : Z) (buf : list Z) (pageNum pageSize : Z) : list Z * Z :=
  if num <=? pageNum then (buf, 0)
  else (into buf (firstn (Z.to_nat pageSize) (ch (u32 (start + pageNum)))), 1).

(** DF_WRITE, dataflashFileInterface.c:72-85, with dfwrite, dataflash_c_iface.cpp:95-104. *)
Definition df_write (ch : chip) (start num : Z) (p : list Z) (pageNum pageSize : Z) : chip * Z :=
  if num <=? pageNum then (ch, 0)
  else ((fun q => if q =? u32 (start + pageNum) then firstn (Z.to_nat pageSize) p else ch q), 1).

(** ** The interface tables *)
(** Calls through embedDBFileInterface (embedDB.h:147-196) and their results: the value
    returned and, for a read, the buffer afterwards. *)
Inductive req := QRead (n : Z) (buf : list Z) | QWrite (n : Z) (p : list Z) | QErase (a b : Z) | QOpen (w : bool).
Inductive ans := ARead (r : Z) (buf : list Z) | ADone (r : Z).

(** getFileInterface and getMockEraseFileInterface ([mock]), desktopFileInterface.c:94-114. *)
Definition desk_step (mock : bool) (ps : Z) (d : dev) (q : req) : res (dev * ans) :=
  match q with
  | QRead n buf => let '(d, buf, r) := desk_read d buf n ps in Ok (d, ARead r buf)
  | QWrite n p => let '(d, r) := desk_write d p n ps in Ok (d, ADone r)
  | QErase a b => let '(d, r) := if mock then mock_erase d a b ps else no_erase d in Ok (d, ADone r)
  | QOpen w => Ok (desk_open d w, ADone 1)
  end.

(** getSDInterface, SDFileInterface.c:129-138. *)
Definition sd_step (bits ps : Z) (d : dev) (q : req) : res (dev * ans) :=
  match q with
  | QRead n buf => let '(d, buf, r) := sd_read d buf n ps in Ok (d, ARead r buf)
  | QWrite n p => '(d, r) <- sd_write bits d p n ps ;; Ok (d, ADone r)
  | QErase a b => let '(d, r) := no_erase d in Ok (d, ADone r)
  | QOpen w => Ok (sd_open d w, ADone 1)
  end.

(** getDataflashInterface, dataflashFileInterface.c:103-112; DF_OPEN (lines 95-97) does
    nothing. *)
Definition df_step (start num ps : Z) (ch : chip) (q : req) : res (chip * ans) :=
  match q with
  | QRead n buf => let '(buf, r) := df_read ch start num buf n ps in Ok (ch, ARead r buf)
  | QWrite n p => let '(ch, r) := df_write ch start num p n ps in Ok (ch, ADone r)
  | QErase a b => Ok (ch, ADone 1)
  | QOpen w => Ok (ch, ADone 1)
  end.

(** readPage of src/embedDB/embedDB.c over the desktop and SD-card interfaces at the level of
    bytes (desktopFileInterface.c, SDFileInterface.c, Drivers.v): what a failed read leaves in the buffer.  DB.v has
    readPage over files of pages, where a failed read leaves the buffer alone. *)
From Verif Require Import Base Drivers.
Open Scope Z_scope.

(** The data read buffer, [bufferedPageId] (embedDB.h:219, 247) and the open data file. *)
Record cache := mkCache { cbuf : list Z; cid : Z; cdev : dev }.

(** FILE_READ of an interface: desk_read or sd_read (desktopFileInterface.c:25-29,
    SDFileInterface.c:60-64). *)
Definition reader : Type := dev -> list Z -> Z -> Z -> dev * list Z * Z.

(** readPage, embedDB.c:2254-2271, with the FILE_READ [rdr] of the interface.
    readIndexPage (embedDB.c:2279-2296) and readVariablePage (embedDB.c:2304-2323) are the same
    function of other buffers. *)
Definition readPage_on (rdr : reader) (ps : Z) (k : cache) (pageNum : Z) : cache * Z :=
  if pageNum =? cid k then (k, 0)
  else
    let '(d, buf, r) := rdr (cdev k) (cbuf k) pageNum ps in
    if r =? 0 then (mkCache buf (cid k) d, -1) else (mkCache buf pageNum d, 0).

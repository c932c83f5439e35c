(** Configuration of a database: the fields of [embedDBState] that the client
    fills in before [embedDBInit] (embedDB.h:198-251), the functions it
    supplies, and the parts of the environment the model leaves open. *)
From Verif Require Import Base.
Open Scope Z_scope.

(** embedDB.h:198-251 (client-set fields only).
    Environment parameters at the end of the record are not fields of the C
    struct:
    [est] replaces the floating-point result of [embedDBEstimateKeyLocation]
    (embedDB.c:1279-1289) by an arbitrary function;
    [eraseFill] says what [fileInterface->erase] does to a page: [None] =
    nothing (desktopFileInterface.c:37-39), [Some b] = fill with byte [b]
    (desktopFileInterface.c:41-62);
    [fallthru] is the value a caller of [binarySearch] observes when control
    reaches the end of that function without a return statement
    (embedDB.c:1379-1403), [None] meaning the program has no defined behaviour;
    [gpage], [gpoint] and [ghasvar] are the initial contents of uninitialised
    memory (page buffers, spline points, [recordHasVarData]);
    [holeFill] is the byte that storage puts into pages skipped by a write behind
    the end of a file (0 for desktop files, 255 for SDFileInterface.c:66-96);
    [truncates] says whether opening a file with "w+b" empties it (desktop and SD
    files; not dataflashFileInterface.c:95-97). *)
Record cfg := mkCfg {
  keySize : Z;           (* int8_t *)
  dataSize : Z;          (* int8_t *)
  pageSize : Z;          (* count_t *)
  bitmapSize : Z;        (* int8_t *)
  eraseSize : Z;         (* count_t eraseSizeInPages *)
  numData : Z;           (* uint32_t numDataPages *)
  numIndex : Z;          (* uint32_t numIndexPages *)
  numVar : Z;            (* uint32_t numVarPages *)
  numSplinePts : Z;      (* uint32_t numSplinePoints *)
  maxErr : Z;            (* indexMaxError argument of embedDBInit *)
  bufBlocks : Z;         (* int8_t bufferSizeInBlocks *)
  params : Z;            (* int16_t parameters *)
  cmpK : Z -> Z -> Z;                  (* compareKey, on decoded keys *)
  cmpD : list Z -> list Z -> Z;        (* compareData *)
  updBM : list Z -> list Z -> list Z;  (* updateBitmap: data, bitmap *)
  buildBM : option (list Z) -> option (list Z) -> list Z; (* buildBitmapFromRange *)
  est : page -> Z -> Z;
  eraseFill : option Z;
  fallthru : option Z;
  gpage : page;
  gpoint : Z * Z;
  ghasvar : bool;
  holeFill : Z;
  truncates : bool
}.

(** Parameter flags, embedDB.h:56-74. *)
Definition useIndex (c : cfg) : bool := Z.testbit (params c) 0.
Definition useMaxMin (c : cfg) : bool := Z.testbit (params c) 1.
Definition useBmap (c : cfg) : bool := Z.testbit (params c) 3.
Definition useVar (c : cfg) : bool := Z.testbit (params c) 4.
Definition useReset (c : cfg) : bool := Z.testbit (params c) 5.
Definition useRLC (c : cfg) : bool := Z.testbit (params c) 6.
Definition useBinary (c : cfg) : bool := Z.testbit (params c) 7.
Definition noClean (c : cfg) : bool := Z.testbit (params c) 8.

(** Key and data sizes as counts of bytes for [memcpy] (embedDB.c:1064-1065). *)
Definition ksz (c : cfg) : nat := Z.to_nat (keySize c).
Definition dsz (c : cfg) : nat := Z.to_nat (dataSize c).
Definition psz (c : cfg) : nat := Z.to_nat (pageSize c).
Definition bsz (c : cfg) : nat := Z.to_nat (bitmapSize c).

(** [state->recordSize], an [int8_t]: embedDB.c:162-171. *)
Definition recordSize (c : cfg) : Z :=
  let r := i8 (keySize c + dataSize c) in
  if useVar c then i8 (r + 4) else r.

(** [state->headerSize], an [int8_t]: embedDB.c:178-190. *)
Definition headerSize (c : cfg) : Z :=
  let h := 6 in
  let h := if useIndex c then i8 (h + bitmapSize c) else h in
  if useMaxMin c then i8 (h + keySize c * 2 + dataSize c * 2) else h.

(** [state->maxRecordsPerPage], a [count_t]: embedDB.c:198 (C division). *)
Definition maxRec (c : cfg) : Z :=
  u16 (Z.quot (pageSize c - headerSize c) (recordSize c)).

(** [state->maxIdxRecordsPerPage]: embedDB.c:603. *)
Definition maxIdx (c : cfg) : Z := u16 (Z.quot (pageSize c - 16) (bitmapSize c)).

(** [state->variableDataHeaderSize]: embedDB.c:700. *)
Definition varHdr (c : cfg) : Z := i8 (keySize c + 4).

(** Value of an [id_t] holding -1: embedDB.c:193-195. *)
Definition NOPAGE : Z := 2 ^ 32 - 1.

(** [EMBEDDB_NO_VAR_DATA]: embedDB.h:83. *)
Definition NOVAR : Z := 2 ^ 32 - 1.

(** Model of the variable-length data functions of src/embedDB/embedDB.c. *)
From Verif Require Import Base Config Spline Storage DB.
Open Scope Z_scope.

(** memcpy((int8_t * )buf + sizeof(id_t), key, keySize): the largest key with
    data on the variable page (embedDB.c:1230, 1242, 1261). *)
Definition var_set_key (c : cfg) (s : state) (key : Z) : res state :=
  w <- st (vwbuf (sv s)) 4 (le_enc (ksz c) key) ;;
  Ok (set_v s (v_wbuf (sv s) w)).

(** Writing the full variable page and starting the next one inside
    embedDBPutVar, embedDB.c:1238-1243 and 1257-1262.  The result of
    writeVariablePage is ignored. *)
Definition var_roll (c : cfg) (s : state) (key : Z) : res state :=
  '(s, _) <- writeVariablePage c s ;;
  let s := set_v s (v_wbuf (sv s) (init_var_page c)) in
  s <- var_set_key c s key ;;
  Ok (set_v s (v_loc (sv s) (u32 (curVarLoc (sv s) + varHdr c)))).

(** The copy loop of embedDBPutVar, embedDB.c:1246-1264. *)
Fixpoint putvar_loop (c : cfg) (s : state) (key : Z) (fuel : nat) (bs : list Z) : res state :=
  match fuel with
  | O => Fuel
  | S f =>
      if zlen bs >? 0 then
        let off := curVarLoc (sv s) mod pageSize c in
        let amt := u16 (Z.min (pageSize c - off) (zlen bs)) in
        w <- st (vwbuf (sv s)) off (firstn (Z.to_nat amt) bs) ;;
        let v := v_loc (v_wbuf (sv s) w) (u32 (curVarLoc (sv s) + amt)) in
        let s := set_v s v in
        s <- (if curVarLoc (sv s) mod pageSize c =? 0 then var_roll c s key else Ok s) ;;
        putvar_loop c s key f (skipn (Z.to_nat amt) bs)
      else Ok s
  end.

(** embedDBPutVar, embedDB.c:1190-1271.  [vd = None] is a NULL pointer; the
    length argument is the length of the byte list. *)
Definition embedDBPutVar (c : cfg) (s : state) (key : Z) (data : list Z)
  (vd : option (list Z)) : res (state * Z) :=
  if negb (useVar c) then Ok (s, -1)
  else
    n <- get_count (wbuf (sd s)) ;;
    (* 1205-1210 *)
    s <- (if (curVarLoc (sv s) mod pageSize c >? pageSize c - 4)
             || (negb (useRLC c) && (n >=? maxRec c)) then
            '(s, _) <- writeVariablePage c s ;;
            let v := v_wbuf (sv s) (init_var_page c) in
            let l := curVarLoc v in
            Ok (set_v s (v_loc v (u32 (l + (pageSize c - l mod pageSize c + varHdr c)))))
          else Ok s) ;;
    match vd with
    | None =>
        (* 1212-1216 *)
        embedDBPut c (set_v s (v_has (sv s) false)) key data
    | Some bs =>
        (* 1219-1223 *)
        '(s, r) <- embedDBPut c (set_v s (v_has (sv s) true)) key data ;;
        if negb (r =? 0) then Ok (s, r)
        else
          (* 1225-1227 *)
          let s := if minVarRec (sv s) =? 2 ^ 64 - 1
                   then set_v s (v_minrec (sv s) (set_low c (minVarRec (sv s)) key))
                   else s in
          s <- var_set_key c s key ;;
          (* 1233-1234 *)
          w <- st (vwbuf (sv s)) (curVarLoc (sv s) mod pageSize c) (le_enc 4 (zlen bs)) ;;
          let s := set_v s (v_loc (v_wbuf (sv s) w) (u32 (curVarLoc (sv s) + 4))) in
          (* 1237-1244 *)
          s <- (if curVarLoc (sv s) mod pageSize c =? 0 then var_roll c s key else Ok s) ;;
          s <- putvar_loop c s key (S (length bs)) bs ;;
          (* 1266-1268 *)
          if useRLC c then '(s, _) <- embedDBFlushVar c s ;; Ok (s, 0)
          else Ok (s, 0)
    end.

(** embedDBVarDataStream, embedDB.h:263-268 ([dataStart] is never read). *)
Record stream := mkStream { totalBytes : Z; bytesRead : Z; fileOffset : Z }.

(** readToWriteBuf, embedDB.c:2226-2233: write buffer copied over the read
    buffer; [bufferedPageId] is not changed. *)
Definition readToWriteBuf (s : state) : state :=
  set_d s (d_rbuf (sd s) (wbuf (sd s)) (bufD (sd s))).

(** embedDBSetupVarDataStream, embedDB.c:1859-1917 (malloc succeeds).
    [compareKey] reads [keySize] bytes of minVarRecordId. *)
Definition setupVarDataStream (c : cfg) (s : state) (key recNum : Z)
  : res (state * Z * option stream) :=
  addr <- ldz (rbuf (sd s)) (rec_off c recNum + keySize c + dataSize c) 4 ;;
  if addr =? NOVAR then Ok (s, 0, None)
  else if cmpK c key (minVarRec (sv s) mod 256 ^ keySize c) <? 0 then Ok (s, 1, None)
  else if numVar c =? 0 then UB
  else
    let pg := (addr / pageSize c) mod numVar c in
    let '(s, r) := readVariablePage s pg in
    if negb (r =? 0) then Ok (s, 2, None)
    else
      len <- ldz (vrbuf (sv s)) (addr mod pageSize c) 4 ;;
      let area := u32 (numVar c * pageSize c) in
      let addr := (addr + 4) mod area in
      let addr := if addr mod pageSize c =? 0 then u32 (addr + varHdr c) mod area else addr in
      Ok (s, 0, Some (mkStream len 0 addr)).

(** embedDBGetVar, embedDB.c:1540-1582.  Result: return value, fixed data
    copied, stream. *)
Definition embedDBGetVar (c : cfg) (s : state) (key : Z)
  : res (state * Z * option (list Z) * option stream) :=
  if negb (useVar c) then Ok (s, 0, None, None)
  else
    '(recNum, dt) <- searchBuffer c (wbuf (sd s)) key ;;
    '(s, found, dt) <-
      (if negb (recNum =? -1) then
         '(s, _) <- embedDBFlushVar c s ;;
         Ok (readToWriteBuf s, Some recNum, dt)
       else
         '(s, r, dt) <- embedDBGet c s key ;;
         if r =? 0 then
           i <- embedDBSearchNode c (rbuf (sd s)) key ;;
           Ok (s, Some (match i with Some i => i8 i | None => -1 end), dt)
         else Ok (s, None, dt)) ;;
    match found with
    | None => Ok (s, -1, dt, None)
    | Some n =>
        '(s, r, vs) <- setupVarDataStream c s key (u32 n) ;;
        Ok (s, (if r =? 0 then 0 else if r =? 1 then 1 else -1), dt, vs)
    end.

(** embedDBNextVar, embedDB.c:1817-1850. *)
Definition embedDBNextVar (c : cfg) (s : state) (it : iter)
  : res (state * iter * Z * option (Z * list Z) * option stream) :=
  if negb (useVar c) then Ok (s, it, 0, None, None)
  else
    '(s, it, r, out) <- embedDBNext c s it ;;
    match r, out with
    | 0, _ | _, None => Ok (s, it, 0, out, None)
    | _, Some (key, _) =>
        n <- get_count (wbuf (sd s)) ;;
        s <- (if (itPage it =? 0) && (n >? 0) then
                '(s, _) <- embedDBFlushVar c (readToWriteBuf s) ;; Ok s
              else Ok s) ;;
        '(s, r, vs) <- setupVarDataStream c s key (u16 (itRec it - 1)) ;;
        Ok (s, it, (if (r =? 0) || (r =? 1) then 1 else 0), out, vs)
    end.

(** The loop of embedDBVarDataStreamRead, embedDB.c:1947-1967.  [acc] are the
    bytes copied so far, [len] the bytes still wanted.  [None] = return 0
    because a page could not be read. *)
Fixpoint stream_loop (c : cfg) (s : state) (fuel : nat) (st : stream) (pg len : Z)
  (acc : list Z) : res (state * stream * option (list Z)) :=
  match fuel with
  | O => Fuel
  | S f =>
      if (0 <? len) && (bytesRead st <? totalBytes st) then
        let off := u16 (fileOffset st mod pageSize c) in
        let amt := Z.min (totalBytes st - bytesRead st) (Z.min (pageSize c - off) len) in
        bs <- ld (vrbuf (sv s)) off (Z.to_nat amt) ;;
        let st := mkStream (totalBytes st) (u32 (bytesRead st + amt))
                           (u32 (fileOffset st + amt)) in
        let acc := acc ++ bs in
        let len := len - amt in
        if (0 <? len) && (bytesRead st <? totalBytes st) then
          let pg := (pg + 1) mod numVar c in
          let '(s, r) := readVariablePage s pg in
          if negb (r =? 0) then Ok (s, st, None)
          else
            stream_loop c s f (mkStream (totalBytes st) (bytesRead st)
                                        (u32 (fileOffset st + varHdr c))) pg len acc
        else stream_loop c s f st pg len acc
      else Ok (s, st, Some acc)
  end.

(** embedDBVarDataStreamRead, embedDB.c:1927-1970, with a non-NULL buffer.  The
    result is the list of bytes copied ([None]: a page read failed, return 0). *)
Definition embedDBVarDataStreamRead (c : cfg) (s : state) (st : stream) (len : Z)
  : res (state * stream * option (list Z)) :=
  if numVar c =? 0 then UB else
  let pg := (fileOffset st / pageSize c) mod numVar c in
  let '(s, r) := readVariablePage s pg in
  if negb (r =? 0) then Ok (s, st, None)
  else stream_loop c s (Z.to_nat (len + 1)) st pg len [].

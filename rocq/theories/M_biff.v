(** * M_biff: record framing, substreams and the decrypting loader, xls/xls.go. *)
From Verif Require Export GoBase M_crypto.

(** recordType constants used by the package, xls/records.go (decimal values as there) *)
Definition RecTypeFormula := 6.        Definition RecTypeEOF := 10.
Definition RecTypeDate1904 := 34.      Definition RecTypeFilePass := 47.
Definition RecTypeContinue := 60.      Definition RecTypeCodePage := 66.
Definition RecTypeWsBool := 129.       Definition RecTypeBoundSheet8 := 133.
Definition RecTypeMulRk := 189.        Definition RecTypeMulBlank := 190.
Definition RecTypeDBCell := 215.       Definition RecTypeXF := 224.
Definition RecTypeInterfaceHdr := 225. Definition RecTypeMergeCells := 229.
Definition RecTypeSST := 252.          Definition RecTypeLabelSst := 253.
Definition RecTypeRRDHead := 312.      Definition RecTypeUsrExcl := 404.
Definition RecTypeFileLock := 405.     Definition RecTypeRRDInfo := 406.
Definition RecTypeHLink := 440.        Definition RecTypeDimensions := 512.
Definition RecTypeBlank := 513.        Definition RecTypeNumber := 515.
Definition RecTypeLabel := 516.        Definition RecTypeBoolErr := 517.
Definition RecTypeString := 519.       Definition RecTypeRow := 520.
Definition RecTypeIndex := 523.        Definition RecTypeRK := 638.
Definition RecTypeFormat := 1054.      Definition RecTypeHLinkTooltip := 2048.
Definition RecTypeBOF := 2057.

(** rec, xls/structs.go:17-21.  Data is a sub-slice of the stream, so it keeps the capacity up
    to the end of the stream. *)
Record brec : Type := mkRec { b_type : Z; b_size : Z; b_data : slice }.

(** nextRecord, xls.go:346-360.  The sum 4+rec.RecSize is computed in uint16.  The pool from
    which the rec is taken is left out here (all its fields are overwritten); see M_pool. *)
Definition next_record (raw : slice) : res (brec * Z) :=
  if sl_len raw <? 4 then Err EEOF
  else
    ty <- le16 (dat raw) ;;
    size <- le16 (zdrop 2 (dat raw)) ;;
    body <- sl_from raw 4 ;;
    if sl_len body <? size then Err EUnexpectedEOF
    else
      d <- sl_range raw 4 (u16 (4 + size)) ;;
      Ok (mkRec ty size d, u16 (4 + size)).

(** state of the first loop of loadFromStream2, xls.go:175-230 *)
Record bst : Type := mkBst {
  st_sub : Z;                     (* substr *)
  st_nest : Z;                    (* nestedBOF *)
  st_pos : Z;                     (* b.fpos *)
  st_streams : list (list brec);  (* b.substreams *)
  st_map : list (Z * Z)           (* b.pos2substream *)
}.
Definition bst0 : bst := mkBst (-1) 0 0 [] [].

Inductive loopres := LDone (st : bst) | LFilePass (data : slice).

(** one round: the nesting counter, xls.go:195-207 *)
Definition enter (st : bst) (r : brec) : bst :=
  let st :=
    if b_type r =? RecTypeEOF then mkBst (st_sub st) (st_nest st - 1) (st_pos st) (st_streams st) (st_map st)
    else if b_type r =? RecTypeBOF then
      let st := if st_nest st =? 0
                then mkBst (zlen (st_streams st)) (st_nest st) (st_pos st) (st_streams st ++ [[]])
                           (zput (st_pos st) (zlen (st_streams st)) (st_map st))
                else st in
      mkBst (st_sub st) (st_nest st + 1) (st_pos st) (st_streams st) (st_map st)
    else st in
  mkBst (st_sub st) (st_nest st) (st_pos st + (4 + sl_len (b_data r))) (st_streams st) (st_map st).

(** b.substreams[substr] = append(b.substreams[substr], nr), xls.go:228 *)
Definition store (st : bst) (r : brec) : res bst :=
  l <- idx (st_streams st) (st_sub st) ;;
  ss <- set_idx (st_streams st) (st_sub st) (l ++ [r]) ;;
  Ok (mkBst (st_sub st) (st_nest st) (st_pos st) ss (st_map st)).

(** the loop, xls.go:192-236; a stream of n bytes has at most n records *)
Fixpoint split_loop (fuel : nat) (raw : slice) (isDecrypted : bool) (st : bst) : res loopres :=
  match fuel with
  | O => NoFuel
  | S fuel =>
      match next_record raw with
      | Err EEOF => Ok (LDone st)
      | Err e => Err e
      | Panic => Panic
      | NoFuel => NoFuel
      | Ok (nr, no) =>
          raw <- sl_from raw no ;;
          let st := enter st nr in
          if (b_type nr =? RecTypeFilePass) && negb isDecrypted then Ok (LFilePass (b_data nr))
          else
            st <- store st nr ;;
            split_loop fuel raw isDecrypted st
      end
  end.
Definition split_stream (raw : slice) (isDecrypted : bool) : res loopres :=
  split_loop (S (List.length (dat raw))) raw isDecrypted bst0.

(** ** loadFromStreamWithDecryptor, xls.go:83-160 *)
Definition exempt (ty : Z) : bool :=
  (ty =? RecTypeBOF) || (ty =? RecTypeFilePass) || (ty =? RecTypeUsrExcl) || (ty =? RecTypeFileLock) ||
  (ty =? RecTypeInterfaceHdr) || (ty =? RecTypeRRDInfo) || (ty =? RecTypeRRDHead).

(** type overlay, xls.go:101-107 *)
Record overlay : Type := mkOv { ov_pos : Z; ov_type : Z; ov_size : Z; ov_data : bytes }.

(** zeros[:n] of the array [8224]byte *)
Definition zeros_to (n : Z) : res bytes := if n <=? 8224 then Ok (repeat 0 (Z.to_nat n)) else Panic.

(** the loop, xls.go:110-144.  dec.Write and binary.Write never fail. *)
Fixpoint decrypt_loop (fuel : nat) (raw : slice) (pos : Z) (dec : rc4w) (ovs : list overlay) : res (rc4w * list overlay) :=
  match fuel with
  | O => NoFuel
  | S fuel =>
      rest <- sl_from raw pos ;;
      if negb (4 <? sl_len rest) then Ok (dec, ovs)
      else
        s <- sl_range raw pos (pos + 2) ;;
        ty <- le16 (dat s) ;;
        s <- sl_range raw (pos + 2) (pos + 4) ;;
        size <- le16 (dat s) ;;
        let start := pos in
        let pos := pos + 4 in
        dec <- w_write dec (put16 ty) ;;
        dec <- w_write dec (put16 size) ;;
        '(odata, pos, dec, tocopy) <-
          (if exempt ty then
             d <- sl_range raw pos (pos + size) ;;
             z <- zeros_to size ;;
             dec <- w_write dec z ;;
             Ok (dat d, pos + size, dec, 0)
           else if ty =? RecTypeBoundSheet8 then
             d <- sl_range raw pos (pos + 4) ;;
             z <- zeros_to 4 ;;
             dec <- w_write dec z ;;
             Ok (dat d, pos + 4, dec, size - 4)
           else Ok ([], pos, dec, size)) ;;
        '(pos, dec) <-
          (if 0 <? tocopy then
             d <- sl_range raw pos (pos + tocopy) ;;
             dec <- w_write dec (dat d) ;;
             Ok (pos + tocopy, dec)
           else Ok (pos, dec)) ;;
        decrypt_loop fuel raw pos dec (ovs ++ [mkOv start ty size odata])
  end.

(** copy(l[i:], src) on the bytes l *)
Definition copy_at (l : bytes) (i : Z) (src : bytes) : res bytes :=
  if (0 <=? i) && (i <=? zlen l) then
    let n := Z.min (zlen src) (zlen l - i) in
    Ok (ztake i l ++ ztake n src ++ zdrop (i + n) l)
  else Panic.
(** binary.LittleEndian.PutUint16(l[i:], x) *)
Definition put16_at (l : bytes) (i x : Z) : res bytes :=
  if (0 <=? i) && (i + 2 <=? zlen l) then copy_at l i (put16 x) else Panic.

(** xls.go:148-156 *)
Definition apply_overlay (l : bytes) (o : overlay) : res bytes :=
  l <- put16_at l (ov_pos o) (ov_type o) ;;
  l <- put16_at l (ov_pos o + 2) (ov_size o) ;;
  if 0 <? zlen (ov_data o) then copy_at l (ov_pos o + 4) (ov_data o) else Ok l.
Fixpoint apply_overlays (l : bytes) (os : list overlay) : res bytes :=
  match os with
  | [] => Ok l
  | o :: os => l <- apply_overlay l o ;; apply_overlays l os
  end.

(** the bytes passed to the recursive call, xls.go:145-159 *)
Definition decrypt_stream (raw : slice) (dec : rc4w) : res bytes :=
  '(dec, ovs) <- decrypt_loop (S (List.length (dat raw))) raw 0 dec [] ;;
  dec <- w_flush dec ;;
  apply_overlays (w_buf dec) ovs.

(** the record-splitting half of loadFromStream, xls.go:79-81 and 175-236.  [sp2] is the spare
    capacity of the decryptor's output buffer, whose contents are unspecified. *)
Definition ECryptoAPI : gerr := ELeaf 2301.    (* "xls: unsupported Crypto API encryption method" *)
Definition EEncMethod : gerr := ELeaf 2302.    (* "xls: unsupported encryption method" *)
Definition split_workbook (raw : slice) (sp2 : bytes) : res bst :=
  r <- split_stream raw false ;;
  match r with
  | LDone st => Ok st
  | LFilePass data =>
      etype <- le16 (dat data) ;;
      if etype =? 1 then
        body <- sl_from data 2 ;;
        dec <- new_basic_rc4 (dat body) ;;
        alldata <- decrypt_stream raw dec ;;
        r <- split_stream (mkSl alldata sp2) true ;;
        match r with
        | LDone st => Ok st
        | LFilePass _ => Panic      (* not reached: the flag excludes this outcome, see L_biff *)
        end
      else if (etype =? 2) || (etype =? 3) || (etype =? 4) then Err ECryptoAPI
      else Err EEncMethod
  end.

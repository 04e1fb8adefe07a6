(** * M_xls: the workbook loader's second pass and the sheet reader, xls/xls.go and xls/sheets.go.
    Logging is left out.  The header of the last BOF record is only used for its two checks. *)
From Verif Require Import GoBase GoFloat GoUnicode M_grate M_value M_fmt M_formats M_cell M_sheet M_biff M_xlstr M_hlink.

Definition EFileVersion : gerr := ELeaf 2601.    (* "xls: invalid file version" *)
Definition EBiffVersion : gerr := ELeaf 2602.    (* "xls: unsupported biff version" *)
Definition ESstIndex : gerr := ELeaf 2603.       (* "xls: invalid sst index" *)
Definition ESheetNotFound : gerr := ELeaf 2604.  (* "xls: sheet not found" *)

(** boundSheet, xls/structs.go:23-28 *)
Record bsheet := mkBS { bs_pos : Z; bs_hidden : Z; bs_type : Z; bs_name : gostr }.

(** WorkBook, xls.go:26-46, without file handles, password and code page *)
Record wbook := mkWB {
  wb_sheets : list bsheet;
  wb_strings : list gostr;
  wb_date : Z;                     (* dateMode *)
  wb_fx : formatter;               (* nfmt *)
  wb_xfs : list Z;
  wb_streams : list (list brec);   (* substreams *)
  wb_map : list (Z * Z)            (* pos2substream *)
}.
(** the workbook Open makes, after the first pass, xls.go:58-64 *)
Definition new_wbook (st : bst) : wbook := mkWB [] [] 0 new_formatter [] (st_streams st) (st_map st).

(** the Continue records that follow, xls.go:254-258 *)
Fixpoint continues (l : list brec) : list slice :=
  match l with
  | [] => []
  | r :: l => if b_type r =? RecTypeContinue then b_data r :: continues l else []
  end.

(** header fields of a BOF record, xls.go:271-284 *)
Definition check_bof (d : slice) : res unit :=
  s <- sl_range d 0 2 ;; version <- le16 (dat s) ;;
  s <- sl_range d 2 4 ;; _ <- le16 (dat s) ;;
  s <- sl_range d 4 6 ;; _ <- le16 (dat s) ;;
  s <- sl_range d 6 8 ;; year <- le16 (dat s) ;;
  s <- sl_range d 8 16 ;; _ <- le64 (dat s) ;;
  if negb (version =? 1536) then Err EFileVersion
  else if negb (year =? 1996) && negb (year =? 1997) then Err EBiffVersion
  else Ok tt.

(** one record of the second pass, xls.go:243-333; rest are the records after it *)
Definition load_rec (w : wbook) (r : brec) (rest : list brec) : res wbook :=
  let d := b_data r in
  let t := b_type r in
  if sl_len d =? 0 then Ok w
  else if t =? RecTypeSST then
    strs <- parse_sst (d :: continues rest) ;;
    Ok (mkWB (wb_sheets w) strs (wb_date w) (wb_fx w) (wb_xfs w) (wb_streams w) (wb_map w))
  else if t =? RecTypeContinue then Ok w
  else if t =? RecTypeEOF then Ok w
  else if t =? RecTypeBOF then _ <- check_bof d ;; Ok w
  else if t =? RecTypeCodePage then _ <- le16 (dat d) ;; Ok w
  else if t =? RecTypeDate1904 then
    m <- le16 (dat d) ;;
    Ok (mkWB (wb_sheets w) (wb_strings w) m (wb_fx w) (wb_xfs w) (wb_streams w) (wb_map w))
  else if t =? RecTypeFormat then
    no <- le16 (dat d) ;;
    s <- sl_from d 2 ;;
    '(code, _) <- decode_long s ;;
    Ok (mkWB (wb_sheets w) (wb_strings w) (wb_date w) (fst (fx_add (wb_fx w) no code)) (wb_xfs w) (wb_streams w) (wb_map w))
  else if t =? RecTypeXF then
    s <- sl_from d 2 ;;
    no <- le16 (dat s) ;;
    Ok (mkWB (wb_sheets w) (wb_strings w) (wb_date w) (wb_fx w) (wb_xfs w ++ [no]) (wb_streams w) (wb_map w))
  else if t =? RecTypeBoundSheet8 then
    s <- sl_to d 4 ;;
    pos <- le32 (dat s) ;;
    hidden <- sl_idx d 4 ;;
    ty <- sl_idx d 5 ;;
    s <- sl_from d 6 ;;
    '(name, _) <- decode_short s ;;
    Ok (mkWB (wb_sheets w ++ [mkBS pos hidden ty name]) (wb_strings w) (wb_date w) (wb_fx w) (wb_xfs w) (wb_streams w) (wb_map w))
  else Ok w.

Fixpoint load_recs (w : wbook) (l : list brec) : res wbook :=
  match l with
  | [] => Ok w
  | r :: l => w <- load_rec w r l ;; load_recs w l
  end.
Fixpoint load_streams (w : wbook) (ss : list (list brec)) : res wbook :=
  match ss with
  | [] => Ok w
  | l :: ss => w <- load_recs w l ;; load_streams w ss
  end.

(** loadFromStream of the Workbook stream, xls.go:79-338: the first pass (M_biff), then the
    second one *)
Definition load_workbook (raw : slice) (sp2 : bytes) : res wbook :=
  st <- split_workbook raw sp2 ;;
  load_streams (new_wbook st) (st_streams st).

(** List and ListHidden, sheets.go:15-34 *)
Definition visible (s : bsheet) : bool := Z.land (bs_hidden s) 3 =? 0.
Definition wb_list (w : wbook) : list gostr := map bs_name (filter visible (wb_sheets w)).
Definition wb_list_hidden (w : wbook) : list gostr := map bs_name (filter (fun s => negb (visible s)) (wb_sheets w)).

(** ** parseSheet, sheets.go:47-439 *)
(** berrLookup, sheets.go:441-450, with the default of sheets.go:151-153 *)
Definition berr_label (b : Z) : gostr :=
  if b =? 0 then bs "#NULL!" else if b =? 7 then bs "#DIV/0!" else if b =? 15 then bs "#VALUE!"
  else if b =? 23 then bs "#REF!" else if b =? 29 then bs "#NAME?" else if b =? 36 then bs "#NUM!"
  else if b =? 42 then bs "#N/A" else if b =? 43 then bs "#GETTING_DATA" else bs "<unknown error>".

(** fno, sheets.go:142-145 and others *)
Definition xf_fmt (w : wbook) (ixfe : Z) : Z := if ixfe <? zlen (wb_xfs w) then nth (Z.to_nat ixfe) (wb_xfs w) 0 else 0.

(** Uint16(r.Data[a:a+2]) *)
Definition field16 (d : slice) (a : Z) : res Z := s <- sl_range d a (a + 2) ;; le16 (dat s).
(** Uint32(r.Data[a:a+4]) *)
Definition field32 (d : slice) (a : Z) : res Z := s <- sl_range d a (a + 4) ;; le32 (dat s).
(** Uint16(r.Data[a:]), Uint32, Uint64 *)
Definition from16 (d : slice) (a : Z) : res Z := s <- sl_from d a ;; le16 (dat s).
Definition from32 (d : slice) (a : Z) : res Z := s <- sl_from d a ;; le32 (dat s).
Definition from64 (d : slice) (a : Z) : res Z := s <- sl_from d a ;; le64 (dat s).

(** the first pass over the records, sheets.go:57-100.  d4 is minRow, maxRow, minCol, maxCol as
    last read; None: the sheet is a dialog. *)
Fixpoint scan_dims (l : list brec) (first : bool) (insub : Z) (s : sheet) (maxRow maxCol : Z) : res (option (sheet * Z * Z)) :=
  match l with
  | [] => Ok (Some (s, maxRow, maxCol))
  | r :: l =>
      let d := b_data r in
      if 0 <? insub then scan_dims l false (if b_type r =? RecTypeEOF then insub - 1 else insub) s maxRow maxCol
      else if b_type r =? RecTypeBOF then scan_dims l false (if first then insub else insub + 1) s maxRow maxCol
      else if b_type r =? RecTypeWsBool then
        x <- sl_idx d 1 ;;
        if negb (Z.land x 16 =? 0) then Ok None else scan_dims l false insub s maxRow maxCol
      else if b_type r =? RecTypeDimensions then
        _ <- field32 d 0 ;;
        mr <- field32 d 4 ;;
        _ <- field16 d 8 ;;
        mc <- field16 d 10 ;;
        scan_dims l false insub (resize s mr mc) mr mc
      else scan_dims l false insub s maxRow maxCol
  end.

(** Put calls in order *)
Definition pwrite := (Z * Z * goval * Z)%type.
Fixpoint put_all (s : sheet) (l : list pwrite) : res sheet :=
  match l with
  | [] => Ok s
  | (r, c, v, f) :: l => s <- put s r c v f ;; put_all s l
  end.

(** n integers from a *)
Fixpoint count_from (a : Z) (n : nat) : list Z := match n with O => [] | S n => a :: count_from (a + 1) n end.
(** for x := a; x <= b; x++ *)
Definition upto (a b : Z) : list Z := count_from a (Z.to_nat (b - a + 1)).

(** the loops of sheets.go:353-372 (hyperlinks, tl the top-left value) and 401-419 (merges) *)
Definition region_mark (r0 r1 c0 c1 rn cn : Z) (tl : option goval) : list pwrite :=
  if (rn =? r0) && (cn =? c0) then match tl with Some v => [(rn, cn, v, 0)] | None => [] end
  else if cn =? c0 then
    if rn =? r1 then [(rn, cn, GStr end_row_merged, 0)] else [(rn, cn, GStr continue_row_merged, 0)]
  else if cn =? c1 then [(rn, cn, GStr end_column_merged, 0)]
  else [(rn, cn, GStr continue_column_merged, 0)].
Definition region_writes (r0 r1 c0 c1 : Z) (tl : option goval) : list pwrite :=
  flat_map (fun rn => flat_map (fun cn => region_mark r0 r1 c0 c1 rn cn tl) (upto c0 c1)) (upto r0 r1).

(** RecTypeMulRk, sheets.go:158-179; the count is computed in uint16 *)
Fixpoint mul_rk (w : wbook) (s : sheet) (d : slice) (row col : Z) (i : Z) (n : nat) : res sheet :=
  match n with
  | O => Ok s
  | S n =>
      ixfe <- from16 d (4 + i * 6) ;;
      value <- from32 d (4 + i * 6 + 2) ;;
      s <- put s row (col + i) (rk_goval value) (xf_fmt w ixfe) ;;
      mul_rk w s d row col (i + 1) n
  end.

(** RecTypeFormula, sheets.go:215-253; fdata is r.Data[6:] *)
Definition formula_rec (w : wbook) (s : sheet) (d : slice) : res (sheet * Z * Z) :=
  row <- field16 d 0 ;;
  col <- field16 d 2 ;;
  ixfe <- field16 d 4 ;;
  fdata <- sl_from d 6 ;;
  let fno := xf_fmt w ixfe in
  f6 <- sl_idx fdata 6 ;;
  s <- (if negb (f6 =? 255) then
          x <- le64 (dat fdata) ;; put s row col (GF64 (f_of_bits x)) fno
        else
          f7 <- sl_idx fdata 7 ;;
          if negb (f7 =? 255) then
            x <- le64 (dat fdata) ;; put s row col (GF64 (f_of_bits x)) fno
          else
            f0 <- sl_idx fdata 0 ;;
            if f0 =? 0 then put s row col (GStr []) fno
            else if f0 =? 1 then
              f2 <- sl_idx fdata 2 ;; put s row col (GBool (negb (f2 =? 0))) fno
            else if f0 =? 2 then
              f2 <- sl_idx fdata 2 ;; put s row col (GStr (berr_label f2)) 0
            else Ok s) ;;
  Ok (s, row, col).

(** RecTypeString, sheets.go:256-303: the text and the capacity of the buffer us afterwards.
    string(bytes) keeps the bytes. *)
Definition string_head (d : slice) (ucap : Z) : res (gostr * Z) :=
  n <- field16 d 0 ;;
  flags <- sl_idx d 2 ;;
  raw <- sl_from d 3 ;;
  if Z.land flags 1 =? 0 then Ok (dat raw, ucap)
  else
    '(us, _) <- units_len (Z.to_nat n) raw ;;
    Ok (utf16_string us, Z.max ucap n).
Fixpoint string_conts (l : list brec) (ucap : Z) : res gostr :=
  match l with
  | [] => Ok []
  | r :: l =>
      if negb (b_type r =? RecTypeContinue) then Ok []
      else
        f <- sl_idx (b_data r) 0 ;;
        raw <- sl_from (b_data r) 1 ;;
        t <- (if Z.land f 1 =? 0 then Ok (dat raw)
              else
                let slen := sl_len raw / 2 in
                if ucap <? slen then Panic
                else '(us, _) <- units_len (Z.to_nat slen) raw ;; Ok (utf16_string us)) ;;
        t2 <- string_conts l ucap ;;
        Ok (t ++ t2)
  end.

(** RecTypeMergeCells, sheets.go:386-420 *)
Fixpoint merge_cells (s : sheet) (raw : slice) (maxRow maxCol : Z) (n : nat) : res sheet :=
  match n with
  | O => Ok s
  | S n =>
      firstRow <- field16 raw 0 ;;
      lastRow <- field16 raw 2 ;;
      firstCol <- field16 raw 4 ;;
      lastCol <- from16 raw 6 ;;
      raw <- sl_from raw 8 ;;
      let lastRow := if lastRow =? 65535 then u16 (u16 maxRow - 1) else lastRow in
      let lastCol := if lastCol =? 255 then u16 (u16 maxCol - 1) else lastCol in
      s <- put_all s (region_writes firstRow lastRow firstCol lastCol None) ;;
      merge_cells s raw maxRow maxCol n
  end.

(** RecTypeHLink, sheets.go:324-372; an undecodable hyperlink is logged and skipped *)
Definition hlink_rec (s : sheet) (d : slice) (maxRow maxCol : Z) : res sheet :=
  firstRow <- field16 d 0 ;;
  lastRow <- field16 d 2 ;;
  firstCol <- field16 d 4 ;;
  lastCol <- from16 d 6 ;;
  if maxCol <? firstCol then Ok s
  else if maxRow <? firstRow then Ok s
  else
    let lastRow := if lastRow =? 65535 then u16 (u16 maxRow - 1) else lastRow in
    let lastCol := if lastCol =? 255 then u16 (u16 maxCol - 1) else lastCol in
    h <- sl_from d 8 ;;
    match decode_hyperlinks h with
    | Ok (disp, link) =>
        put_all s (region_writes firstRow lastRow firstCol lastCol (Some (GStr (disp ++ bs " <" ++ link ++ bs ">"))))
    | Err _ => Ok s
    | Panic => Panic
    | NoFuel => NoFuel
    end.

(** state of the second loop: the sheet, formulaRow, formulaCol, cap(us) *)
Record pst := mkPst { p_sheet : sheet; p_row : Z; p_col : Z; p_ucap : Z }.

(** one record of the second loop, sheets.go:125-436; rest are the records after it *)
Definition sheet_rec (w : wbook) (maxRow maxCol : Z) (st : pst) (r : brec) (rest : list brec) : res pst :=
  let d := b_data r in
  let t := b_type r in
  let s := p_sheet st in
  let ret s := Ok (mkPst s (p_row st) (p_col st) (p_ucap st)) in
  if t =? RecTypeBoolErr then
    row <- field16 d 0 ;;
    col <- field16 d 2 ;;
    ixfe <- field16 d 4 ;;
    e <- sl_idx d 7 ;;
    v <- sl_idx d 6 ;;
    s <- (if e =? 0 then put s row col (GBool (v =? 1)) (xf_fmt w ixfe)
          else put s row col (GStr (berr_label v)) 0) ;;
    ret s
  else if t =? RecTypeMulRk then
    row <- field16 d 0 ;;
    col <- field16 d 2 ;;
    s <- mul_rk w s d row col 0 (Z.to_nat (u16 (b_size r - 6) / 6)) ;;
    ret s
  else if t =? RecTypeNumber then
    row <- field16 d 0 ;;
    col <- field16 d 2 ;;
    ixfe <- field16 d 4 ;;
    x <- from64 d 6 ;;
    s <- put s row col (GF64 (f_of_bits x)) (xf_fmt w ixfe) ;;
    ret s
  else if t =? RecTypeRK then
    row <- field16 d 0 ;;
    col <- field16 d 2 ;;
    ixfe <- from16 d 4 ;;
    x <- from32 d 6 ;;
    s <- put s row col (rk_goval x) (xf_fmt w ixfe) ;;
    ret s
  else if t =? RecTypeFormula then
    '(s, row, col) <- formula_rec w s d ;;
    Ok (mkPst s row col (p_ucap st))
  else if t =? RecTypeString then
    '(t1, ucap) <- string_head d (p_ucap st) ;;
    t2 <- string_conts rest ucap ;;
    s <- set_value s (p_row st) (p_col st) (GStr (t1 ++ t2)) ;;
    Ok (mkPst s (p_row st) (p_col st) ucap)
  else if t =? RecTypeLabelSst then
    row <- field16 d 0 ;;
    col <- field16 d 2 ;;
    ixfe <- field16 d 4 ;;
    i <- from32 d 6 ;;
    if zlen (wb_strings w) <? i then Err ESstIndex
    else
      str <- idx (wb_strings w) i ;;
      s <- (if str_eqb str [] then Ok s else put s row col (GStr str) (xf_fmt w ixfe)) ;;
      ret s
  else if t =? RecTypeHLink then s <- hlink_rec s d maxRow maxCol ;; ret s
  else if t =? RecTypeMergeCells then
    n <- field16 d 0 ;;
    raw <- sl_from d 2 ;;
    s <- merge_cells s raw maxRow maxCol (Z.to_nat n) ;;
    ret s
  else Ok st.

(** the second loop, sheets.go:104-437 *)
Fixpoint sheet_recs (w : wbook) (maxRow maxCol : Z) (l : list brec) (first : bool) (insub : Z) (st : pst) : res pst :=
  match l with
  | [] => Ok st
  | r :: l =>
      if 0 <? insub then sheet_recs w maxRow maxCol l false (if b_type r =? RecTypeEOF then insub - 1 else insub) st
      else if b_type r =? RecTypeBOF then sheet_recs w maxRow maxCol l false (if first then insub else insub + 1) st
      else
        st <- sheet_rec w maxRow maxCol st r l ;;
        sheet_recs w maxRow maxCol l false insub st
  end.

(** parseSheet; None is the (nil, nil) result for dialog sheets *)
Definition parse_sheet (w : wbook) (ss : Z) : res (option sheet) :=
  l <- idx (wb_streams w) ss ;;
  d <- scan_dims l true 0 (empty_sheet (wb_fx w)) 0 0 ;;
  match d with
  | None => Ok None
  | Some (s, maxRow, maxCol) =>
      st <- sheet_recs w maxRow maxCol l true 0 (mkPst s 0 0 8224) ;;
      Ok (Some (p_sheet st))
  end.

(** Get, sheets.go:37-45; the zero value of a missing map entry is 0 *)
Fixpoint get_loop (w : wbook) (l : list bsheet) (name : gostr) : res (option sheet) :=
  match l with
  | [] => Err ESheetNotFound
  | s :: l =>
      if str_eqb (bs_name s) name then
        parse_sheet w (match zfind (bs_pos s) (wb_map w) with Some k => k | None => 0 end)
      else get_loop w l name
  end.
Definition wb_get (w : wbook) (name : gostr) : res (option sheet) := get_loop w (wb_sheets w) name.

(** Close, xls.go:162-173: the substream list is emptied; everything else is kept *)
Definition wb_close (w : wbook) : wbook :=
  mkWB (wb_sheets w) (wb_strings w) (wb_date w) (wb_fx w) (wb_xfs w) [] (wb_map w).

(** * M_cell: model of commonxl/cell.go. *)
From Verif Require Import GoBase GoFloat GoUnicode GoTime M_value M_dates M_fmt M_formats.

(** Cell is []interface{}, cell.go:51-55 *)
Notation cell := (list goval) (only parsing).

(** Value, cell.go:58-63 *)
Definition cell_value (c : cell) : goval := match c with [] => GStr [] | v :: _ => v end.

(** Type, cell.go:85-90 *)
Definition cell_type (c : cell) : res ctype :=
  if zlen c <? 2 then Ok BlankCell
  else v <- idx c 1 ;; match v with GCType t => Ok t | _ => Panic end.

(** FormatNo, cell.go:93-98 *)
Definition format_no (c : cell) : res Z :=
  if zlen c =? 3 then
    v <- idx c 2 ;; match v with GInt KUint16 n => Ok n | _ => Panic end
  else Ok 0.

(** SetURL, cell.go:66-73 *)
Definition cell_set_url (c : cell) (link : gostr) : res cell :=
  c <- set_idx c 1 (GCType HyperlinkStringCell) ;;
  if zlen c =? 2 then Ok (c ++ [GInt KUint16 0; GStr link]) else Ok (c ++ [GStr link]).

(** URL, cell.go:76-82, up to url.Parse: the stored link *)
Definition cell_url (c : cell) : res (option gostr) :=
  t <- cell_type c ;;
  if ctype_eqb t HyperlinkStringCell && (4 <=? zlen c) then
    v <- idx c 3 ;; match v with GStr s => Ok (Some s) | _ => Panic end
  else Ok None.

(** Clone, cell.go:101-107 *)
Definition cell_clone (c : cell) : cell := map (fun x => x) c.

(** boolStrings, cell.go:111-116 *)
Definition bool_strings : list (gostr * bool) :=
  map (fun p : string * bool => (bs (fst p), snd p))
  [("yes", true); ("true", true); ("t", true); ("y", true); ("1", true); ("on", true);
   ("no", false); ("false", false); ("f", false); ("n", false); ("0", false); ("off", false);
   ("YES", true); ("TRUE", true); ("T", true); ("Y", true); ("1.0", true); ("ON", true);
   ("NO", false); ("FALSE", false); ("F", false); ("N", false); ("0.0", false); ("OFF", false)]%string.
Definition bool_string (s : gostr) : bool :=
  match sfind s bool_strings with Some b => b | None => false end.

Definition text_cell (s : gostr) : cell :=
  match s with [] => [GNil; GCType BlankCell] | _ => [GStr s; GCType StringCell] end.

(** NewCell, cell.go:199-303.  The result as value and type; a uint above MaxInt64 is converted
    with int64(v) (line 231 compares the already converted value). *)
Definition new_cell_pair (value : goval) : res (goval * ctype) :=
  let text s := match s with [] => (GNil, BlankCell) | _ => (GStr s, StringCell) end in
  match value with
  | GBool b => Ok (GBool b, BooleanCell)
  | GInt KUint z => Ok (GInt KInt64 (s64 z), IntegerCell)
  | GInt KUint64 z => if maxInt64 <? z then Ok (GF64 (f_of_Z z), FloatCell)
                      else Ok (GInt KInt64 z, IntegerCell)
  | GInt _ z => Ok (GInt KInt64 z, IntegerCell)
  | GF32 x | GF64 x => Ok (GF64 x, FloatCell)
  | GStr s => Ok (text s)
  | GBytes s => Ok (text s)
  | GU16s u => Ok (match u with [] => (GNil, BlankCell) | _ => (GStr (utf16_string u), StringCell) end)
  | GRunes r => Ok (match r with [] => (GNil, BlankCell) | _ => (GStr (string_of_runes r), StringCell) end)
  | GTime t => Ok (GTime t, DateCell)
  | GCType t => Ok (text (ctype_string t))
  | GStringer s => Ok (text s)
  | GNil | GOther _ => Panic
  end.
Definition new_cell (value : goval) : res cell :=
  '(v, t) <- new_cell_pair value ;; Ok [v; GCType t].

(** NewCellWithType, cell.go:119-196, on the (value, type) pair.  The type assertions
    c[0].(bool) and so on are guarded by c[1] and give Panic when they fail. *)
Definition coerce_bool (t : ctype) (p : goval * ctype) : res (goval * ctype) :=   (* 126-149 *)
  let '(v, ct) := p in
  if ctype_eqb ct BooleanCell then
    match t with
    | IntegerCell => match v with GBool b => Ok (GInt KInt64 (if b then 1 else 0), IntegerCell) | _ => Panic end
    | FloatCell => match v with GBool b => Ok (GF64 (f_of_Z (if b then 1 else 0)), FloatCell) | _ => Panic end
    | StringCell => match v with GBool b => Ok (GStr (if b then bs "TRUE" else bs "FALSE"), FloatCell) | _ => Panic end
    | _ => Ok p
    end
  else Ok p.
Definition coerce_float (t : ctype) (p : goval * ctype) : res (goval * ctype) :=  (* 151-159 *)
  let '(v, ct) := p in
  if ctype_eqb ct FloatCell then
    match t with
    | IntegerCell => match v with GF64 x => Ok (GInt KInt64 (f_to_int64 x), IntegerCell) | _ => Panic end
    | BooleanCell => match v with GF64 x => Ok (GBool (negb (feq x f_zero)), BooleanCell) | _ => Panic end
    | _ => Ok p
    end
  else Ok p.
Definition coerce_int (t : ctype) (p : goval * ctype) : res (goval * ctype) :=    (* 160-168 *)
  let '(v, ct) := p in
  if ctype_eqb ct IntegerCell then
    match t with
    | FloatCell => match v with GInt KInt64 z => Ok (GF64 (f_of_Z z), FloatCell) | _ => Panic end
    | BooleanCell => match v with GInt KInt64 z => Ok (GBool (negb (z =? 0)), BooleanCell) | _ => Panic end
    | _ => Ok p
    end
  else Ok p.
Definition coerce_string (t : ctype) (p : goval * ctype) : res (goval * ctype) := (* 169-182 *)
  let '(v, ct) := p in
  if ctype_eqb ct StringCell then
    match t with
    | IntegerCell => match v with GStr s => Ok (GInt KInt64 (fst (parse_int 64 s)), IntegerCell) | _ => Panic end
    | FloatCell => match v with GStr s => Ok (GF64 (fst (parse_float s)), FloatCell) | _ => Panic end
    | BooleanCell => match v with GStr s => Ok (GBool (bool_string s), BooleanCell) | _ => Panic end
    | _ => Ok p
    end
  else Ok p.
Definition coerce_last (m1904 : bool) (t : ctype) (p : goval * ctype) : res (goval * ctype) := (* 183-194 *)
  let '(v, ct) := p in
  match t with
  | StringCell => Ok (GStr (sprint v), StringCell)
  | DateCell =>
      match ct with
      | FloatCell => match v with GF64 x => Ok (GTime (convert_to_date m1904 x), DateCell) | _ => Panic end
      | IntegerCell => match v with GInt KInt64 z => Ok (GTime (convert_to_date m1904 (f_of_Z z)), DateCell) | _ => Panic end
      | _ => Ok (v, DateCell)
      end
  | _ => Ok p
  end.
Definition new_cell_with_type (m1904 : bool) (value : goval) (t : ctype) : res cell :=
  p <- new_cell_pair value ;;
  if ctype_eqb (snd p) t then Ok [fst p; GCType (snd p)]               (* 121-124 *)
  else
    p <- coerce_bool t p ;;
    p <- coerce_float t p ;;
    p <- coerce_int t p ;;
    p <- coerce_string t p ;;
    p <- coerce_last m1904 t p ;;
    Ok [fst p; GCType (snd p)].

(** SetFormatNumber, cell.go:306-317.  ( *c )[:2] may extend a shorter cell into its capacity in
    Go; here a cell shorter than 2 panics (NewCell and NewCellWithType always give length 2). *)
Definition set_format_number (c : cell) (f : Z) : res cell :=
  if f =? 0 then (if zlen c <? 2 then Panic else Ok (ztake 2 c))
  else if zlen c =? 2 then Ok (c ++ [GInt KUint16 f])
  else set_idx c 2 (GInt KUint16 f).

Definition f_min_int64 : f64 := f_of_Z (- two63).
Definition f_max_int64 : f64 := f_of_Z two63.     (* the constant MaxInt64 as a float64 *)

(** Less, cell.go:346-463 *)
Definition cell_less (c other : cell) : res bool :=
  match c with
  | [] => Ok false
  | v1 :: _ =>
      match v1 with
      | GNil => Ok false
      | GBool true => Ok false
      | GBool false =>
          o <- idx other 0 ;;
          match o with
          | GNil => Ok false
          | GBool b => Ok b
          | GInt KInt64 z => Ok (negb (z =? 0))
          | GF64 x => Ok (negb (feq x f_zero))
          | GStr s => Ok (bool_string s)
          | _ => Panic
          end
      | GInt KInt64 a =>
          o <- idx other 0 ;;
          match o with
          | GNil => Ok false
          | GBool b => Ok (a <? (if b then 1 else 0))
          | GInt KInt64 z => Ok (a <? z)
          | GF64 x => if flt x f_min_int64 then Ok false
                      else if fgt x f_max_int64 then Ok true
                      else Ok (flt (f_of_Z a) x)
          | GStr s => match sscanf_d s with
                      | Some x => Ok (a <? x)
                      | None => Ok (str_ltb (itoa a) s)
                      end
          | _ => Panic
          end
      | GF64 a =>
          o <- idx other 0 ;;
          match o with
          | GNil => Ok false
          | GBool b => Ok (flt a (f_of_Z (if b then 1 else 0)))
          | GInt KInt64 z => if flt a f_min_int64 then Ok true
                             else if fgt a f_max_int64 then Ok false
                             else Ok (flt a (f_of_Z z))
          | GF64 x => Ok (flt a x)
          | GStr s => match sscanf_g s with
                      | Some x => Ok (flt a x)
                      | None => Ok (str_ltb (sprint (GF64 a)) s)
                      end
          | _ => Panic
          end
      | GStr a =>
          o <- idx other 0 ;;
          match o with
          | GNil => Ok false
          | GBool b => Ok (b && negb (bool_string a))
          | GInt KInt64 z => match sscanf_d a with
                             | Some x => Ok (x <? z)
                             | None => Ok (str_ltb a (itoa z))
                             end
          | GF64 x => match sscanf_g a with
                      | Some y => Ok (flt y x)
                      | None => Ok (str_ltb a (sprint (GF64 x)))
                      end
          | GStr s => Ok (str_ltb a s)
          | _ => Panic
          end
      | _ => Panic
      end
  end.

(** the numeric value Equal uses for one side, cell.go:322-330; [text_of] is the value scanned
    when it is not a number (the code scans c[0] for both sides, line 338) *)
Definition equal_num (v text_of : goval) : f64 :=
  match v with
  | GF64 x => x
  | GInt KInt64 z => f_of_Z z
  | _ => match sscanf_g (sprint text_of) with Some x => x | None => f_zero end
  end.

(** Equal, cell.go:319-344 *)
Definition cell_equal (c other : cell) : res bool :=
  t1 <- cell_type c ;;
  t2 <- cell_type other ;;
  if ctype_eqb t1 FloatCell || ctype_eqb t2 FloatCell
     || ctype_eqb t1 IntegerCell || ctype_eqb t2 IntegerCell then
    v1 <- idx c 0 ;;
    v2 <- idx other 0 ;;
    Ok (feq (equal_num v1 v1) (equal_num v2 v1))
  else
    a <- cell_less c other ;;
    b <- cell_less other c ;;
    Ok (Bool.eqb a b).

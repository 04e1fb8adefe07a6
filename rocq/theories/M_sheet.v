(** * M_sheet: model of commonxl/sheet.go.  The Formatter pointer is assumed non-nil (both
    readers set it).  The merge placeholders are the constants of grate.go. *)
From Verif Require Import GoBase GoFloat GoUnicode GoTime M_grate M_value M_dates M_fmt M_formats M_cell.

(** Sheet, sheet.go:12-19 *)
Record sheet := mkSheet {
  sh_fx : formatter;
  sh_nrows : Z;
  sh_ncols : Z;
  sh_rows : list (list (list goval));
  sh_cur : Z
}.

(** the zero Sheet with a Formatter *)
Definition empty_sheet (x : formatter) : sheet := mkSheet x 0 0 [] 0.

Definition blank_row (n : Z) : list (list goval) := repeat [] (Z.to_nat n).

(** the loop of sheet.go:24-33: row i is extended to cols cells while i <= rows *)
Fixpoint widen_rows (i rows cols : Z) (l : list (list (list goval))) : list (list (list goval)) :=
  match l with
  | [] => []
  | r :: l' =>
      if rows <? i then r :: l'
      else (r ++ blank_row (cols - zlen r)) :: widen_rows (i + 1) rows cols l'
  end.

(** Resize, sheet.go:23-48 *)
Definition resize (s : sheet) (rows cols : Z) : sheet :=
  let l := widen_rows 0 rows cols (sh_rows s) in
  let rows := if rows <=? 0 then 1 else rows in
  let cols := if cols <=? 0 then 1 else cols in
  mkSheet (sh_fx s) rows cols
          (l ++ repeat (blank_row cols) (Z.to_nat (rows + 1 - zlen l))) 0.

Definition get_cell (s : sheet) (row col : Z) : res (list goval) :=
  r <- idx (sh_rows s) row ;; idx r col.
Definition put_cell (s : sheet) (row col : Z) (c : list goval) : res sheet :=
  r <- idx (sh_rows s) row ;;
  r <- set_idx r col c ;;
  l <- set_idx (sh_rows s) row r ;;
  Ok (mkSheet (sh_fx s) (sh_nrows s) (sh_ncols s) l (sh_cur s)).

Definition is_merge_mark (s : gostr) : bool :=
  str_eqb s end_row_merged || str_eqb s end_column_merged
  || str_eqb s continue_row_merged || str_eqb s continue_column_merged.

(** sheet.go:53-68 *)
Definition grow_for (s : sheet) (row col : Z) : sheet :=
  if (sh_nrows s <=? row) || (sh_ncols s <=? col) then
    resize s (if sh_nrows s <=? row then row + 1 else sh_nrows s)
             (if sh_ncols s <=? col then col + 1 else sh_ncols s)
  else s.

(** the cell that Put stores, sheet.go:70-84 *)
Definition make_put_cell (x : formatter) (value : goval) (fmtNum : Z) : res (list goval) :=
  match value with
  | GStr spec =>
      if is_merge_mark spec then
        c <- new_cell value ;; set_idx c 1 (GCType StaticCell)
      else
        c <- match fx_cell_type x fmtNum with
             | Some ct => if fmtNum =? 0 then new_cell value else new_cell_with_type (fx_1904 x) value ct
             | None => new_cell value
             end ;;
        set_format_number c fmtNum
  | _ =>
      c <- match fx_cell_type x fmtNum with
           | Some ct => if fmtNum =? 0 then new_cell value else new_cell_with_type (fx_1904 x) value ct
           | None => new_cell value
           end ;;
      set_format_number c fmtNum
  end.

(** Put, sheet.go:51-85 *)
Definition put (s : sheet) (row col : Z) (value : goval) (fmtNum : Z) : res sheet :=
  let s := grow_for s row col in
  c <- make_put_cell (sh_fx s) value fmtNum ;;
  put_cell s row col c.

(** Set, sheet.go:89-97 *)
Definition set_value (s : sheet) (row col : Z) (value : goval) : res sheet :=
  if (sh_nrows s <? row) || (sh_ncols s <? col) then Ok s
  else
    c <- get_cell s row col ;;
    c <- set_idx c 0 value ;;
    c <- set_idx c 1 (GCType StringCell) ;;
    put_cell s row col c.

(** Sheet.SetURL, sheet.go:100-107 *)
Definition set_url (s : sheet) (row col : Z) (link : gostr) : res sheet :=
  if (sh_nrows s <? row) || (sh_ncols s <? col) then Ok s
  else
    c <- get_cell s row col ;;
    c <- cell_set_url c link ;;
    put_cell s row col c.

(** Next, sheet.go:111-117 *)
Definition next (s : sheet) : bool * sheet :=
  if zlen (sh_rows s) <? sh_cur s + 1 then (false, s)
  else (true, mkSheet (sh_fx s) (sh_nrows s) (sh_ncols s) (sh_rows s) (sh_cur s + 1)).

(** fill res[i] for i < NumCols from the cells of the current row; an extra cell indexes out
    of range *)
Fixpoint fill_row {A B} (f : A -> res B) (n : Z) (i : Z) (l : list A) : res (list B) :=
  match l with
  | [] => Ok []
  | c :: l' => b <- f c ;;
               if n <=? i then Panic
               else rest <- fill_row f n (i + 1) l' ;; Ok (b :: rest)
  end.
Definition row_map {A} (f : list goval -> res A) (dflt : A) (s : sheet) : res (list A) :=
  r <- idx (sh_rows s) (sh_cur s - 1) ;;
  l <- fill_row f (sh_ncols s) 0 r ;;
  Ok (l ++ repeat dflt (Z.to_nat (sh_ncols s - zlen l))).

(** Raw, sheet.go:120-126 *)
Definition raw (s : sheet) : res (list (list goval)) := row_map (fun c => Ok (cell_clone c)) [] s.

(** one string of Strings, sheet.go:132-145 *)
Definition cell_string (x : formatter) (c : list goval) : res gostr :=
  t <- cell_type c ;;
  match t with
  | BlankCell => Ok []
  | StaticCell => match cell_value c with GStr s => Ok s | _ => Panic end
  | _ => n <- format_no c ;;
         '(fs, ok) <- fx_apply x n (cell_value c) ;;
         Ok (if ok : bool then fs else sprint (cell_value c))
  end.
(** Strings, sheet.go:129-148 *)
Definition strings (s : sheet) : res (list gostr) := row_map (cell_string (sh_fx s)) [] s.

(** Types, sheet.go:153-159 *)
Definition types (s : sheet) : res (list gostr) :=
  row_map (fun c => t <- cell_type c ;; Ok (ctype_string t)) [] s.

(** Formats, sheet.go:162-172 *)
Definition cell_format (c : list goval) : res gostr :=
  n <- format_no c ;;
  Ok (match zfind n builtin_formats with Some f => f | None => itoa n end).
Definition formats (s : sheet) : res (list gostr) := row_map cell_format [] s.

(** Scan destinations: the pointer types Scan knows, the value types it rejects by name, and
    anything else *)
Inductive sdest := SBool | SInt64 | SFloat64 | SString | STime | SValue | SOtherDest.

Definition err_scan (n : Z) : gerr := ELeaf (1200 + n).
(** one argument of Scan, sheet.go:184-219: the stored value or an error *)
Definition scan_one (d : sdest) (v : goval) : goval + gerr :=
  match d with
  | SValue => inr (err_scan 1)
  | SBool => match v with GBool _ => inl v | _ => inr (err_scan 2) end
  | SInt64 => match v with GInt KInt64 _ => inl v | _ => inr (err_scan 3) end
  | SFloat64 => match v with GF64 _ => inl v | _ => inr (err_scan 4) end
  | SString => match v with GStr _ => inl v | _ => inr (err_scan 5) end
  | STime => match v with GTime _ => inl v | _ => inr (err_scan 6) end
  | SOtherDest => inr (err_scan 7)
  end.
(** Scan, sheet.go:178-222: the values stored before returning, and the error *)
Fixpoint scan_loop (i : Z) (row : list (list goval)) (ds : list sdest)
  : res (list goval * option gerr) :=
  match ds with
  | [] => Ok ([], None)
  | d :: ds' =>
      c <- idx row i ;;
      match scan_one d (cell_value c) with
      | inr e => Ok ([], Some e)
      | inl v => '(vs, e) <- scan_loop (i + 1) row ds' ;; Ok (v :: vs, e)
      end
  end.
Definition scan (s : sheet) (ds : list sdest) : res (list goval * option gerr) :=
  row <- idx (sh_rows s) (sh_cur s - 1) ;; scan_loop 0 row ds.

(** IsEmpty, sheet.go:225-227 *)
Definition is_empty (s : sheet) : bool := (sh_ncols s <=? 1) && (sh_nrows s <=? 1).

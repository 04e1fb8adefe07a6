(** * M_xlsx: model of xlsx/*.go.

    The zip archive and the XML decoder (encoding/xml RawToken) are not modelled: a package is a
    list of parts, and a part is the sequence of tokens RawToken returns before its first error,
    and that error (io.EOF at the end of a document).  Element and attribute names are local
    names, as in the code, which never looks at the prefix.  RawToken turns a self-closing tag
    into a start and an end token.  Opening a part again gives the same tokens.  Memory is not
    bounded.  Debug logging is left out. *)
From Verif Require Import GoBase GoFloat GoUnicode GoTime GoPath M_grate M_value M_dates M_fmt M_formats M_cell M_sheet M_xls.

Definition EInvalidDoc : gerr := ELeaf 2701.     (* "xlsx: invalid document" *)
Definition EInvalidSheet : gerr := ELeaf 2702.   (* "xlsx: invalid sheet definition" *)
Definition ENoSheet : gerr := ELeaf 2703.        (* "xlsx: sheet not found" *)
Definition EClosed : gerr := ELeaf 2704.         (* os.ErrClosed *)

Notation xattr := (gostr * gostr)%type.
Inductive xtok :=
| XStart (name : gostr) (attrs : list xattr)
| XEnd (name : gostr)
| XChars (t : bytes)                             (* xml.CharData; may be empty for a CDATA section *)
| XOther.                                        (* xml.Comment, xml.ProcInst, xml.Directive *)
Record xml := mkXml { xm_toks : list xtok; xm_end : gerr }.
(** zip.Reader.File: names, and the result of opening *)
Notation xzip := (list (gostr * (xml + gerr))).

(** openXML, xlsx.go:135-150 *)
Fixpoint open_xml (z : xzip) (name : gostr) : xml + gerr :=
  match z with
  | [] => inr EEOF
  | (n, p) :: z => if str_eqb n name then p else open_xml z name
  end.

(** the error a token loop returns, e.g. workbook.go:53-56 *)
Definition end_err (e : gerr) : option gerr := match e with EEOF => None | _ => Some e end.

(** getAttrs, types.go:82-92, for one key: the last attribute of that name, or "" *)
Fixpoint get_attr (attrs : list xattr) (key : gostr) : gostr :=
  match attrs with
  | [] => []
  | (k, v) :: r => if existsb (fun a => str_eqb (fst a) key) r then get_attr r key
                   else if str_eqb k key then v else []
  end.
(** a map filled from the attributes, workbook.go:24-27: the last one of that name *)
Fixpoint map_attr (attrs : list xattr) (key : gostr) : option gostr :=
  match attrs with
  | [] => None
  | (k, v) :: r => match map_attr r key with
                   | Some x => Some x
                   | None => if str_eqb k key then Some v else None
                   end
  end.
Definition map_get (attrs : list xattr) (key : gostr) : gostr := match map_attr attrs key with Some v => v | None => [] end.

(** ** references *)

(** col2int, types.go:48-55, in 64-bit arithmetic *)
Definition col2int (col : gostr) : Z :=
  s64 (fold_left (fun idx c => s64 (idx * 26 + (c - 64))) (runes_of_string col) 0 - 1).

Definition digit_set : gostr := bs "0123456789".
(** refToIndexes, types.go:57-80: (column, row) *)
Definition ref_to_indexes (r : gostr) : res (Z * Z) :=
  if zlen r <? 2 then Ok (-1, -1)
  else
    let i1 := index_any digit_set r in
    if i1 <=? 0 then Ok (-1, -1)
    else
      let i2 := index_byte 67 (zdrop i1 r) in
      if i2 =? -1 then
        Ok (col2int (ztake i1 r), s64 (fst (parse_int 64 (zdrop i1 r)) - 1))
      else
        col1 <- substr r i1 i2 ;;
        row1 <- substr r (i2 + 1) (zlen r) ;;
        Ok (fst (parse_int 64 col1), s64 (fst (parse_int 64 row1) - 1)).

(** ** the document *)

(** Sheet, sheets.go:16-25.  xh_err is None while err is errNotLoaded. *)
Record xsheet_st := mkXSh {
  xh_rel : gostr; xh_name : gostr; xh_doc : gostr;
  xh_err : option (option gerr);
  xh_wrapped : option sheet
}.
(** type => id => filename, xlsx.go:27 *)
Notation xrels := (list (gostr * list (gostr * gostr))).
(** Document, xlsx.go:20-32 *)
Record xdoc := mkXDoc {
  xd_zip : xzip;
  xd_primary : gostr;
  xd_rels : xrels;
  xd_sheets : list xsheet_st;
  xd_strings : list gostr;
  xd_xfs : list Z;
  xd_fmt : formatter
}.
Definition new_xdoc (z : xzip) : xdoc := mkXDoc z [] [] [] [] [] new_formatter.

Definition rel_prefix : gostr := bs "http://schemas.openxmlformats.org/officeDocument/2006/relationships/".
Definition rel_office : gostr := rel_prefix ++ bs "officeDocument".
Definition rel_sheet : gostr := rel_prefix ++ bs "worksheet".
Definition rel_styles : gostr := rel_prefix ++ bs "styles".
Definition rel_strings : gostr := rel_prefix ++ bs "sharedStrings".
Definition rel_link : gostr := rel_prefix ++ bs "hyperlink".

(** d.rels[ty], nil when absent *)
Definition rels_of (r : xrels) (ty : gostr) : list (gostr * gostr) := match sfind ty r with Some m => m | None => [] end.

(** one Relationship element, workbook.go:24-39 *)
Definition rel_elem (basedir : gostr) (d : xdoc) (attrs : list xattr) : xdoc :=
  let ty := map_get attrs (bs "Type") in
  let tgt := map_get attrs (bs "Target") in
  let file := match tgt with
              | 47 :: rest => rest
              | _ => path_join [basedir; tgt]
              end in
  let rels := sput ty (sput (map_get attrs (bs "Id")) file (rels_of (xd_rels d) ty)) (xd_rels d) in
  mkXDoc (xd_zip d) (if str_eqb ty rel_office then tgt else xd_primary d) rels (xd_sheets d) (xd_strings d) (xd_xfs d) (xd_fmt d).
(** parseRels, workbook.go:15-57 *)
Fixpoint rels_loop (basedir : gostr) (l : list xtok) (d : xdoc) : xdoc :=
  match l with
  | [] => d
  | XStart name attrs :: l =>
      rels_loop basedir l (if str_eqb name (bs "Relationship") then rel_elem basedir d attrs else d)
  | _ :: l => rels_loop basedir l d
  end.
Definition parse_rels (x : xml) (basedir : gostr) (d : xdoc) : xdoc * option gerr :=
  (rels_loop basedir (xm_toks x) d, end_err (xm_end x)).

(** parseWorkbook, workbook.go:59-102 *)
Fixpoint workbook_loop (l : list xtok) (d : xdoc) : res xdoc :=
  match l with
  | [] => Ok d
  | XStart name attrs :: l =>
      if str_eqb name (bs "sheet") then
        match map_attr attrs (bs "id"), map_attr attrs (bs "name") with
        | Some id, Some nm =>
            let doc := match sfind id (rels_of (xd_rels d) rel_sheet) with Some f => f | None => [] end in
            workbook_loop l (mkXDoc (xd_zip d) (xd_primary d) (xd_rels d) (xd_sheets d ++ [mkXSh id nm doc None None]) (xd_strings d) (xd_xfs d) (xd_fmt d))
        | _, _ => Err EInvalidSheet
        end
      else workbook_loop l d
  | _ :: l => workbook_loop l d
  end.
Definition parse_workbook (x : xml) (d : xdoc) : res xdoc :=
  d <- workbook_loop (xm_toks x) d ;;
  match end_err (xm_end x) with Some e => Err e | None => Ok d end.

(** the number formats of one xf, workbook.go:129-157: section, base formats, xfs *)
Record sty := mkSty { sy_base : list gostr; sy_section : Z; sy_xfs : list Z; sy_fmt : formatter }.
Definition int_attr (bits : Z) (s : gostr) : Z := fst (parse_int bits s).
Definition style_xf (st : sty) (attrs : list xattr) : res sty :=
  let fid := get_attr attrs (bs "numFmtId") in
  let apply := get_attr attrs (bs "applyNumberFormat") in
  if sy_section st =? 1 then
    Ok (mkSty (sy_base st ++ [if str_eqb apply (bs "0") then bs "0" else fid]) (sy_section st) (sy_xfs st) (sy_fmt st))
  else if sy_section st =? 2 then
    let baseID := int_attr 64 (get_attr attrs (bs "xfId")) in
    _ <- (if baseID <? zlen (sy_base st) then idx (sy_base st) baseID else Ok []) ;;   (* overwritten below *)
    let numFmtID := if str_eqb apply (bs "0") then bs "0" else fid in
    Ok (mkSty (sy_base st) (sy_section st) (sy_xfs st ++ [u16 (int_attr 16 numFmtID)]) (sy_fmt st))
  else Panic.
Definition style_start (st : sty) (name : gostr) (attrs : list xattr) : res sty :=
  if str_eqb name (bs "numFmt") then
    let n := u16 (int_attr 16 (get_attr attrs (bs "numFmtId"))) in
    Ok (mkSty (sy_base st) (sy_section st) (sy_xfs st) (fst (fx_add (sy_fmt st) n (get_attr attrs (bs "formatCode")))))
  else if str_eqb name (bs "cellStyleXfs") then Ok (mkSty (sy_base st) 1 (sy_xfs st) (sy_fmt st))
  else if str_eqb name (bs "cellXfs") then
    let n := int_attr 64 (get_attr attrs (bs "count")) in
    if (n <? 0) || (2 ^ 48 <? 2 * n) then Panic                       (* make with a bad capacity *)
    else Ok (mkSty (sy_base st) 2 [] (sy_fmt st))
  else if str_eqb name (bs "xf") then style_xf st attrs
  else Ok st.
Definition style_end (st : sty) (name : gostr) : sty :=
  if str_eqb name (bs "cellStyleXfs") || str_eqb name (bs "cellXfs") then mkSty (sy_base st) 0 (sy_xfs st) (sy_fmt st) else st.
Fixpoint styles_loop (l : list xtok) (st : sty) : res sty :=
  match l with
  | [] => Ok st
  | XStart name attrs :: l => st <- style_start st name attrs ;; styles_loop l st
  | XEnd name :: l => styles_loop l (style_end st name)
  | _ :: l => styles_loop l st
  end.
(** parseStyles, workbook.go:104-182 *)
Definition parse_styles (x : xml) (d : xdoc) : res xdoc :=
  st <- styles_loop (xm_toks x) (mkSty [] 0 [] (xd_fmt d)) ;;
  match end_err (xm_end x) with
  | Some e => Err e
  | None => Ok (mkXDoc (xd_zip d) (xd_primary d) (xd_rels d) (xd_sheets d) (xd_strings d) (sy_xfs st) (sy_fmt st))
  end.

(** parseSharedStrings, workbook.go:184-219 *)
Fixpoint sst_loop (l : list xtok) (val : gostr) (acc : list gostr) : list gostr :=
  match l with
  | [] => acc
  | XChars t :: l => sst_loop l (val ++ t) acc
  | XStart name _ :: l => sst_loop l (if str_eqb name (bs "si") then [] else val) acc
  | XEnd name :: l => sst_loop l val (if str_eqb name (bs "si") then acc ++ [val] else acc)
  | XOther :: l => sst_loop l val acc
  end.
Definition parse_shared (x : xml) (d : xdoc) : res xdoc :=
  let ss := sst_loop (xm_toks x) [] (xd_strings d) in
  match end_err (xm_end x) with
  | Some e => Err e
  | None => Ok (mkXDoc (xd_zip d) (xd_primary d) (xd_rels d) (xd_sheets d) ss (xd_xfs d) (xd_fmt d))
  end.

(** a part that must be there *)
Definition need {A} (x : xml + gerr) (f : xml -> res A) : res A := match x with inl x => f x | inr e => Err e end.
Fixpoint parse_parts (f : xml -> xdoc -> res xdoc) (files : list gostr) (d : xdoc) : res xdoc :=
  match files with
  | [] => Ok d
  | n :: files => d <- need (open_xml (xd_zip d) n) (fun x => f x d) ;; parse_parts f files d
  end.
(** the values of a map kept as an association list: one per key, the newest *)
Fixpoint live_values (seen : list gostr) (m : list (gostr * gostr)) : list gostr :=
  match m with
  | [] => []
  | (k, v) :: r => if existsb (str_eqb k) seen then live_values seen r else v :: live_values (k :: seen) r
  end.
(** Open after zip.NewReader, xlsx.go:57-133.  [order]: the order in which a range over a map
    visits its values. *)
Definition open_doc (order : list gostr -> list gostr) (z : xzip) : res xdoc :=
  match open_xml z (bs "_rels/.rels") with
  | inr e => Err (wrap_err [e; ENotInFormat])
  | inl x =>
      let '(d, e) := parse_rels x [] (new_xdoc z) in
      match e with
      | Some e => Err (wrap_err [e; ENotInFormat])
      | None =>
          match xd_primary d with
          | [] => Err EInvalidDoc
          | primary =>
              let base := path_base primary in
              let sub := trim_suffix primary base in
              let relfn := path_join [sub; bs "_rels"; base ++ bs ".rels"] in
              need (open_xml z relfn) (fun x =>
                let '(d, e) := parse_rels x sub d in
                match e with
                | Some e => Err e
                | None =>
                    d <- need (open_xml z (xd_primary d)) (fun x => parse_workbook x d) ;;
                    d <- parse_parts parse_styles (order (live_values [] (rels_of (xd_rels d) rel_styles))) d ;;
                    parse_parts parse_shared (order (live_values [] (rels_of (xd_rels d) rel_strings))) d
                end)
          end
      end
  end.
(** what os.Open, Stat and zip.NewReader make of the file *)
Inductive xfile := XNoFile (e : gerr) | XNotZip (e : gerr) | XZip (z : xzip).
(** Open, xlsx.go:44-133 *)
Definition open_xlsx (order : list gostr -> list gostr) (f : xfile) : res xdoc :=
  match f with
  | XNoFile e => Err e
  | XNotZip e => Err (wrap_err [e; ENotInFormat])
  | XZip z => open_doc order z
  end.

(** ** sheets *)

(** hyperlink targets of a sheet, sheets.go:41-48; errors are ignored *)
Fixpoint link_loop (l : list xtok) (m : list (gostr * gostr)) : list (gostr * gostr) :=
  match l with
  | [] => m
  | XStart name attrs :: l =>
      link_loop l (if str_eqb name (bs "Relationship") && str_eqb (get_attr attrs (bs "TargetMode")) (bs "External") && str_eqb (get_attr attrs (bs "Type")) rel_link
                   then sput (get_attr attrs (bs "Id")) (get_attr attrs (bs "Target")) m else m)
  | _ :: l => link_loop l m
  end.
(** sheets.go:33-50 *)
Definition sheet_links (z : xzip) (docname : gostr) : list (gostr * gostr) :=
  let base := path_base docname in
  let sub := trim_suffix docname base in
  match open_xml z (path_join [sub; bs "_rels"; base ++ bs ".rels"]) with
  | inl x => link_loop (xm_toks x) []
  | inr _ => []
  end.

(** state of the token loop, sheets.go:58-61 *)
Record xps := mkXps { xp_type : gostr; xp_cell : gostr; xp_fno : Z; xp_maxcol : Z; xp_maxrow : Z; xp_sheet : sheet }.
Definition with_sheet (st : xps) (s : sheet) : xps := mkXps (xp_type st) (xp_cell st) (xp_fno st) (xp_maxcol st) (xp_maxrow st) s.

(** the value of a text in a cell, sheets.go:72-101; None: no value *)
Definition cell_text_value (strs : list gostr) (ty : gostr) (v : bytes) : res (option goval) :=
  if str_eqb ty (bs "b") then b <- idx v 0 ;; Ok (Some (GBool (b =? 49)))
  else if str_eqb ty (bs "n") then
    match parse_float v with
    | (f, PNone) => Ok (Some (GF64 f))
    | _ => Ok (Some (GStr v))
    end
  else if str_eqb ty (bs "s") then t <- idx strs (fst (parse_int 64 v)) ;; Ok (Some (GStr t))
  else if str_eqb ty [] then Ok None
  else Ok (Some (GStr v)).
(** xml.CharData, sheets.go:66-105 *)
Definition sheet_chars (d : xdoc) (st : xps) (v : bytes) : res xps :=
  match xp_cell st with
  | [] => Ok st
  | cell =>
      '(c, r) <- ref_to_indexes cell ;;
      if (0 <=? c) && (0 <=? r) then
        o <- cell_text_value (xd_strings d) (xp_type st) v ;;
        match o with
        | None => Ok st
        | Some val => s <- put (xp_sheet st) r c val (xp_fno st) ;; Ok (with_sheet st s)
        end
      else Ok st
  end.
(** dimension, sheets.go:108-123 *)
Definition sheet_dimension (st : xps) (attrs : list xattr) : res xps :=
  let ref := get_attr attrs (bs "ref") in
  if str_eqb ref (bs "A1") then Ok (mkXps (xp_type st) (xp_cell st) (xp_fno st) 1 1 (resize (xp_sheet st) 1 1))
  else
    let dims := split_byte 58 ref in
    '(mc, mr) <- (if zlen dims =? 1 then d0 <- idx dims 0 ;; ref_to_indexes d0 else d1 <- idx dims 1 ;; ref_to_indexes d1) ;;
    Ok (mkXps (xp_type st) (xp_cell st) (xp_fno st) mc mr (resize (xp_sheet st) mr mc)).
(** c, sheets.go:128-141 *)
Definition sheet_c (d : xdoc) (st : xps) (attrs : list xattr) : res xps :=
  let t := get_attr attrs (bs "t") in
  let sid := int_attr 64 (get_attr attrs (bs "s")) in
  fno <- (if sid <? zlen (xd_xfs d) then idx (xd_xfs d) sid else Ok 0) ;;
  Ok (mkXps (if str_eqb t [] then bs "n" else t) (get_attr attrs (bs "r")) fno (xp_maxcol st) (xp_maxrow st) (xp_sheet st)).
(** mergeCell, sheets.go:146-178 *)
Definition merge_mark_at (r0 c0 r1 c1 r c : Z) : list pwrite :=
  if (r =? r0) && (c =? c0) then []
  else if c =? c0 then
    if r =? r1 then [(r, c, GStr end_row_merged, 0)] else [(r, c, GStr continue_row_merged, 0)]
  else if c =? c1 then [(r, c, GStr end_column_merged, 0)]
  else [(r, c, GStr continue_column_merged, 0)].
Definition merge_writes (r0 c0 r1 c1 : Z) : list pwrite :=
  flat_map (fun r => flat_map (fun c => merge_mark_at r0 c0 r1 c1 r c) (upto c0 c1)) (upto r0 r1).
Definition sheet_merge (st : xps) (attrs : list xattr) : res xps :=
  let dims := split_byte 58 (get_attr attrs (bs "ref")) in
  d0 <- idx dims 0 ;;
  '(c0, r0) <- ref_to_indexes d0 ;;
  '(c1, r1) <- (if 1 <? zlen dims then d1 <- idx dims 1 ;; ref_to_indexes d1 else Ok (c0, r0)) ;;
  let r1 := if xp_maxrow st <? r1 then xp_maxrow st else r1 in
  let c1 := if xp_maxcol st <? c1 then xp_maxcol st else c1 in
  s <- put_all (xp_sheet st) (merge_writes r0 c0 r1 c1) ;;
  Ok (with_sheet st s).
(** hyperlink, sheets.go:180-185 *)
Definition sheet_link (links : list (gostr * gostr)) (st : xps) (attrs : list xattr) : res xps :=
  '(col, row) <- ref_to_indexes (get_attr attrs (bs "ref")) ;;
  let link := match sfind (get_attr attrs (bs "id")) links with Some l => l | None => [] end in
  s <- put (xp_sheet st) row col (GStr link) 0 ;;
  s <- set_url s row col link ;;
  Ok (with_sheet st s).

(** one token, sheets.go:65-208 *)
Definition sheet_tok (d : xdoc) (links : list (gostr * gostr)) (st : xps) (t : xtok) : res xps :=
  match t with
  | XChars v => sheet_chars d st v
  | XStart name attrs =>
      if str_eqb name (bs "dimension") then sheet_dimension st attrs
      else if str_eqb name (bs "c") then sheet_c d st attrs
      else if str_eqb name (bs "mergeCell") then sheet_merge st attrs
      else if str_eqb name (bs "hyperlink") then sheet_link links st attrs
      else Ok st
  | XEnd name => Ok (if str_eqb name (bs "c") then mkXps (xp_type st) [] (xp_fno st) (xp_maxcol st) (xp_maxrow st) (xp_sheet st) else st)
  | XOther => Ok st
  end.
Fixpoint sheet_toks (d : xdoc) (links : list (gostr * gostr)) (l : list xtok) (st : xps) : res xps :=
  match l with
  | [] => Ok st
  | t :: l => st <- sheet_tok d links st t ;; sheet_toks d links l st
  end.
Definition xps0 (x : formatter) : xps := mkXps [] [] 0 0 0 (empty_sheet x).
(** parseSheet, sheets.go:29-214: the sheet, which is kept, and the error *)
Definition parse_xsheet (d : xdoc) (docname : gostr) : res (sheet * option gerr) :=
  let links := sheet_links (xd_zip d) docname in
  match open_xml (xd_zip d) docname with
  | inr e => Ok (empty_sheet (xd_fmt d), Some e)
  | inl x =>
      st <- sheet_toks d links (xm_toks x) (xps0 (xd_fmt d)) ;;
      Ok (xp_sheet st, end_err (xm_end x))
  end.

(** ** the API *)

(** An open or closed document.  Close drops the sheets from the document, but collections
    returned before stay alive: they are kept here with the flag [xo_closed]. *)
Record xobj := mkXO { xo_doc : xdoc; xo_closed : bool }.

(** List, xlsx.go:152-158 *)
Definition doc_list (o : xobj) : list gostr := if xo_closed o then [] else map xh_name (xd_sheets (xo_doc o)).

(** position of the first sheet of that name *)
Fixpoint find_sheet (l : list xsheet_st) (name : gostr) (i : nat) : option (nat * xsheet_st) :=
  match l with
  | [] => None
  | s :: l => if str_eqb (xh_name s) name then Some (i, s) else find_sheet l name (S i)
  end.
Definition with_sheets (d : xdoc) (l : list xsheet_st) : xdoc :=
  mkXDoc (xd_zip d) (xd_primary d) (xd_rels d) l (xd_strings d) (xd_xfs d) (xd_fmt d).
Definition set_nth {A} (l : list A) (i : nat) (x : A) : list A := firstn i l ++ x :: skipn (S i) l.
(** Get, xlsx.go:160-170: the new state, the collection (the position of the sheet stands for
    the pointer s.wrapped) and the error *)
Definition doc_get (o : xobj) (name : gostr) : res (xobj * (nat * option gerr)) :=
  if xo_closed o then Err ENoSheet
  else
    match find_sheet (xd_sheets (xo_doc o)) name 0 with
    | None => Err ENoSheet
    | Some (i, s) =>
        match xh_err s with
        | Some e => Ok (o, (i, e))
        | None =>
            '(sh, e) <- parse_xsheet (xo_doc o) (xh_doc s) ;;
            let s' := mkXSh (xh_rel s) (xh_name s) (xh_doc s) (Some e) (Some sh) in
            Ok (mkXO (with_sheets (xo_doc o) (set_nth (xd_sheets (xo_doc o)) i s')) (xo_closed o), (i, e))
        end
    end.
(** the collection behind a position *)
Definition coll (o : xobj) (i : nat) : option sheet :=
  match nth_error (xd_sheets (xo_doc o)) i with Some s => xh_wrapped s | None => None end.
Definition set_coll (o : xobj) (i : nat) (sh : sheet) : xobj :=
  match nth_error (xd_sheets (xo_doc o)) i with
  | Some s => mkXO (with_sheets (xo_doc o) (set_nth (xd_sheets (xo_doc o)) i (mkXSh (xh_rel s) (xh_name s) (xh_doc s) (xh_err s) (Some sh)))) (xo_closed o)
  | None => o
  end.
(** Next on a collection *)
Definition coll_next (o : xobj) (i : nat) : res (bool * xobj) :=
  match coll o i with
  | Some sh => let '(b, sh) := next sh in Ok (b, set_coll o i sh)
  | None => Panic
  end.
(** Close, xlsx.go:34-42; closing a file twice is an error *)
Definition doc_close (o : xobj) : xobj * option gerr := (mkXO (xo_doc o) true, if xo_closed o then Some EClosed else None).

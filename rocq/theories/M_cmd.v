(** * M_cmd: what the commands see of a source that grate.Open returned, through the methods List,
    Get, IsEmpty, Next and Strings (cmd/grate2tsv/main.go:192-265, cmd/grater/main.go:32-54). *)
From Verif Require Import GoBase M_grate M_value M_formats M_sheet M_simple M_biff M_xls M_xlsx M_open M_tsv.

(** for sheet.Next() { row := sheet.Strings() ... }, grate2tsv/main.go:231-259 and
    grater/main.go:46-53; [fuel] bounds the number of records *)
Fixpoint read_rows (fuel : nat) (s : M_sheet.sheet) : res (list (list gostr)) :=
  match fuel with
  | O => NoFuel
  | S fuel =>
      match M_sheet.next s with
      | (false, _) => Ok []
      | (true, s) => r <- M_sheet.strings s ;; l <- read_rows fuel s ;; Ok (r :: l)
      end
  end.
(** The rows are read also when IsEmpty holds and grate2tsv would not look at them; a panic in
    Strings becomes one of Get (it ends the program either way). *)
Definition read_sheet (s : M_sheet.sheet) : res gsheet :=
  l <- read_rows (S (List.length (M_sheet.sh_rows s))) s ;; Ok (M_tsv.mkSheet (M_sheet.is_empty s) l).
(** a sheet after its last record *)
Definition at_end (s : M_sheet.sheet) : M_sheet.sheet := M_sheet.mkSheet (sh_fx s) (sh_nrows s) (sh_ncols s) (M_sheet.sh_rows s) (zlen (M_sheet.sh_rows s)).
Fixpoint simple_rows (fuel : nat) (t : simple_file) : res (list (list gostr)) :=
  match fuel with
  | O => NoFuel
  | S fuel =>
      match sf_next t with
      | (_, false) => Ok []
      | (t, true) => r <- sf_strings t ;; l <- simple_rows fuel t ;; Ok (r :: l)
      end
  end.

(** wb.Get(s) and the loop over the records, grate2tsv/main.go:203-259, grater/main.go:40-53: the
    source afterwards (XLSX sheets are kept by the document, at their end; a text file is its own
    only sheet) and the sheet.  The result (nil, nil) for XLS dialog sheets is a nil pointer in an
    interface, whose methods dereference it. *)
Definition src_get (s : source) (name : gostr) : source * res gsheet :=
  match s with
  | SrcXls w => (s, o <- M_xls.wb_get w name ;; match o with Some sh => read_sheet sh | None => Panic end)
  | SrcXlsx fn o =>
      match doc_get o name with
      | Ok (o, (i, Some e)) => (SrcXlsx fn o, Err e)
      | Ok (o, (i, None)) =>
          match coll o i with
          | Some sh => (SrcXlsx fn (set_coll o i (at_end sh)), read_sheet sh)
          | None => (SrcXlsx fn o, Panic)
          end
      | Err e => (s, Err e)
      | Panic => (s, Panic)
      | NoFuel => (s, NoFuel)
      end
  | SrcSimple t =>
      (SrcSimple (mkSimple (sf_filename t) (sf_rows t) (Z.max (zlen (sf_rows t)) (sf_iter t + 1))),
       l <- simple_rows (S (S (List.length (sf_rows t)))) t ;; Ok (M_tsv.mkSheet (sf_isempty t) l))
  end.
(** The source as the commands of M_tsv take it.  They get every listed name once, in order; Get
    of one name does not change what Get of another gives (C90_independent), so every Get is
    modelled from the source as it was opened.  Names listed twice: [process_src] and [grater_src]
    below, which go on with the source that each Get leaves. *)
Definition src_book (s : source) : gbook := M_tsv.mkBook (Ok (src_list s)) (fun name => snd (src_get s name)).
Definition open_book (r : res source) : res gbook := match r with Ok s => Ok (src_book s) | Err e => Err e | Panic => Panic | NoFuel => NoFuel end.

(** ** the loops over the sheets, each Get on the source that the one before left *)
(** grate2tsv/main.go:196-265, as [process_sheets] of M_tsv *)
Fixpoint process_src (md5hex : gostr -> gostr) (create : gostr -> option gerr) (fl : flags) (fn : gostr) (s : source) (names : list gostr) (results : list stats) : list tsvout * res (list stats) :=
  match names with
  | [] => ([], Ok results)
  | n :: names =>
      let '(s, r) := src_get s n in
      match r with
      | Err e => process_src md5hex create fl fn s names (results ++ [mkStats fn n 0 0 (Some e)])
      | Panic => ([], Panic)
      | NoFuel => ([], NoFuel)
      | Ok sh =>
          if sh_empty sh then process_src md5hex create fl fn s names (results ++ [mkStats fn n 0 0 None])
          else
            let '(data, nr, nc) := write_rows fl (M_tsv.sh_rows sh) 0 0 in
            if fl_pretend fl then process_src md5hex create fl fn s names (results ++ [mkStats fn n nr nc None])
            else
              match create (out_path md5hex fn n) with
              | Some e => ([], Err e)
              | None =>
                  let '(outs, r) := process_src md5hex create fl fn s names (results ++ [mkStats fn n nr nc None]) in
                  (mkOut (out_path md5hex fn n) data :: outs, r)
              end
      end
  end.
(** grate2tsv/main.go:175-266 on an opened source *)
Definition process_source md5hex create fl fn (s : source) : list tsvout * res (list stats) := process_src md5hex create fl fn s (src_list s) [].
(** grater/main.go:39-54 *)
Fixpoint grater_src (s : source) (names : list gostr) : res (list printed) :=
  match names with
  | [] => Ok []
  | n :: names =>
      let '(s, r) := src_get s n in
      a <- match r with
           | Err e => Ok [PErr e]
           | Ok sh => Ok (map println_row (M_tsv.sh_rows sh))
           | Panic => Panic
           | NoFuel => NoFuel
           end ;;
      b <- grater_src s names ;; Ok (a ++ b)
  end.
Definition grater_source (s : source) : res (list printed) := grater_src s (src_list s).

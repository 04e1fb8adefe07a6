(** * M_open: opening a file by name — xls.Open, xlsx.Open, OpenTSV and OpenCSV as they are
    registered with grate.Open — and the file handles this leaves behind. *)
From Verif Require Import GoBase M_grate M_simple M_slicereader M_cfb M_biff M_xls M_xlsx.

(** A grate.Source, grate.go:12-21: *xls.WorkBook, *xlsx.Document (with its file name, for the
    handle it keeps) or *simpleFile. *)
Inductive source :=
| SrcXls (w : wbook)
| SrcXlsx (fn : gostr) (o : xobj)
| SrcSimple (t : simple_file).

(** List of each of them: xls/sheets.go:15-23, xlsx/xlsx.go:152-158, simple/simple.go:22-24 *)
Definition src_list (s : source) : list gostr :=
  match s with
  | SrcXls w => wb_list w
  | SrcXlsx _ o => doc_list o
  | SrcSimple t => sf_list t
  end.

(** The world: the file system, and the names of the files opened by this process (os.Open)
    and not yet closed, one entry per handle.  Closing by the garbage collector's finalizer is
    not modelled. *)
Record osw := mkOs { os_file : gostr -> gofile; os_held : list gostr }.
Definition hold (fn : gostr) (w : osw) : osw := mkOs (os_file w) (fn :: os_held w).
Fixpoint drop_one (fn : gostr) (l : list gostr) : list gostr :=
  match l with
  | [] => []
  | x :: l => if str_eqb x fn then l else x :: drop_one fn l
  end.
Definition unhold (fn : gostr) (w : osw) : osw := mkOs (os_file w) (drop_one fn (os_held w)).

Section Openers.
  (** [fuel] bounds the loops over sector chains, [sizes] are the buffer sizes io.ReadAll uses,
      [sp1]-[sp3] the spare capacity of the buffers the file, the stream and the decrypted
      stream are read into; [unzip] stands for zip.NewReader, [order] and [iter] for map
      iteration orders, [rd] for encoding/csv. *)
  Variable fuel : nat.
  Variable sizes : nat -> Z.
  Variables sp1 sp2 sp3 : bytes.
  Variable unzip : bytes -> xzip + gerr.
  Variable order : list gostr -> list gostr.
  Variable iter : list (Z * Z) -> list (Z * Z).
  Variable rd : bytes -> option gerr -> list (list gostr) * csv_end.

  (** cfb.Open after os.Open (cfb/interface.go:10-21, with ioutil.ReadAll of cfb.go:106-110), and
      xls.Open up to the stream's bytes, xls.go:66-73 *)
  Definition xls_stream (content : bytes) (readerr : option gerr) : res bytes :=
    match readerr with
    | Some e => Err e
    | None =>
        d <- load fuel (mkSl content sp1) ;;
        r <- match doc_open fuel d (bs "Workbook") with
             | Err e => Err (wrap_err [e; ENotInFormat])
             | x => x
             end ;;
        sr_read_all (S (List.length (concat (sr_data r)))) sizes r []
    end.

  (** xls.Open, xls.go:52-77: the file opened at cfb/interface.go:12 is never closed *)
  Definition xls_open (fn : gostr) (w : osw) : res source * osw :=
    match os_file w fn with
    | FileErr e => (Err e, w)
    | FileData content readerr =>
        (raw <- xls_stream content readerr ;; b <- load_workbook (mkSl raw sp2) sp3 ;; Ok (SrcXls b), hold fn w)
    end.

  (** xlsx.Open, xlsx.go:44-133: the file stays open, also when an error is returned.  A read
      error surfaces in zip.NewReader: [unzip] is given what could be read. *)
  Definition xlsx_open (fn : gostr) (w : osw) : res source * osw :=
    match os_file w fn with
    | FileErr e => (Err e, w)
    | FileData content _ =>
        (d <- open_xlsx order (match unzip content with inl z => XZip z | inr e => XNotZip e end) ;;
         Ok (SrcXlsx fn (mkXO d false)), hold fn w)
    end.

  (** OpenTSV and OpenCSV, tsv.go:15-58 and csv.go:14-66: closed again (defer) *)
  Definition tsv_open (fn : gostr) (w : osw) : res source * osw :=
    (t <- open_tsv iter fn (os_file w fn) ;; Ok (SrcSimple t), w).
  Definition csv_open (fn : gostr) (w : osw) : res source * osw :=
    (t <- open_csv iter rd fn (os_file w fn) ;; Ok (SrcSimple t), w).

  (** the Register calls: xls/xls.go:23, xlsx/xlsx.go:17, simple/tsv.go:11, simple/csv.go:10 *)
  Definition xls_entry : src_open_tab osw source := mkTab (bs "xls") 1 xls_open.
  Definition xlsx_entry : src_open_tab osw source := mkTab (bs "xlsx") 5 xlsx_open.
  Definition tsv_entry : src_open_tab osw source := mkTab (bs "tsv") 10 tsv_open.
  Definition csv_entry : src_open_tab osw source := mkTab (bs "csv") 15 csv_open.
  Definition stock : list (src_open_tab osw source) := [xls_entry; xlsx_entry; tsv_entry; csv_entry].
End Openers.

(** Close: xls.go:162-173, xlsx.go:34-42, simple.go:26-28.  Only the XLSX source holds a handle to
    close (a second Close finds it closed). *)
Definition src_close (s : source) (w : osw) : source * osw :=
  match s with
  | SrcXlsx fn o => (SrcXlsx fn (fst (doc_close o)), if xo_closed o then w else unhold fn w)
  | SrcXls b => (SrcXls (wb_close b), w)
  | SrcSimple t => (SrcSimple t, w)
  end.

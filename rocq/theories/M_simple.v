(** * M_simple: model of package simple (simple.go, tsv.go, csv.go). *)
From Verif Require Import GoBase GoFloat M_grate.

(** What os.Open and reading the file to its end yield: an open error, or the bytes read
    and the error that ended reading (None for a clean end of file). *)
Inductive gofile : Type :=
| FileErr (e : gerr)
| FileData (content : bytes) (readerr : option gerr).

(** simpleFile, simple.go:15-19 *)
Record simple_file := mkSimple { sf_filename : gostr; sf_rows : list (list gostr); sf_iter : Z }.

(** ** bufio.Scanner with ScanLines *)

(** bufio.dropCR *)
Definition drop_cr (l : bytes) : bytes :=
  match rev l with
  | 13 :: r => rev r
  | _ => l
  end.

(** bufio.MaxScanTokenSize: a line (without its newline, before dropCR) of 65536 or more
    bytes fills the buffer and stops the scanner with bufio.ErrTooLong *)
Definition maxLine : Z := 65535.
Definition errTooLong : gerr := ELeaf 1001.

(** the pieces between newlines, without a last empty piece *)
Definition raw_lines (content : bytes) : list bytes :=
  let ps := split_byte 10 content in
  match rev ps with
  | [] :: r => rev r
  | _ => ps
  end.

(** all tokens of the scanner, or the error it stops with *)
Definition scan_lines (content : bytes) (readerr : option gerr) : res (list bytes) :=
  if existsb (fun l => maxLine <? zlen l) (raw_lines content) then Err errTooLong
  else match readerr with
       | Some e => Err e
       | None => Ok (map drop_cr (raw_lines content))
       end.

(** ** column heuristic, tsv.go:27-34,40-55 (the same text as csv.go:28-35,48-63) *)

(** ncols[len(r)]++ *)
Fixpoint bump (c : Z) (m : list (Z * Z)) : list (Z * Z) :=
  match m with
  | [] => [(c, 1)]
  | (k, n) :: r => if k =? c then (k, n + 1) :: r else (k, n) :: bump c r
  end.
Definition count_cols (rows : list (list gostr)) : list (Z * Z) :=
  fold_left (fun m r => bump (zlen r) m) rows [].

(** the constant 0.8 *)
Definition f_08 : f64 := f_of_dec false 8 (-1).

(** body of the loop over the map, tsv.go:42-52 *)
Definition look (total : Z) (looksGood : Z) (e : Z * Z) : Z :=
  let '(c, n) := e in
  if c <=? 1 then looksGood
  else if (10 <? n) && fgt (fdiv (f_of_Z n) (f_of_Z total)) f_08 then 2
  else if (25 <? n) && (looksGood =? 0) then 1
  else looksGood.

Section Tsv.
  (** [iter] is the order in which Go walks the map, different from run to run *)
  Variable iter : list (Z * Z) -> list (Z * Z).

  Definition looks_good (rows : list (list gostr)) : Z :=
    fold_left (look (zlen rows)) (iter (count_cols rows)) 0.

  (** OpenTSV, tsv.go:15-58 *)
  Definition open_tsv (filename : gostr) (f : gofile) : res simple_file :=
    match f with
    | FileErr e => Err e                                              (* 16-19 *)
    | FileData content readerr =>
        lines <- scan_lines content readerr ;;                        (* 26-38 *)
        let rows := map (split_byte 9) lines in
        if looks_good rows =? 1 then Err ENotInFormat                 (* 53-55 *)
        else Ok (mkSimple filename rows (-1))
    end.

  (** What csv.Reader.Read delivers until its first error: the records, and that error.
      io.EOF is the only way a read of a whole file ends without a malformation. *)
  Inductive csv_end := CsvEOF | CsvParse (e : gerr) | CsvOther (e : gerr).
  Definition csv_err (c : csv_end) : gerr :=
    match c with CsvEOF => EEOF | CsvParse e => e | CsvOther e => e end.

  (** OpenCSV, csv.go:14-66.  [err] below is the loop's final error: the loop at 31 only
      ends when it is non-nil, so lines 48-65 are unreachable; they are kept for the shape
      [err = None]. *)
  Definition open_csv_loop_result (filename : gostr) (recs : list (list gostr)) (err : option csv_end)
    : res simple_file :=
    match err with
    | Some (CsvParse e) => Err (wrap_err [e; ENotInFormat])            (* 38-39 *)
    | Some e => if zlen recs <? 10
                then Err (wrap_err [csv_err e; ENotInFormat])          (* 41-44 *)
                else Err (csv_err e)                                  (* 45 *)
    | None => if looks_good recs =? 1 then Err ENotInFormat            (* 48-63 *)
              else Ok (mkSimple filename recs (-1))
    end.

  (** [csv_read] stands for encoding/csv: any function from file contents to the records
      read and the error that ended the reading. *)
  Definition open_csv (csv_read : bytes -> option gerr -> list (list gostr) * csv_end)
             (filename : gostr) (f : gofile) : res simple_file :=
    match f with
    | FileErr e => Err e
    | FileData content readerr =>
        let '(recs, e) := csv_read content readerr in
        open_csv_loop_result filename recs (Some e)
    end.
End Tsv.

(** ** Collection methods, simple.go *)

(** filepath.Base (Unix) *)
Fixpoint strip_trailing_slash (r : gostr) : gostr :=   (* on the reversed path *)
  match r with
  | 47 :: r' => strip_trailing_slash r'
  | _ => r
  end.
Fixpoint upto_slash (r : gostr) : gostr :=
  match r with
  | [] => []
  | c :: r' => if c =? 47 then [] else c :: upto_slash r'
  end.
Definition path_base (p : gostr) : gostr :=
  match p with
  | [] => [46]
  | _ => match strip_trailing_slash (rev p) with
         | [] => [47]
         | r => rev (upto_slash r)
         end
  end.

(** List, simple.go:22-24 *)
Definition sf_list (t : simple_file) : list gostr := [path_base (sf_filename t)].

(** Get, simple.go:31-33: the file itself, whatever the name *)
Definition sf_get (t : simple_file) (name : gostr) : res simple_file := Ok t.

(** Next, simple.go:37-40 *)
Definition sf_next (t : simple_file) : simple_file * bool :=
  let i := sf_iter t + 1 in
  (mkSimple (sf_filename t) (sf_rows t) i, i <? zlen (sf_rows t)).

(** Strings, simple.go:43-45 *)
Definition sf_strings (t : simple_file) : res (list gostr) := idx (sf_rows t) (sf_iter t).

(** Formats, simple.go:48-54 *)
Definition sf_formats (t : simple_file) : res (list gostr) :=
  row <- idx (sf_rows t) (sf_iter t) ;; Ok (map (fun _ => bs "General") row).

(** Types, simple.go:59-69 *)
Definition sf_types (t : simple_file) : res (list gostr) :=
  row <- idx (sf_rows t) (sf_iter t) ;;
  Ok (map (fun v => match v with [] => bs "blank" | _ => bs "string" end) row).

(** IsEmpty, simple.go:111-113 *)
Definition sf_isempty (t : simple_file) : bool := zlen (sf_rows t) =? 0.

(** Scan destinations: the variable behind each pointer, by its type.  [DOther] stands for
    a pointer to an unsupported type (or no pointer at all). *)
Inductive dest : Type :=
| DBool (b : bool) | DInt (z : Z) | DF64 (x : f64) | DStr (s : gostr) | DTime (t : Z) | DOther (n : Z).

Definition true_words : list gostr := map bs ["1"; "t"; "true"; "y"; "yes"]%string.

Definition errTimeUnsupported : gerr := ELeaf 1002.
Definition errScanCount : gerr := ELeaf 1003.
Definition errNumSyntax : gerr := ELeaf 1004.
Definition errNumRange : gerr := ELeaf 1005.
Definition num_err (p : perr) : option gerr :=
  match p with PNone => None | PSyntax => Some errNumSyntax | PRange => Some errNumRange end.

(** one destination, simple.go:82-105: new content and the error that ends the loop *)
Definition scan_one (v : gostr) (d : dest) : dest * option gerr :=
  match d with
  | DBool _ => (DBool (existsb (str_eqb (to_lower v)) true_words), None)
  | DInt _ => let '(n, e) := parse_int 64 v in (DInt n, num_err e)
  | DF64 _ => let '(x, e) := parse_float v in (DF64 x, num_err e)
  | DStr _ => (DStr v, None)
  | DTime _ => (d, Some errTimeUnsupported)
  | DOther _ => (d, Some EInvalidScanType)
  end.

Fixpoint scan_all (row : list gostr) (ds : list dest) {struct ds} : list dest * option gerr :=
  match ds, row with
  | [], _ => ([], None)
  | d :: ds', v :: row' =>
      let '(d1, e) := scan_one v d in
      match e with
      | Some e => (d1 :: ds', Some e)
      | None => let '(r, e) := scan_all row' ds' in (d1 :: r, e)
      end
  | ds, [] => (ds, None)    (* not reached: the counts are equal *)
  end.

(** Scan, simple.go:74-108: the destinations afterwards and the returned error *)
Definition sf_scan (t : simple_file) (ds : list dest) : res (list dest * option gerr) :=
  row <- idx (sf_rows t) (sf_iter t) ;;
  if zlen row =? zlen ds then Ok (scan_all row ds) else Ok (ds, Some errScanCount).

(** * M_tsv: the commands, cmd/grate2tsv/main.go and cmd/grater/main.go *)
From Verif Require Export GoBase GoPath.

(** ** strings *)
(** regexp "[ \n\r\t]+" and "[^a-zA-Z0-9]+", ReplaceAllString: each longest run of matching bytes
    becomes the replacement, other bytes are copied.  grate2tsv/main.go:161-164.  For the second
    one a match is a rune outside the ASCII letters and digits, or an invalid byte, so a byte
    outside them. *)
Fixpoint runs_to (p : Z -> bool) (r : Z) (inrun : bool) (l : gostr) : gostr :=
  match l with
  | [] => []
  | c :: l => if p c then (if inrun then runs_to p r true l else r :: runs_to p r true l) else c :: runs_to p r false l
  end.
Definition is_nl (c : Z) : bool := (c =? 32) || (c =? 10) || (c =? 13) || (c =? 9).
Definition is_alnum (c : Z) : bool := ((97 <=? c) && (c <=? 122)) || ((65 <=? c) && (c <=? 90)) || ((48 <=? c) && (c <=? 57)).
Definition newlines_replace (s : gostr) : gostr := runs_to is_nl 32 false s.
Definition sanitize_replace (s : gostr) : gostr := runs_to (fun c => negb (is_alnum c)) 95 false s.

(** strings.TrimSpace: the UTF-8 encodings of the runes of unicode.IsSpace *)
Definition space_runes : list gostr :=
  [[9]; [10]; [11]; [12]; [13]; [32]; [194; 133]; [194; 160]; [225; 154; 128];
   [226; 128; 128]; [226; 128; 129]; [226; 128; 130]; [226; 128; 131]; [226; 128; 132]; [226; 128; 133]; [226; 128; 134]; [226; 128; 135]; [226; 128; 136]; [226; 128; 137]; [226; 128; 138];
   [226; 128; 168]; [226; 128; 169]; [226; 128; 175]; [226; 129; 159]; [227; 128; 128]].
Fixpoint strip_prefix (p l : gostr) : option gostr :=
  match p, l with
  | [], _ => Some l
  | a :: p, b :: l => if a =? b then strip_prefix p l else None
  | _, [] => None
  end.
Fixpoint strip_any (ps : list gostr) (l : gostr) : option gostr :=
  match ps with
  | [] => None
  | p :: ps => match strip_prefix p l with Some r => Some r | None => strip_any ps l end
  end.
Fixpoint trim_any (fuel : nat) (ps : list gostr) (l : gostr) : gostr :=
  match fuel with
  | O => l
  | S fuel => match strip_any ps l with Some r => trim_any fuel ps r | None => l end
  end.
Definition trim_space (s : gostr) : gostr :=
  let l := trim_any (List.length s) space_runes s in
  rev (trim_any (List.length l) (map (@rev Z) space_runes) (rev l)).

(** filepath.Ext *)
Fixpoint ext_rev (r : gostr) (acc : gostr) : gostr :=
  match r with
  | [] => []
  | c :: r => if c =? slash then [] else if c =? 46 then c :: acc else ext_rev r (c :: acc)
  end.
Definition path_ext (p : gostr) : gostr := ext_rev (rev p) [].
(** fmt %x of a byte slice *)
Definition hexdigit (d : Z) : Z := if d <? 10 then 48 + d else 87 + d.
Definition hex_bytes (l : bytes) : gostr := flat_map (fun b => [hexdigit (b / 16); hexdigit (b mod 16)]) l.

(** ** a workbook as the commands see it through the interfaces Source and Collection: the rows
    are what Next and Strings give *)
Record gsheet : Type := mkSheet { sh_empty : bool; sh_rows : list (list gostr) }.
Record gbook : Type := mkBook { wb_list : res (list gostr); wb_get : gostr -> res gsheet }.

(** ** processFile, grate2tsv/main.go:175-266 *)
Record flags : Type := mkFlags { fl_pretend : bool; fl_newlines : bool; fl_trim : bool; fl_skip : bool }.
Definition default_flags : flags := mkFlags false true true true.
Record stats : Type := mkStats { ps_file : gostr; ps_sheet : gostr; ps_rows : Z; ps_cols : Z; ps_err : option gerr }.
Record tsvout : Type := mkOut { o_path : gostr; o_data : bytes }.

(** main.go:231-248: the cell as tested for being blank, the cell as written, and NumCols *)
Definition cell_value (fl : flags) (x : gostr) : gostr :=
  let x := if fl_newlines fl then newlines_replace x else x in
  if fl_trim fl then trim_space x else x.
Definition cell_written (fl : flags) (x : gostr) : gostr := if fl_trim fl then cell_value fl x else x.
Fixpoint row_scan (fl : flags) (i : Z) (row : list gostr) (nonblank : bool) (ncols : Z) : bool * Z :=
  match row with
  | [] => (nonblank, ncols)
  | x :: row =>
      if str_eqb (cell_value fl x) [] then row_scan fl (i + 1) row nonblank ncols
      else row_scan fl (i + 1) row true (if ncols <? i then i else ncols)
  end.
(** main.go:250-256 *)
Fixpoint write_cells (i : Z) (row : list gostr) : bytes :=
  match row with
  | [] => []
  | v :: row => (if i =? 0 then [] else [9]) ++ v ++ write_cells (i + 1) row
  end.
(** main.go:231-259 *)
Fixpoint write_rows (fl : flags) (rows : list (list gostr)) (nrows ncols : Z) : bytes * Z * Z :=
  match rows with
  | [] => ([], nrows, ncols)
  | row :: rows =>
      let '(nonblank, ncols) := row_scan fl 0 row false ncols in
      if nonblank || negb (fl_skip fl) then
        let '(b, nr, nc) := write_rows fl rows (nrows + 1) ncols in
        (write_cells 0 (map (cell_written fl) row) ++ [10] ++ b, nr, nc)
      else write_rows fl rows nrows ncols
  end.

Section process.
  (** the hash of the base name, main.go:187: any function; and os.Create *)
  Variable md5hex : gostr -> gostr.
  Variable create : gostr -> option gerr.
  Variable fl : flags.
  (** main.go:185-189 *)
  Definition fn2_of (fn : gostr) : gostr := path_base (trim_suffix fn (path_ext fn)).
  Definition subdir_of (fn : gostr) : gostr :=
    let h := md5hex (fn2_of fn) in path_join [bs "results"; ztake 2 h; ztake 2 (zdrop 2 h)].
  (** main.go:214-222 *)
  Definition out_path (fn s : gostr) : gostr :=
    let s2 := if str_eqb s fn then bs "main" else sanitize_replace s in
    subdir_of fn ++ bs "/" ++ fn2_of fn ++ bs "." ++ s2 ++ bs ".tsv".
  (** main.go:196-265.  outputs already handed to the cleanup channel stay there when os.Create
      fails *)
  Fixpoint process_sheets (fn : gostr) (wb : gbook) (names : list gostr) (results : list stats) : list tsvout * res (list stats) :=
    match names with
    | [] => ([], Ok results)
    | s :: names =>
        match wb_get wb s with
        | Err e => process_sheets fn wb names (results ++ [mkStats fn s 0 0 (Some e)])
        | Panic => ([], Panic)
        | NoFuel => ([], NoFuel)
        | Ok sh =>
            if sh_empty sh then process_sheets fn wb names (results ++ [mkStats fn s 0 0 None])
            else
              let '(data, nr, nc) := write_rows fl (sh_rows sh) 0 0 in
              if fl_pretend fl then process_sheets fn wb names (results ++ [mkStats fn s nr nc None])
              else
                match create (out_path fn s) with
                | Some e => ([], Err e)
                | None =>
                    let '(outs, r) := process_sheets fn wb names (results ++ [mkStats fn s nr nc None]) in
                    (mkOut (out_path fn s) data :: outs, r)
                end
        end
    end.
  Definition process_file (openf : gostr -> res gbook) (fn : gostr) : list tsvout * res (list stats) :=
    match openf fn with
    | Err e => ([], Err e)
    | Panic => ([], Panic)
    | NoFuel => ([], NoFuel)
    | Ok wb => match wb_list wb with
               | Err e => ([], Err e)
               | Panic => ([], Panic)
               | NoFuel => ([], NoFuel)
               | Ok names => process_sheets fn wb names []
               end
    end.
End process.

(** ** the lines of the results file, main.go:136-158 *)
Definition tabbed (fs : list gostr) : gostr := join [9] fs ++ [10].
Definition result_lines (etext : gerr -> gostr) (now fn : gostr) (r : res (list stats)) : list gostr :=
  match r with
  | Err e => [tabbed [now; fn; bs "-"; bs "-"; bs "-"; etext e]]
  | Ok rs => map (fun s => tabbed [now; ps_file s; ps_sheet s; itoa (ps_rows s); itoa (ps_cols s); match ps_err s with None => bs "-" | Some e => etext e end]) rs
  | Panic | NoFuel => []
  end.
Definition stats_header : gostr := tabbed [bs "time"; bs "filename"; bs "sheet"; bs "rows"; bs "columns"; bs "errors"].

(** ** main and runProcessor as goroutines, main.go:92-160.  A panic in processFile ends
    the program: M_disk. *)
(** what processing a file comes to: the outputs it creates, one after the other, and its lines of
    the results file *)
Record job : Type := mkJob { j_outs : list tsvout; j_lines : list gostr }.
Definition tsv_job (md5hex : gostr -> gostr) create fl openf etext now fn : job :=
  let '(outs, r) := process_file md5hex create fl openf fn in mkJob outs (result_lines etext now fn r).

Inductive wpc :=
| WIdle                                (* for fn := range from *)
| WProc (i k : nat)                    (* processFile of file i, k outputs handed over *)
| WSend (i k : nat)                    (* output k created and written, cleanup <- ox *)
| WLock (i : nat)                      (* mu.Lock *)
| WWrite (i : nat) (rest : list gostr) (* lines still to be written; then mu.Unlock *)
| WFin                                 (* procWG.Done *)
| WEnd.
Inductive mpc :=
| MSend (todo : list nat)              (* filenameChan <- fn, then close(filenameChan) *)
| MWait                                (* procWG.Wait, then close(cleanup) *)
| MDrain                               (* <-done *)
| MExit.
Inductive cpc :=
| CRecv                                (* for x := range cleanup *)
| CFlush (x : nat * nat)
| CClose (x : nat * nat)
| CDone                                (* done <- 1 *)
| CEnd.
Definition names_closed (m : mpc) : Prop := match m with MSend _ => False | _ => True end.
Definition cleanup_closed (m : mpc) : Prop := match m with MSend _ | MWait => False | _ => True end.
(** output k of file i is (i, k); g_created, g_flushed and g_closed are what has happened on disk *)
Record gst : Type := mkG {
  g_main : mpc; g_ws : list wpc; g_wg : Z; g_locked : bool; g_stats : list gostr;
  g_buf : list (nat * nat); g_cl : cpc;
  g_created : list (nat * nat); g_flushed : list (nat * nat); g_closed : list (nat * nat) }.

Section system.
  Variable jobs : nat -> job.
  (** cap(cleanup), main.go:48 *)
  Definition cleanup_cap : Z := 100.
  Inductive gstep : gst -> gst -> Prop :=
  (* rendezvous of main and an idle worker *)
  | GSend : forall i todo pre post wg lk fs buf cl cr fd cd,
      gstep (mkG (MSend (i :: todo)) (pre ++ WIdle :: post) wg lk fs buf cl cr fd cd) (mkG (MSend todo) (pre ++ WProc i 0 :: post) wg lk fs buf cl cr fd cd)
  | GCloseNames : forall ws wg lk fs buf cl cr fd cd, gstep (mkG (MSend []) ws wg lk fs buf cl cr fd cd) (mkG MWait ws wg lk fs buf cl cr fd cd)
  | GWait : forall ws lk fs buf cl cr fd cd, gstep (mkG MWait ws 0 lk fs buf cl cr fd cd) (mkG MDrain ws 0 lk fs buf cl cr fd cd)
  | GDone : forall ws wg lk fs buf cr fd cd, gstep (mkG MDrain ws wg lk fs buf CDone cr fd cd) (mkG MExit ws wg lk fs buf CEnd cr fd cd)
  (* workers *)
  | GNoMore : forall m pre post wg lk fs buf cl cr fd cd, names_closed m ->
      gstep (mkG m (pre ++ WIdle :: post) wg lk fs buf cl cr fd cd) (mkG m (pre ++ WFin :: post) wg lk fs buf cl cr fd cd)
  | GFin : forall m pre post wg lk fs buf cl cr fd cd, gstep (mkG m (pre ++ WFin :: post) wg lk fs buf cl cr fd cd) (mkG m (pre ++ WEnd :: post) (wg - 1) lk fs buf cl cr fd cd)
  | GCreate : forall m pre i k post wg lk fs buf cl cr fd cd, (k < List.length (j_outs (jobs i)))%nat ->
      gstep (mkG m (pre ++ WProc i k :: post) wg lk fs buf cl cr fd cd) (mkG m (pre ++ WSend i k :: post) wg lk fs buf cl (cr ++ [(i, k)]) fd cd)
  | GHand : forall m pre i k post wg lk fs buf cl cr fd cd, zlen buf < cleanup_cap ->
      gstep (mkG m (pre ++ WSend i k :: post) wg lk fs buf cl cr fd cd) (mkG m (pre ++ WProc i (S k) :: post) wg lk fs (buf ++ [(i, k)]) cl cr fd cd)
  | GProcessed : forall m pre i k post wg lk fs buf cl cr fd cd, ~ (k < List.length (j_outs (jobs i)))%nat ->
      gstep (mkG m (pre ++ WProc i k :: post) wg lk fs buf cl cr fd cd) (mkG m (pre ++ WLock i :: post) wg lk fs buf cl cr fd cd)
  | GLock : forall m pre i post wg fs buf cl cr fd cd,
      gstep (mkG m (pre ++ WLock i :: post) wg false fs buf cl cr fd cd) (mkG m (pre ++ WWrite i (j_lines (jobs i)) :: post) wg true fs buf cl cr fd cd)
  | GLine : forall m pre i x rest post wg lk fs buf cl cr fd cd,
      gstep (mkG m (pre ++ WWrite i (x :: rest) :: post) wg lk fs buf cl cr fd cd) (mkG m (pre ++ WWrite i rest :: post) wg lk (fs ++ [x]) buf cl cr fd cd)
  | GUnlock : forall m pre i post wg lk fs buf cl cr fd cd,
      gstep (mkG m (pre ++ WWrite i [] :: post) wg lk fs buf cl cr fd cd) (mkG m (pre ++ WIdle :: post) wg false fs buf cl cr fd cd)
  (* the cleanup goroutine *)
  | GTake : forall m ws wg lk fs x buf cr fd cd, gstep (mkG m ws wg lk fs (x :: buf) CRecv cr fd cd) (mkG m ws wg lk fs buf (CFlush x) cr fd cd)
  | GFlush : forall m ws wg lk fs x buf cr fd cd, gstep (mkG m ws wg lk fs buf (CFlush x) cr fd cd) (mkG m ws wg lk fs buf (CClose x) cr (fd ++ [x]) cd)
  | GClose : forall m ws wg lk fs x buf cr fd cd, gstep (mkG m ws wg lk fs buf (CClose x) cr fd cd) (mkG m ws wg lk fs buf CRecv cr fd (cd ++ [x]))
  | GDrained : forall m ws wg lk fs cr fd cd, cleanup_closed m -> gstep (mkG m ws wg lk fs [] CRecv cr fd cd) (mkG m ws wg lk fs [] CDone cr fd cd).
  (** nparallel workers, main.go:121-125; fs0 is what the results file holds before, with the header *)
  Definition gstart (nfiles nparallel : nat) (fs0 : list gostr) : gst :=
    mkG (MSend (seq 0 nfiles)) (repeat WIdle nparallel) (Z.of_nat nparallel) false fs0 [] CRecv [] [] [].
  Inductive gsteps : gst -> gst -> Prop :=
  | gsteps_refl : forall s, gsteps s s
  | gsteps_step : forall a b c, gsteps a b -> gstep b c -> gsteps a c.
End system.
(** main.go:121 *)
Definition nparallel_of (numcpu : Z) : Z := numcpu ÷ 2.

(** ** grater, cmd/grater/main.go:25-56: what is printed; an error goes to stderr *)
Inductive printed := POut (line : gostr) | PErr (e : gerr).
Definition println_row (row : list gostr) : printed := POut (join [9] row ++ [10]).
Definition grater_sheet (wb : gbook) (s : gostr) : res (list printed) :=
  match wb_get wb s with
  | Err e => Ok [PErr e]
  | Ok sh => Ok (map println_row (sh_rows sh))
  | Panic => Panic
  | NoFuel => NoFuel
  end.
Fixpoint grater_sheets (wb : gbook) (names : list gostr) : res (list printed) :=
  match names with
  | [] => Ok []
  | s :: names => a <- grater_sheet wb s ;; b <- grater_sheets wb names ;; Ok (a ++ b)
  end.
Fixpoint grater_files (openf : gostr -> res gbook) (fns : list gostr) : res (list printed) :=
  match fns with
  | [] => Ok []
  | fn :: fns =>
      a <- match openf fn with
           | Err e => Ok [PErr e]
           | Ok wb => match wb_list wb with
                      | Err e => Ok [PErr e]
                      | Ok names => grater_sheets wb names
                      | Panic => Panic | NoFuel => NoFuel
                      end
           | Panic => Panic | NoFuel => NoFuel
           end ;;
      b <- grater_files openf fns ;;
      Ok (a ++ b)
  end.

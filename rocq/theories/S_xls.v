(** * S_xls: sheet substreams and workbook globals of MS-XLS. *)
From Verif Require Import GoBase GoFloat GoUnicode M_grate M_value S_biff S_xlstr S_hlink S_grid.

(** ** cell records *)
(** the cached value of a formula *)
Inductive fval :=
| FNum (bits : Z)                                  (* an IEEE double whose top 16 bits are not all set *)
| FBool (b a1 a2 a3 a4 : Z)                        (* with its four reserved bytes *)
| FErr (code a1 a2 a3 a4 : Z)
| FBlank (t a1 a2 a3 a4 a5 : Z)                    (* the empty string, t at least 3 *)
| FNoText (a1 a2 a3 a4 a5 : Z)                     (* a text whose String record is missing *)
| FText (a1 a2 a3 a4 a5 : Z) (mids : list frec)    (* a text: records in between, and the String record *)
        (res : Z) (w : bool) (us : list Z) (more : list (Z * bool * list Z)). (* with its Continue records *)

Inductive crec :=
| CNumber (row col xf bits : Z)                                  (* Number *)
| CRk (row col xf rk : Z)                                        (* RK *)
| CMulRk (row col : Z) (vs : list (Z * Z)) (lastcol : Z)         (* MulRk: xf and value per column *)
| CLabel (row col xf i : Z)                                      (* LabelSst *)
| CBoolErr (row col xf v e : Z)                                  (* BoolErr *)
| CFormula (row col xf : Z) (v : fval) (tail : bytes)            (* Formula (and String) *)
| CMerge (regs : list (Z * Z * Z * Z)) (tail : bytes)            (* MergeCells: first row, last row, first column, last column *)
| CLink (r0 r1 c0 c1 : Z) (h : hlink)                            (* HLink *)
| CWsBool (b0 b1 : Z) (tail : bytes)                             (* WsBool *)
| CSkip (ty : Z) (p : bytes) (conts : list bytes)                (* any other record and its Continue records *)
| CEmbedded (p : bytes) (body : list frec) (q : bytes).          (* an embedded substream, e.g. a chart *)

Definition CONTINUE : Z := 60.
Definition coords (row col xf : Z) : bytes := put16 row ++ put16 col ++ put16 xf.
Definition fval_bytes (v : fval) : bytes :=
  match v with
  | FNum bits => put64 bits
  | FBool b a1 a2 a3 a4 => [1; a1; b; a2; a3; a4; 255; 255]
  | FErr c a1 a2 a3 a4 => [2; a1; c; a2; a3; a4; 255; 255]
  | FBlank t a1 a2 a3 a4 a5 => [t; a1; a2; a3; a4; a5; 255; 255]
  | FNoText a1 a2 a3 a4 a5 | FText a1 a2 a3 a4 a5 _ _ _ _ _ => [0; a1; a2; a3; a4; a5; 255; 255]
  end.
Definition fval_recs (v : fval) : list frec :=
  match v with
  | FText _ _ _ _ _ mids res w us more =>
      mids ++ (519, put16 (zlen us + zlen (flat_map snd more)) ++ [2 * res + flag w] ++ enc_units w us) ::
      map (fun c => (CONTINUE, (2 * fst (fst c) + flag (snd (fst c))) :: enc_units (snd (fst c)) (snd c))) more
  | _ => []
  end.
Definition region_bytes (g : Z * Z * Z * Z) : bytes :=
  match g with (r0, r1, c0, c1) => put16 r0 ++ put16 r1 ++ put16 c0 ++ put16 c1 end.
(** the records of a cell record, with what belongs to it *)
Definition crec_recs (c : crec) : list frec :=
  match c with
  | CNumber row col xf bits => [(515, coords row col xf ++ put64 bits)]
  | CRk row col xf rk => [(638, coords row col xf ++ put32 rk)]
  | CMulRk row col vs lc => [(189, put16 row ++ put16 col ++ flat_map (fun v => put16 (fst v) ++ put32 (snd v)) vs ++ put16 lc)]
  | CLabel row col xf i => [(253, coords row col xf ++ put32 i)]
  | CBoolErr row col xf v e => [(517, coords row col xf ++ [v; e])]
  | CFormula row col xf v tail => (6, coords row col xf ++ fval_bytes v ++ tail) :: fval_recs v
  | CMerge regs tail => [(229, put16 (zlen regs) ++ flat_map region_bytes regs ++ tail)]
  | CLink r0 r1 c0 c1 h => [(440, region_bytes (r0, r1, c0, c1) ++ hl_bytes h)]
  | CWsBool b0 b1 tail => [(129, [b0; b1] ++ tail)]
  | CSkip ty p conts => (ty, p) :: map (fun q => (CONTINUE, q)) conts
  | CEmbedded p body q => (BOF, p) :: body ++ [(EOFR, q)]
  end.

(** record types with a meaning to the reader, in sheets and in the workbook globals *)
Definition cell_types : list Z := [517; 189; 515; 638; 6; 519; 253; 440; 229; 129; 512; BOF; EOFR].
Definition global_types : list Z := [252; 66; 34; 1054; 224; 133; FILEPASS].
Definition skip_type (ty : Z) : Prop := 0 <= ty < 65536 /\ ~ In ty cell_types /\ ~ In ty global_types.

Definition w16 (x : Z) : Prop := 0 <= x < 65536.
Definition w32 (x : Z) : Prop := 0 <= x < 4294967296.
(** Texts of formulas, chunk by chunk: 16-bit chunks are decoded each on its own, 8-bit chunks
    are taken as they are (see C68 for when this is right).  A text that starts in 16-bit form
    must be in one record. *)
Definition chunk_text (w : bool) (us : list Z) : gostr := if w then utf16_string us else us.
Definition chunk_ok (w : bool) (us : list Z) : Prop := units_fit w us /\ (w = true -> zlen us <= 8224).
Definition fval_ok (v : fval) : Prop :=
  match v with
  | FNum bits => 0 <= bits < 18446744073709551616 /\ bits / 2 ^ 48 <> 65535
  | FBlank t _ _ _ _ _ => 3 <= t
  | FText _ _ _ _ _ mids res w us more =>
      Forall (fun r => skip_type (fst r)) mids /\ zlen us + zlen (flat_map snd more) < 65536 /\
      units_fit w us /\ (w = true -> more = []) /\
      Forall (fun c => chunk_ok (snd (fst c)) (snd c)) more
  | _ => True
  end.
Definition region_ok (g : Z * Z * Z * Z) : Prop := match g with (r0, r1, c0, c1) => w16 r0 /\ w16 r1 /\ w16 c0 /\ w16 c1 end.
(** nstr: number of shared strings *)
Definition crec_ok (nstr : Z) (c : crec) : Prop :=
  match c with
  | CNumber row col xf bits => w16 row /\ w16 col /\ w16 xf /\ 0 <= bits < 18446744073709551616
  | CRk row col xf rk => w16 row /\ w16 col /\ w16 xf /\ w32 rk
  | CMulRk row col vs lc => w16 row /\ w16 col /\ Forall (fun v => w16 (fst v) /\ w32 (snd v)) vs /\ 6 * zlen vs < 65536
  | CLabel row col xf i => w16 row /\ w16 col /\ w16 xf /\ w32 i /\ i < nstr
  | CBoolErr row col xf v e => w16 row /\ w16 col /\ w16 xf
  | CFormula row col xf v tail => w16 row /\ w16 col /\ w16 xf /\ fval_ok v
  | CMerge regs tail => Forall region_ok regs /\ zlen regs < 65536
  | CLink r0 r1 c0 c1 h => region_ok (r0, r1, c0, c1) /\ hl_ok h
  | CWsBool b0 b1 tail => Z.land b1 16 = 0                        (* the bit that the reader takes for that of dialog sheets, see C91 *)
  | CSkip ty p conts => skip_type ty /\ ty <> CONTINUE
  | CEmbedded p body q => Forall (fun r => fst r <> BOF /\ fst r <> EOFR) body
  end.

(** ** what the records mean *)
(** BErr (2.5.10) *)
Definition err_text (code : Z) : gostr :=
  match find (fun p => code =? fst p)
    [(0, bs "#NULL!"); (7, bs "#DIV/0!"); (15, bs "#VALUE!"); (23, bs "#REF!"); (29, bs "#NAME?"); (36, bs "#NUM!"); (42, bs "#N/A"); (43, bs "#GETTING_DATA")] with
  | Some p => snd p
  | None => bs "<unknown error>"
  end.
(** RkNumber; integers over 100 read as 0 (see C49) *)
Definition rk_value (r : Z) : goval :=
  if r mod 4 =? 2 then GInt KInt (rk_signed r)
  else if r mod 4 =? 0 then GF64 (rk_double r)
  else if r mod 4 =? 1 then GF64 (fdiv (rk_double r) (f_of_Z 100))
  else GF64 f_zero.
(** integers from a to b *)
Definition zrange (a b : Z) : list Z := map (fun i => a + Z.of_nat i) (seq 0 (Z.to_nat (b - a + 1))).
(** the mark in a merged region at a position other than the first *)
Definition mark_at (r1 c0 c1 r c : Z) : gostr :=
  if c =? c0 then (if r =? r1 then end_row_merged else continue_row_merged)
  else if c =? c1 then end_column_merged else continue_column_merged.
Definition region_cells (g : Z * Z * Z * Z) (tl : list gwrite) : list gop :=
  match g with (r0, r1, c0, c1) =>
    flat_map (fun r => flat_map (fun c =>
      map (fun w => (r, c, w)) (if (r =? r0) && (c =? c0) then tl else [WPut (GStr (mark_at r1 c0 c1 r c)) 0])) (zrange c0 c1)) (zrange r0 r1)
  end.
(** placeholders for the last row and the last column of the declared dimensions *)
Definition clip (mr mc : Z) (g : Z * Z * Z * Z) : Z * Z * Z * Z :=
  match g with (r0, r1, c0, c1) => (r0, (if r1 =? 65535 then (mr - 1) mod 65536 else r1), c0, (if c1 =? 255 then (mc - 1) mod 65536 else c1)) end.

Section Writes.
  Variable trim : gostr -> gostr.
  Variables (strs : list gostr) (xfs : list Z) (mr mc : Z).
  (** the number format of an XF; 0 beyond the table *)
  Definition xf_format (xf : Z) : Z := nth (Z.to_nat xf) xfs 0.
  Definition crec_writes (c : crec) : list gop :=
    match c with
    | CNumber row col xf bits => [(row, col, WPut (GF64 (f_of_bits bits)) (xf_format xf))]
    | CRk row col xf rk => [(row, col, WPut (rk_value rk) (xf_format xf))]
    | CMulRk row col vs lc => map (fun p => (row, col + Z.of_nat (fst p), WPut (rk_value (snd (snd p))) (xf_format (fst (snd p))))) (combine (seq 0 (List.length vs)) vs)
    | CLabel row col xf i =>
        match nth (Z.to_nat i) strs [] with
        | [] => []                                        (* an empty string leaves the cell as it is *)
        | t => [(row, col, WPut (GStr t) (xf_format xf))]
        end
    | CBoolErr row col xf v e =>
        if e =? 0 then [(row, col, WPut (GBool (v =? 1)) (xf_format xf))] else [(row, col, WPut (GStr (err_text v)) 0)]
    | CFormula row col xf v tail =>
        match v with
        | FNum bits => [(row, col, WPut (GF64 (f_of_bits bits)) (xf_format xf))]
        | FBool b _ _ _ _ => [(row, col, WPut (GBool (negb (b =? 0))) (xf_format xf))]
        | FErr c _ _ _ _ => [(row, col, WPut (GStr (err_text c)) 0)]
        | FBlank _ _ _ _ _ _ => []
        | FNoText _ _ _ _ _ => [(row, col, WPut (GStr []) (xf_format xf))]
        | FText _ _ _ _ _ _ _ w us more => [(row, col, WText (chunk_text w us ++ flat_map (fun c => chunk_text (snd (fst c)) (snd c)) more) (xf_format xf))]
        end
    | CMerge regs tail => flat_map (fun g => region_cells (clip mr mc g) []) regs
    | CLink r0 r1 c0 c1 h =>
        if (c0 <=? mc) && (r0 <=? mr) then                (* links that start outside the dimensions are dropped *)
          region_cells (clip mr mc (r0, r1, c0, c1)) [WPut (GStr (trim (otext (hl_disp h)) ++ bs " <" ++ trim (link_text h) ++ bs ">")) 0]
        else []
    | CWsBool _ _ _ | CSkip _ _ _ | CEmbedded _ _ _ => []
    end.
End Writes.

(** ** sheet substream *)
Record xsheet := mkXS {
  xs_bof : bytes; xs_pre : list crec;
  xs_dims : option (Z * Z * Z * Z * bytes);    (* Dimensions: first row, rows, first column, columns, reserved *)
  xs_cells : list crec; xs_eof : bytes
}.
Definition dims_recs (d : option (Z * Z * Z * Z * bytes)) : list frec :=
  match d with None => [] | Some (r0, mr, c0, mc, tl) => [(512, put32 r0 ++ put32 mr ++ put16 c0 ++ put16 mc ++ tl)] end.
Definition dims_ok (d : option (Z * Z * Z * Z * bytes)) : Prop :=
  match d with None => True | Some (r0, mr, c0, mc, tl) => w32 r0 /\ w32 mr /\ w16 c0 /\ w16 mc end.
Definition xs_rows (s : xsheet) : Z := match xs_dims s with None => 0 | Some (_, mr, _, _, _) => mr end.
Definition xs_cols (s : xsheet) : Z := match xs_dims s with None => 0 | Some (_, _, _, mc, _) => mc end.
Definition xs_all (s : xsheet) : list crec := xs_pre s ++ xs_cells s.
Definition xs_recs (s : xsheet) : list frec :=
  (BOF, xs_bof s) :: flat_map crec_recs (xs_pre s) ++ dims_recs (xs_dims s) ++ flat_map crec_recs (xs_cells s) ++ [(EOFR, xs_eof s)].
Definition xs_ok (nstr : Z) (s : xsheet) : Prop := Forall (crec_ok nstr) (xs_all s) /\ dims_ok (xs_dims s).
Definition xs_writes (trim : gostr -> gostr) (strs : list gostr) (xfs : list Z) (s : xsheet) : list gop :=
  flat_map (crec_writes trim strs xfs (xs_rows s) (xs_cols s)) (xs_all s).

(** ** workbook globals *)
Inductive grec :=
| GFormat (id res : Z) (w : bool) (us : list Z)                    (* Format *)
| GXf (font fmt : Z) (tail : bytes)                                (* XF *)
| GSheet (pos hidden ty res : Z) (w : bool) (us : list Z)          (* BoundSheet8 *)
| GDate (m : Z) (tail : bytes)                                     (* Date1904 *)
| GCodePage (cp : Z) (tail : bytes)                                (* CodePage *)
| GSst (total : Z) (items : list (nat * sst_item))                 (* SST and its Continue records *)
| GSkip (ty : Z) (p : bytes) (conts : list bytes).
Definition grec_recs (g : grec) : list frec :=
  match g with
  | GFormat id res w us => [(1054, put16 id ++ long_string res w us)]
  | GXf font fmt tail => [(224, put16 font ++ put16 fmt ++ tail)]
  | GSheet pos hidden ty res w us => [(133, put32 pos ++ [hidden; ty] ++ short_string res w us)]
  | GDate m tail => [(34, put16 m ++ tail)]
  | GCodePage cp tail => [(66, put16 cp ++ tail)]
  | GSst total items =>
      match sst_records total items with
      | [] => []
      | p :: ps => (252, p) :: map (fun q => (CONTINUE, q)) ps
      end
  | GSkip ty p conts => (ty, p) :: map (fun q => (CONTINUE, q)) conts
  end.
Definition grec_ok (g : grec) : Prop :=
  match g with
  | GFormat id res w us => w16 id /\ units_fit w us /\ zlen us < 65536
  | GXf font fmt tail => w16 fmt
  | GSheet pos hidden ty res w us => w32 pos /\ units_fit w us /\ zlen us < 256
  | GDate m tail => w16 m
  | GCodePage cp tail => w16 cp
  | GSst total items => w32 total /\ zlen items < 4294967296 /\ Forall (fun x => it_ok (snd x)) items
  | GSkip ty p conts => ~ In ty global_types /\ ty <> BOF /\ ty <> EOFR /\ ty <> CONTINUE
  end.
(** BOF payload of a BIFF8 substream: version 0x0600, build years 1996 and 1997 *)
Definition bof_ok (p : bytes) : Prop :=
  exists dt build year rest, p = put16 1536 ++ put16 dt ++ put16 build ++ put16 year ++ rest /\ w16 dt /\ w16 build /\ (year = 1996 \/ year = 1997) /\ 8 <= zlen rest.
(** the workbook globals substream *)
Definition globals_recs (p : bytes) (gs : list grec) (q : bytes) : list frec := (BOF, p) :: flat_map grec_recs gs ++ [(EOFR, q)].
(** a record of a later substream, without effect on the workbook *)
Definition local_rec (r : frec) : Prop := ~ In (fst r) global_types /\ (fst r = BOF -> snd r = [] \/ bof_ok (snd r)).

(** what the globals declare: sheets (position, visibility, type, name), shared strings,
    formats, XF formats in order *)
Definition g_sheets (gs : list grec) : list (Z * Z * Z * gostr) :=
  flat_map (fun g => match g with GSheet pos hidden ty _ _ us => [(pos, hidden, ty, utf16_string us)] | _ => [] end) gs.
Fixpoint g_strings (gs : list grec) : option (list gostr) :=
  match gs with
  | [] => None
  | g :: gs => match g_strings gs with
               | Some l => Some l
               | None => match g with GSst _ items => Some (map (fun x => item_text (snd x)) items) | _ => None end
               end
  end.
Definition g_formats (gs : list grec) : list (Z * gostr) :=
  flat_map (fun g => match g with GFormat id _ _ us => [(id, utf16_string us)] | _ => [] end) gs.
Definition g_xfs (gs : list grec) : list Z := flat_map (fun g => match g with GXf _ fmt _ => [fmt] | _ => [] end) gs.
Definition g_date (gs : list grec) : list Z := flat_map (fun g => match g with GDate m _ => [m] | _ => [] end) gs.
Definition shown (s : Z * Z * Z * gostr) : bool := match s with (_, hidden, _, _) => hidden mod 4 =? 0 end.

(** * M_fmt: model of commonxl/fmt.go and dates.go:47-78 (FmtFunc values).

    A FmtFunc closure is represented by the expression that built it ([ffun]); [ff_eval] is
    the body of the closures. *)
From Verif Require Import GoBase GoFloat GoUnicode GoTime M_value M_dates M_numbers.

Inductive ffun : Type :=
| FStatic (s : gostr)                           (* staticFmtFunc, fmt.go:12-16 *)
| FSurround (pre : gostr) (f : ffun) (post : gostr)  (* surround, 18-22 *)
| FNegParens (f : ffun)                         (* addNegParens, 24-32 *)
| FCommas (f : ffun)                            (* addCommas, 34-55 *)
| FIdent                                        (* identFunc, 57-84 *)
| FSprintf (fs : sfmt) (mul : Z)                (* sprintfFunc, 86-103 *)
| FZeroDash (f : ffun)                          (* zeroDashFunc, 150-162 *)
| FFrac (n : Z)                                 (* fracFmtFunc, 164-182 *)
| FSwitch (pos neg zero str : ffun)             (* switchFmtFunc, 186-212 *)
| FTime (layout : gostr)                        (* timeFmtFunc, dates.go:47-60 *)
| FCnTime (layout : gostr).                     (* cnTimeFmtFunc, dates.go:64-78 *)

(** addNegParens on the inner text, fmt.go:26-30; s1[0] panics on an empty text *)
Definition neg_parens (s1 : gostr) : res gostr :=
  match s1 with
  | [] => Panic
  | 45 :: r => Ok ([40] ++ r ++ [41])
  | _ => Ok s1
  end.

(** the loop of addCommas, fmt.go:46-49: insert a comma three characters before [e] while e > 3 *)
Fixpoint commas_loop (fuel : nat) (e : Z) (s : gostr) : gostr :=
  match fuel with
  | O => s
  | S k => if 3 <? e then commas_loop k (e - 3) (ztake (e - 3) s ++ [44] ++ zdrop (e - 3) s) else s
  end.

(** addCommas on the inner text, fmt.go:36-53 *)
Definition add_commas (s1 : gostr) : res gostr :=
  match s1 with
  | [] => Panic
  | c :: r =>
      let isNeg := c =? 45 in
      let s := if isNeg then r else s1 in
      let e0 := index_any (bs ".eE") s in
      let e := if e0 <? 0 then zlen s else e0 in
      let s := commas_loop (List.length s) e s in
      Ok (if isNeg then 45 :: s else s)
  end.

(** identFunc, fmt.go:57-84 *)
Definition ident_text (v : goval) : gostr :=
  match v with
  | GBool b => if b then bs "TRUE" else bs "FALSE"
  | GInt KInt64 z =>
      let s := itoa z in
      if zlen s <=? 11 then s else sprint v
  | GF64 x =>
      let s := format_f_shortest x in
      if (zlen s <=? 11) || ((zlen s =? 12) && flt x f_zero) then s
      else
        let s := format_g 6 x in
        if zlen s <=? 11 then s else sprint v
  | GStr s => s
  | GTime t => time_string t        (* fmt.Stringer *)
  | GCType t => ctype_string t
  | GStringer s => s
  | _ => sprint v
  end.

(** strings.Contains(fs, "%d"): a plain %d verb without width or precision *)
Definition wants_int (fs : sfmt) : bool :=
  match fm_verb fs, fm_prec fs with
  | VD, None => fm_wid fs =? 0
  | _, _ => false
  end.

(** sprintfFunc, fmt.go:86-103.  The integer case ignores mul. *)
Definition sprintf_text (fs : sfmt) (mul : Z) (v : goval) : gostr :=
  match v with
  | GInt KInt8 _ | GInt KUint8 _ => sprint v
  | GInt k z => sprintf_int fs k z
  | GF64 x =>
      let y := fmul x (f_of_Z mul) in
      if wants_int fs then sprintf_int fs KInt64 (f_to_int64 y) else sprintf_float fs y
  | _ => sprint v
  end.

(** convertToFloat64, fmt.go:110-147 *)
Definition to_f64 (v : goval) : option f64 :=
  match v with
  | GF64 x | GF32 x => Some x
  | GBool b => Some (f_of_Z (if b then 1 else 0))
  | GInt _ z => Some (f_of_Z z)
  | GStr s => match parse_float s with (x, PNone) => Some x | _ => None end
  | _ => None
  end.

Definition frac_fuel : nat := 1100.

(** fracFmtFunc body, fmt.go:165-181 *)
Definition frac_text (n : Z) (v : goval) : res gostr :=
  match to_f64 v with
  | None => Ok (bs "MUST BE numeric TO FORMAT CORRECTLY")
  | Some f =>
      '(w, n, d) <- decimal_to_whole_fraction frac_fuel f n n ;;
      if n =? 0 then Ok (itoa w)
      else if w =? 0 then
        let n := if flt f f_zero && (0 <? n) then - n else n in
        Ok (itoa n ++ [47] ++ itoa d)
      else Ok (itoa w ++ [32] ++ itoa n ++ [47] ++ itoa d)
  end.

(** timeFmtFunc body, dates.go:49-58 *)
Definition time_text (m1904 : bool) (layout : gostr) (v : goval) : gostr :=
  match v with
  | GTime t => time_format layout t
  | _ => match to_f64 v with
         | None => bs "MUST BE time.Time OR numeric TO FORMAT CORRECTLY"
         | Some x => time_format layout (convert_to_date m1904 x)
         end
  end.

(** cnTimeFmtFunc body, dates.go:66-77 *)
Definition cn_time_text (m1904 : bool) (layout : gostr) (v : goval) : gostr :=
  let cn s := replace1 (bs "PM") (bs "下午") (replace1 (bs "AM") (bs "上午") s) in
  match v with
  | GTime t => cn (time_format layout t)
  | _ => match to_f64 v with
         | None => bs "MUST BE time.Time OR numeric TO FORMAT CORRECTLY"
         | Some x => cn (time_format layout (convert_to_date m1904 x))
         end
  end.

(** calling a FmtFunc *)
Fixpoint ff_eval (m1904 : bool) (f : ffun) (v : goval) : res gostr :=
  match f with
  | FStatic s => Ok s
  | FSurround pre f post => s <- ff_eval m1904 f v ;; Ok (pre ++ s ++ post)
  | FNegParens f => s <- ff_eval m1904 f v ;; neg_parens s
  | FCommas f => s <- ff_eval m1904 f v ;; add_commas s
  | FIdent => Ok (ident_text v)
  | FSprintf fs mul => Ok (sprintf_text fs mul v)
  | FZeroDash f =>
      match to_f64 v with
      | None => Ok (sprint v)
      | Some x => if feq x f_zero then Ok [45] else ff_eval m1904 f v
      end
  | FFrac n => frac_text n v
  | FSwitch pos neg zero str =>
      match to_f64 v with
      | None => ff_eval m1904 str v
      | Some x => if feq x f_zero then ff_eval m1904 zero v
                  else if flt x f_zero then ff_eval m1904 neg v
                  else ff_eval m1904 pos v
      end
  | FTime l => Ok (time_text m1904 l v)
  | FCnTime l => Ok (cn_time_text m1904 l v)
  end.

(** switchFmtFunc(pos, others...), fmt.go:186-198 *)
Definition switch_fmt (pos : ffun) (others : list ffun) : ffun :=
  FSwitch pos (nth 0 others pos) (nth 1 others pos) (nth 2 others FIdent).

Definition sf_d (pct : bool) : sfmt := mkFmt 0 None VD pct.                 (* %d or %d%% *)
Definition sf_42f (pct : bool) : sfmt := mkFmt 4 (Some 2) VF pct.           (* %4.2f *)

(** goFormatters, fmt.go:215-303 *)
Definition go_formatters : list (Z * ffun) :=
  [ (0, FIdent); (49, FIdent);
    (14, FTime (bs "01-02-06")); (15, FTime (bs "2-Jan-06")); (16, FTime (bs "2-Jan"));
    (17, FTime (bs "Jan-06")); (20, FTime (bs "15:04")); (21, FTime (bs "15:04:05"));
    (22, FTime (bs "1/2/06 15:04")); (45, FTime (bs "04:05")); (46, FTime (bs "3:04:05"));
    (47, FTime (bs "0405.9"));
    (27, FTime (bs "2006""年""1""月""")); (28, FTime (bs "1""月""2""日"""));
    (29, FTime (bs "1""月""2""日""")); (30, FTime (bs "1-2-06"));
    (31, FTime (bs "2006""年""1""月""2""日""")); (32, FTime (bs "15""时""04""分"""));
    (33, FTime (bs "15""时""04""分""05""秒""")); (36, FTime (bs "2006""年""2""月"""));
    (50, FTime (bs "2006""年""2""月""")); (51, FTime (bs "1""月""2""日"""));
    (52, FTime (bs "2006""年""1""月""")); (53, FTime (bs "1""月""2""日"""));
    (54, FTime (bs "1""月""2""日""")); (57, FTime (bs "2006""年""1""月"""));
    (58, FTime (bs "1""月""2""日"""));
    (71, FTime (bs "2/1/2006")); (72, FTime (bs "2-Jan-06")); (73, FTime (bs "2-Jan"));
    (74, FTime (bs "Jan-06")); (75, FTime (bs "15:04")); (76, FTime (bs "15:04:05"));
    (77, FTime (bs "2/1/2006 15:04")); (78, FTime (bs "04:05")); (79, FTime (bs "15:04:05"));
    (80, FTime (bs "04:05.9")); (81, FTime (bs "2/1/06"));
    (18, FTime (bs "3:04 PM")); (19, FTime (bs "3:04:05 PM"));
    (34, FCnTime (bs "PM 3""时""04""分""")); (35, FCnTime (bs "PM 3""时""04""分""05""秒"""));
    (55, FCnTime (bs "PM 3""时""04""分""")); (56, FCnTime (bs "PM 3""时""04""分""05""秒"));
    (12, FFrac 1); (13, FFrac 2); (69, FFrac 1); (70, FFrac 2);
    (1, FSprintf (sf_d false) 1); (2, FSprintf (sf_42f false) 1);
    (59, FSprintf (sf_d false) 1); (60, FSprintf (sf_42f false) 1);
    (9, FSprintf (sf_d true) 100); (10, FSprintf (sf_42f true) 100);
    (67, FSprintf (sf_d true) 100); (68, FSprintf (sf_42f true) 100);
    (3, FCommas (FSprintf (sf_d false) 1)); (61, FCommas (FSprintf (sf_d false) 1));
    (37, FNegParens (FCommas (FSprintf (sf_d false) 1)));
    (38, FNegParens (FCommas (FSprintf (sf_d false) 1)));
    (4, FCommas (FSprintf (sf_42f false) 1)); (62, FCommas (FSprintf (sf_42f false) 1));
    (39, FNegParens (FCommas (FSprintf (sf_42f false) 1)));
    (40, FNegParens (FCommas (FSprintf (sf_42f false) 1)));
    (11, FSprintf (mkFmt 4 (Some 2) VE false) 1); (48, FSprintf (mkFmt 3 (Some 1) VE false) 1);
    (41, FZeroDash (FCommas (FSprintf (sf_d false) 1)));
    (43, FZeroDash (FCommas (FSprintf (sf_42f false) 1)));
    (42, switch_fmt (FSurround (bs "$") (FCommas (FSprintf (sf_d false) 1)) [])
           [FSurround (bs "$(") (FCommas (FSprintf (sf_d false) 1)) (bs ")"); FStatic (bs "$-")]);
    (44, switch_fmt (FSurround (bs "$") (FCommas (FSprintf (sf_42f false) 1)) [])
           [FSurround (bs "$(") (FCommas (FSprintf (sf_42f false) 1)) (bs ")"); FStatic (bs "$-")])
  ].

(** * M_formats: model of commonxl/formats.go. *)
From Verif Require Import GoBase GoFloat GoUnicode GoTime M_value M_dates M_numbers M_fmt.

(** ** The regular expressions, as functions on byte strings *)

(** replace every leftmost match of  open [^close]* close  by nothing *)
Fixpoint rm_delim (fuel : nat) (o c : Z) (s : gostr) : gostr :=
  match fuel, s with
  | S k, x :: r =>
      if x =? o then
        let i := index_byte c r in
        if i <? 0 then x :: rm_delim k o c r else rm_delim k o c (zdrop (i + 1) r)
      else x :: rm_delim k o c r
  | _, _ => []
  end.
(** formatMatchBrackets, formats.go:72 *)
Definition rm_brackets (s : gostr) : gostr := rm_delim (List.length s) 91 93 s.
(** formatMatchTextLiteral, formats.go:73 *)
Definition rm_literals (s : gostr) : gostr := rm_delim (List.length s) 34 34 s.

(** minsMatch "h.*m.*s", formats.go:67: start and end of the match; '.' excludes newline *)
Fixpoint mins_from (i : Z) (s : gostr) : option (Z * Z) :=
  match s with
  | [] => None
  | c :: r =>
      if c =? 104 then
        let line := take_while (fun x => negb (x =? 10)) r in
        let m := index_byte 109 line in
        let e := last_index_any [115] line in
        if (0 <=? m) && (m <? e) then Some (i, i + 1 + e + 1) else mins_from (i + 1) r
      else mins_from (i + 1) r
  end.
Definition mins_match (s : gostr) : option (Z * Z) := mins_from 0 s.

(** nonEsc `([^"]|^)"` replaced by $1, formats.go:68 *)
Fixpoint non_esc_from (start : bool) (s : gostr) : gostr :=
  match s with
  | [] => []
  | c :: r =>
      if c =? 34 then (if start then non_esc_from false r else c :: non_esc_from false r)
      else match r with
           | d :: r' => if d =? 34 then c :: non_esc_from false r' else c :: non_esc_from false r
           | [] => [c]
           end
  end.
Definition non_esc (s : gostr) : gostr := non_esc_from true s.

(** the bytes of the first character, if '.' matches it *)
Definition dot_width (s : gostr) : option nat :=
  match s with
  | [] => None
  | c :: _ => if c =? 10 then None else Some (snd (utf8_dec1 s))
  end.

(** squash `[*_].` replaced by nothing, formats.go:69 *)
Fixpoint squash_fuel (fuel : nat) (s : gostr) : gostr :=
  match fuel, s with
  | S k, c :: r =>
      if (c =? 42) || (c =? 95) then
        match dot_width r with
        | Some w => squash_fuel k (skipn w r)
        | None => c :: squash_fuel k r
        end
      else c :: squash_fuel k r
  | _, _ => []
  end.
Definition squash (s : gostr) : gostr := squash_fuel (List.length s) s.

(** fixEsc `\\(.)` replaced by $1, formats.go:70 *)
Fixpoint fix_esc_fuel (fuel : nat) (s : gostr) : gostr :=
  match fuel, s with
  | S k, c :: r =>
      if c =? 92 then
        match dot_width r with
        | Some w => firstn w r ++ fix_esc_fuel k (skipn w r)
        | None => c :: fix_esc_fuel k r
        end
      else c :: fix_esc_fuel k r
  | _, _ => []
  end.
Definition fix_esc (s : gostr) : gostr := fix_esc_fuel (List.length s) s.

Definition is_e (c : Z) : bool := (c =? 101) || (c =? 69).
(** `[eE]+[+-]0+` replaced by nothing, formats.go:137 *)
Fixpoint rm_exp_fuel (fuel : nat) (s : gostr) : gostr :=
  match fuel, s with
  | S k, c :: r =>
      if is_e c then
        match trim_left is_e r with
        | sg :: r1 =>
            if (sg =? 43) || (sg =? 45) then
              match r1 with
              | 48 :: r2 => rm_exp_fuel k (trim_left (Z.eqb 48) r2)
              | _ => c :: rm_exp_fuel k r
              end
            else c :: rm_exp_fuel k r
        | [] => c :: rm_exp_fuel k r
        end
      else c :: rm_exp_fuel k r
  | _, _ => []
  end.
Definition rm_exp (s : gostr) : gostr := rm_exp_fuel (List.length s) s.

(** surReg `[0#?,.]+` Split(s, 2), formats.go:172-173 *)
Definition is_num_mark (c : Z) : bool := existsb (Z.eqb c) (bs "0#?,.").
Definition sur_split (s : gostr) : gostr * option gostr :=
  let pre := take_while (fun c => negb (is_num_mark c)) s in
  match skipn (List.length pre) s with
  | [] => (pre, None)
  | r => (pre, Some (trim_left is_num_mark r))
  end.

(** formats.go:175-177 and 187-189 *)
Definition clean_text (s : gostr) : gostr := fix_esc (squash (non_esc s)).

(** the replacement table, formats.go:104-117 *)
Definition dfreps (ampm : bool) : list (gostr * gostr) :=
  [ (bs "hh", if ampm then bs "03" else bs "15"); (bs "h", if ampm then bs "3" else bs "15");
    (bs "ss", bs "05"); (bs "s", bs "5"); (bs "mmmmm", bs "Jan"); (bs "mmmm", bs "January");
    (bs "mmm", bs "Jan"); (bs "mm", bs "01"); (bs "m", bs "1"); (bs "dddd", bs "Monday");
    (bs "ddd", bs "Mon"); (bs "dd", bs "02"); (bs "d", bs "2"); (bs "yyyy", bs "2006");
    (bs "yy", bs "06") ].

(** formats.go:97-127: the Go layout of a date format *)
Definition date_layout (s : gostr) : gostr :=
  let s := match mins_match s with
           | Some (a, b) =>
               let inner := zdrop a (ztake b s) in
               let inner := replace1 (bs "mm") (bs "04") inner in
               let inner := replace1 (bs "m") (bs "4") inner in
               ztake a s ++ inner ++ zdrop b s
           | None => s
           end in
  let ampm := containsb (bs "AM") s || containsb (bs "PM") s in
  let s := fold_left (fun s r => replace1 (fst r) (snd r) s) (dfreps ampm) s in
  clean_text s.

(** makeFormatter without a ';', formats.go:79, 91-195.  A width over 1e6 (which Go prints as
    a bad width) is not treated specially. *)
Definition make_section (s0 : gostr) : ffun * ctype :=
  let s := rm_brackets s0 in
  let s2 := rm_literals s in                                                (* 91-92 *)
  if contains_any (bs "ymdhs") s2 then (FTime (date_layout s), DateCell)     (* 94-128 *)
  else
    let '(ff, ct, s) :=
      if contains_any (bs ".Ee") s then                                     (* 132-149 *)
        let vb := if contains_any (bs "Ee") s then VE else VF in
        let s := rm_exp s in
        let s2 := remove_byte 44 s in
        let i1 := index_any (bs "0") s2 in
        let i2 := index_byte 46 s2 in
        let i3 := last_index_any (bs "0.") s2 in
        let mul := if containsb (bs "%") s2 then 100 else 1 in
        (FSprintf (mkFmt (i3 - i1) (Some (i3 - i2)) vb false) mul, FloatCell, s)
      else                                                                  (* 150-165 *)
        let s2 := remove_byte 44 s in
        let i1 := index_any (bs "0") s2 in
        let i2 := last_index_any (bs "0.") s2 in
        let mul := if containsb (bs "%") s2 then 100 else 1 in
        (FSprintf (mkFmt (i2 - i1) None VD false) mul, IntegerCell, s) in
    let ff := if containsb (bs ",") s then FCommas ff else ff in             (* 167-170 *)
    let '(pre, post) := sur_split s in
    let pre := clean_text pre in                                            (* 174-178 *)
    match post with
    | None => if str_eqb pre (bs "@") then (FIdent, StringCell)              (* 179-185 *)
              else (FStatic pre, StringCell)
    | Some post =>
        if (0 <? zlen pre) || (0 <? zlen post)
        then (FSurround pre ff (clean_text post), ct)                       (* 186-193 *)
        else (ff, ct)
    end.

(** makeFormatter, formats.go:76-196 *)
Definition make_formatter (s0 : gostr) : ffun * ctype :=
  let s := rm_brackets s0 in
  if containsb (bs ";") s then
    match split_byte 59 s with
    | p :: rest => let '(pos, ct) := make_section p in
                   (switch_fmt pos (map (fun q => fst (make_section q)) rest), ct)
    | [] => make_section s0
    end
  else make_section s0.

(** ** Formatter, formats.go:11-15.  An unallocated map reads as the empty one. *)
Record formatter := mkFormatter {
  fx_1904 : bool;                     (* flags & fMode1904 *)
  fx_codes : list (Z * ffun);         (* customCodes *)
  fx_types : list (Z * ctype)         (* customCodeTypes *)
}.
Definition new_formatter : formatter := mkFormatter false [] [].

(** Mode1904, formats.go:23-29 *)
Definition fx_mode1904 (x : formatter) (enabled : bool) : formatter :=
  mkFormatter enabled (fx_codes x) (fx_types x).

Definition err_replace_default : gerr := ELeaf 1101.
Definition err_replace_existing : gerr := ELeaf 1102.

(** Add, formats.go:32-53 *)
Definition fx_add (x : formatter) (id : Z) (code : gostr) : formatter * option gerr :=
  if str_eqb (to_lower code) (bs "general") then
    (mkFormatter (fx_1904 x) (zput id FIdent (fx_codes x)) (fx_types x), None)
  else
    match zfind id go_formatters with
    | Some _ => (x, Some err_replace_default)
    | None =>
        match zfind id (fx_codes x) with
        | Some _ => (x, Some err_replace_existing)
        | None => let '(ff, ct) := make_formatter code in
                  (mkFormatter (fx_1904 x) (zput id ff (fx_codes x)) (zput id ct (fx_types x)), None)
        end
    end.

(** builtInFormats, formats.go:227-307 *)
Definition builtin_formats : list (Z * gostr) :=
  [ (0, bs "General"); (1, bs "0"); (2, bs "0.00"); (3, bs "#,##0"); (4, bs "#,##0.00");
    (9, bs "0%"); (10, bs "0.00%"); (11, bs "0.00E+00"); (12, bs "# ?/?"); (13, bs "# ??/??");
    (14, bs "mm-dd-yy"); (15, bs "d-mmm-yy"); (16, bs "d-mmm"); (17, bs "mmm-yy");
    (18, bs "h:mm AM/PM"); (19, bs "h:mm:ss AM/PM"); (20, bs "h:mm"); (21, bs "h:mm:ss");
    (22, bs "m/d/yy h:mm"); (37, bs "#,##0 ;(#,##0)"); (38, bs "#,##0 ;[Red](#,##0)");
    (39, bs "#,##0.00;(#,##0.00)"); (40, bs "#,##0.00;[Red](#,##0.00)");
    (41, bs "_(* #,##0_);_(* \(#,##0\);_(* ""-""_);_(@_)");
    (42, bs "_(""$""* #,##0_);_(""$""* \(#,##0\);_(""$""* ""-""_);_(@_)");
    (43, bs "_(* #,##0.00_);_(* \(#,##0.00\);_(* ""-""??_);_(@_)");
    (44, bs "_(""$""* #,##0.00_);_(""$""* \(#,##0.00\);_(""$""* ""-""??_);_(@_)");
    (45, bs "mm:ss"); (46, bs "[h]:mm:ss"); (47, bs "mmss.0"); (48, bs "##0.0E+0"); (49, bs "@");
    (27, bs "yyyy""年""m""月"""); (28, bs "m""月""d""日"""); (29, bs "m""月""d""日""");
    (30, bs "m-d-yy"); (31, bs "yyyy""年""m""月""d""日"""); (32, bs "h""时""mm""分""");
    (33, bs "h""时""mm""分""ss""秒"""); (34, bs "上午/下午 h""时""mm""分""");
    (35, bs "上午/下午 h""时""mm""分""ss""秒"""); (36, bs "yyyy""年""m""月""");
    (50, bs "yyyy""年""m""月"""); (51, bs "m""月""d""日"""); (52, bs "yyyy""年""m""月""");
    (53, bs "m""月""d""日"""); (54, bs "m""月""d""日"""); (55, bs "上午/下午 h""时""mm""分""");
    (56, bs "上午/下午 h""时""mm""分""ss""秒"); (57, bs "yyyy""年""m""月""");
    (58, bs "m""月""d""日""");
    (59, bs "0"); (60, bs "0.00"); (61, bs "#,##0"); (62, bs "#,##0.00"); (67, bs "0%");
    (68, bs "0.00%"); (69, bs "# ?/?"); (70, bs "# ??/??"); (71, bs "d/m/yyyy");
    (72, bs "d-mmm-yy"); (73, bs "d-mmm"); (74, bs "mmm-yy"); (75, bs "h:mm"); (76, bs "h:mm:ss");
    (77, bs "d/m/yyyy h:mm"); (78, bs "mm:ss"); (79, bs "[h]:mm:ss"); (80, bs "mm:ss.0");
    (81, bs "d/m/bb") ].

(** builtInFormatTypes, formats.go:310-382 *)
Definition builtin_types : list (Z * ctype) :=
  [ (1, IntegerCell); (2, FloatCell); (3, IntegerCell); (4, FloatCell); (9, FloatCell);
    (10, FloatCell); (11, FloatCell); (12, FloatCell); (13, FloatCell); (14, DateCell);
    (15, DateCell); (16, DateCell); (17, DateCell); (18, DateCell); (19, DateCell); (20, DateCell);
    (21, DateCell); (22, DateCell); (37, IntegerCell); (38, IntegerCell); (39, FloatCell);
    (40, FloatCell); (41, IntegerCell); (42, IntegerCell); (43, FloatCell); (44, FloatCell);
    (45, DateCell); (46, DateCell); (47, DateCell); (48, FloatCell); (49, StringCell);
    (27, DateCell); (28, DateCell); (29, DateCell); (30, DateCell); (31, DateCell); (32, DateCell);
    (33, DateCell); (34, DateCell); (35, DateCell); (36, DateCell); (50, DateCell); (51, DateCell);
    (52, DateCell); (53, DateCell); (54, DateCell); (55, DateCell); (56, DateCell); (57, DateCell);
    (58, DateCell); (59, IntegerCell); (60, FloatCell); (61, IntegerCell); (62, FloatCell);
    (67, FloatCell); (68, FloatCell); (69, FloatCell); (70, FloatCell); (71, DateCell);
    (72, DateCell); (73, DateCell); (74, DateCell); (75, DateCell); (76, DateCell); (77, DateCell);
    (78, DateCell); (79, DateCell); (80, DateCell); (81, DateCell) ].

(** getCellType, formats.go:55-64 *)
Definition fx_cell_type (x : formatter) (id : Z) : option ctype :=
  match zfind id builtin_types with
  | Some ct => Some ct
  | None => zfind id (fx_types x)
  end.

(** Get, formats.go:200-211 *)
Definition fx_get (x : formatter) (id : Z) : ffun * bool :=
  match zfind id go_formatters with
  | Some ff => (ff, true)
  | None => match zfind id (fx_codes x) with
            | Some fs => (fs, true)
            | None => (FIdent, false)
            end
  end.

(** Apply, formats.go:215-224; for an unknown id ff is a nil func and calling it panics *)
Definition fx_apply (x : formatter) (id : Z) (v : goval) : res (gostr * bool) :=
  match zfind id go_formatters with
  | Some ff => s <- ff_eval (fx_1904 x) ff v ;; Ok (s, true)
  | None => match zfind id (fx_codes x) with
            | Some fs => s <- ff_eval (fx_1904 x) fs v ;; Ok (s, true)
            | None => Panic
            end
  end.

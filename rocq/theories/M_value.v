(** * M_value: Go interface{} values as grate uses them, and fmt.Sprint / Sprintf / Sscanf. *)
From Verif Require Import GoBase GoFloat GoUnicode GoTime.

Inductive ikind := KInt | KInt8 | KInt16 | KInt32 | KInt64 | KUint | KUint8 | KUint16 | KUint32 | KUint64.

(** CellType, commonxl/cell.go:13-26 *)
Inductive ctype : Type :=
| BlankCell | IntegerCell | FloatCell | StringCell | BooleanCell | DateCell
| HyperlinkStringCell | StaticCell.

Definition ctype_eqb (a b : ctype) : bool :=
  match a, b with
  | BlankCell, BlankCell | IntegerCell, IntegerCell | FloatCell, FloatCell
  | StringCell, StringCell | BooleanCell, BooleanCell | DateCell, DateCell
  | HyperlinkStringCell, HyperlinkStringCell | StaticCell, StaticCell => true
  | _, _ => false
  end.

(** CellType.String, commonxl/cell.go:29-48 *)
Definition ctype_string (c : ctype) : gostr :=
  match c with
  | BlankCell => bs "blank"
  | IntegerCell => bs "integer"
  | FloatCell => bs "float"
  | BooleanCell => bs "boolean"
  | DateCell => bs "date"
  | HyperlinkStringCell => bs "hyperlink"
  | StaticCell => bs "static"
  | StringCell => bs "string"
  end.

(** dynamic values.  [GStringer s] is a value of some other type whose String() is s;
    [GOther txt] a value of any remaining type, printed as txt by fmt.Sprint. *)
Inductive goval : Type :=
| GNil
| GBool (b : bool)
| GInt (k : ikind) (z : Z)
| GF32 (x : f64)
| GF64 (x : f64)
| GStr (s : gostr)
| GBytes (s : list Z)
| GU16s (s : list Z)
| GRunes (s : list Z)
| GTime (t : Z)
| GCType (t : ctype)
| GStringer (s : gostr)
| GOther (txt : gostr).

(** fmt.Sprint(v) *)
Definition sprint (v : goval) : gostr :=
  match v with
  | GNil => bs "<nil>"
  | GBool b => if b then bs "true" else bs "false"
  | GInt _ z => itoa z
  | GF32 x => format_g32_shortest x
  | GF64 x => format_g_shortest x
  | GStr s => s
  | GBytes s | GU16s s | GRunes s => [91] ++ join [32] (map itoa s) ++ [93]
  | GTime t => time_string t
  | GCType t => ctype_string t
  | GStringer s => s
  | GOther t => t
  end.

Definition kind_name (k : ikind) : gostr :=
  match k with
  | KInt => bs "int" | KInt8 => bs "int8" | KInt16 => bs "int16" | KInt32 => bs "int32"
  | KInt64 => bs "int64" | KUint => bs "uint" | KUint8 => bs "uint8" | KUint16 => bs "uint16"
  | KUint32 => bs "uint32" | KUint64 => bs "uint64"
  end.

(** the Sprintf formats grate uses: one verb with optional width and precision, and an
    optional trailing percent sign *)
Inductive verb := VD | VF | VE.
Record sfmt := mkFmt { fm_wid : Z; fm_prec : option Z; fm_verb : verb; fm_pct : bool }.

Definition verb_byte (v : verb) : Z := match v with VD => 100 | VF => 102 | VE => 69 end.

(** an integer with a minimum number of digits (precision), fmt.fmtInteger *)
Definition int_text (prec : option Z) (wid : Z) (z : Z) : gostr :=
  match prec with
  | Some 0 => if z =? 0 then repeat 32 (Z.to_nat wid) else pad_left 32 wid (itoa z)
  | Some p => let d := pad_left 48 p (utoa (Z.abs z)) in
              pad_left 32 wid (if z <? 0 then 45 :: d else d)
  | None => pad_left 32 wid (itoa z)
  end.

(** fmt.Sprintf(f, z) for an integer of kind k.  A float verb gives the %!verb(type=value)
    error text, with width and precision still applied to the value. *)
Definition sprintf_int (f : sfmt) (k : ikind) (z : Z) : gostr :=
  (match fm_verb f with
   | VD => int_text (fm_prec f) (fm_wid f) z
   | v => bs "%!" ++ [verb_byte v; 40] ++ kind_name k ++ [61] ++
          int_text (fm_prec f) (fm_wid f) z ++ [41]
   end) ++ (if fm_pct f then [37] else []).

(** fmt.Sprintf(f, x) for a float64 *)
Definition sprintf_float (f : sfmt) (x : f64) : gostr :=
  (match fm_verb f with
   | VF => pad_left 32 (fm_wid f) (format_f (match fm_prec f with Some p => p | None => 6 end) x)
   | VE => pad_left 32 (fm_wid f) (format_e 69 (match fm_prec f with Some p => p | None => 6 end) x)
   | VD => bs "%!d(float64=" ++
           pad_left 32 (fm_wid f)
             (match fm_prec f with
              | Some p => format_g (if p =? 0 then 1 else p) x
              | None => format_g_shortest x
              end) ++ [41]
   end) ++ (if fm_pct f then [37] else []).

(** ** fmt.Sscanf(s, "%d", &x) and fmt.Sscanf(s, "%g", &x): value on success.
    Only ASCII white space is skipped here; Go also skips the other Unicode spaces. *)
Definition is_space (c : Z) : bool := (c =? 32) || (c =? 9) || (c =? 13) || (c =? 11) || (c =? 12).

Fixpoint take_while (p : Z -> bool) (s : gostr) : gostr :=
  match s with
  | [] => []
  | c :: r => if p c then c :: take_while p r else []
  end.

Definition sscanf_d (s : gostr) : option Z :=
  let s := trim_left is_space s in
  let '(sg, r) := match s with
                  | 43 :: r => ([43], r)
                  | 45 :: r => ([45], r)
                  | _ => ([], s)
                  end in
  match take_while is_digit r with
  | [] => None
  | ds => match parse_int 64 (sg ++ ds) with
          | (n, PNone) => Some n
          | _ => None
          end
  end.

(** ss.floatToken: the longest prefix that looks like a float.  Hexadecimal mantissas and
    binary exponents are not modelled. *)
Definition float_token (s : gostr) : gostr :=
  let ci (w : gostr) (t : gostr) := str_eqb (map lower (firstn (List.length w) t)) w in
  if ci (bs "nan") s then firstn 3 s
  else
    let '(sg, r) := match s with
                    | 43 :: r => ([43], r)
                    | 45 :: r => ([45], r)
                    | _ => ([], s)
                    end in
    if ci (bs "inf") r then sg ++ firstn 3 r
    else
      let dig := fun c => is_digit c || (c =? 95) in
      let ip := take_while dig r in
      let r1 := skipn (List.length ip) r in
      let '(fp, r2) := match r1 with
                       | 46 :: r' => let f := take_while dig r' in (46 :: f, skipn (List.length f) r')
                       | _ => ([], r1)
                       end in
      let ep := match r2 with
                | c :: r' => if lower c =? 101 then
                               let '(es, r3) := match r' with
                                                | 43 :: q => ([43], q)
                                                | 45 :: q => ([45], q)
                                                | _ => ([], r')
                                                end in
                               c :: es ++ take_while dig r3
                             else []
                | [] => []
                end in
      sg ++ ip ++ fp ++ ep.
Definition sscanf_g (s : gostr) : option f64 :=
  match parse_float (float_token (trim_left is_space s)) with
  | (x, PNone) => Some x
  | _ => None
  end.

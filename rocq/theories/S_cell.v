(** * S_cell: what commonxl cells are meant to do, independently of the code.

    Values are the Go values of M_value ([goval]); [B2R]-free. *)
From Verif Require Import GoBase GoFloat GoUnicode GoTime M_value M_dates.

(** the values a Go variable of kind k can have (64-bit platform) *)
Definition in_kind (k : ikind) (z : Z) : Prop :=
  match k with
  | KInt | KInt64 => - 2 ^ 63 <= z < 2 ^ 63
  | KInt8 => - 2 ^ 7 <= z < 2 ^ 7
  | KInt16 => - 2 ^ 15 <= z < 2 ^ 15
  | KInt32 => - 2 ^ 31 <= z < 2 ^ 31
  | KUint | KUint64 => 0 <= z < 2 ^ 64
  | KUint8 => 0 <= z < 2 ^ 8
  | KUint16 => 0 <= z < 2 ^ 16
  | KUint32 => 0 <= z < 2 ^ 32
  end.
Definition proper (v : goval) : Prop :=
  match v with GInt k z => in_kind k z | _ => True end.

(** [holds value v t]: a cell made from [value] is meant to hold v with type t *)
Inductive holds : goval -> goval -> ctype -> Prop :=
| holds_bool : forall b, holds (GBool b) (GBool b) BooleanCell
| holds_int : forall k z, z < 2 ^ 63 -> holds (GInt k z) (GInt KInt64 z) IntegerCell
| holds_big : forall k z, 2 ^ 63 <= z -> holds (GInt k z) (GF64 (f_of_Z z)) FloatCell
| holds_f32 : forall x, holds (GF32 x) (GF64 x) FloatCell
| holds_f64 : forall x, holds (GF64 x) (GF64 x) FloatCell
| holds_time : forall t, holds (GTime t) (GTime t) DateCell
| holds_str : forall s, s <> [] -> holds (GStr s) (GStr s) StringCell
| holds_bytes : forall s, s <> [] -> holds (GBytes s) (GStr s) StringCell
| holds_utf16 : forall u, u <> [] -> holds (GU16s u) (GStr (utf16_string u)) StringCell
| holds_runes : forall r, r <> [] -> holds (GRunes r) (GStr (string_of_runes r)) StringCell
| holds_ctype : forall t, holds (GCType t) (GStr (ctype_string t)) StringCell
| holds_stringer : forall s, s <> [] -> holds (GStringer s) (GStr s) StringCell
| holds_str_e : holds (GStr []) GNil BlankCell
| holds_bytes_e : holds (GBytes []) GNil BlankCell
| holds_utf16_e : holds (GU16s []) GNil BlankCell
| holds_runes_e : holds (GRunes []) GNil BlankCell
| holds_stringer_e : holds (GStringer []) GNil BlankCell.

(** texts that stand for true *)
Definition truthy_text (s : gostr) : Prop :=
  In s (map bs ["yes"; "true"; "t"; "y"; "1"; "on"; "YES"; "TRUE"; "T"; "Y"; "1.0"; "ON"]%string).

(** [coerced m t v v' t']: what a stored value v becomes under a format of cell type t
    (m: 1904 date mode). *)
Inductive coerced (m1904 : bool) : ctype -> goval -> goval -> ctype -> Prop :=
| co_ib : forall b, coerced m1904 IntegerCell (GBool b) (GInt KInt64 (if b then 1 else 0)) IntegerCell
| co_ii : forall z, coerced m1904 IntegerCell (GInt KInt64 z) (GInt KInt64 z) IntegerCell
| co_if : forall x, coerced m1904 IntegerCell (GF64 x) (GInt KInt64 (f_to_int64 x)) IntegerCell
| co_is : forall s, coerced m1904 IntegerCell (GStr s) (GInt KInt64 (fst (parse_int 64 s))) IntegerCell
| co_fb : forall b, coerced m1904 FloatCell (GBool b) (GF64 (f_of_Z (if b then 1 else 0))) FloatCell
| co_fi : forall z, coerced m1904 FloatCell (GInt KInt64 z) (GF64 (f_of_Z z)) FloatCell
| co_ff : forall x, coerced m1904 FloatCell (GF64 x) (GF64 x) FloatCell
| co_fs : forall s, coerced m1904 FloatCell (GStr s) (GF64 (fst (parse_float s))) FloatCell
| co_bb : forall b, coerced m1904 BooleanCell (GBool b) (GBool b) BooleanCell
| co_bi : forall z b, (b = true <-> z <> 0) -> coerced m1904 BooleanCell (GInt KInt64 z) (GBool b) BooleanCell
| co_bf : forall x b, (b = false <-> feq x f_zero = true) -> coerced m1904 BooleanCell (GF64 x) (GBool b) BooleanCell
| co_bs : forall s b, (b = true <-> truthy_text s) -> coerced m1904 BooleanCell (GStr s) (GBool b) BooleanCell
| co_num_blank : forall t, In t [IntegerCell; FloatCell; BooleanCell] -> coerced m1904 t GNil GNil BlankCell
| co_num_time : forall t x, In t [IntegerCell; FloatCell; BooleanCell] -> coerced m1904 t (GTime x) (GTime x) DateCell
| co_sb : forall b, coerced m1904 StringCell (GBool b) (GStr (if b then bs "TRUE" else bs "FALSE")) StringCell
| co_s : forall v, (forall b, v <> GBool b) -> coerced m1904 StringCell v (GStr (sprint v)) StringCell
| co_di : forall z, coerced m1904 DateCell (GInt KInt64 z) (GTime (convert_to_date m1904 (f_of_Z z))) DateCell
| co_df : forall x, coerced m1904 DateCell (GF64 x) (GTime (convert_to_date m1904 x)) DateCell
| co_d : forall v, (forall z, v <> GInt KInt64 z) -> (forall x, v <> GF64 x) -> coerced m1904 DateCell v v DateCell.

(** byte-wise lexicographic order on strings *)
Definition lex_lt (a b : gostr) : Prop :=
  exists p, (exists c r, a = p /\ b = p ++ c :: r) \/
            (exists c d r1 r2, a = p ++ c :: r1 /\ b = p ++ d :: r2 /\ c < d).

(** cells of one comparable kind *)
Inductive kind1 := OBool | OInt | OFloat | OText.
Definition of_kind (k : kind1) (c : list goval) : Prop :=
  match k with
  | OBool => exists b r, c = GBool b :: GCType BooleanCell :: r
  | OInt => exists z r, c = GInt KInt64 z :: GCType IntegerCell :: r
  | OFloat => exists x r, c = GF64 x :: GCType FloatCell :: r /\ f_is_nan x = false
  | OText => exists s r, c = GStr s :: GCType StringCell :: r
  end.

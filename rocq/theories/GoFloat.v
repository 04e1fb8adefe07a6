(** * GoFloat: float64 arithmetic, parsing and printing.

    float64 is Flocq's IEEE 754 binary64 with a single NaN (the payload of a NaN is never
    observable in grate).  Everything is computable. *)
From Verif Require Import GoBase.
From Flocq Require Import Core.Zaux Core.FLX IEEE754.BinarySingleNaN IEEE754.Bits IEEE754.Binary.
Open Scope Z_scope.
Open Scope list_scope.

Notation f64 := (BinarySingleNaN.binary_float 53 1024).

Definition prec53 : Prec_gt_0 53 := eq_refl.
Definition prec_emax : BinarySingleNaN.Prec_lt_emax 53 1024 := eq_refl.
Global Existing Instance prec53.
Global Existing Instance prec_emax.

(** arithmetic: round to nearest, ties to even *)
Definition fadd (a b : f64) : f64 := BinarySingleNaN.Bplus mode_NE a b.
Definition fsub (a b : f64) : f64 := BinarySingleNaN.Bminus mode_NE a b.
Definition fmul (a b : f64) : f64 := BinarySingleNaN.Bmult mode_NE a b.
Definition fdiv (a b : f64) : f64 := BinarySingleNaN.Bdiv mode_NE a b.
Definition fneg (a : f64) : f64 := BinarySingleNaN.Bopp a.
Definition fabs (a : f64) : f64 := BinarySingleNaN.Babs a.

(** the float64 nearest to m * 2^e *)
Definition f_norm (m e : Z) : f64 :=
  BinarySingleNaN.binary_normalize 53 1024 prec53 prec_emax mode_NE m e false.

(** float64(n) for an integer n *)
Definition f_of_Z (n : Z) : f64 := f_norm n 0.

Definition f_zero : f64 := BinarySingleNaN.B754_zero false.
Definition f_nan : f64 := BinarySingleNaN.B754_nan.
Definition f_inf (s : bool) : f64 := BinarySingleNaN.B754_infinity s.

(** comparisons; all false on NaN, except != *)
Definition fcmp (a b : f64) : option comparison := BinarySingleNaN.Bcompare a b.
Definition flt (a b : f64) : bool := match fcmp a b with Some Lt => true | _ => false end.
Definition fgt (a b : f64) : bool := match fcmp a b with Some Gt => true | _ => false end.
Definition feq (a b : f64) : bool := match fcmp a b with Some Eq => true | _ => false end.
Definition fle (a b : f64) : bool := match fcmp a b with Some Lt => true | Some Eq => true | _ => false end.
Definition fge (a b : f64) : bool := match fcmp a b with Some Gt => true | Some Eq => true | _ => false end.

(** int64(x) / int(x) on amd64 (CVTTSD2SQ): truncation toward zero; NaN and values outside
    the int64 range give -2^63 *)
Definition f_to_int64 (x : f64) : Z :=
  match x with
  | BinarySingleNaN.B754_finite _ _ _ _ =>
      let t := BinarySingleNaN.Btrunc x in
      if (- two63 <=? t) && (t <? two63) then t else - two63
  | BinarySingleNaN.B754_zero _ => 0
  | _ => - two63
  end.

(** math.Float64frombits *)
Definition f_of_bits (b : Z) : f64 := B2BSN 53 1024 (b64_of_bits b).
(** math.Float64bits, all NaNs mapped to one *)
Definition f_to_bits (x : f64) : Z :=
  match x with
  | BinarySingleNaN.B754_nan => 9221120237041090561
  | BinarySingleNaN.B754_zero s => join_bits 52 11 s 0 0
  | BinarySingleNaN.B754_infinity s => join_bits 52 11 s 0 2047
  | BinarySingleNaN.B754_finite s m e _ =>
      let m' := Z.pos m - 4503599627370496 in
      if 0 <=? m' then join_bits 52 11 s m' (e + 1075) else join_bits 52 11 s (Z.pos m) 0
  end.

(** math.Floor, math.Trunc, math.Round (half away from zero) *)
Definition f_floor (x : f64) : f64 := BinarySingleNaN.Bnearbyint mode_DN x.
Definition f_trunc (x : f64) : f64 := BinarySingleNaN.Bnearbyint mode_ZR x.
Definition f_round (x : f64) : f64 := BinarySingleNaN.Bnearbyint mode_NA x.
(** math.Modf: integer part and fraction; for infinities the Go function returns
    (±Inf, NaN) *)
Definition f_modf (x : f64) : f64 * f64 :=
  let i := f_trunc x in (i, fsub x i).

Definition f_is_finite (x : f64) : bool := BinarySingleNaN.is_finite x.
Definition f_is_nan (x : f64) : bool := BinarySingleNaN.is_nan x.

(** the float64 nearest to num/den (num >= 0, den > 0): enough quotient bits plus a sticky
    bit, then one rounding *)
Definition f_of_ratio (num den : Z) : f64 :=
  let s := Z.max 0 (Z.log2 den - Z.log2 num + 60) in
  let n' := Z.shiftl num s in
  let q := n' / den in
  let sticky := if n' mod den =? 0 then 0 else 1 in
  f_norm (2 * q + sticky) (- (s + 1)).

(** the float64 nearest to m * 10^e, with a sign *)
Definition f_of_dec (neg : bool) (m e : Z) : f64 :=
  let a := if 0 <=? e then f_norm (m * 10 ^ e) 0 else f_of_ratio m (10 ^ (- e)) in
  if neg then fneg a else a.

(** ** strconv.ParseFloat(s, 64) *)

Definition lower (c : Z) : Z := if (65 <=? c) && (c <=? 90) then c + 32 else c.
Definition is_digit (c : Z) : bool := (48 <=? c) && (c <=? 57).
Definition hexval (c : Z) : option Z :=
  let c := lower c in
  if is_digit c then Some (c - 48)
  else if (97 <=? c) && (c <=? 102) then Some (c - 87) else None.

(** mantissa scan: digits, '_' and one '.'; returns value, number of digits, digits after
    the point, point seen, underscore seen, rest *)
Fixpoint scan_mant (hex : bool) (s : gostr) (m : Z) (nd nfrac : Z) (dot us : bool)
  : Z * Z * Z * bool * gostr :=
  match s with
  | [] => (m, nd, nfrac, us, [])
  | c :: r =>
      if c =? 95 then scan_mant hex r m nd nfrac dot true
      else if c =? 46 then
        if dot then (m, nd, nfrac, us, s) else scan_mant hex r m nd nfrac true us
      else
        match (if hex then hexval c else if is_digit c then Some (c - 48) else None) with
        | Some v => scan_mant hex r (m * (if hex then 16 else 10) + v) (nd + 1)
                              (if dot then nfrac + 1 else nfrac) dot us
        | None => (m, nd, nfrac, us, s)
        end
  end.

(** exponent digits, saturating as in readFloat *)
Fixpoint scan_exp (s : gostr) (e : Z) (us : bool) : Z * bool * gostr :=
  match s with
  | [] => (e, us, [])
  | c :: r =>
      if c =? 95 then scan_exp r e true
      else if is_digit c then scan_exp r (if e <? 10000 then e * 10 + (c - 48) else e) us
      else (e, us, s)
  end.

(** underscoreOK *)
Fixpoint us_ok (hex : bool) (s : gostr) (saw : Z) : bool :=
  match s with
  | [] => negb (saw =? 95)
  | c :: r =>
      if is_digit c || (hex && (97 <=? lower c) && (lower c <=? 102)) then us_ok hex r 48
      else if c =? 95 then if saw =? 48 then us_ok hex r 95 else false
      else if saw =? 95 then false else us_ok hex r 33
  end.
Definition underscore_ok (s : gostr) : bool :=
  match s with
  | 48 :: x :: r =>
      if (lower x =? 120) then us_ok true r 48
      else if (lower x =? 98) || (lower x =? 111) then us_ok false r 48
      else us_ok false s 94
  | _ => us_ok false s 94
  end.

(** sign prefix *)
Definition take_sign (s : gostr) : bool * gostr :=
  match s with
  | 43 :: r => (false, r)
  | 45 :: r => (true, r)
  | _ => (false, s)
  end.

Definition parse_float (s : gostr) : f64 * perr :=
  let '(neg, b) := take_sign s in
  let lb := map lower b in
  if str_eqb lb (bs "inf") || str_eqb lb (bs "infinity") then (f_inf neg, PNone)
  else if str_eqb (map lower s) (bs "nan") then (f_nan, PNone)
  else
    let '(hex, body) :=
      match b with
      | 48 :: x :: (_ :: _) as r => if lower x =? 120 then (true, skipn 2 b) else (false, b)
      | _ => (false, b)
      end in
    let '(m, nd, nfrac, us1, r) := scan_mant hex body 0 0 0 false false in
    if nd =? 0 then (f_zero, PSyntax)
    else
      let bad := (f_zero, PSyntax) in
      let fin (e : Z) (hasexp : bool) (us : bool) :=
        if us && negb (underscore_ok b) then bad
        else if hex && negb hasexp then bad
        else
          let v := if hex then
                     let a := f_norm m (e - 4 * nfrac) in if neg then fneg a else a
                   else f_of_dec neg m (e - nfrac) in
          if f_is_finite v then (v, PNone) else (v, PRange) in
      match r with
      | [] => fin 0 false us1
      | c :: r1 =>
          if lower c =? (if hex then 112 else 101) then
            let '(eneg, r2) := take_sign r1 in
            match r2 with
            | d :: _ =>
                if is_digit d then
                  let '(e, us2, r3) := scan_exp r2 0 us1 in
                  match r3 with
                  | [] => fin (if eneg then - e else e) true us2
                  | _ => bad
                  end
                else bad
            | [] => bad
            end
          else bad
      end.

(** ** printing *)

(** sign, and |x| = num/den, for finite x *)
Definition f_ratio (x : f64) : bool * Z * Z :=
  match x with
  | BinarySingleNaN.B754_zero s => (s, 0, 1)
  | BinarySingleNaN.B754_finite s m e _ =>
      if 0 <=? e then (s, Z.pos m * 2 ^ e, 1) else (s, Z.pos m, 2 ^ (- e))
  | _ => (false, 0, 1)
  end.

(** num/den rounded to the nearest integer, ties to even *)
Definition round_half_even (num den : Z) : Z :=
  let q := num / den in
  let r := num mod den in
  if 2 * r <? den then q
  else if den <? 2 * r then q + 1
  else if Z.even q then q else q + 1.

Definition zeros (n : Z) : gostr := repeat 48 (Z.to_nat n).
Definition pad_left (c : Z) (w : Z) (s : gostr) : gostr :=
  repeat c (Z.to_nat (w - zlen s)) ++ s.

(** the digits of n with the point placed before the last [p] of them *)
Definition place_point (p : Z) (n : Z) : gostr :=
  let d := pad_left 48 (p + 1) (utoa n) in
  let k := zlen d - p in
  if p <=? 0 then d else ztake k d ++ [46] ++ zdrop k d.

Definition nan_text (x : f64) : gostr :=
  match x with
  | BinarySingleNaN.B754_infinity true => bs "-Inf"
  | BinarySingleNaN.B754_infinity false => bs "+Inf"
  | _ => bs "NaN"
  end.

(** strconv.FormatFloat(x, 'f', p, 64) for p >= 0 *)
Definition format_f (p : Z) (x : f64) : gostr :=
  if f_is_finite x then
    let '(s, num, den) := f_ratio x in
    let t := place_point p (round_half_even (num * 10 ^ p) den) in
    if s then 45 :: t else t
  else nan_text x.

(** decimal exponent: the k with 10^k <= num/den < 10^(k+1) (num > 0) *)
Fixpoint dec_exp_up (fuel : nat) (num den k : Z) : Z :=
  match fuel with
  | O => k
  | S f => if 10 * den <=? num then dec_exp_up f num (10 * den) (k + 1) else k
  end.
Fixpoint dec_exp_down (fuel : nat) (num den k : Z) : Z :=
  match fuel with
  | O => k
  | S f => if num <? den then dec_exp_down f (10 * num) den (k - 1) else k
  end.
Definition dec_exp (num den : Z) : Z :=
  if den <=? num then dec_exp_up 400 num den 0 else dec_exp_down 400 num den 0.

(** num/den scaled by 10^k *)
Definition scale10 (num den k : Z) : Z * Z :=
  if 0 <=? k then (num * 10 ^ k, den) else (num, den * 10 ^ (- k)).

(** [n] significant digits of num/den > 0, correctly rounded: (digits as integer, exponent) *)
Definition sig_digits (n num den : Z) : Z * Z :=
  let k := dec_exp num den in
  let '(a, b) := scale10 num den (n - 1 - k) in
  let q := round_half_even a b in
  if q =? 10 ^ n then (10 ^ (n - 1), k + 1) else (q, k).

(** exponent part: e, sign, at least two digits *)
Definition exp_text (verb : Z) (e : Z) : gostr :=
  [verb; (if e <? 0 then 45 else 43)] ++ pad_left 48 2 (utoa (Z.abs e)).

Definition e_text (verb : Z) (d : gostr) (e : Z) : gostr :=
  match d with
  | [] => []
  | c :: [] => c :: exp_text verb e
  | c :: r => c :: 46 :: r ++ exp_text verb e
  end.

(** strconv.FormatFloat(x, 'e'/'E', p, 64) for p >= 0 *)
Definition format_e (verb : Z) (p : Z) (x : f64) : gostr :=
  if f_is_finite x then
    let '(s, num, den) := f_ratio x in
    let t := if num =? 0 then e_text verb (zeros (p + 1)) 0
             else let '(q, k) := sig_digits (p + 1) num den in e_text verb (utoa q) k in
    if s then 45 :: t else t
  else nan_text x.

(** trailing zeros removed from an integer, keeping count *)
Fixpoint strip_zeros (fuel : nat) (q : Z) : Z :=
  match fuel with
  | O => q
  | S f => if (q mod 10 =? 0) && negb (q =? 0) then strip_zeros f (q / 10) else q
  end.

(** digits d (no trailing zeros), exponent k as %f text *)
Definition fixed_text (q k : Z) : gostr :=
  (* value = q * 10^(k - (len q - 1)) *)
  let n := zlen (utoa q) in
  let e := k - (n - 1) in
  if 0 <=? e then utoa q ++ zeros e else place_point (- e) q.

(** %e/%f choice of 'g': [eprec] is the exponent threshold *)
Definition g_text (eprec : Z) (q k : Z) : gostr :=
  if (k <? -4) || (eprec <=? k) then e_text 101 (utoa q) k else fixed_text q k.

(** strconv.FormatFloat(x, 'g', p, 64), p >= 1 *)
Definition format_g (p : Z) (x : f64) : gostr :=
  if f_is_finite x then
    let '(s, num, den) := f_ratio x in
    let t := if num =? 0 then [48]
             else let '(q0, k) := sig_digits p num den in
                  let q := strip_zeros 400 q0 in
                  let nd := zlen (utoa q) in
                  (* eprec: if eprec > nd && nd >= dp then nd *)
                  let eprec := if (nd <? p) && (k + 1 <=? nd) then nd else p in
                  g_text eprec q k in
    if s then 45 :: t else t
  else nan_text x.

(** shortest digits that parse back to x: the smallest count n for which one of the two
    n-digit neighbours of x rounds to x, the nearer one first.  Result (q, e): x prints as
    q * 10^e. *)
Fixpoint shortest_from (fuel : nat) (n num den k : Z) (x : f64) : Z * Z :=
  match fuel with
  | O => let '(q, k') := sig_digits 17 num den in (q, k' - 16)
  | S f =>
      let '(a, b) := scale10 num den (n - 1 - k) in
      let lo := a / b in
      let hi := lo + 1 in
      let near := round_half_even a b in
      let far := if near =? lo then hi else lo in
      let back q := feq (f_of_dec false q (k - (n - 1))) x in
      if back near then (near, k - (n - 1))
      else if back far then (far, k - (n - 1))
      else shortest_from f (n + 1) num den k x
  end.
(** the digits without trailing zeros, and the exponent of the first digit *)
Definition shortest (x : f64) : Z * Z :=
  let '(_, num, den) := f_ratio x in
  let '(q, e) := shortest_from 17 1 num den (dec_exp num den) (fabs x) in
  (strip_zeros 400 q, e + zlen (utoa q) - 1).

(** strconv.FormatFloat(x, 'f', -1, 64) *)
Definition format_f_shortest (x : f64) : gostr :=
  if f_is_finite x then
    let '(s, num, den) := f_ratio x in
    let t := if num =? 0 then [48] else let '(q, k) := shortest x in fixed_text q k in
    if s then 45 :: t else t
  else nan_text x.

(** strconv.FormatFloat(x, 'g', -1, 64), as used by fmt's %v *)
Definition format_g_shortest (x : f64) : gostr :=
  if f_is_finite x then
    let '(s, num, den) := f_ratio x in
    let t := if num =? 0 then [48] else
               let '(q, k) := shortest x in
               g_text 6 q k in
    if s then 45 :: t else t
  else nan_text x.

(** ** float32 printing (values are kept as the equal float64) *)
Definition prec24 : Prec_gt_0 24 := eq_refl.
Definition prec_emax32 : BinarySingleNaN.Prec_lt_emax 24 128 := eq_refl.
(** round m * 2^e to float32, as a float64 *)
Definition f32_norm (m e : Z) : f64 :=
  match BinarySingleNaN.binary_normalize 24 128 prec24 prec_emax32 mode_NE m e false with
  | BinarySingleNaN.B754_zero s => BinarySingleNaN.B754_zero s
  | BinarySingleNaN.B754_infinity s => BinarySingleNaN.B754_infinity s
  | BinarySingleNaN.B754_nan => BinarySingleNaN.B754_nan
  | BinarySingleNaN.B754_finite s m e _ => f_norm (if s then Z.neg m else Z.pos m) e
  end.
Definition f32_of_dec (m e : Z) : f64 :=
  if 0 <=? e then f32_norm (m * 10 ^ e) 0
  else
    let den := 10 ^ (- e) in
    let s := Z.max 0 (Z.log2 den - Z.log2 m + 60) in
    let n' := Z.shiftl m s in
    f32_norm (2 * (n' / den) + (if n' mod den =? 0 then 0 else 1)) (- (s + 1)).
Fixpoint shortest32_from (fuel : nat) (n num den k : Z) (x : f64) : Z * Z :=
  match fuel with
  | O => let '(q, k') := sig_digits 9 num den in (q, k' - 8)
  | S f =>
      let '(a, b) := scale10 num den (n - 1 - k) in
      let lo := a / b in
      let near := round_half_even a b in
      let far := if near =? lo then lo + 1 else lo in
      let back q := feq (f32_of_dec q (k - (n - 1))) x in
      if back near then (near, k - (n - 1))
      else if back far then (far, k - (n - 1))
      else shortest32_from f (n + 1) num den k x
  end.
(** fmt %v of a float32 *)
Definition format_g32_shortest (x : f64) : gostr :=
  if f_is_finite x then
    let '(s, num, den) := f_ratio x in
    let t := if num =? 0 then [48] else
               let '(q, e) := shortest32_from 9 1 num den (dec_exp num den) (fabs x) in
               g_text 6 (strip_zeros 400 q) (e + zlen (utoa q) - 1) in
    if s then 45 :: t else t
  else nan_text x.

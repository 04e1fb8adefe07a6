(** * S_numtext: decimal numerals as text, and the float64 nearest to a real number

    Independent of the model's parsers: what a numeral looks like, which rational it
    denotes, and which float64 is nearest to it. *)
From Verif Require Import GoBase GoFloat.
From Coq Require Import Reals.
From Flocq Require Import Core IEEE754.BinarySingleNaN.

(** decimal digits and the integer they spell, most significant first *)
Definition dig (c : Z) : Prop := 48 <= c <= 57.
Fixpoint spelled (l : gostr) : Z :=
  match l with [] => 0 | c :: r => (c - 48) * 10 ^ zlen r + spelled r end.

(** an optional sign: its text, and whether it is a minus *)
Inductive sign_text : gostr -> bool -> Prop :=
| st_none : sign_text [] false
| st_plus : sign_text [43] false
| st_minus : sign_text [45] true.

(** an integer numeral: sign and at least one digit *)
Inductive int_numeral : gostr -> Z -> Prop :=
| an_int : forall sg neg ds, sign_text sg neg -> Forall dig ds -> ds <> [] ->
    int_numeral (sg ++ ds) (if neg then - spelled ds else spelled ds).

(** an optional fraction (a point and any number of digits): its text and its digits *)
Inductive frac_text : gostr -> gostr -> Prop :=
| ft_none : frac_text [] []
| ft_some : forall ds, Forall dig ds -> frac_text (46 :: ds) ds.

(** an optional exponent (e or E, sign, at least one digit): its text and its value *)
Inductive exp_part : gostr -> Z -> Prop :=
| ep_none : exp_part [] 0
| ep_some : forall c t x, c = 101 \/ c = 69 -> int_numeral t x -> exp_part (c :: t) x.

(** a decimal numeral: sign, digits, fraction, exponent, with at least one digit before the
    exponent.  [numeral s neg m nf x] : the text s spells (-1)^neg * m * 10^(x - nf). *)
Inductive numeral : gostr -> bool -> Z -> Z -> Z -> Prop :=
| a_numeral : forall sg neg ip ft fd et x,
    sign_text sg neg -> Forall dig ip -> frac_text ft fd -> ip ++ fd <> [] -> exp_part et x ->
    numeral (sg ++ ip ++ ft ++ et) neg (spelled (ip ++ fd)) (zlen fd) x.

(** the real number it denotes *)
Definition dec_value (neg : bool) (m nf x : Z) : R :=
  ((if neg then -1 else 1) * (IZR m * (if (nf <=? x)%Z then IZR (10 ^ (x - nf)) else / IZR (10 ^ (nf - x)))))%R.

(** rounding to the nearest 53-bit number with exponent at least -1074, ties to even *)
Definition near64 (x : R) : R := round radix2 (FLT_exp (-1074) 53) ZnearestE x.
(** ... and the nearest is below 2^1024: it is a finite float64 *)
Definition fits64 (x : R) : Prop := (Rabs (near64 x) < bpow radix2 1024)%R.
(** [a] is the float64 nearest to [x], with the given sign (which matters for zero) *)
Definition is_near64 (a : f64) (neg : bool) (x : R) : Prop :=
  BinarySingleNaN.Bsign a = neg /\
  (fits64 x -> BinarySingleNaN.is_finite a = true /\ BinarySingleNaN.B2R a = near64 x) /\
  (~ fits64 x -> a = BinarySingleNaN.B754_infinity neg).

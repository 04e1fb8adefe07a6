(** * S_general: what the text of a number under the General format may be

    Stated on texts, decimal numbers and float64 values alone (S_numtext). *)
From Verif Require Import GoBase GoFloat S_numtext.
From Coq Require Import Reals.
From Flocq Require Import Core IEEE754.BinarySingleNaN.

Notation real := (BinarySingleNaN.B2R (prec:=53) (emax:=1024)).

(** [t] denotes a decimal number whose nearest float64 is [v], and there is no decimal
    number of fewer significant digits with that nearest float64.  (The digits of t are
    those of q followed by zeros.) *)
Definition shortest_text (v : f64) (t : gostr) : Prop :=
  exists neg m nf x, numeral t neg m nf x /\ Z.abs x < 100000 /\ is_near64 v neg (dec_value neg m nf x) /\
    exists q i, 0 <= i /\ m = q * 10 ^ i /\
      forall q' e' j, 0 < q' < 10 ^ j -> near64 (dec_value false q' 0 e') = Rabs (real v) -> q < 10 ^ j.

(** no exponent part *)
Definition plain (t : gostr) : Prop := Forall (fun c => c <> 101 /\ c <> 69) t.

(** [t] denotes a decimal number of at most six significant digits, and is off by at most
    half a unit of the sixth *)
Definition six_digit_text (v : f64) (t : gostr) : Prop :=
  exists neg m nf x, numeral t neg m nf x /\ Z.abs x < 100000 /\
    (exists q i, 0 <= i /\ 0 <= q < 10 ^ 6 /\ m = q * 10 ^ i) /\
    (real v = 0%R /\ m = 0 \/
     exists k, (dec_value false 1 0 k <= dec_value false m nf x < dec_value false 10 0 k)%R /\
       (Rabs (dec_value neg m nf x - real v) <= dec_value false 1 0 (k - 5) / 2)%R).

(** the text of a value that is no number *)
Definition not_a_number_text (v : f64) : gostr :=
  match v with
  | BinarySingleNaN.B754_infinity true => bs "-Inf"
  | BinarySingleNaN.B754_infinity false => bs "+Inf"
  | _ => bs "NaN"
  end.

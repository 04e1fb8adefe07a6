(** * S_sciamount: numbers with p + 1 decimal digits and an exponent, held as float64 *)
From Verif Require Import GoBase GoFloat S_numtext.
From Coq Require Import Reals.

(** v is the finite float64 nearest to (-1)^neg * n * 10^(k - p), where n has p + 1 digits:
    d.ddd times ten to the k, with p digits behind the point *)
Definition sci_amount (v : f64) (neg : bool) (n p k : Z) : Prop :=
  f_is_finite v = true /\ 10 ^ p <= n < 10 ^ (p + 1) /\ is_near64 v neg (dec_value neg n p k).
(** t is that number in scientific notation: sign, one digit, point, p digits, E, the sign of
    the exponent, and the exponent with two digits or as many as it needs *)
Definition sci_text (neg : bool) (n p k : Z) (t : gostr) : Prop :=
  exists c fp e, t = (if neg then [45] else []) ++ [c; 46] ++ fp ++ [69; if k <? 0 then 45 else 43] ++ e /\
    dig c /\ Forall dig fp /\ zlen fp = p /\ spelled (c :: fp) = n /\
    Forall dig e /\ spelled e = Z.abs k /\ 2 <= zlen e /\ (forall r, e = 48 :: r -> zlen r = 1).

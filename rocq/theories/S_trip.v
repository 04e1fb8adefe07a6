(** * S_trip: what a value of a sheet is read back as, out of the text written for it

    Stated on values, destinations of Scan, decimal numbers and float64 values alone. *)
From Verif Require Import GoBase GoFloat M_value M_simple S_numtext S_general.
From Coq Require Import Reals.

(** the float64 nearest to a decimal number of six digits next to v *)
Definition six_digits_of (v a : f64) : Prop :=
  exists t neg m nf x, six_digit_text v t /\ numeral t neg m nf x /\ is_near64 a neg (dec_value neg m nf x) /\ f_is_finite a = true.

(** [back g d d'] : d' is what a destination d holds after a cell that showed the value g under
    General was read into it.  Integers and truth values come back exactly; a float64 does,
    unless its decimal text has 12 or more characters: then it may come back with six digits. *)
Inductive back : goval -> dest -> dest -> Prop :=
| back_int : forall k z z0, - 2 ^ 63 <= z < 2 ^ 63 -> back (GInt k z) (DInt z0) (DInt z)
| back_bool : forall b b0, back (GBool b) (DBool b0) (DBool b)
| back_float : forall v z0, f_is_finite v = true -> back (GF64 v) (DF64 z0) (DF64 v)
| back_six : forall v a p z0, f_is_finite v = true -> shortest_text v p -> plain p -> 12 <= zlen p ->
    six_digits_of v a -> back (GF64 v) (DF64 z0) (DF64 a).
(** the destinations meant for a value *)
Inductive suits : goval -> dest -> Prop :=
| su_int : forall k z z0, - 2 ^ 63 <= z < 2 ^ 63 -> suits (GInt k z) (DInt z0)
| su_bool : forall b b0, suits (GBool b) (DBool b0)
| su_float : forall v z0, f_is_finite v = true -> suits (GF64 v) (DF64 z0).

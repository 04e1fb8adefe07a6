(** * S_amount: decimal amounts held as float64 *)
From Verif Require Import GoBase GoFloat S_numtext.
From Coq Require Import Reals.

(** v is the finite float64 nearest to (-1)^neg * n / 10^p: an amount with p decimals and
    at most 15 digits *)
Definition amount (v : f64) (neg : bool) (n p : Z) : Prop :=
  f_is_finite v = true /\ 0 <= n < 10 ^ 15 /\ is_near64 v neg (dec_value neg n p 0).
(** the characters that texts of numbers may have: digits, letters, signs, point, underscore *)
Definition number_char (c : Z) : Prop := 48 <= c <= 57 \/ 65 <= c <= 90 \/ 97 <= c <= 122 \/ In c [43; 45; 46; 95].
(** the digits of such an amount, before and behind the point, are ip and fp *)
Definition amount_digits (n p : Z) (ip fp : gostr) : Prop :=
  Forall dig ip /\ Forall dig fp /\ ip <> [] /\ zlen fp = p /\ spelled (ip ++ fp) = n /\ (forall r, ip = 48 :: r -> r = []).

(** * S_dates: the Gregorian calendar, by counting days one at a time. *)
From Verif Require Import GoBase.

Definition leap (y : Z) : bool := (y mod 4 =? 0) && (negb (y mod 100 =? 0) || (y mod 400 =? 0)).
Definition month_len (y m : Z) : Z :=
  if m =? 2 then (if leap y then 29 else 28)
  else if (m =? 4) || (m =? 6) || (m =? 9) || (m =? 11) then 30 else 31.
Definition next_day (d : Z * Z * Z) : Z * Z * Z :=
  let '(y, m, d) := d in
  if d <? month_len y m then (y, m, d + 1)
  else if m <? 12 then (y, m + 1, 1) else (y + 1, 1, 1).
(** d' is n days after d (before, if n is negative) *)
Definition days_later (n : Z) (d d' : Z * Z * Z) : Prop :=
  (0 <= n /\ Nat.iter (Z.to_nat n) next_day d = d') \/
  (n <= 0 /\ Nat.iter (Z.to_nat (- n)) next_day d' = d).
Definition epoch (m1904 : bool) : Z * Z * Z := if m1904 then (1904, 1, 1) else (1899, 12, 30).

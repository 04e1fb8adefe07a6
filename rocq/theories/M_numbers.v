(** * M_numbers: model of commonxl/numbers.go. *)
From Verif Require Import GoBase GoFloat.

Definition f_one : f64 := f_of_Z 1.
Definition f_1em9 : f64 := f_of_dec false 1 (-9).
Definition f_1e9 : f64 := f_of_Z 1000000000.
Definition f_1em10 : f64 := f_of_dec false 1 (-10).

(** the loop of lines 58-72; [fuel] bounds the iterations *)
Fixpoint frac_loop (fuel : nat) (val maxn maxd : f64) (sign : Z)
         (z diff denom numer lastDenom lastNumer : f64) : res (Z * Z) :=
  match fuel with
  | O => NoFuel
  | S k =>
      if fgt diff f_1em10 && negb (feq z (f_floor z)) then                     (* 58 *)
        let z := fdiv f_one (fsub z (f_floor z)) in                            (* 59 *)
        let tmp := denom in
        let denom := fadd (fmul denom (f_floor z)) lastDenom in                (* 61 *)
        let lastDenom := tmp in
        let lastNumer := numer in
        let numer := f_round (fmul val denom) in                               (* 64 *)
        if fge numer maxn || fge denom maxd
        then Ok (sign * f_to_int64 lastNumer, f_to_int64 lastDenom)            (* 65-67 *)
        else
          let diff := fsub val (fdiv numer denom) in                           (* 68 *)
          let diff := if flt diff f_zero then fneg diff else diff in           (* 69-71 *)
          frac_loop k val maxn maxd sign z diff denom numer lastDenom lastNumer
      else Ok (sign * f_to_int64 numer, f_to_int64 denom)                      (* 73 *)
  end.

(** DecimalToFraction, numbers.go:26-74.  math.Pow(10, n) is the float64 nearest to 10^n. *)
Definition decimal_to_fraction (fuel : nat) (val : f64) (nn nd : Z) : res (Z * Z) :=
  let '(sign, z) := if flt val f_zero then (-1, fneg val) else (1, val) in
  let nn := if nn =? 0 then 2 else nn in
  let nd := if nd =? 0 then 2 else nd in
  let maxn := f_of_Z (10 ^ nn) in
  let maxd := f_of_Z (10 ^ nd) in
  let '(_, fracPart) := f_modf val in
  if feq fracPart f_zero then Ok (f_to_int64 z * sign, 1)                     (* 44-46 *)
  else if flt fracPart f_1em9 then Ok (sign, 1000000000)                       (* 47-49 *)
  else if fgt fracPart f_1e9 then Ok (1000000000 * sign, 1)                    (* 50-52 *)
  else frac_loop fuel val maxn maxd sign z f_one f_one f_zero f_zero f_zero.   (* 54-73 *)

(** DecimalToWholeFraction, numbers.go:10-21 *)
Definition decimal_to_whole_fraction (fuel : nat) (val : f64) (nn nd : Z) : res (Z * Z * Z) :=
  let '(wholeF, part) := f_modf val in
  if feq part f_zero then Ok (f_to_int64 wholeF, 0, 1)
  else
    let part := if flt part f_zero then fneg part else part in
    let whole := f_to_int64 wholeF in
    '(num, den) <- decimal_to_fraction fuel part nn nd ;;
    Ok (whole, num, den).

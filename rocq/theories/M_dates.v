(** * M_dates: model of commonxl/dates.go:10-45 (ConvertToDate). *)
From Verif Require Import GoBase GoFloat GoTime.

(** lines 23-32: the civil date of a Julian day number.  Go's / truncates toward zero. *)
Definition jd_to_civil (JD : Z) : Z * Z * Z :=
  let L := JD + 68569 in
  let N := Z.quot (4 * L) 146097 in
  let L := L - Z.quot (146097 * N + 3) 4 in
  let I := Z.quot (4000 * (L + 1)) 1461001 in
  let L := L - Z.quot (1461 * I) 4 + 31 in
  let J := Z.quot (80 * L) 2447 in
  let day := L - Z.quot (2447 * J) 80 in
  let L := Z.quot J 11 in
  let month := J + 2 - 12 * L in
  let year := 100 * (N - 49) + I + L in
  (year, month, day).

Definition f_half : f64 := f_norm 1 (-1).
Definition f_jd1900 : f64 := f_norm 4830037 (-1).   (* 2415018.5 *)
Definition f_jd1904 : f64 := f_norm 4832961 (-1).   (* 2416480.5 *)
Definition f_day_ns : f64 := f_of_Z 86400000000000. (* float64(time.Hour*24) *)

(** ConvertToDate, dates.go:10-45.  [m1904] is the fMode1904 flag.  Integers are unbounded
    here; Go's wrap at 2^63 only for serials beyond any calendar. *)
Definition convert_to_date (m1904 : bool) (val : f64) : Z :=
  let v := f_to_int64 val in                                        (* 12 *)
  if v <? 61 then                                                   (* 13 *)
    let jdate := fadd (fadd val f_half) (if m1904 then f_jd1904 else f_jd1900) in  (* 14-19 *)
    let JD := f_to_int64 jdate in                                   (* 20 *)
    let frac := fsub jdate (f_of_Z JD) in                           (* 21 *)
    let '(year, month, day) := jd_to_civil JD in                    (* 23-32 *)
    let t := f_to_int64 (fmul f_day_ns frac) in                     (* 34 *)
    go_date year month day + t                                      (* 35 *)
  else
    let frac := fsub val (f_of_Z v) in                              (* 37 *)
    let date := if m1904 then go_date 1904 1 1 else go_date 1899 12 30 in  (* 38-41 *)
    let t := f_to_int64 (fmul f_day_ns frac) in                     (* 43 *)
    add_days date v + t.                                            (* 44 *)

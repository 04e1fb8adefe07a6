(** * GoTime: the part of package time used by grate, for UTC times.

    A time.Time is the number of nanoseconds since 1970-01-01T00:00:00Z, as an unbounded
    integer (Go's representation overflows far outside the dates of any spreadsheet). *)
From Verif Require Import GoBase.

Definition ns_per_sec : Z := 1000000000.
Definition ns_per_day : Z := 86400000000000.

(** days from 1970-01-01 to the given proleptic Gregorian date (month 1..12, any day) *)
Definition days_from_civil (y m d : Z) : Z :=
  let y' := if m <=? 2 then y - 1 else y in
  let mp := if m <=? 2 then m + 9 else m - 3 in        (* months since March *)
  365 * y' + y' / 4 - y' / 100 + y' / 400 + (153 * mp + 2) / 5 + d - 1 - 719468.

(** the date of a day number: (year, month, day) *)
Definition civil_from_days (n : Z) : Z * Z * Z :=
  let z := n + 719468 in
  let era := z / 146097 in
  let doe := z mod 146097 in
  let yoe := (doe - doe / 1460 + doe / 36524 - doe / 146096) / 365 in
  let doy := doe - (365 * yoe + yoe / 4 - yoe / 100) in
  let mp := (5 * doy + 2) / 153 in
  let d := doy - (153 * mp + 2) / 5 + 1 in
  let m := if mp <? 10 then mp + 3 else mp - 9 in
  let y := yoe + era * 400 in
  ((if m <=? 2 then y + 1 else y), m, d).

(** time.Date(y, m, d, 0, 0, 0, 0, time.UTC): months outside 1..12 are normalised, days
    outside the month simply count on *)
Definition go_date (y m d : Z) : Z :=
  let y' := y + (m - 1) / 12 in
  let m' := (m - 1) mod 12 + 1 in
  days_from_civil y' m' d * ns_per_day.

(** t.AddDate(0, 0, n) for a UTC time *)
Definition add_days (t n : Z) : Z := t + n * ns_per_day.

(** components of a time *)
Definition t_day (t : Z) : Z := t / ns_per_day.
Definition t_ns (t : Z) : Z := t mod ns_per_day.
Definition t_year (t : Z) : Z := fst (fst (civil_from_days (t_day t))).
Definition t_month (t : Z) : Z := snd (fst (civil_from_days (t_day t))).
Definition t_mday (t : Z) : Z := snd (civil_from_days (t_day t)).
Definition t_yday (t : Z) : Z := t_day t - days_from_civil (t_year t) 1 1 + 1.
Definition t_wday (t : Z) : Z := (t_day t + 4) mod 7.        (* 0 = Sunday *)
Definition t_hour (t : Z) : Z := t_ns t / 3600000000000.
Definition t_min (t : Z) : Z := (t_ns t / 60000000000) mod 60.
Definition t_sec (t : Z) : Z := (t_ns t / ns_per_sec) mod 60.
Definition t_nanos (t : Z) : Z := t_ns t mod ns_per_sec.

Definition month_names : list gostr := map bs
  ["January"; "February"; "March"; "April"; "May"; "June"; "July"; "August";
   "September"; "October"; "November"; "December"]%string.
Definition day_names : list gostr := map bs
  ["Sunday"; "Monday"; "Tuesday"; "Wednesday"; "Thursday"; "Friday"; "Saturday"]%string.

(** ** layouts (time.nextStdChunk) *)
Inductive chunk : Type :=
| CLit (c : Z)
| CLongMonth | CMonth | CNumMonth | CZeroMonth
| CLongWeekDay | CWeekDay
| CDay | CUnderDay | CZeroDay | CUnderYearDay | CZeroYearDay
| CHour | CHour12 | CZeroHour12 | CMinute | CZeroMinute | CSecond | CZeroSecond
| CLongYear | CYear | CPM | Cpm | CTZ
| CZoneZ | CZone (colons : Z) (parts : Z)
| CFrac (nine : bool) (n : Z) (sep : Z).

Definition starts_lower (s : gostr) : bool :=
  match s with c :: _ => (97 <=? c) && (c <=? 122) | [] => false end.

Fixpoint count_run (ch : Z) (s : gostr) : nat :=
  match s with
  | c :: r => if c =? ch then S (count_run ch r) else O
  | [] => O
  end.

(** the chunk at the start of a non-empty layout, and its length; None: a literal byte *)
Definition std_chunk (s : gostr) : option (chunk * nat) :=
  match s with
  | [] => None
  | c :: r =>
      if c =? 74 then                                              (* J *)
        if prefixb (bs "January") s then Some (CLongMonth, 7%nat)
        else if prefixb (bs "Jan") s && negb (starts_lower (skipn 3 s)) then Some (CMonth, 3%nat)
        else None
      else if c =? 77 then                                         (* M *)
        if prefixb (bs "Monday") s then Some (CLongWeekDay, 6%nat)
        else if prefixb (bs "Mon") s && negb (starts_lower (skipn 3 s)) then Some (CWeekDay, 3%nat)
        else if prefixb (bs "MST") s then Some (CTZ, 3%nat)
        else None
      else if c =? 48 then                                         (* 0 *)
        if prefixb (bs "01") s then Some (CZeroMonth, 2%nat)
        else if prefixb (bs "02") s then Some (CZeroDay, 2%nat)
        else if prefixb (bs "03") s then Some (CZeroHour12, 2%nat)
        else if prefixb (bs "04") s then Some (CZeroMinute, 2%nat)
        else if prefixb (bs "05") s then Some (CZeroSecond, 2%nat)
        else if prefixb (bs "06") s then Some (CYear, 2%nat)
        else if prefixb (bs "002") s then Some (CZeroYearDay, 3%nat)
        else None
      else if c =? 49 then                                         (* 1 *)
        if prefixb (bs "15") s then Some (CHour, 2%nat) else Some (CNumMonth, 1%nat)
      else if c =? 50 then                                         (* 2 *)
        if prefixb (bs "2006") s then Some (CLongYear, 4%nat) else Some (CDay, 1%nat)
      else if c =? 95 then                                         (* _ *)
        if prefixb (bs "_2") s then
          if prefixb (bs "_2006") s then None
          else Some (CUnderDay, 2%nat)
        else if prefixb (bs "__2") s then Some (CUnderYearDay, 3%nat)
        else None
      else if c =? 51 then Some (CHour12, 1%nat)
      else if c =? 52 then Some (CMinute, 1%nat)
      else if c =? 53 then Some (CSecond, 1%nat)
      else if c =? 80 then if prefixb (bs "PM") s then Some (CPM, 2%nat) else None
      else if c =? 112 then if prefixb (bs "pm") s then Some (Cpm, 2%nat) else None
      else if c =? 45 then
        if prefixb (bs "-070000") s then Some (CZone 0 3, 7%nat)
        else if prefixb (bs "-07:00:00") s then Some (CZone 1 3, 9%nat)
        else if prefixb (bs "-0700") s then Some (CZone 0 2, 5%nat)
        else if prefixb (bs "-07:00") s then Some (CZone 1 2, 6%nat)
        else if prefixb (bs "-07") s then Some (CZone 0 1, 3%nat)
        else None
      else if c =? 90 then
        if prefixb (bs "Z070000") s then Some (CZoneZ, 7%nat)
        else if prefixb (bs "Z07:00:00") s then Some (CZoneZ, 9%nat)
        else if prefixb (bs "Z0700") s then Some (CZoneZ, 5%nat)
        else if prefixb (bs "Z07:00") s then Some (CZoneZ, 6%nat)
        else if prefixb (bs "Z07") s then Some (CZoneZ, 3%nat)
        else None
      else if (c =? 46) || (c =? 44) then
        match r with
        | ch :: _ =>
            if (ch =? 48) || (ch =? 57) then
              let n := count_run ch r in
              match skipn n r with
              | d :: _ => if (48 <=? d) && (d <=? 57) then None
                          else Some (CFrac (ch =? 57) (Z.of_nat n) c, S n)
              | [] => Some (CFrac (ch =? 57) (Z.of_nat n) c, S n)
              end
            else None
        | [] => None
        end
      else None
  end.

(** a layout as a list of chunks.  (For the literal underscore of "_2006" the next round
    finds the year.) *)
Fixpoint layout_chunks (fuel : nat) (s : gostr) : list chunk :=
  match fuel, s with
  | _, [] => []
  | O, _ => []
  | S k, c :: r =>
      match std_chunk s with
      | Some (ch, n) => ch :: layout_chunks k (skipn n s)
      | None => CLit c :: layout_chunks k r
      end
  end.

(** appendInt: at least [w] digits *)
Definition pad_int (w : Z) (n : Z) : gostr :=
  let a := utoa (Z.abs n) in
  (if n <? 0 then [45] else []) ++ repeat 48 (Z.to_nat (w - zlen a)) ++ a.

Definition nth_name (l : list gostr) (i : Z) : gostr := nth (Z.to_nat i) l [].

Fixpoint trim_zeros (r : gostr) : gostr :=    (* on reversed digits *)
  match r with
  | 48 :: r' => trim_zeros r'
  | _ => r
  end.

Definition render_chunk (t : Z) (c : chunk) : gostr :=
  let h12 := let h := t_hour t mod 12 in if h =? 0 then 12 else h in
  match c with
  | CLit b => [b]
  | CLongMonth => nth_name month_names (t_month t - 1)
  | CMonth => firstn 3 (nth_name month_names (t_month t - 1))
  | CNumMonth => pad_int 0 (t_month t)
  | CZeroMonth => pad_int 2 (t_month t)
  | CLongWeekDay => nth_name day_names (t_wday t)
  | CWeekDay => firstn 3 (nth_name day_names (t_wday t))
  | CDay => pad_int 0 (t_mday t)
  | CUnderDay => (if t_mday t <? 10 then [32] else []) ++ pad_int 0 (t_mday t)
  | CZeroDay => pad_int 2 (t_mday t)
  | CUnderYearDay => (if t_yday t <? 100 then (if t_yday t <? 10 then [32; 32] else [32]) else [])
                     ++ pad_int 0 (t_yday t)
  | CZeroYearDay => pad_int 3 (t_yday t)
  | CHour => pad_int 2 (t_hour t)
  | CHour12 => pad_int 0 h12
  | CZeroHour12 => pad_int 2 h12
  | CMinute => pad_int 0 (t_min t)
  | CZeroMinute => pad_int 2 (t_min t)
  | CSecond => pad_int 0 (t_sec t)
  | CZeroSecond => pad_int 2 (t_sec t)
  | CLongYear => pad_int 4 (t_year t)
  | CYear => pad_int 2 (if t_year t <? 0 then 0 else t_year t mod 100)
  | CPM => if 12 <=? t_hour t then bs "PM" else bs "AM"
  | Cpm => if 12 <=? t_hour t then bs "pm" else bs "am"
  | CTZ => bs "UTC"
  | CZoneZ => bs "Z"
  | CZone colons parts =>
      bs "+00" ++ concat (repeat ((if 0 <? colons then [58] else []) ++ bs "00") (Z.to_nat (parts - 1)))
  | CFrac nine n sep =>
      let d := firstn (Z.to_nat n) (pad_int 9 (t_nanos t)) in
      let d := if nine then rev (trim_zeros (rev d)) else d in
      match d with [] => [] | _ => sep :: d end
  end.

(** t.Format(layout) *)
Definition time_format (layout : gostr) (t : Z) : gostr :=
  flat_map (render_chunk t) (layout_chunks (List.length layout) layout).

(** t.String() of a UTC time: "2006-01-02 15:04:05.999999999 -0700 MST" *)
Definition time_string (t : Z) : gostr := time_format (bs "2006-01-02 15:04:05.999999999 -0700 MST") t.

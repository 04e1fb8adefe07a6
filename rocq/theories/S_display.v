(** * S_display: what a sheet is meant to show, independently of the code. *)
From Verif Require Import GoBase GoFloat GoTime M_value M_formats M_cell M_sheet S_cell S_sheet S_formats S_dates.
From Coq Require Import Reals.
Open Scope Z_scope.

(** ** The three text views of a cell *)

(** the names of the cell types *)
Definition type_name (t : ctype) : gostr :=
  match t with
  | BlankCell => bs "blank" | IntegerCell => bs "integer" | FloatCell => bs "float"
  | BooleanCell => bs "boolean" | DateCell => bs "date" | HyperlinkStringCell => bs "hyperlink"
  | StaticCell => bs "static" | StringCell => bs "string"
  end.

(** v', of type t', is what value v becomes when it is stored with format f *)
Definition stored (x : formatter) (v : goval) (f : Z) (v' : goval) (t' : ctype) : Prop :=
  exists v0 t0, holds v v0 t0 /\
    ((f <> 0 /\ exists ct, fx_cell_type x f = Some ct /\ t0 <> ct /\ coerced (fx_1904 x) ct v0 v' t') \/
     (v' = v0 /\ t' = t0 /\ (f = 0 \/ fx_cell_type x f = None \/ fx_cell_type x f = Some t0))).

(** text, type and format code shown for the value v put with format f *)
Definition cell_views (x : formatter) (v : goval) (f : Z) (text type code : gostr) : Prop :=
  (merge_mark v /\ v = GStr text /\ type = bs "static" /\ code = bs "General") \/
  (~ merge_mark v /\ exists v' t', stored x v f v' t' /\ type = type_name t' /\
     (t' = BlankCell -> text = []) /\
     (t' <> BlankCell -> fx_apply x f v' = Ok (text, true)) /\
     ((exists c, In (f, c) builtin_formats /\ code = c) \/
      ((forall c, ~ In (f, c) builtin_formats) /\ numeral f code))).

(** the entry of a grid at row r, column c *)
Definition at2 {A} (g : list (list A)) (r c : nat) : option A :=
  match nth_error g r with Some row => nth_error row c | None => None end.

(** ** Dates and times *)

(** a moment: calendar date and nanoseconds since midnight *)
Record moment := mkMoment { mo_year : Z; mo_month : Z; mo_day : Z; mo_ns : Z }.
Definition mo_hour (p : moment) : Z := mo_ns p / 3600000000000.
Definition mo_min (p : moment) : Z := mo_ns p / 60000000000 - 60 * mo_hour p.
Definition mo_sec (p : moment) : Z := mo_ns p / 1000000000 - 60 * (mo_ns p / 60000000000).

(** the parts of a date format code *)
Inductive dtok :=
| DYear4 | DYear2                (* yyyy, yy *)
| DMonth | DMonth2 | DMonth3     (* m, mm, mmm *)
| DDay | DDay2                   (* d, dd *)
| DHour | DHour2                 (* h, hh *)
| DHour12                        (* h with AM/PM *)
| DMin2 | DSec2                  (* mm, ss *)
| DMonth4 | DWeek3               (* mmmm, ddd *)
| DHour12z                       (* hh with AM/PM *)
| DMin | DSec                    (* m, s *)
| DAmPm
| DTxt (s : gostr).

Definition two_digits (n : Z) : gostr := [48 + n / 10; 48 + n mod 10].
Definition month_abbr : list gostr := map bs
  ["Jan"; "Feb"; "Mar"; "Apr"; "May"; "Jun"; "Jul"; "Aug"; "Sep"; "Oct"; "Nov"; "Dec"]%string.

Definition month_full : list gostr := map bs
  ["January"; "February"; "March"; "April"; "May"; "June"; "July"; "August"; "September"; "October"; "November"; "December"]%string.
Definition week_abbr : list gostr := map bs ["Mon"; "Tue"; "Wed"; "Thu"; "Fri"; "Sat"; "Sun"]%string.
(** the day of the week, 0 for Monday: 1900-01-01 was a Monday *)
Definition week_day (d : Z * Z * Z) (k : nat) : Prop :=
  exists n, Nat.iter n next_day (1900, 1, 1) = d /\ k = Nat.modulo n 7.
Definition mo_hour12 (p : moment) : Z := if mo_hour p mod 12 =? 0 then 12 else mo_hour p mod 12.

Definition tok_shows (p : moment) (t : dtok) (s : gostr) : Prop :=
  match t with
  | DYear4 => nat_numeral (mo_year p) s
  | DYear2 => s = two_digits (mo_year p mod 100)
  | DMonth => nat_numeral (mo_month p) s
  | DMonth2 => s = two_digits (mo_month p)
  | DMonth3 => nth_error month_abbr (Z.to_nat (mo_month p - 1)) = Some s
  | DDay => nat_numeral (mo_day p) s
  | DDay2 => s = two_digits (mo_day p)
  | DHour => nat_numeral (mo_hour p) s
  | DHour2 => s = two_digits (mo_hour p)
  | DHour12 => nat_numeral (mo_hour12 p) s
  | DMin2 => s = two_digits (mo_min p)
  | DSec2 => s = two_digits (mo_sec p)
  | DMonth4 => nth_error month_full (Z.to_nat (mo_month p - 1)) = Some s
  | DWeek3 => exists k, week_day (mo_year p, mo_month p, mo_day p) k /\ nth_error week_abbr k = Some s
  | DHour12z => s = two_digits (mo_hour12 p)
  | DMin => nat_numeral (mo_min p) s
  | DSec => nat_numeral (mo_sec p) s
  | DAmPm => s = if mo_hour p <? 12 then bs "AM" else bs "PM"
  | DTxt u => s = u
  end.
(** the text of a whole code *)
Definition code_shows (p : moment) (code : list dtok) (s : gostr) : Prop :=
  exists l, Forall2 (tok_shows p) code l /\ s = concat l.

(** p is the moment of the date serial x: the day is the integral part, counted from the epoch;
    the time of day is the fraction, to 2 nanoseconds *)
Definition moment_of (m1904 : bool) (x : R) (p : moment) : Prop :=
  exists n, (IZR n <= x < IZR n + 1)%R /\
    days_later n (epoch m1904) (mo_year p, mo_month p, mo_day p) /\
    0 <= mo_ns p < 86400000000000 /\
    (Rabs (IZR (mo_ns p) - 86400000000000 * (x - IZR n)) <= 2)%R.

Definition D (s : string) : dtok := DTxt (bs s).
(** the built-in date format codes the library shows as they are meant *)
Definition date_codes : list (Z * list dtok) :=
  [ (14, [DMonth2; D "-"; DDay2; D "-"; DYear2]);                                  (* mm-dd-yy *)
    (15, [DDay; D "-"; DMonth3; D "-"; DYear2]); (72, [DDay; D "-"; DMonth3; D "-"; DYear2]);
    (16, [DDay; D "-"; DMonth3]); (73, [DDay; D "-"; DMonth3]);
    (17, [DMonth3; D "-"; DYear2]); (74, [DMonth3; D "-"; DYear2]);
    (30, [DMonth; D "-"; DDay; D "-"; DYear2]);                                    (* m-d-yy *)
    (71, [DDay; D "/"; DMonth; D "/"; DYear4]);                                    (* d/m/yyyy *)
    (18, [DHour12; D ":"; DMin2; D " "; DAmPm]);                                   (* h:mm AM/PM *)
    (19, [DHour12; D ":"; DMin2; D ":"; DSec2; D " "; DAmPm]);
    (45, [DMin2; D ":"; DSec2]); (78, [DMin2; D ":"; DSec2]) ]%string.
(** those whose hours are meant to be shown without a leading zero (h), but get one *)
Definition hour_codes (hour : dtok) : list (Z * list dtok) :=
  [ (20, [hour; D ":"; DMin2]); (75, [hour; D ":"; DMin2]);
    (21, [hour; D ":"; DMin2; D ":"; DSec2]); (76, [hour; D ":"; DMin2; D ":"; DSec2]);
    (22, [DMonth; D "/"; DDay; D "/"; DYear2; D " "; hour; D ":"; DMin2]);         (* m/d/yy h:mm *)
    (77, [DDay; D "/"; DMonth; D "/"; DYear4; D " "; hour; D ":"; DMin2]) ]%string.
(** Chinese date codes; q is the text put around the words *)
Definition words_codes (q : gostr) : list (Z * list dtok) :=
  let w s := DTxt (q ++ bs s ++ q) in
  [ (27, [DYear4; w "年"; DMonth; w "月"]); (52, [DYear4; w "年"; DMonth; w "月"]); (57, [DYear4; w "年"; DMonth; w "月"]);
    (28, [DMonth; w "月"; DDay; w "日"]); (29, [DMonth; w "月"; DDay; w "日"]); (51, [DMonth; w "月"; DDay; w "日"]);
    (53, [DMonth; w "月"; DDay; w "日"]); (54, [DMonth; w "月"; DDay; w "日"]); (58, [DMonth; w "月"; DDay; w "日"]);
    (31, [DYear4; w "年"; DMonth; w "月"; DDay; w "日"]) ]%string.

(** Chinese time codes: hours of the day *)
Definition hour_words (hour : dtok) (q : gostr) : list (Z * list dtok) :=
  let w s := DTxt (q ++ bs s ++ q) in
  [ (32, [hour; w "时"; DMin2; w "分"]); (33, [hour; w "时"; DMin2; w "分"; DSec2; w "秒"]) ]%string.
(** the same with the half of the day in front, which this is the rest of; the built-in code 56
    lacks its last quote *)
Definition noon_words (q : gostr) : list (Z * list dtok) :=
  let w s := DTxt (q ++ bs s ++ q) in
  let h := [D " "; DHour12; w "时"; DMin2; w "分"]%string in
  [ (34, h); (55, h); (35, (h ++ [DSec2; w "秒"%string])%list); (56, (h ++ [DSec2; DTxt (q ++ bs "秒")%list])%list) ].
Definition half_day (p : moment) : gostr := if mo_hour p <? 12 then bs "上午" else bs "下午".
(** tenths of the second *)
Definition mo_tenth (p : moment) : Z := mo_ns p / 100000000 - 10 * (mo_ns p / 1000000000).
(** the last two digits of the year of the Buddhist era *)
Definition buddhist2 (p : moment) : gostr := two_digits ((mo_year p + 543) mod 100).

(** ** Scientific notation *)

(** t shows x with one digit before the point, p digits after it and the exponent k (sign and at
    least two digits), rounded to the nearest; a number that is rounded up to a power of ten is
    nearest on the finer grid of its own exponent; neg: with a minus sign *)
Definition shows_sci (p : Z) (x : R) (neg : bool) (k : Z) (t : gostr) : Prop :=
  exists c fp e, t = (if neg then [45] else []) ++ [c; 46] ++ fp ++ [69; if k <? 0 then 45 else 43] ++ e /\
    is_dig c /\ Forall is_dig fp /\ zlen fp = p /\
    Forall is_dig e /\ value e = Z.abs k /\ 2 <= zlen e /\ (forall r, e = 48 :: r -> zlen r = 1) /\
    (x = 0%R -> k = 0) /\ (x <> 0%R -> c <> 48) /\
    (Rabs (IZR (value (c :: fp)) - Rabs x * powerRZ 10 (p - k)) <= / 2)%R /\
    (0 < Rabs x * powerRZ 10 (p - k) < IZR (10 ^ p) ->
       Rabs (IZR (value (c :: fp)) - Rabs x * powerRZ 10 (p - k)) <= / 20)%R.

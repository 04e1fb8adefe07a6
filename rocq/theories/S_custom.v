(** * S_custom: custom format codes, independently of the code. *)
From Verif Require Import GoBase GoFloat M_value M_formats S_formats S_dates S_display.

(** ** Date codes as lists of items *)
Inductive fld :=
| Yyyy | Yy | Mmmm | Mmm | Mm | M1 | Ddd | Dd | D1     (* year, month, weekday, day *)
| Hh | H1 | Min2 | Min1 | Ss | S1.                     (* hour, minute, second *)
Inductive item :=
| Fld (f : fld)
| Sep (c : Z)                 (* a separator *)
| Esc (c : Z)                 (* a separator with a backslash before it *)
| Quo (u : gostr)             (* text in double quotes *)
| AmPm.                       (* AM/PM *)

Definition fld_text (f : fld) : gostr :=
  bs match f with
     | Yyyy => "yyyy" | Yy => "yy" | Mmmm => "mmmm" | Mmm => "mmm" | Mm => "mm" | M1 => "m"
     | Ddd => "ddd" | Dd => "dd" | D1 => "d" | Hh => "hh" | H1 => "h" | Min2 => "mm" | Min1 => "m"
     | Ss => "ss" | S1 => "s"
     end.
Definition item_text (i : item) : gostr :=
  match i with
  | Fld f => fld_text f
  | Sep c => [c]
  | Esc c => [92; c]
  | Quo u => [34] ++ u ++ [34]
  | AmPm => bs "AM/PM"
  end.
Definition code_text (l : list item) : gostr := concat (map item_text l).

(** what the items mean; with AM/PM somewhere in the code hours are on a 12-hour clock *)
Definition fld_means (ampm : bool) (f : fld) : dtok :=
  match f with
  | Yyyy => DYear4 | Yy => DYear2 | Mmmm => DMonth4 | Mmm => DMonth3 | Mm => DMonth2 | M1 => DMonth
  | Ddd => DWeek3 | Dd => DDay2 | D1 => DDay
  | Hh => if ampm then DHour12z else DHour2
  | H1 => if ampm then DHour12 else DHour
  | Min2 => DMin2 | Min1 => DMin | Ss => DSec2 | S1 => DSec
  end.
Definition item_means (ampm : bool) (i : item) : dtok :=
  match i with
  | Fld f => fld_means ampm f
  | Sep c | Esc c => DTxt [c]
  | Quo u => DTxt u
  | AmPm => DAmPm
  end.

(** the codes considered *)
Definition separators : gostr := bs "-/: ,.".
(** bytes allowed in quoted text: none of the letters and digits that mean something in a code or
    in a layout, no punctuation with a meaning *)
Definition plain_byte (c : Z) : Prop := ~ In c (bs "ymdhsJMPpZ0123456789-.,""\*_[];@") /\ c <> 10.
Definition item_ok (i : item) : Prop :=
  match i with
  | Sep c | Esc c => In c separators
  | Quo u => u <> [] /\ Forall plain_byte u
  | _ => True
  end.

(** 0 year, 1 month, 2 weekday, 3 day, 4 hour, 5 minute, 6 second *)
Definition fld_class (f : fld) : nat :=
  match f with
  | Yyyy | Yy => 0 | Mmmm | Mmm | Mm | M1 => 1 | Ddd => 2 | Dd | D1 => 3
  | Hh | H1 => 4 | Min2 | Min1 => 5 | Ss | S1 => 6
  end.
Definition of_class (k : nat) (i : item) : bool :=
  match i with Fld f => Nat.eqb (fld_class f) k | _ => false end.
(** every part of the date is asked for at most once *)
Definition once (l : list item) : Prop := forall k, (List.length (filter (of_class k) l) <= 1)%nat.
Definition lacks (k : nat) (l : list item) : Prop := Forall (fun i => of_class k i = false) l.

(** what may follow what: parts with the same letter are separated, quoted texts too; also the
    name of a month is not followed by the year at once nor by a quoted lower case letter, and
    m not by s *)
Definition letter (f : fld) : Z := hd 0 (fld_text f).
Definition follows (a b : item) : Prop :=
  match a, b with
  | Fld f, Fld g => letter f <> letter g /\ ~ (f = Mmmm /\ letter g = 121) /\ ~ (f = M1 /\ g = S1)
  | Quo _, Quo _ => False
  | Fld f, Quo u => f = Mmm \/ f = Ddd -> ~ (97 <= hd 0 u <= 122)
  | _, _ => True
  end.
Fixpoint adjacent_ok (l : list item) : Prop :=
  match l with
  | a :: (b :: _) as r => follows a b /\ adjacent_ok r
  | _ => True
  end.

(** minutes stand between hours and seconds, months do not; or there are no minutes, and not both
    hours and seconds *)
Definition minutes_placed (l : list item) : Prop :=
  (exists pre h mid1 m mid2 s post, l = pre ++ Fld h :: mid1 ++ Fld m :: mid2 ++ Fld s :: post /\
     fld_class h = 4%nat /\ fld_class m = 5%nat /\ fld_class s = 6%nat /\ lacks 1 mid1 /\ lacks 1 mid2) \/
  (lacks 5 l /\ (lacks 4 l \/ lacks 6 l)).

Definition date_code (l : list item) : Prop :=
  Forall item_ok l /\ once l /\ adjacent_ok l /\ minutes_placed l /\ exists f, In (Fld f) l.

(** the parts a code shows in fact: hours without AM/PM always have two digits, AM/PM leaves its
    first three characters *)
Definition item_shows (b : bool) (i : item) : list dtok :=
  match i with
  | Fld H1 => [if b then DHour12 else DHour2]
  | AmPm => [DTxt (bs "AM/"); DAmPm]
  | _ => [item_means b i]
  end.

(** an id for a custom format, not yet in use *)
Definition free_id (x : formatter) (id : Z) : Prop := 164 <= id < 65536 /\ zfind id (fx_codes x) = None.

(** codes the library misreads: text, what it means, what is shown *)
Definition T (s : string) : dtok := DTxt (bs s).
Definition minute_codes : list (string * list dtok * list dtok) :=
  [ ("hh:mm", [DHour2; T ":"; DMin2], [DHour2; T ":"; DMonth2]);
    ("mm:ss", [DMin2; T ":"; DSec2], [DMonth2; T ":"; DSec2]);
    ("m/d/yy hh:mm", [DMonth; T "/"; DDay; T "/"; DYear2; T " "; DHour2; T ":"; DMin2],
                     [DMonth; T "/"; DDay; T "/"; DYear2; T " "; DHour2; T ":"; DMonth2]);
    ("yyyy-mm-dd hh:mm", [DYear4; T "-"; DMonth2; T "-"; DDay2; T " "; DHour2; T ":"; DMin2],
                         [DYear4; T "-"; DMonth2; T "-"; DDay2; T " "; DHour2; T ":"; DMonth; T "m"]);
    ("dd/mm/yyyy hh:mm", [DDay2; T "/"; DMonth2; T "/"; DYear4; T " "; DHour2; T ":"; DMin2],
                         [DDay2; T "/"; DMonth2; T "/"; DYear4; T " "; DHour2; T ":"; DMonth; T "m"]);
    ("mm/dd/yyyy hh:mm", [DMonth2; T "/"; DDay2; T "/"; DYear4; T " "; DHour2; T ":"; DMin2],
                         [DMonth2; T "/"; DDay2; T "/"; DYear4; T " "; DHour2; T ":"; DMonth; T "m"]) ]%string.
(** codes with the full name of the day *)
Definition weekday_codes : list (string * list dtok) :=
  [ ("dddd", [DWeek3; DDay; T "ay"]);
    ("dddd, mmmm d, yyyy", [DWeek3; DDay; T "ay, "; DMonth4; T " d, "; DYear4]);
    ("dddd, mmmm dd, yyyy", [DWeek3; DDay; T "ay, "; DMonth4; T " "; DDay2; T ", "; DYear4]) ]%string.
Definition week_full : list gostr := map bs
  ["Monday"; "Tuesday"; "Wednesday"; "Thursday"; "Friday"; "Saturday"; "Sunday"]%string.

(** ** Number codes: text, digits, text *)
Inductive lit :=
| LTxt (w : gostr)            (* text as it is *)
| LEsc (c : Z)                (* a character with a backslash before it *)
| LQuo (u : gostr)            (* text in double quotes *)
| LPct.                       (* the percent sign *)
Definition lit_text (l : lit) : gostr :=
  match l with LTxt w => w | LEsc c => [92; c] | LQuo u => [34] ++ u ++ [34] | LPct => bs "%" end.
Definition lit_shows (l : lit) : gostr :=
  match l with LTxt w => w | LEsc c => [c] | LQuo u => u | LPct => bs "%" end.
(** the characters with a meaning of their own, left out; letters of dates are allowed in quotes *)
Definition txt_byte (c : Z) : Prop := ~ In c (bs "ymdhsEe.,0#?%;[""\*_") /\ c <> 10.
Definition quo_byte (c : Z) : Prop := ~ In c (bs "Ee.,0#?%;[""\*_") /\ c <> 10.
Definition lit_ok (l : lit) : Prop :=
  match l with
  | LTxt w => w <> [] /\ Forall txt_byte w
  | LEsc c => txt_byte c /\ 0 <= c < 128
  | LQuo u => u <> [] /\ Forall quo_byte u
  | LPct => True
  end.
(** two quoted texts do not touch *)
Fixpoint lits_apart (l : list lit) : Prop :=
  match l with
  | LQuo _ :: (LQuo _ :: _) => False
  | _ :: r => lits_apart r
  | [] => True
  end.
Definition lits_ok (l : list lit) : Prop := Forall lit_ok l /\ lits_apart l.

Inductive digits :=
| Whole                       (* 0 *)
| Fixed (p : nat)             (* 0.00 with p decimals *)
| Sci (p : nat) (low minus : bool) (z : nat).   (* 0.00E+00 with p decimals; e or E, + or -, z+1 zeros *)
Definition digits_ok (k : digits) : Prop :=
  match k with Whole => True | Fixed p | Sci p _ _ _ => 1 <= Z.of_nat p <= 1000 end.
Definition expo_text (low minus : bool) (z : nat) : gostr :=
  (if low then 101 else 69) :: (if minus then 45 else 43) :: repeat 48 (S z).
(** group: #,##0 in the place of 0 *)
Definition digits_text (group : bool) (k : digits) : gostr :=
  bs (if group then "#,##0" else "0") ++
  match k with
  | Whole => []
  | Fixed p => bs "." ++ repeat 48 p
  | Sci p low minus z => bs "." ++ repeat 48 p ++ expo_text low minus z
  end.
Definition number_code (pre : list lit) (group : bool) (k : digits) (post : list lit) : gostr :=
  concat (map lit_text pre) ++ digits_text group k ++ concat (map lit_text post).
Definition lits_show (l : list lit) : gostr := concat (map lit_shows l).
Definition grouped (group : bool) (d t : gostr) : Prop := if group then in_thousands d t else t = d.

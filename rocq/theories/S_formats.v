(** * S_formats: what number formats are meant to do, independently of the code. *)
From Verif Require Import GoBase GoFloat M_value M_fmt M_formats.
From Coq Require Import Reals.
Open Scope Z_scope.

(** decimal numerals *)
Definition is_dig (c : Z) : Prop := 48 <= c <= 57.
Fixpoint value_from (a : Z) (s : gostr) : Z :=
  match s with [] => a | c :: r => value_from (10 * a + (c - 48)) r end.
Definition value (s : gostr) : Z := value_from 0 s.

(** s is the canonical decimal numeral of the natural number n *)
Definition nat_numeral (n : Z) (s : gostr) : Prop :=
  s <> [] /\ Forall is_dig s /\ value s = n /\ (forall r, s = 48 :: r -> r = []).
(** ... of the integer n *)
Definition numeral (n : Z) (s : gostr) : Prop :=
  (0 <= n /\ nat_numeral n s) \/ (n < 0 /\ exists r, s = 45 :: r /\ nat_numeral (- n) r).

(** t is s cut in groups of three from the right *)
Definition in_thousands (s t : gostr) : Prop :=
  exists g gs, concat (g :: gs) = s /\ t = join [44] (g :: gs) /\
    1 <= zlen g <= 3 /\ Forall (fun x : gostr => zlen x = 3) gs.

(** t shows the real number x with p decimals, rounded to nearest; neg: with a minus sign *)
Definition shows_fixed (p : Z) (x : R) (neg : bool) (t : gostr) : Prop :=
  exists ip fp, t = (if neg then [45] else []) ++ ip ++ [46] ++ fp /\ ip <> [] /\
    Forall is_dig ip /\ Forall is_dig fp /\ zlen fp = p /\
    (forall r, ip = 48 :: r -> r = []) /\
    (Rabs (IZR (value (ip ++ fp)) - Rabs x * IZR (10 ^ p)) <= / 2)%R.

(** -1, 0 or 1: which of the negative, zero and positive sections a number selects (NaN counts
    as positive) *)
Definition sign_class (x : f64) : Z :=
  match x with
  | BinarySingleNaN.B754_zero _ => 0
  | BinarySingleNaN.B754_nan => 1
  | BinarySingleNaN.B754_infinity s => if s then -1 else 1
  | BinarySingleNaN.B754_finite s _ _ _ => if s then -1 else 1
  end.
(** None: not a number *)
Definition value_class (v : goval) : option Z :=
  match v with
  | GF64 x | GF32 x => Some (sign_class x)
  | GInt _ z => Some (Z.sgn z)
  | GBool b => Some (if b then 1 else 0)
  | GStr s => match parse_float s with (x, PNone) => Some (sign_class x) | _ => None end
  | _ => None
  end.
(** the section of pos;neg;zero;text for a value; None: shown as General *)
Definition chosen_section (parts : list gostr) (v : goval) : option gostr :=
  match value_class v with
  | None => nth_error parts 3
  | Some c => Some (nth (if c =? 0 then 2%nat else if c <? 0 then 1%nat else 0%nat) parts (hd [] parts))
  end.
(** a format section without brackets that is not the word General *)
Definition plain_section (p : gostr) : Prop :=
  Forall (fun c => c <> 59 /\ c <> 91) p /\ to_lower p <> bs "general".

(** a sequence of Add calls *)
Definition adds (x : formatter) (l : list (Z * gostr)) : formatter :=
  fold_left (fun x p => fst (fx_add x (fst p) (snd p))) l x.
Definition is_general (code : gostr) : Prop := to_lower code = bs "general".
Definition builtin (id : Z) : Prop := zfind id go_formatters <> None.
(** ids that Apply knows: Get reports them *)
Definition known (x : formatter) (id : Z) : Prop := snd (fx_get x id) = true.

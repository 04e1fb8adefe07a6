(** * S_accept: the texts that are taken for numbers *)
From Verif Require Import GoBase S_numtext.
From Coq Require Import Reals.
From Flocq Require Import Core.
Open Scope Z_scope.

(** t is w, a word of small letters, in any mixture of small and capital letters *)
Definition in_letters (w t : gostr) : Prop := Forall2 (fun d c => c = d \/ c = d - 32) w t.
(** the words for infinities, with an optional sign, and for no number, without a sign *)
Definition number_word (t : gostr) : Prop :=
  (exists sg neg w, sign_text sg neg /\ (in_letters (bs "inf") w \/ in_letters (bs "infinity") w) /\ t = sg ++ w) \/
  in_letters (bs "nan") t.
(** t without its underscores *)
Definition plain (t : gostr) : gostr := filter (fun c => negb (c =? 95)) t.
(** every underscore of t stands between two digits *)
Definition between_digits (t : gostr) : Prop :=
  forall a b, t = a ++ 95 :: b -> exists a' d e b', a = a' ++ [d] /\ b = e :: b' /\ dig d /\ dig e.
(** t is taken for a number: one of the words, or a decimal numeral that may have underscores between
    its digits *)
Definition taken (t : gostr) : Prop :=
  number_word t \/ between_digits t /\ exists neg m nf x, numeral (plain t) neg m nf x.
(** t begins like a hexadecimal numeral: an optional sign, 0x or 0X, and something behind it *)
Definition hexed (t : gostr) : Prop :=
  exists sg neg x c r, sign_text sg neg /\ (x = 120 \/ x = 88) /\ t = sg ++ 48 :: x :: c :: r.

(** ** hexadecimal numerals *)
Definition hdig (c : Z) : Prop := 48 <= c <= 57 \/ 65 <= c <= 70 \/ 97 <= c <= 102.
Definition hval (c : Z) : Z := if c <=? 57 then c - 48 else if c <=? 70 then c - 55 else c - 87.
Fixpoint hspelled (l : gostr) : Z :=
  match l with [] => 0 | c :: r => hval c * 16 ^ zlen r + hspelled r end.
Inductive hfrac : gostr -> gostr -> Prop :=
| hf_none : hfrac [] []
| hf_some : forall ds, Forall hdig ds -> hfrac (46 :: ds) ds.
(** sign, 0x, digits and fraction, and an exponent of two, which must not be missing.
    [hex_numeral s neg m nf x] : the text s spells (-1)^neg * m * 2^(x - 4 * nf). *)
Inductive hex_numeral : gostr -> bool -> Z -> Z -> Z -> Prop :=
| a_hex : forall sg neg c ip ft fd p et x,
    sign_text sg neg -> c = 120 \/ c = 88 -> Forall hdig ip -> hfrac ft fd -> ip ++ fd <> [] -> p = 112 \/ p = 80 -> int_numeral et x ->
    hex_numeral (sg ++ 48 :: c :: ip ++ ft ++ p :: et) neg (hspelled (ip ++ fd)) (zlen fd) x.
(** every underscore stands between two hexadecimal digits, or between the prefix and one *)
Definition hex_underscores (t : gostr) : Prop :=
  forall a b, t = a ++ 95 :: b ->
    ((exists a' d, a = a' ++ [d] /\ hdig d) \/ (exists sg neg x, sign_text sg neg /\ (x = 120 \/ x = 88) /\ a = sg ++ [48; x])) /\
    exists e b', b = e :: b' /\ hdig e.
Definition hex_taken (t : gostr) : Prop :=
  hexed t /\ hex_underscores t /\ exists neg m nf x, hex_numeral (plain t) neg m nf x.
Definition hex_value (neg : bool) (m nf x : Z) : R :=
  ((if neg then -1 else 1) * (IZR m * bpow radix2 (x - 4 * nf)))%R.

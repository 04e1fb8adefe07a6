(** * GoUnicode: unicode/utf16.Decode, string([]rune), and range over a string. *)
From Verif Require Import GoBase.

Definition runeError : Z := 65533. (* U+FFFD *)

(** utf8.EncodeRune as used by string([]rune): surrogates and out-of-range runes
    become U+FFFD *)
Definition valid_rune (r : Z) : bool :=
  ((0 <=? r) && (r <? 55296)) || ((57343 <? r) && (r <=? 1114111)).

Definition utf8_enc (r : Z) : gostr :=
  let r := if valid_rune r then r else runeError in
  if r <? 128 then [r]
  else if r <? 2048 then [192 + r / 64; 128 + r mod 64]
  else if r <? 65536 then [224 + r / 4096; 128 + (r / 64) mod 64; 128 + r mod 64]
  else [240 + r / 262144; 128 + (r / 4096) mod 64; 128 + (r / 64) mod 64; 128 + r mod 64].

Definition string_of_runes (l : list Z) : gostr := flat_map utf8_enc l.

(** utf16.Decode *)
Fixpoint utf16_decode (l : list Z) : list Z :=
  match l with
  | [] => []
  | u :: r =>
      if (55296 <=? u) && (u <? 56320) then
        match r with
        | v :: r' =>
            if (56320 <=? v) && (v <? 57344)
            then ((u - 55296) * 1024 + (v - 56320) + 65536) :: utf16_decode r'
            else runeError :: utf16_decode r
        | [] => [runeError]
        end
      else if (56320 <=? u) && (u <? 57344) then runeError :: utf16_decode r
      else u :: utf16_decode r
  end.

(** string(utf16.Decode(l)) *)
Definition utf16_string (l : list Z) : gostr := string_of_runes (utf16_decode l).

(** one step of [for _, c := range s] (utf8.DecodeRuneInString): rune and width.
    Malformed sequences yield U+FFFD with width 1. *)
Definition is_cont (b : Z) : bool := (128 <=? b) && (b <? 192).

Definition utf8_dec1 (s : gostr) : Z * nat :=
  match s with
  | [] => (runeError, 0%nat)
  | b0 :: r =>
      if b0 <? 128 then (b0, 1%nat)
      else if (194 <=? b0) && (b0 <? 224) then
        match r with
        | b1 :: _ => if is_cont b1 then ((b0 - 192) * 64 + (b1 - 128), 2%nat) else (runeError, 1%nat)
        | _ => (runeError, 1%nat)
        end
      else if (224 <=? b0) && (b0 <? 240) then
        match r with
        | b1 :: b2 :: _ =>
            let lo := if b0 =? 224 then 160 else 128 in
            let hi := if b0 =? 237 then 160 else 192 in
            if (lo <=? b1) && (b1 <? hi) && is_cont b2
            then ((b0 - 224) * 4096 + (b1 - 128) * 64 + (b2 - 128), 3%nat)
            else (runeError, 1%nat)
        | _ => (runeError, 1%nat)
        end
      else if (240 <=? b0) && (b0 <? 245) then
        match r with
        | b1 :: b2 :: b3 :: _ =>
            let lo := if b0 =? 240 then 144 else 128 in
            let hi := if b0 =? 244 then 144 else 192 in
            if (lo <=? b1) && (b1 <? hi) && is_cont b2 && is_cont b3
            then ((b0 - 240) * 262144 + (b1 - 128) * 4096 + (b2 - 128) * 64 + (b3 - 128), 4%nat)
            else (runeError, 1%nat)
        | _ => (runeError, 1%nat)
        end
      else (runeError, 1%nat)
  end.

(** []rune(s); the fuel is the byte length, which always suffices *)
Fixpoint runes_fuel (fuel : nat) (s : gostr) : list Z :=
  match fuel, s with
  | _, [] => []
  | O, _ => []
  | S k, _ => let '(r, w) := utf8_dec1 s in r :: runes_fuel k (skipn w s)
  end.
Definition runes_of_string (s : gostr) : list Z := runes_fuel (List.length s) s.

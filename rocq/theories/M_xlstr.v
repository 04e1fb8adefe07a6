(** * M_xlstr: xls/strings.go and the RK numbers of xls/structs.go.
    Not modelled: decodeXLUnicodeRichExtendedString (strings.go:64-134), which nothing calls. *)
From Verif Require Import GoBase GoFloat GoUnicode M_value.

(** n 16-bit units taken with binary.LittleEndian.Uint16(raw[:2]); raw = raw[2:].  raw[:2] is
    bounded by the capacity, raw[2:] by the length. *)
Fixpoint units_cap (n : nat) (raw : slice) : res (list Z) :=
  match n with
  | O => Ok []
  | S n =>
      s <- sl_to raw 2 ;;
      u <- le16 (dat s) ;;
      raw <- sl_from raw 2 ;;
      r <- units_cap n raw ;;
      Ok (u :: r)
  end.

(** strings.go:18-34 and 44-60, shared by the two functions: k is the header size *)
Definition decode_units (k cch flags : Z) (raw : slice) : res (gostr * Z) :=
  if Z.land flags 1 =? 0 then
    c <- sl_to raw cch ;;
    Ok (utf16_string (dat c), cch + k)
  else
    c <- units_cap (Z.to_nat cch) raw ;;
    Ok (utf16_string c, cch + cch + k).

(** decodeShortXLUnicodeString, strings.go:12-35; the error result is always nil *)
Definition decode_short (raw : slice) : res (gostr * Z) :=
  cch <- sl_idx raw 0 ;;
  flags <- sl_idx raw 1 ;;
  raw <- sl_from raw 2 ;;
  decode_units 2 cch flags raw.

(** decodeXLUnicodeString, strings.go:38-61 *)
Definition decode_long (raw : slice) : res (gostr * Z) :=
  s <- sl_to raw 2 ;;
  cch <- le16 (dat s) ;;
  flags <- sl_idx raw 2 ;;
  raw <- sl_from raw 3 ;;
  decode_units 3 cch flags raw.

(** ** parseSST, strings.go:137-246 *)
Definition EOffByOne : gerr := ELeaf 2401.    (* "xls: off by one" *)

(** the character loop, strings.go:189-210; wide is flags&1 *)
Fixpoint sst_chars (n : nat) (recs : list slice) (i : Z) (wide : bool) (buf : slice) : res (list Z * Z * slice) :=
  match n with
  | O => Ok ([], i, buf)
  | S n =>
      '(i, wide, buf) <-
        (if sl_len buf =? 0 then
           d <- idx recs (i + 1) ;;
           f <- sl_idx d 0 ;;
           buf <- sl_from d 1 ;;
           Ok (i + 1, negb (Z.land f 1 =? 0), buf)
         else Ok (i, wide, buf)) ;;
      if negb wide then
        u <- sl_idx buf 0 ;;
        buf <- sl_from buf 1 ;;
        '(us, i, buf) <- sst_chars n recs i wide buf ;;
        Ok (u :: us, i, buf)
      else
        s <- sl_to buf 2 ;;
        u <- le16 (dat s) ;;
        buf <- sl_from buf 2 ;;
        if sl_len buf =? 1 then Err EOffByOne
        else
          '(us, i, buf) <- sst_chars n recs i wide buf ;;
          Ok (u :: us, i, buf)
  end.

(** skipping n bytes of formatting runs or phonetic data, strings.go:217-226 and 228-237 *)
Fixpoint sst_skip (fuel : nat) (n : Z) (recs : list slice) (i : Z) (buf : slice) : res (Z * slice) :=
  if 0 <? n then
    match fuel with
    | O => NoFuel
    | S fuel =>
        if n <=? sl_len buf then
          buf <- sl_from buf n ;; Ok (i, buf)
        else
          d <- idx recs (i + 1) ;;
          sst_skip fuel (n - sl_len buf) recs (i + 1) d
    end
  else Ok (i, buf).

(** one string, strings.go:155-237 *)
Definition sst_string (recs : list slice) (i : Z) (buf : slice) : res (gostr * Z * slice) :=
  slen <- le16 (dat buf) ;;
  buf <- sl_from buf 2 ;;
  flags <- sl_idx buf 0 ;;
  buf <- sl_from buf 1 ;;
  '(runs, buf) <-
    (if negb (Z.land flags 8 =? 0) then
       c <- le16 (dat buf) ;; buf <- sl_from buf 2 ;; Ok (c * 4, buf)
     else Ok (0, buf)) ;;
  '(ext, buf) <-
    (if negb (Z.land flags 4 =? 0) then
       c <- le32 (dat buf) ;; buf <- sl_from buf 4 ;; Ok (c, buf)
     else Ok (0, buf)) ;;
  '(us, i, buf) <- sst_chars (Z.to_nat slen) recs i (negb (Z.land flags 1 =? 0)) buf ;;
  '(i, buf) <- sst_skip (S (List.length recs)) runs recs i buf ;;
  '(i, buf) <- sst_skip (S (List.length recs)) ext recs i buf ;;
  Ok (utf16_string us, i, buf).

(** the two nested loops, strings.go:149-243 *)
Fixpoint sst_loop (fuel : nat) (recs : list slice) (i : Z) (buf : slice) (all : list gostr) : res (list gostr) :=
  match fuel with
  | O => NoFuel
  | S fuel =>
      if negb (i <? zlen recs) then Ok all
      else if 0 <? sl_len buf then
        '(s, i, buf) <- sst_string recs i buf ;;
        sst_loop fuel recs i buf (all ++ [s])
      else
        buf <- (if i + 1 <? zlen recs then idx recs (i + 1) else Ok buf) ;;
        sst_loop fuel recs (i + 1) buf all
  end.
(** every round of the loops passes to the next record or consumes three bytes.  The count in
    the header only sizes the result's capacity (memory is not modelled). *)
Definition sst_fuel (recs : list slice) : nat :=
  S (List.length recs + List.length (concat (map dat recs))).
Definition parse_sst (recs : list slice) : res (list gostr) :=
  r0 <- idx recs 0 ;;
  s <- sl_range r0 4 8 ;;
  _ <- le32 (dat s) ;;
  buf <- sl_from r0 8 ;;
  sst_loop (sst_fuel recs) recs 0 buf [].

(** ** RKNumber, structs.go:64-100 *)
(** int32(r) >> 2 *)
Definition rk_val (r : Z) : Z := Z.shiftr (s32 r) 2.
Definition rk_is_integer (r : Z) : bool := (Z.land r 1 =? 0) && negb (Z.land r 2 =? 0).
Definition rk_int (r : Z) : Z :=
  if (Z.land r 1 =? 0) && negb (Z.land r 2 =? 0) then rk_val r
  else if negb (Z.land r 1 =? 0) && negb (Z.land r 2 =? 0) then Z.quot (rk_val r) 100
  else 0.
(** math.Float64frombits(uint64(val) << 34) *)
Definition rk_v2 (r : Z) : f64 := f_of_bits (u64 (Z.shiftl (u64 (rk_val r)) 34)).
Definition f_hundred : f64 := f_of_Z 100.
Definition rk_float (r : Z) : f64 :=
  if (Z.land r 1 =? 0) && (Z.land r 2 =? 0) then rk_v2 r
  else if negb (Z.land r 1 =? 0) && (Z.land r 2 =? 0) then fdiv (rk_v2 r) f_hundred
  else f_zero.
(** the value put into the sheet, sheets.go:168-173 and 202-207 *)
Definition rk_goval (r : Z) : goval :=
  if rk_is_integer r then GInt KInt (rk_int r) else GF64 (rk_float r).

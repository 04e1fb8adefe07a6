(** * M_hlink: model of xls/hyperlinks.go.  The buffers made for strings (up to 2^32 units, sized
    by the file) are not modelled: allocation always succeeds. *)
From Verif Require Import GoBase GoUnicode.

Definition EHyperVersion : gerr := ELeaf 2501.   (* "xls: unknown hyperlink version" *)
Definition EMoniker : gerr := ELeaf 2502.        (* "xls: unknown moniker classid" *)

(** n times: Uint16(raw); raw = raw[2:], hyperlinks.go:24-27, 43-46, 64-67 *)
Fixpoint units_len (n : nat) (raw : slice) : res (list Z * slice) :=
  match n with
  | O => Ok ([], raw)
  | S n =>
      u <- le16 (dat raw) ;;
      raw <- sl_from raw 2 ;;
      '(us, raw) <- units_len n raw ;;
      Ok (u :: us, raw)
  end.

(** a HyperlinkString: 32-bit count and characters, hyperlinks.go:21-28, 40-47, 61-68 *)
Definition hl_string (raw : slice) : res (gostr * slice) :=
  s <- sl_to raw 4 ;;
  slen <- le32 (dat s) ;;
  raw <- sl_from raw 4 ;;
  '(us, raw) <- units_len (Z.to_nat slen) raw ;;
  Ok (utf16_string us, raw).

(** n times: Uint16(raw[no:]); no += 2, hyperlinks.go:97-100 and 121-124 *)
Fixpoint units_off (n : nat) (raw : slice) (no : Z) : res (list Z * Z) :=
  match n with
  | O => Ok ([], no)
  | S n =>
      s <- sl_from raw no ;;
      u <- le16 (dat s) ;;
      '(us, no) <- units_off n raw (no + 2) ;;
      Ok (u :: us, no)
  end.

Definition url_moniker_id : bytes := [224; 201; 234; 121; 249; 186; 206; 17; 140; 130; 0; 170; 0; 75; 169; 11].
Definition file_moniker_id : bytes := [3; 3; 0; 0; 0; 0; 0; 0; 192; 0; 0; 0; 0; 0; 0; 70].

(** parseHyperlinkMoniker, hyperlinks.go:76-132 *)
Definition parse_moniker (raw : slice) : res (gostr * Z) :=
  classid <- sl_to raw 16 ;;
  if str_eqb (dat classid) url_moniker_id then
    s <- sl_from raw 16 ;;
    length <- le32 (dat s) ;;
    let length := length / 2 in
    '(buf, no) <- units_off (Z.to_nat length) raw 20 ;;
    buf <- (if 12 <? length then
              x <- idx buf (length - 13) ;;
              Ok (if x =? 0 then ztake (length - 12) buf else buf)
            else Ok buf) ;;
    Ok (utf16_string buf, no)
  else if str_eqb (dat classid) file_moniker_id then
    s <- sl_from raw 18 ;;
    length <- le32 (dat s) ;;
    buf <- sl_range raw 22 (22 + length) ;;
    let no := 22 + (length + 24) in
    s <- sl_from raw no ;;
    length <- le32 (dat s) ;;
    let no := no + 4 in
    if 0 <? length then
      let no := no + 6 in
      let length := u32 (length - 6) in
      '(buf2, no) <- units_off (Z.to_nat (length / 2)) raw no ;;
      Ok (utf16_string buf2, no)
    else Ok (dat buf, no)
  else Err EMoniker.

(** strings.Trim(s, " \v\f\t\r\n\x00"): the cutset is ASCII, so bytes are compared *)
Definition trim_byte (b : Z) : bool :=
  (b =? 32) || (b =? 11) || (b =? 12) || (b =? 9) || (b =? 13) || (b =? 10) || (b =? 0).
Fixpoint trim_left (s : gostr) : gostr :=
  match s with
  | [] => []
  | b :: s' => if trim_byte b then trim_left s' else s
  end.
Definition go_trim (s : gostr) : gostr := rev (trim_left (rev (trim_left s))).

(** decodeHyperlinks, hyperlinks.go:11-74.  4+(slen*2) is computed in uint32. *)
Definition decode_hyperlinks (raw : slice) : res (gostr * gostr) :=
  raw <- sl_from raw 16 ;;
  s <- sl_to raw 4 ;;
  slen <- le32 (dat s) ;;
  if negb (slen =? 2) then Err EHyperVersion
  else
    s <- sl_range raw 4 8 ;;
    flags <- le32 (dat s) ;;
    raw <- sl_from raw 8 ;;
    '(displayText, raw) <-
      (if negb (Z.land flags 16 =? 0) then hl_string raw else Ok ([], raw)) ;;
    raw <- (if negb (Z.land flags 128 =? 0) then
              s <- sl_to raw 4 ;;
              slen <- le32 (dat s) ;;
              sl_from raw (u32 (4 + u32 (slen * 2)))
            else Ok raw) ;;
    '(linkText, raw) <-
      (if negb (Z.land flags 1 =? 0) then
         if negb (Z.land flags 256 =? 0) then hl_string raw
         else
           '(linkText, n) <- parse_moniker raw ;;
           raw <- sl_from raw n ;;
           Ok (linkText, raw)
       else Ok ([], raw)) ;;
    '(linkText, raw) <-
      (if negb (Z.land flags 8 =? 0) then hl_string raw else Ok (linkText, raw)) ;;
    Ok (go_trim displayText, go_trim linkText).

(** * M_crypto: model of xls/crypto/crypto.go and xls/crypto/rc4.go. *)
From Verif Require Import GoBase GoCrypto.

(** crypto.go:67 *)
Definition default_password : bytes := bs "VelvetSweatshop".

(** rc4Writer, rc4.go:75-93.  Left out: Password (stored, never read), cipherKey (a local
    value of startBlock) and dec (every use follows a startBlock, which replaces it).
    [w_buf] is the unread content of the bytes.Buffer. *)
Record rc4w := mkW {
  w_block : Z;                 (* uint32 *)
  w_offset : Z;
  w_bytes : bytes;             (* [1024]byte *)
  w_buf : bytes;
  w_key : option bytes;        (* encKey; None: nil *)
  w_salt : bytes
}.

(** generateStd97Key, rc4.go:131-155; a password rune is written as uint16 *)
Definition generate_std97_key (pass : list Z) (salt : bytes) : res bytes :=
  if (zlen pass =? 0) || negb (zlen salt =? 16) then Panic
  else
    let h0 := md5_sum (flat_map (fun c => put16 (u16 c)) pass) in
    Ok (md5_sum (concat (repeat (ztake 5 h0 ++ salt) 16))).

(** SetPassword, rc4.go:63-73 *)
Definition set_password (d : rc4w) (password : bytes) : res rc4w :=
  key <- generate_std97_key password (w_salt d) ;;
  Ok (mkW (w_block d) (w_offset d) (w_bytes d) (w_buf d) (Some key) (w_salt d)).

(** startBlock, rc4.go:119-129: the writer (with its key) and the cipher *)
Definition start_block (d : rc4w) : res (rc4w * rc4) :=
  d <- (match w_key d with None => set_password d default_password | Some _ => Ok d end) ;;
  match w_key d with
  | None => Panic
  | Some key =>
      k5 <- substr key 0 5 ;;                                         (* d.encKey[:5] *)
      Ok (d, rc4_new (md5_sum (k5 ++ put32 (w_block d))))
  end.

(** Flush, rc4.go:41-60 *)
Definition w_flush (d : rc4w) : res rc4w :=
  let endpad := if w_offset d <? 1024 then 1024 - w_offset d else 0 in
  let bytes := ztake (w_offset d) (w_bytes d) ++ repeat 0 (Z.to_nat endpad) in
  let d := mkW (w_block d) (w_offset d + endpad) bytes (w_buf d) (w_key d) (w_salt d) in
  if negb (w_offset d =? 1024) then Panic
  else
    '(d, c) <- start_block d ;;
    let '(out, _) := rc4_xor c (w_bytes d) in
    Ok (mkW (u32 (w_block d + 1)) 0 out (w_buf d ++ ztake (1024 - endpad) out) (w_key d) (w_salt d)).

(** Write, rc4.go:13-27 *)
Fixpoint write_loop (fuel : nat) (d : rc4w) (data : bytes) : res rc4w :=
  if zlen data <=? 0 then Ok d
  else
    match fuel with
    | O => NoFuel
    | S fuel =>
        if 1024 <? w_offset d then Panic                               (* d.bytes[d.offset:] *)
        else
          let n := Z.min (1024 - w_offset d) (zlen data) in
          let bytes := ztake (w_offset d) (w_bytes d) ++ ztake n data ++ zdrop (w_offset d + n) (w_bytes d) in
          let d := mkW (w_block d) (w_offset d + n) bytes (w_buf d) (w_key d) (w_salt d) in
          d <- (if 1024 <=? w_offset d then
                  if negb (w_offset d =? 1024) then Panic else w_flush d
                else Ok d) ;;
          write_loop fuel d (zdrop n data)
    end.
(** the loop runs at most once per byte (proved in L_crypto) *)
Definition w_write (d : rc4w) (data : bytes) : res rc4w := write_loop (List.length data) d data.

(** Read, rc4.go:29-31: bytes.Buffer.Read into a buffer of n bytes *)
Definition w_read (d : rc4w) (n : Z) : bytes * option gerr * rc4w :=
  if zlen (w_buf d) =? 0 then ([], (if n =? 0 then None else Some EEOF), d)
  else (ztake n (w_buf d), None,
        mkW (w_block d) (w_offset d) (w_bytes d) (zdrop n (w_buf d)) (w_key d) (w_salt d)).

(** Reset, rc4.go:34-38 *)
Definition w_reset (d : rc4w) : rc4w := mkW 0 0 (w_bytes d) [] (w_key d) (w_salt d).

(** Verify, rc4.go:99-115 *)
Definition EVerify : gerr := ELeaf 2201.            (* "verification failed" *)
Definition w_verify (d : rc4w) (everifier everifierHash : bytes) : res rc4w :=
  let d := w_reset d in
  '(d, c) <- start_block d ;;
  let '(t1, c) := rc4_xor c everifier in
  let '(t2, _) := rc4_xor c everifierHash in
  if list_eq_dec Z.eq_dec (md5_sum t1) t2 then Ok d else Err EVerify.

(** NewBasicRC4, crypto.go:81-103; binary.Read of the 52-byte structure *)
Definition ERc4Version : gerr := ELeaf 2202.
Definition ERc4Length : gerr := ELeaf 2203.
Definition new_basic_rc4 (data : bytes) : res rc4w :=
  if zlen data =? 0 then Err EEOF
  else if zlen data <? 52 then Err EUnexpectedEOF
  else
    minor <- le16 (zdrop 2 data) ;;
    if negb (minor =? 1) then Err ERc4Version
    else if negb (zlen data =? 52) then Err ERc4Length
    else
      w_verify (mkW 0 0 (repeat 0 1024) [] None (ztake 16 (zdrop 4 data)))
        (ztake 16 (zdrop 20 data)) (ztake 16 (zdrop 36 data)).

(** * S_loads: which workbook streams can be read, said on their records alone. *)
From Verif Require Import GoBase GoCrypto S_biff S_cfb S_table S_crypto.

(** ** one record, with the bytes behind it in memory and the payloads of the Continue records that
    directly follow it.  A record without payload is always readable, and so is one of a kind that
    is not named here.  Texts of one byte a character may run on into the bytes behind. *)
Definition text_fits (size count flags : Z) (room len : Z) : Prop :=
  if flags mod 2 =? 0 then size + count <= room else size + 2 * count <= len.
Definition rec_readable (r : frec) (behind : bytes) (conts : list bytes) : Prop :=
  let (t, p) := r in
  let room := zlen (p ++ behind) in
  zlen p = 0 \/
  ((t = 2057 -> 16 <= room /\ field (p ++ behind) 0 2 = 1536 /\                                   (* BOF *)
      (field (p ++ behind) 6 2 = 1996 \/ field (p ++ behind) 6 2 = 1997)) /\
   (t = 66 \/ t = 34 -> 2 <= zlen p) /\                                                            (* CodePage, Date1904 *)
   (t = 224 -> 4 <= zlen p) /\                                                                     (* XF *)
   (t = 1054 -> 5 <= zlen p /\ text_fits 5 (field p 2 2) (field p 4 1) room (zlen p)) /\           (* Format *)
   (t = 133 -> 8 <= zlen p /\ text_fits 8 (field p 6 1) (field p 7 1) room (zlen p)) /\            (* BoundSheet8 *)
   (t = 252 -> exists texts, is_table (p :: conts) texts)).                                        (* SST *)
Fixpoint following (rs : list frec) : list bytes :=
  match rs with
  | [] => []
  | r :: rs => if fst r =? 60 then snd r :: following rs else []
  end.
Fixpoint all_readable (rs : list frec) (behind : bytes) : Prop :=
  match rs with
  | [] => True
  | r :: rs => rec_readable r (stream rs ++ behind) (following rs) /\ all_readable rs behind
  end.

(** ** records one after another, with at most three bytes left, the first a BOF record *)
Definition begins (rs : list frec) : Prop := rs = [] \/ exists p t, rs = (BOF, p) :: t.
Definition cut (plain : bytes) (rs : list frec) (tail : bytes) : Prop :=
  plain = stream rs ++ tail /\ zlen tail < 4 /\ Forall (rec_fits 65531) rs /\ begins rs.

(** ** the enciphered stream.  Type, size and as many bytes of the body as this says are clear; a
    BoundSheet8 record is taken for at least four bytes, whatever its size says. *)
Definition body_len (t size : Z) : Z := if existsb (Z.eqb t) clear_types then size else if t =? BOUNDSHEET then Z.max 4 size else size.
Definition clear_prefix (t size : Z) : Z := if existsb (Z.eqb t) clear_types then size else if t =? BOUNDSHEET then 4 else 0.
Definition piece : Type := Z * Z * bytes.      (* type, size and body *)
Definition piece_ok (c : piece) : Prop :=
  let '(t, size, body) := c in
  0 <= t < 65536 /\ 0 <= size < 65536 /\ zlen body = body_len t size /\ (In t clear_types -> size <= 8224).
Definition piece_bytes (c : piece) : bytes := let '(t, size, body) := c in put16 t ++ put16 size ++ body.
(** the stream with each body deciphered from where it stands in the file *)
Fixpoint deciphered (key : bytes) (pos : Z) (cs : list piece) : bytes :=
  match cs with
  | [] => []
  | (t, size, body) :: cs =>
      let k := clear_prefix t size in
      put16 t ++ put16 size ++ ztake k body ++ crypt key (pos + 4 + k) (zdrop k body) ++ deciphered key (pos + 4 + zlen body) cs
  end.
(** the pieces end where at most four bytes are left; an empty one at the very end is such a rest *)
Definition pieces (raw : bytes) (cs : list piece) : Prop :=
  exists tail, raw = concat (map piece_bytes cs) ++ tail /\ Forall piece_ok cs /\ zlen tail <= 4 /\
    (tail = [] -> forall cs' c, cs = cs' ++ [c] -> snd c <> []).

(** ** the stream as a whole: clear, or, behind a FilePass record that names the first kind of
    encryption and the file's password, enciphered *)
Definition pass_ok (data : bytes) : Prop :=
  zlen data = 54 /\ field data 0 2 = 1 /\ field data 4 2 = 1 /\
  let key := base_key (bs "VelvetSweatshop") (ztake 16 (zdrop 6 data)) in
  crypt key 16 (ztake 16 (zdrop 38 data)) = md5_sum (crypt key 0 (ztake 16 (zdrop 22 data))).
Definition loadable (raw : bytes) (behind behind2 : bytes) : Prop :=
  (exists rs tail, cut raw rs tail /\ Forall (fun r => fst r <> FILEPASS) rs /\ all_readable rs (tail ++ behind)) \/
  (exists before data after cs rs tail,
     raw = stream before ++ enc_rec (FILEPASS, data) ++ after /\ Forall (rec_fits 65531) before /\
     Forall (fun r => fst r <> FILEPASS) before /\ begins before /\ pass_ok data /\ pieces raw cs /\
     let plain := deciphered (base_key (bs "VelvetSweatshop") (ztake 16 (zdrop 6 data))) 0 cs in
     cut plain rs tail /\ all_readable rs (tail ++ behind2)).

(** * S_cfbsays: what the tables of a compound file lead to, for any bytes that are taken for one.

    Nothing is assumed about the file here: tables may overlap, point at each other or outside the
    file, and sectors may be used twice. *)
From Verif Require Import GoBase GoUnicode S_cfb.

(** where the sector with a 32-bit number begins (number FFFFFFFF is the header), its bytes, and
    whether all of them are there *)
Definition place (sz s : Z) : Z := (1 + s) mod 4294967296 * sz.
Definition block (data : bytes) (sz s : Z) : bytes := ztake sz (zdrop (place sz s) data).
Definition inside (data : bytes) (sz s : Z) : Prop := place sz s + sz <= zlen data.

(** a 32-bit count is a signed number *)
Definition signed32 (x : Z) : Z := if x <? 2147483648 then x else x - 4294967296.

(** the size of the sectors *)
Definition sector_size (data : bytes) : Z := 2 ^ field data 30 2.

(** ** the FAT *)
(** the FAT sectors the header lists: its 109 entries up to the first unused one *)
Fixpoint until_free (l : list Z) : list Z :=
  match l with
  | [] => []
  | s :: r => if s =? FREESECT then [] else s :: until_free r
  end.
Definition header_fats (data : bytes) : list Z :=
  until_free (map (fun i => field data (76 + 4 * Z.of_nat i) 4) (seq 0 109)).
(** the FAT sectors listed from DIFAT sector s on: all entries but the last of each DIFAT sector,
    without the unused ones; the last one is the number of the next DIFAT sector *)
Inductive more_fats (data : bytes) (sz : Z) : Z -> list Z -> Prop :=
| mf_end : more_fats data sz ENDOFCHAIN []
| mf_step : forall s es t fs, s <> ENDOFCHAIN -> inside data sz s -> words (block data sz s) = es ++ [t] ->
    more_fats data sz t fs -> more_fats data sz s (filter used_entry es ++ fs).
(** all the FAT sectors; the DIFAT is only looked at when the header counts DIFAT sectors *)
Definition fat_sectors (data : bytes) (sz : Z) (l : list Z) : Prop :=
  Forall (inside data sz) l /\
  exists more, l = header_fats data ++ more /\
    (if 0 <? signed32 (field data 72 4) then more_fats data sz (field data 68 4) more else more = []).
(** the FAT: the entries of these sectors *)
Definition table (data : bytes) (sz : Z) (l : list Z) : list Z := flat_map (fun s => words (block data sz s)) l.

(** ** the mini FAT, from sector s on, [n] entries being there already.  Two things are not as
    MS-CFB has them: the number of mini FAT sectors in the header is compared with a number of
    entries, and when more are wanted the number of the next sector is the one found directly
    behind this sector. *)
Inductive mini_table (data : bytes) (sz want : Z) : Z -> Z -> list Z -> Prop :=
| mt_end : forall n, mini_table data sz want ENDOFCHAIN n []
| mt_last : forall s n, s <> ENDOFCHAIN -> inside data sz s -> want <= n + sz / 4 ->
    mini_table data sz want s n (words (block data sz s))
| mt_more : forall s n m, s <> ENDOFCHAIN -> inside data sz s -> n + sz / 4 < want ->
    place sz s + sz + 4 <= zlen data ->
    mini_table data sz want (field data (place sz s + sz) 4) (n + sz / 4) m ->
    mini_table data sz want s n (words (block data sz s) ++ m).

(** ** the directory: at most four entries of 128 bytes, up to one of type 0 or cut off *)
Fixpoint entries (n : nat) (d : bytes) : list bytes :=
  match n with
  | O => []
  | S n => if (zlen d <? 128) || (field d 66 1 =? 0) then [] else ztake 128 d :: entries n (zdrop 128 d)
  end.
Definition directory_of (data : bytes) : list bytes :=
  entries 4 (zdrop (place (sector_size data) (field data 48 4)) data).
Definition e_type (e : bytes) : Z := field e 66 1.
Definition e_start (e : bytes) : Z := field e 116 4.
(** version 3 only has 32-bit sizes *)
Definition e_size (data e : bytes) : Z := field e 120 (if field data 26 2 =? 3 then 4 else 8).
(** the name: as many UTF-16 units as the length field says, without the last character *)
Definition e_units (e : bytes) : list Z := map (fun i => field e (2 * Z.of_nat i) 2) (seq 0 (Z.to_nat (field e 64 2 / 2))).
Definition e_named (name : gostr) (e : bytes) : bool :=
  if Z.odd (field e 64 2) || ((64 <? field e 64 2) && (field e 64 2 <? 32768))
  then str_eqb (bs "<invalid utf16 string>") name
  else str_eqb (string_of_runes (removelast (utf16_decode (e_units e)))) name.
(** the first stream of a name *)
Definition stream_entry (data : bytes) (name : gostr) : option bytes :=
  find (fun e => e_named name e && (e_type e =? 2)) (directory_of data).
(** the last root entry gives the start and the (32-bit) size of the mini stream *)
Definition root_of (data : bytes) : Z * Z :=
  match find (fun e => e_type e =? 5) (rev (directory_of data)) with
  | Some e => (e_start e, field e 120 4)
  | None => (0, 0)
  end.

(** ** the stream.  [mem] is the file and what is behind it in the buffer it was read into. *)
Definition stream_content (data mem : bytes) (name : gostr) (content : bytes) : Prop :=
  let sz := sector_size data in
  exists fats mini e,
    fat_sectors data sz fats /\
    mini_table data sz (signed32 (field data 64 4)) (field data 60 4) 0 mini /\
    stream_entry data name = Some e /\
    let fat := table data sz fats in
    let size := e_size data e in
    if size <? 4096 then
      (** a small one: the mini sectors along its chain in the mini FAT, of the mini stream that is
          made of the sectors along the root's chain in the FAT *)
      exists roots l, chain fat (fst (root_of data)) roots /\ Forall (inside mem sz) roots /\
        zlen roots <= 1 + snd (root_of data) / sz /\
        let ms := concat (map (block mem sz) roots) in
        chain mini (e_start e) l /\ Forall (fun m => (m + 1) * 64 <= zlen ms) l /\ zlen l <= 1 + size / 64 /\
        content = ztake size (concat (map (mini_sector ms) l))
    else
      (** the others: as many sectors along its chain in the FAT as the size takes; each begins in
          the file *)
      exists l, walk fat (e_start e :: l) /\ zlen (e_start e :: l) = sectors_for size sz /\
        Forall (fun s => ~ end_mark s /\ place sz s <= zlen data /\ inside mem sz s) (e_start e :: l) /\
        content = ztake size (concat (map (block mem sz) (e_start e :: l))).

(** ** which files are taken: what the header must have.  The counts of FAT and mini FAT sectors
    plus one must be representable. *)
Record accepted (data : bytes) : Prop := {
  ac_len : 512 <= zlen data;
  ac_sig : field data 0 8 = 16220472316735377360;
  ac_clsid : field data 8 8 = 0 /\ field data 16 8 = 0;
  ac_order : field data 28 2 = 65534;
  ac_version : field data 26 2 = 3 /\ field data 30 2 = 9 /\ field data 40 4 = 0 \/ field data 26 2 = 4 /\ field data 30 2 = 12;
  ac_minishift : field data 32 2 = 6;
  ac_reserved : ztake 6 (zdrop 34 data) = repeat 0 6;
  ac_cutoff : field data 56 4 = 4096;
  ac_counts : (field data 44 4 < 2147483647 \/ field data 44 4 = 4294967295) /\ (field data 64 4 < 2147483647 \/ field data 64 4 = 4294967295)
}.
(** the name of an entry can be looked at *)
Definition readable (e : bytes) : Prop := Z.odd (field e 64 2) = true \/ 2 <= field e 64 2 < 32768.
(** those of the entries up to the first stream of a name *)
Definition readable_upto (data : bytes) (name : gostr) : Prop :=
  exists a e b, directory_of data = a ++ e :: b /\ stream_entry data name = Some e /\
    find (fun e => e_named name e && (e_type e =? 2)) a = None /\ Forall readable (a ++ [e]).

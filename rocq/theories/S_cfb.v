(** * S_cfb: compound files, as MS-CFB describes them. *)
From Verif Require Import GoBase GoUnicode.

Definition FREESECT : Z := 4294967295.
Definition ENDOFCHAIN : Z := 4294967294.
Definition end_mark (s : Z) : Prop := s = ENDOFCHAIN \/ s = FREESECT.

(** the little-endian number made of some bytes *)
Fixpoint le_val (l : bytes) : Z :=
  match l with
  | [] => 0
  | b :: r => b + 256 * le_val r
  end.
(** the n-byte field at an offset *)
Definition field (data : bytes) (off n : Z) : Z := le_val (ztake n (zdrop off data)).

(** sector number s of a file with sectors of sz bytes: the header is "sector -1" *)
Definition sector (data : bytes) (sz s : Z) : bytes := ztake sz (zdrop ((1 + s) * sz) data).
(** a regular sector that lies completely inside the file *)
Definition in_file (data : bytes) (sz s : Z) : Prop :=
  0 <= s < 4294967291 /\ (2 + s) * sz <= zlen data.

(** the 32-bit entries of a sector *)
Fixpoint words (l : bytes) : list Z :=
  match l with
  | a :: b :: c :: d :: r => le_val [a; b; c; d] :: words r
  | _ => []
  end.

(** [walk fat l]: l is a non-empty piece of a chain: each sector's FAT entry is the next one *)
Fixpoint walk (fat : list Z) (l : list Z) : Prop :=
  match l with
  | [] => False
  | [s] => 0 <= s
  | s :: ((t :: _) as r) => 0 <= s /\ nth_error fat (Z.to_nat s) = Some t /\ walk fat r
  end.
(** [chain fat s l]: the chain starting at s is exactly l and then ends *)
Inductive chain (fat : list Z) : Z -> list Z -> Prop :=
| ch_end : forall s, end_mark s -> chain fat s []
| ch_step : forall s t l, ~ end_mark s -> 0 <= s -> nth_error fat (Z.to_nat s) = Some t ->
    chain fat t l -> chain fat s (s :: l).

(** how many sectors of sz bytes hold n bytes *)
Definition sectors_for (n sz : Z) : Z := (n + sz - 1) / sz.

(** mini sector m of the mini stream *)
Definition mini_sector (ms : bytes) (m : Z) : bytes := ztake 64 (zdrop (m * 64) ms).

(** [difats data sz s ds fs]: the DIFAT sectors starting at s are ds, in this order, and list
    the FAT sectors fs.  The last entry of a DIFAT sector is the number of the next one. *)
Definition used_entry (x : Z) : bool := negb (x =? FREESECT) && negb (x =? ENDOFCHAIN).
Inductive difats (data : bytes) (sz : Z) : Z -> list Z -> list Z -> Prop :=
| df_end : difats data sz ENDOFCHAIN [] []
| df_step : forall s es t ds fs, in_file data sz s -> words (sector data sz s) = es ++ [t] ->
    difats data sz t ds fs -> difats data sz s (s :: ds) (filter used_entry es ++ fs).

(** the header of a version-3 (512-byte sectors) or version-4 (4096-byte sectors) file: the FAT
    sectors are fat1 (at most 109, listed in the header) and then fat2 (listed in the DIFAT
    sectors); there is at most one mini FAT sector *)
Definition sec_shift (major : Z) : Z := if major =? 3 then 9 else 12.
Definition sec_bytes (major : Z) : Z := if major =? 3 then 512 else 4096.
Record cfb_header (data : bytes) (major : Z) (fat1 fat2 : list Z) (mini : option Z) (firstdir : Z) : Prop := {
  ch_len : 512 <= zlen data;
  ch_sig : field data 0 8 = 16220472316735377360;
  ch_clsid : field data 8 8 = 0 /\ field data 16 8 = 0;
  ch_major : (major = 3 \/ major = 4) /\ field data 26 2 = major;
  ch_order : field data 28 2 = 65534;
  ch_shift : field data 30 2 = sec_shift major;
  ch_minishift : field data 32 2 = 6;
  ch_reserved : ztake 6 (zdrop 34 data) = repeat 0 6;
  ch_numdir : major = 3 -> field data 40 4 = 0;
  ch_numfat : field data 44 4 = zlen fat1 + zlen fat2 /\ zlen fat1 + zlen fat2 < 2147483647;
  ch_firstdir : field data 48 4 = firstdir;
  ch_cutoff : field data 56 4 = 4096;
  ch_mini : match mini with
            | None => field data 60 4 = ENDOFCHAIN /\ field data 64 4 = 0
            | Some m => field data 60 4 = m /\ field data 64 4 = 1 /\ in_file data (sec_bytes major) m
            end;
  ch_difats : exists ds, field data 72 4 = zlen ds /\ zlen ds < 2147483648 /\
     difats data (sec_bytes major) (field data 68 4) ds fat2;
  ch_fatlen : zlen fat1 <= 109;
  ch_difat : forall i, (i < 109)%nat ->
     field data (76 + 4 * Z.of_nat i) 4 = nth i fat1 FREESECT;
  ch_fatsecs : Forall (in_file data (sec_bytes major)) (fat1 ++ fat2)
}.

(** the used directory entry at the start of [d]: name (16-bit units, zero terminated; the
    length field counts the terminator), type, first sector, size *)
Record dir_entry (major : Z) (d : bytes) (name : list Z) (ty start size : Z) : Prop := {
  en_len : 128 <= zlen d;
  en_namelen : zlen name <= 31 /\ field d 64 2 = 2 * (zlen name + 1);
  en_name : forall i, (i < List.length name)%nat -> field d (2 * Z.of_nat i) 2 = nth i name 0;
  en_term : field d (2 * zlen name) 2 = 0;
  en_plain : Forall (fun u => 0 < u < 55296) name;       (* no surrogates *)
  en_type : field d 66 1 = ty /\ ty <> 0;
  en_start : field d 116 4 = start;
  en_size : field d 120 (if major =? 3 then 4 else 8) = size
}.
(** the first n entries of the directory that starts at [d]: the used ones, then an unused one
    (type 0) unless all n are used *)
Fixpoint directory (n : nat) (major : Z) (d : bytes) (es : list (list Z * Z * Z * Z)) : Prop :=
  match n, es with
  | O, [] => True
  | O, _ :: _ => False
  | S _, [] => zlen d < 128 \/ field d 66 1 = 0
  | S k, (name, ty, start, size) :: r =>
      dir_entry major d name ty start size /\ directory k major (zdrop 128 d) r
  end.

(** * S_hang: the compound files on which loading never ends, in terms of the bytes of the file. *)
From Verif Require Import GoBase S_cfb.

(** sector s is wholly inside the file *)
Definition sector_in (data : bytes) (sz s : Z) : Prop := u32 (1 + s) * sz + sz <= zlen data.
(** the sectors listed in the header, up to the first free mark *)
Fixpoint listed_in (data : bytes) (sz : Z) (l : list Z) : Prop :=
  match l with
  | [] => True
  | s :: l => s = FREESECT \/ (sector_in data sz s /\ listed_in data sz l)
  end.
(** the n-th sector of the chain from s: the last entry of a sector is the next one *)
Fixpoint chain_at (data : bytes) (sz s : Z) (n : nat) : Z :=
  match n with
  | O => s
  | S n => chain_at data sz (field data (u32 (1 + s) * sz + (sz - 4)) 4) n
  end.
(** the chain goes on for ever, through sectors that are inside the file and mention only such *)
Definition endless (data : bytes) (sz s : Z) : Prop :=
  forall n, let c := chain_at data sz s n in
    c <> ENDOFCHAIN /\ sector_in data sz c /\
    forall i, 0 <= i < sz / 4 - 1 ->
      let e := field data (u32 (1 + c) * sz + 4 * i) 4 in e = FREESECT \/ e = ENDOFCHAIN \/ sector_in data sz e.
(** a header that is accepted *)
Definition header_fine (d : bytes) : Prop :=
  512 <= zlen d /\ field d 0 8 = 16220472316735377360 /\ field d 28 2 = 65534 /\ field d 8 8 = 0 /\ field d 16 8 = 0 /\
  (field d 26 2 = 3 /\ field d 30 2 = 9 /\ s32 (field d 40 4) = 0 \/ field d 26 2 = 4 /\ field d 30 2 = 12) /\
  ztake 6 (zdrop 34 d) = repeat 0 6 /\ field d 32 2 = 6 /\ s32 (field d 56 4) = 4096 /\
  0 <= s32 (1 + s32 (field d 44 4)) /\ 0 <= s32 (1 + s32 (field d 64 4)).
(** what makes loading endless: an accepted header that announces DIFAT sectors, FAT sectors that
    are all there, and an endless chain *)
Definition hangs (d : bytes) : Prop :=
  header_fine d /\ let sz := 2 ^ field d 30 2 in
  listed_in d sz (map (fun i => field d (76 + 4 * Z.of_nat i) 4) (seq 0 109)) /\
  0 < s32 (field d 72 4) /\ endless d sz (field d 68 4).

(** * S_biff: record streams as MS-XLS writes them. *)
From Verif Require Import GoBase S_crypto.

(** a record: type and payload ([MS-XLS] 2.1.4) *)
Notation frec := (Z * list Z)%type.
Definition enc_rec (r : frec) : bytes := put16 (fst r) ++ put16 (zlen (snd r)) ++ snd r.
Definition stream (rs : list frec) : bytes := concat (map enc_rec rs).
(** record types are 16-bit; [lim] bounds the payload sizes *)
Definition rec_fits (lim : Z) (r : frec) : Prop := 0 <= fst r < 65536 /\ zlen (snd r) <= lim.

(** ** BOF/EOF nesting *)
Definition BOF : Z := 2057.
Definition EOFR : Z := 10.
Definition FILEPASS : Z := 47.
Definition BOUNDSHEET : Z := 133.
Inductive nested : list frec -> Prop :=
| ne_nil : nested []
| ne_rec : forall ty p rs, ty <> BOF -> ty <> EOFR -> nested rs -> nested ((ty, p) :: rs)
| ne_group : forall p b q rs, nested b -> nested rs -> nested ((BOF, p) :: b ++ (EOFR, q) :: rs).
(** a top-level group BOF ... EOF *)
Definition group (g : list frec) : Prop := exists p b q, g = (BOF, p) :: b ++ [(EOFR, q)] /\ nested b.

(** ** encryption of a record stream, [MS-XLS] 2.2.10: record headers, the payloads of seven
    record types, and the first four bytes of BoundSheet8 are not encrypted but do count as
    positions in the encrypted stream *)
Definition clear_types : list Z := [BOF; FILEPASS; 404; 405; 225; 406; 312].
Definition clear_len (r : frec) : Z :=
  if existsb (Z.eqb (fst r)) clear_types then zlen (snd r)
  else if fst r =? BOUNDSHEET then 4 else 0.
Definition enc_payload (key : bytes) (pos : Z) (r : frec) : bytes :=
  ztake (clear_len r) (snd r) ++ crypt key (pos + 4 + clear_len r) (zdrop (clear_len r) (snd r)).
(** the records of the encrypted stream that starts at offset pos *)
Fixpoint enc_recs (key : bytes) (pos : Z) (rs : list frec) : list frec :=
  match rs with
  | [] => []
  | r :: rs => (fst r, enc_payload key pos r) :: enc_recs key (pos + 4 + zlen (snd r)) rs
  end.
(** what the loader needs of a record: at most 8224 bytes in the clear records (the format's
    own limit), a position field in BoundSheet8 *)
Definition encryptable (r : frec) : Prop :=
  (In (fst r) clear_types -> zlen (snd r) <= 8224) /\ (fst r = BOUNDSHEET -> 4 <= zlen (snd r)).
(** the stream without its last record when that record is empty *)
Fixpoint trim_last (rs : list frec) : list frec :=
  match rs with
  | [] => []
  | [r] => if zlen (snd r) =? 0 then [] else [r]
  | r :: rs => r :: trim_last rs
  end.

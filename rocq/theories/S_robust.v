(** * S_robust: records of a sheet that are as long as MS-XLS says. *)
From Verif Require Import GoBase M_biff S_cfb S_link S_table S_xls.

Notation payload r := (dat (b_data r)).
(** the least number of bytes of a record the reader looks at (0 for all others) *)
Definition least (ty : Z) : Z :=
  if ty =? 517 then 8            (* BoolErr *)
  else if ty =? 189 then 6       (* MulRk *)
  else if ty =? 515 then 14      (* Number *)
  else if ty =? 638 then 10      (* RK *)
  else if ty =? 6 then 14        (* Formula, up to the cached value *)
  else if ty =? 519 then 3       (* String *)
  else if ty =? 253 then 10      (* LabelSst *)
  else if ty =? 440 then 8       (* HLink, its range *)
  else if ty =? 229 then 2       (* MergeCells *)
  else if ty =? 129 then 2       (* WsBool *)
  else if ty =? 512 then 12      (* Dimensions *)
  else if ty =? 60 then 1        (* Continue *)
  else 0.
(** records whose length depends on a count within them; a Continue record is at most 8224 bytes *)
Definition counted (p : bytes) (ty : Z) : Prop :=
  (ty = 519 -> field p 2 1 mod 2 = 1 -> 3 + 2 * field p 0 2 <= zlen p) /\
  (ty = 229 -> 2 + 8 * field p 0 2 <= zlen p) /\
  (ty = 60 -> zlen p <= 8224).
(** the lengths a hyperlink object announces stay inside the record, or it is refused *)
Definition link_sound (d : slice) : Prop :=
  let p := zdrop 8 (dat d) in link_extent p (p ++ spare d) <> Overrun.
(** [nstr] is the number of shared strings: an index at or beyond it is an error by C53, except for [nstr] itself *)
Definition sized (nstr : Z) (r : brec) : Prop :=
  least (b_type r) <= zlen (payload r) /\ counted (payload r) (b_type r) /\
  (b_type r = 253 -> field (payload r) 6 4 <> nstr) /\
  (b_type r = 440 -> link_sound (b_data r)).

(** the records of a sheet outside embedded substreams (charts); the first BOF belongs to the
    sheet itself, and an embedded substream ends with its first EOF *)
Fixpoint top (l : list brec) (first : bool) (depth : Z) : list brec :=
  match l with
  | [] => []
  | r :: l =>
      if 0 <? depth then top l false (if b_type r =? 10 then depth - 1 else depth)
      else if b_type r =? 2057 then top l false (if first then 0 else 1)
      else r :: top l false 0
  end.

(** a Formula record with a cached value of a known kind *)
Definition has_value (p : bytes) : bool := negb (field p 12 2 =? 65535) || (field p 6 1 <? 3).
(** every String record comes after such a Formula record *)
Fixpoint texts_follow (l : list brec) (ready : bool) : Prop :=
  match l with
  | [] => True
  | r :: l =>
      if b_type r =? 6 then texts_follow l (has_value (payload r))
      else (b_type r = 519 -> ready = true) /\ texts_follow l ready
  end.
Definition is_dim (r : brec) : bool := b_type r =? 512.
Definition one_dimension (l : list brec) : Prop := (List.length (filter is_dim l) <= 1)%nat.

(** a substream that can be read as a sheet *)
Definition sheet_sized (nstr : Z) (l : list brec) : Prop :=
  Forall (sized nstr) (top l true 0) /\ texts_follow (top l true 0) false /\ one_dimension (top l true 0).

(** ** records read when the file is opened, in all substreams; empty ones are skipped *)
Fixpoint lead (l : list brec) : list bytes :=
  match l with
  | [] => []
  | r :: l => if b_type r =? 60 then payload r :: lead l else []
  end.
Definition global_sized (r : brec) (rest : list brec) : Prop :=
  let p := payload r in
  zlen p = 0 \/
  ((b_type r = 2057 -> 16 <= zlen p) /\                                                        (* BOF *)
   (b_type r = 66 \/ b_type r = 34 -> 2 <= zlen p) /\                                           (* CodePage, Date1904 *)
   (b_type r = 224 -> 4 <= zlen p) /\                                                          (* XF *)
   (b_type r = 1054 -> 5 <= zlen p /\ 5 + (1 + field p 4 1 mod 2) * field p 2 2 <= zlen p) /\  (* Format *)
   (b_type r = 133 -> 8 <= zlen p /\ 8 + (1 + field p 7 1 mod 2) * field p 6 1 <= zlen p) /\   (* BoundSheet8 *)
   (b_type r = 252 -> exists texts, is_table (p :: lead rest) texts)).                          (* SST *)
Fixpoint globals_sized (l : list brec) : Prop :=
  match l with [] => True | r :: l => global_sized r l /\ globals_sized l end.

(** * S_says: what the records of a sheet substream say, read off their bytes (MS-XLS 2.4). *)
From Verif Require Import GoBase GoFloat GoUnicode M_grate M_value M_biff S_cfb S_robust S_grid S_xls.

(** 16-bit units; an odd byte at the end is dropped *)
Fixpoint pairs (l : bytes) : list Z :=
  match l with a :: b :: l => (a + 256 * b) :: pairs l | _ => [] end.

(** ** the text of a String record [p] followed by the Continue records [qs] *)
Definition first_chunk (p : bytes) : gostr :=
  if field p 2 1 mod 2 =? 0 then zdrop 3 p else utf16_string (pairs (ztake (2 * field p 0 2) (zdrop 3 p))).
Definition more_chunk (q : bytes) : gostr :=
  if field q 0 1 mod 2 =? 0 then zdrop 1 q else utf16_string (pairs (zdrop 1 q)).
Definition string_text (p : bytes) (qs : list bytes) : gostr := first_chunk p ++ flat_map more_chunk qs.

(** the format a write leaves at its cell; a merge mark leaves none *)
Definition format_left (w : gwrite) : Z :=
  match w with
  | WPut v f => match v with
                | GStr t => if in_dec (list_eq_dec Z.eq_dec) t [bs "→"; bs "⇥"; bs "↓"; bs "⤓"] then 0 else f
                | _ => f
                end
  | WText _ f => f
  | WLink _ => 0
  end.

Section Says.
  (** the text of a hyperlink object, given with the bytes behind it; none if it is refused *)
  Variable link : bytes -> bytes -> option gostr.
  Variables (strs : list gostr) (xfs : list Z).
  (** declared rows and columns *)
  Variables (mr mc : Z).

  Definition region_at (p : bytes) (a : Z) : Z * Z * Z * Z := (field p a 2, field p (a + 2) 2, field p (a + 4) 2, field p (a + 6) 2).
  (** a record other than String *)
  Definition rec_says (r : brec) : list gop :=
    let p := payload r in
    let row := field p 0 2 in
    let col := field p 2 2 in
    let fmt := xf_format xfs (field p 4 2) in
    if b_type r =? 515 then [(row, col, WPut (GF64 (f_of_bits (field p 6 8))) fmt)]                     (* Number *)
    else if b_type r =? 638 then [(row, col, WPut (rk_value (field p 6 4)) fmt)]                         (* RK *)
    else if b_type r =? 189 then                                                                        (* MulRk *)
      map (fun i => (row, col + i, WPut (rk_value (field p (6 + 6 * i) 4)) (xf_format xfs (field p (4 + 6 * i) 2)))) (zrange 0 ((zlen p - 6) / 6 - 1))
    else if b_type r =? 253 then                                                                        (* LabelSst *)
      match nth (Z.to_nat (field p 6 4)) strs [] with [] => [] | t => [(row, col, WPut (GStr t) fmt)] end
    else if b_type r =? 517 then                                                                        (* BoolErr *)
      if field p 7 1 =? 0 then [(row, col, WPut (GBool (field p 6 1 =? 1)) fmt)] else [(row, col, WPut (GStr (err_text (field p 6 1))) 0)]
    else if b_type r =? 6 then                                                                          (* Formula *)
      if negb (field p 12 2 =? 65535) then [(row, col, WPut (GF64 (f_of_bits (field p 6 8))) fmt)]
      else if field p 6 1 =? 0 then [(row, col, WPut (GStr []) fmt)]
      else if field p 6 1 =? 1 then [(row, col, WPut (GBool (negb (field p 8 1 =? 0))) fmt)]
      else if field p 6 1 =? 2 then [(row, col, WPut (GStr (err_text (field p 8 1))) 0)]
      else []
    else if b_type r =? 440 then                                                                        (* HLink *)
      if (field p 4 2 <=? mc) && (field p 0 2 <=? mr) then
        match link (zdrop 8 p) (spare (b_data r)) with
        | Some t => region_cells (clip mr mc (region_at p 0)) [WPut (GStr t) 0]
        | None => []
        end
      else []
    else if b_type r =? 229 then                                                                        (* MergeCells *)
      flat_map (fun i => region_cells (clip mr mc (region_at p (2 + 8 * i))) []) (zrange 0 (field p 0 2 - 1))
    else [].

  (** All records of a substream in order, those of embedded substreams left out; [at_] is the
      position of the latest Formula record (A1 before the first), [acc] what has been written so
      far.  The text of a String record replaces what is at that position and keeps its format; if
      nothing is there, it is dropped (when the position is outside the grid; in it, the program ends). *)
  Fixpoint says (l : list brec) (first : bool) (depth : Z) (at_ : Z * Z) (acc : list gop) : list gop :=
    match l with
    | [] => acc
    | r :: l =>
        if 0 <? depth then says l false (if b_type r =? 10 then depth - 1 else depth) at_ acc
        else if b_type r =? 2057 then says l false (if first then 0 else 1) at_ acc
        else if b_type r =? 519 then
          says l false 0 at_ (acc ++ match last_write acc (fst at_) (snd at_) with
                                     | Some w => [(fst at_, snd at_, WText (string_text (payload r) (lead l)) (format_left w))]
                                     | None => []
                                     end)
        else says l false 0 (if b_type r =? 6 then (field (payload r) 0 2, field (payload r) 2 2) else at_) (acc ++ rec_says r)
    end.
End Says.

(** the rows and columns of the Dimensions record *)
Definition declared (l : list brec) : Z * Z :=
  match filter is_dim (top l true 0) with
  | r :: _ => (field (payload r) 4 4, field (payload r) 10 2)
  | [] => (0, 0)
  end.
(** at most one Dimensions record, and that one complete *)
Definition plain_dimension (l : list brec) : Prop :=
  one_dimension (top l true 0) /\ Forall (fun r => is_dim r = true -> 12 <= zlen (payload r)) (top l true 0).
Definition sheet_says (link : bytes -> bytes -> option gostr) (strs : list gostr) (xfs : list Z) (l : list brec) : list gop :=
  says link strs xfs (fst (declared l)) (snd (declared l)) l true 0 (0, 0) [].

(** ** the workbook globals, read off their bytes *)
(** [n] characters: 8-bit ones may run over the end [q] of their record into the bytes [behind] it *)
Definition counted_text (n flags : Z) (q behind : bytes) : gostr :=
  if flags mod 2 =? 0 then utf16_string (ztake n (q ++ behind)) else utf16_string (pairs (ztake (2 * n) q)).
Definition of_type (t : Z) (l : list brec) : list brec := filter (fun r => (b_type r =? t) && (0 <? zlen (payload r))) l.
(** BoundSheet: position, visibility, kind and name *)
Definition sheet_entry (r : brec) : Z * Z * Z * gostr :=
  let p := payload r in (field p 0 4, field p 4 1, field p 5 1, counted_text (field p 6 1) (field p 7 1) (zdrop 8 p) (spare (b_data r))).
(** XF: the number format *)
Definition xf_entry (r : brec) : Z := field (payload r) 2 2.
(** Format: number and code *)
Definition format_entry (r : brec) : Z * gostr :=
  let p := payload r in (field p 0 2, counted_text (field p 2 2) (field p 4 1) (zdrop 5 p) (spare (b_data r))).

(** ** the positions a record of a sheet is about, [mr] and [mc] being the declared rows and columns *)
Definition within (g : Z * Z * Z * Z) (r c : Z) : Prop := match g with (r0, r1, c0, c1) => r0 <= r <= r1 /\ c0 <= c <= c1 end.
Definition addresses (mr mc : Z) (x : brec) (r c : Z) : Prop :=
  let p := payload x in
  In (b_type x) [515; 638; 253; 517; 6] /\ r = field p 0 2 /\ c = field p 2 2 \/
  b_type x = 189 /\ r = field p 0 2 /\ field p 2 2 <= c < field p 2 2 + (zlen p - 6) / 6 \/
  b_type x = 440 /\ within (clip mr mc (region_at p 0)) r c \/
  b_type x = 229 /\ exists i, 0 <= i < field p 0 2 /\ within (clip mr mc (region_at p (2 + 8 * i))) r c.

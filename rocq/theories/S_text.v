(** * S_text: the texts a sheet shows, and what the commands print of it. *)
From Verif Require Import GoBase GoFloat GoUnicode M_grate M_value M_fmt M_formats M_cell M_sheet S_cell S_sheet S_grid S_formats S_display.

(** the text of a cell write under the formats x; a link shows its target (and <nil> when it has
    none, see C63) *)
Definition write_text (x : formatter) (w : gwrite) (t : gostr) : Prop :=
  match w with
  | WPut v f => exists type code, cell_views x v f t type code
  | WText s f => fx_apply x f (GStr s) = Ok (t, true)
  | WLink s => t = match s with [] => bs "<nil>" | _ => s end
  end.
(** the format of a write is built in or declared (and does not stand on an empty text) *)
Definition write_known (x : formatter) (w : gwrite) : Prop :=
  match w with
  | WPut _ f => 0 <= f < 65536 /\ known x f
  | WText s f => 0 <= f < 65536 /\ known x f /\ (s <> [] \/ f = 0)
  | WLink _ => True
  end.

(** The rows of texts of a sheet with these writes and declared size: a rectangle with the text
    of the last write at every position and no text elsewhere; every write is in it. *)
Definition text_rows (x : formatter) (ws : list gop) (rows cols : Z) (ts : list (list gostr)) : Prop :=
  (forall r c t, at2 ts r c = Some t -> match last_write ws (Z.of_nat r) (Z.of_nat c) with Some w => write_text x w t | None => t = [] end) /\
  (forall r c, last_write ws r c <> None -> exists t, at2 ts (Z.to_nat r) (Z.to_nat c) = Some t) /\
  (ws = [] /\ rows <= 0 /\ cols <= 0 /\ ts = [] \/
   zlen ts = extent (Z.max 1 rows) (map (fun o : gop => fst (fst o)) ws) + 1 /\
   Forall (fun row => zlen row = extent (Z.max 1 cols) (map (fun o : gop => snd (fst o)) ws)) ts).
(** at most one row and one column are written or declared *)
Definition single_cell (ws : list gop) (rows cols : Z) : bool :=
  (extent (Z.max 1 rows) (map (fun o : gop => fst (fst o)) ws) <=? 1) && (extent (Z.max 1 cols) (map (fun o : gop => snd (fst o)) ws) <=? 1).

(** a named sheet as rows of text, with the outcome of IsEmpty *)
Record table := mkTable { tb_name : gostr; tb_single : bool; tb_rows : list (list gostr) }.

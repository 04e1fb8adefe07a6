(** * S_grid: what a reader leaves in a sheet, as a list of cell writes. *)
From Verif Require Import GoBase GoFloat GoUnicode GoTime M_grate M_value M_dates M_fmt M_formats M_cell M_sheet S_cell S_sheet.

(** a value with a format id, a text that is kept as it is with a format id, or a link *)
Inductive gwrite := WPut (v : goval) (f : Z) | WText (t : gostr) (f : Z) | WLink (t : gostr).
Notation gop := (Z * Z * gwrite)%type.

(** the last write at (r, c) *)
Fixpoint last_write (l : list gop) (r c : Z) : option gwrite :=
  match l with
  | [] => None
  | (r', c', w) :: l =>
      match last_write l r c with
      | Some x => Some x
      | None => if (r' =? r) && (c' =? c) then Some w else None
      end
  end.

(** the cell a write leaves *)
Definition wrote (x : formatter) (w : gwrite) (cl : list goval) : Prop :=
  match w with
  | WPut v f => put_cell_spec x v f cl
  | WText t f => cl = [GStr t; GCType StringCell] ++ (if f =? 0 then [] else [GInt KUint16 f])
  | WLink t => cl = [match t with [] => GNil | _ => GStr t end; GCType HyperlinkStringCell; GInt KUint16 0; GStr t]
  end.

(** The sheet formats with x, and IsEmpty tells whether it has at most one row and one column.
    Reading the sheet with Next/Raw gives a grid that shows the last write at every written
    position and blank cells elsewhere; every written position and the declared rows and
    columns are in the grid.  The grid is a rectangle, no larger than needed except for one more
    row at the end (see C12); it is empty when there are neither writes nor declared cells. *)
Definition extent (n : Z) (l : list Z) : Z := fold_right (fun i m => Z.max (i + 1) m) n l.
Definition displays (x : formatter) (ws : list gop) (rows cols : Z) (s : sheet) : Prop :=
  sh_fx s = x /\ is_empty s = (extent (Z.max 1 rows) (map (fun o : gop => fst (fst o)) ws) <=? 1) && (extent (Z.max 1 cols) (map (fun o : gop => snd (fst o)) ws) <=? 1) /\
  exists grid, delivers raw s grid /\
    (forall r c row cl, nth_error grid r = Some row -> nth_error row c = Some cl ->
       match last_write ws (Z.of_nat r) (Z.of_nat c) with
       | Some w => wrote x w cl
       | None => cl = []
       end) /\
    (forall r c, last_write ws r c <> None \/ 0 <= r < rows /\ 0 <= c < cols ->
       exists row cl, nth_error grid (Z.to_nat r) = Some row /\ nth_error row (Z.to_nat c) = Some cl) /\
    (ws = [] /\ rows <= 0 /\ cols <= 0 /\ grid = [] \/
     zlen grid = extent (Z.max 1 rows) (map (fun o : gop => fst (fst o)) ws) + 1 /\
     Forall (fun row => zlen row = extent (Z.max 1 cols) (map (fun o : gop => snd (fst o)) ws)) grid).

Definition good_write (o : gop) : Prop :=
  0 <= fst (fst o) /\ 0 <= snd (fst o) /\
  match snd o with
  | WPut v f => 0 <= f < 65536 /\ good_value v
  | WText _ f => 0 <= f < 65536
  | WLink _ => True
  end.

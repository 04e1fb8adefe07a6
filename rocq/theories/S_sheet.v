(** * S_sheet: what a commonxl.Sheet is meant to be, independently of the code. *)
From Verif Require Import GoBase GoFloat GoUnicode GoTime M_grate M_value M_dates M_fmt M_formats M_cell M_sheet S_cell.

(** Reading a sheet: call Next until it returns false, observing every record. *)
Inductive delivers {A} (obs : sheet -> res A) : sheet -> list A -> Prop :=
| dl_end : forall s s', next s = (false, s') -> delivers obs s []
| dl_more : forall s s' a l, next s = (true, s') -> obs s' = Ok a -> delivers obs s' l ->
    delivers obs s (a :: l).

(** The calls that build a sheet. *)
Inductive sop :=
| OPut (row col : Z) (v : goval) (fmt : Z)
| OResize (rows cols : Z).

Definition run_op (s : sheet) (o : sop) : res sheet :=
  match o with
  | OPut r c v f => put s r c v f
  | OResize r c => Ok (resize s r c)
  end.
Fixpoint run_ops (s : sheet) (l : list sop) : res sheet :=
  match l with
  | [] => Ok s
  | o :: l => s' <- run_op s o ;; run_ops s' l
  end.

(** the last value put at (r, c) *)
Fixpoint last_put (l : list sop) (r c : Z) : option (goval * Z) :=
  match l with
  | [] => None
  | o :: l =>
      match last_put l r c with
      | Some x => Some x
      | None => match o with
                | OPut r' c' v f => if (r' =? r) && (c' =? c) then Some (v, f) else None
                | OResize _ _ => None
                end
      end
  end.

Definition merge_mark (v : goval) : Prop :=
  v = GStr (bs "→") \/ v = GStr (bs "⇥") \/ v = GStr (bs "↓") \/ v = GStr (bs "⤓").

(** [put_cell_spec x v f c]: c is the cell for value v and format id f.  Placeholders of merged
    cells are kept as static text.  Otherwise the value is held as [holds] says, coerced to the
    cell type of the format if it has one, and the format id is kept when it is not 0. *)
Definition put_cell_spec (x : formatter) (v : goval) (f : Z) (c : list goval) : Prop :=
  (merge_mark v /\ c = [v; GCType StaticCell]) \/
  (~ merge_mark v /\
   exists v0 t0 v' t', holds v v0 t0 /\
     c = [v'; GCType t'] ++ (if f =? 0 then [] else [GInt KUint16 f]) /\
     match (if f =? 0 then None else fx_cell_type x f) with
     | None => v' = v0 /\ t' = t0
     | Some ct => if ctype_eqb t0 ct then v' = v0 /\ t' = t0 else coerced (fx_1904 x) ct v0 v' t'
     end).

(** formatters as the readers make them: new, with any Mode1904 and Add calls *)
Inductive reach_fx : formatter -> Prop :=
| rf_new : reach_fx new_formatter
| rf_mode : forall x b, reach_fx x -> reach_fx (fx_mode1904 x b)
| rf_add : forall x id code, reach_fx x -> reach_fx (fst (fx_add x id code)).

(** a value NewCell accepts, with no uint above MaxInt64 *)
Definition good_value (v : goval) : Prop :=
  proper v /\ v <> GNil /\ (forall t, v <> GOther t) /\ ~ (exists z, v = GInt KUint z /\ 2 ^ 63 <= z).

Definition good_put (o : sop) : Prop :=
  match o with OPut r c v f => 0 <= r /\ 0 <= c /\ 0 <= f < 65536 /\ good_value v | OResize _ _ => False end.

(** Put calls, and Resize calls that do not shrink the sheet they are applied to *)
Inductive grows : sheet -> list sop -> Prop :=
| gr_nil : forall s, grows s []
| gr_put : forall s r c v f s' l, good_put (OPut r c v f) -> put s r c v f = Ok s' -> grows s' l ->
    grows s (OPut r c v f :: l)
| gr_resize : forall s r c l, sh_nrows s <= r -> sh_ncols s <= c -> grows (resize s r c) l ->
    grows s (OResize r c :: l).

(** the pointer types and the values they accept *)
Definition scannable (d : sdest) (v : goval) : Prop :=
  match d, v with
  | SBool, GBool _ | SInt64, GInt KInt64 _ | SFloat64, GF64 _ | SString, GStr _ | STime, GTime _ => True
  | _, _ => False
  end.

(** sheets reachable through the API, with Resize calls that do not shrink *)
Inductive reach_sheet : sheet -> Prop :=
| rs_new : forall x, reach_fx x -> reach_sheet (empty_sheet x)
| rs_put : forall s r c v f s', reach_sheet s -> good_put (OPut r c v f) -> put s r c v f = Ok s' -> reach_sheet s'
| rs_resize : forall s r c, reach_sheet s -> sh_nrows s <= r -> sh_ncols s <= c -> reach_sheet (resize s r c)
| rs_next : forall s b s', reach_sheet s -> next s = (b, s') -> reach_sheet s'
| rs_set : forall s r c v s', reach_sheet s -> set_value s r c v = Ok s' -> reach_sheet s'
| rs_url : forall s r c v s', reach_sheet s -> set_url s r c v = Ok s' -> reach_sheet s'.

(** a position inside the sheet, counting the extra last row that Resize allocates *)
Definition inside (s : sheet) (r c : Z) : Prop := 0 <= r <= sh_nrows s /\ 0 <= c < sh_ncols s.

(** * S_simple: specification of delimited text files. *)
From Verif Require Import GoBase GoFloat M_grate M_simple.
From Coq Require Import Permutation.

(** A text is a sequence of newline-terminated lines; a last line without newline counts
    when it is not empty. *)
Inductive Lines : bytes -> list bytes -> Prop :=
| Lines_nil : Lines [] []
| Lines_last : forall l, l <> [] -> ~ In 10 l -> Lines l [l]
| Lines_more : forall l rest ls, ~ In 10 l -> Lines rest ls -> Lines (l ++ 10 :: rest) (l :: ls).

(** one carriage return at the end of a line is dropped *)
Definition StripCR (l l' : bytes) : Prop :=
  l = l' ++ [13] \/ (l' = l /\ forall x, l <> x ++ [13]).

(** the fields of a line: the only tab-free list that joins to it *)
Definition FieldsOf (line : bytes) (fs : list gostr) : Prop :=
  fs <> [] /\ Forall (fun f => ~ In 9 f) fs /\ line = join [9] fs.

(** a row as the fields of a raw line *)
Definition RowOf (raw : bytes) (fs : list gostr) : Prop :=
  exists l, StripCR raw l /\ FieldsOf l fs.

(** tab-separated text of a table *)
Definition tsv_text (rows : list (list gostr)) : bytes :=
  flat_map (fun r => join [9] r ++ [10]) rows.

(** how many rows have exactly c fields *)
Definition width_count (c : Z) (rows : list (list gostr)) : Z :=
  zlen (filter (fun r => zlen r =? c) rows).

(** the shape test of OpenTSV in words: reject when some multi-column width occurs more than
    25 times although no multi-column width makes up more than 80% (and more than 10) of
    the rows *)
Definition shape_ok (rows : list (list gostr)) : Prop :=
  (forall c, 1 < c -> width_count c rows <= 25) \/
  (exists c, 1 < c /\ 10 < width_count c rows /\ 4 * zlen rows < 5 * width_count c rows).

(** a Go map may be walked in any order *)
Definition any_order (iter : list (Z * Z) -> list (Z * Z)) : Prop :=
  forall m, Permutation m (iter m).

(** k calls of Next: final state and the last answer *)
Fixpoint nexts (k : nat) (t : simple_file) : simple_file * bool :=
  match k with
  | O => (t, false)
  | S k' => sf_next (fst (nexts k' t))
  end.

(** a printable field: no tab, no newline *)
Definition plain_field (f : gostr) : Prop := ~ In 9 f /\ ~ In 10 f.

(** a table that survives the trip through tab-separated text *)
Definition plain_table (rows : list (list gostr)) : Prop :=
  Forall (fun r => r <> [] /\ Forall plain_field r /\
                   zlen (join [9] r) <= 65535 /\
                   forall x, join [9] r <> x ++ [13]) rows.

(** * S_table: every shared string table, with any flag bits, any division into records and any
    record ends between strings (MS-XLS 2.4.265, 2.5.293). *)
From Verif Require Import GoBase GoUnicode S_xlstr.

(** flag bytes: bit 0 16-bit characters, bit 2 phonetic data, bit 3 formatting runs; the others mean nothing *)
Definition wide (f : Z) : bool := f mod 2 =? 1.
Definition has_ext (f : Z) : bool := (f / 4) mod 2 =? 1.
Definition has_runs (f : Z) : bool := (f / 8) mod 2 =? 1.

Record tstring := mkTS {
  ts_flags : Z;
  ts_first : list Z;                  (* characters in the record of the header *)
  ts_more : list (Z * list Z);        (* flag byte and characters in each further record *)
  ts_runs : list bytes;               (* formatting runs, in pieces, one per record *)
  ts_ext : list bytes                 (* phonetic data, likewise *)
}.
Definition ts_units (s : tstring) : list Z := ts_first s ++ flat_map snd (ts_more s).
Definition ts_header (s : tstring) : bytes :=
  put16 (zlen (ts_units s)) ++ [ts_flags s] ++
  (if has_runs (ts_flags s) then put16 (zlen (concat (ts_runs s)) / 4) else []) ++
  (if has_ext (ts_flags s) then put32 (zlen (concat (ts_ext s))) else []).
Definition ts_chars (s : tstring) : list bytes :=
  enc_units (wide (ts_flags s)) (ts_first s) :: map (fun c => fst c :: enc_units (wide (fst c)) (snd c)) (ts_more s).
Definition ts_tail (s : tstring) : list bytes := glue (ts_runs s) (ts_ext s).
Definition ts_pieces (s : tstring) : list bytes := glue [ts_header s] (glue (ts_chars s) (ts_tail s)).
Definition ts_text (s : tstring) : gostr := utf16_string (ts_units s).

Definition ts_ok (s : tstring) : Prop :=
  zlen (ts_units s) < 65536 /\ 0 <= ts_flags s < 256 /\ units_fit (wide (ts_flags s)) (ts_first s) /\
  Forall (fun c => 0 <= fst c < 256 /\ units_fit (wide (fst c)) (snd c) /\ snd c <> []) (ts_more s) /\
  ts_runs s <> [] /\ ts_ext s <> [] /\
  (if has_runs (ts_flags s) then zlen (concat (ts_runs s)) mod 4 = 0 /\ zlen (concat (ts_runs s)) / 4 < 65536 else concat (ts_runs s) = []) /\
  (if has_ext (ts_flags s) then zlen (concat (ts_ext s)) < 4294967296 else concat (ts_ext s) = []).

(** strings in order, each after any number of record ends, and [e] record ends after the last *)
Fixpoint table (l : list (nat * tstring)) (e : nat) : list bytes :=
  match l with
  | [] => repeat [] e ++ [[]]
  | (k, s) :: l => repeat [] k ++ glue (ts_pieces s) (table l e)
  end.
(** the record of the last character of [s] and, if it is a 16-bit one, what the record has after it *)
Definition ts_last (s : tstring) : Z * list Z := last (ts_more s) (ts_flags s, ts_first s).
Definition not_one (s : tstring) (after : list bytes) : Prop :=
  wide (fst (ts_last s)) = true -> snd (ts_last s) <> [] -> zlen (hd [] (glue (ts_tail s) after)) <> 1.
Fixpoint table_ok (l : list (nat * tstring)) (e : nat) : Prop :=
  match l with
  | [] => True
  | (_, s) :: l => ts_ok s /\ not_one s (table l e) /\ table_ok l e
  end.
(** the payloads of the SST record and of its Continue records; [head] holds the two counts *)
Definition is_table (recs : list bytes) (texts : list gostr) : Prop :=
  exists head l e, zlen head = 8 /\ table_ok l e /\ recs = glue [head] (table l e) /\ texts = map (fun x => ts_text (snd x)) l.

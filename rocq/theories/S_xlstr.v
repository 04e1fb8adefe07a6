(** * S_xlstr: strings and numbers as MS-XLS stores them. *)
From Verif Require Import GoBase GoUnicode GoFloat M_value.

(** UTF-16 encoding of a text given as Unicode scalar values *)
Definition utf16_enc1 (r : Z) : list Z :=
  if r <? 65536 then [r] else [55296 + (r - 65536) / 1024; 56320 + (r - 65536) mod 1024].
Definition utf16_enc (rs : list Z) : list Z := flat_map utf16_enc1 rs.
Definition scalar (r : Z) : Prop := 0 <= r < 55296 \/ 57344 <= r <= 1114111.

(** characters in 8-bit or 16-bit form *)
Definition enc_units (wide : bool) (us : list Z) : bytes := if wide then flat_map put16 us else us.
Definition units_fit (wide : bool) (us : list Z) : Prop := Forall (fun u => 0 <= u < (if wide then 65536 else 256)) us.
Definition flag (wide : bool) : Z := if wide then 1 else 0.

(** ShortXLUnicodeString (2.5.240) and XLUnicodeString (2.5.294); any reserved flag bits *)
Definition short_string (res : Z) (wide : bool) (us : list Z) : bytes := [zlen us; 2 * res + flag wide] ++ enc_units wide us.
Definition long_string (res : Z) (wide : bool) (us : list Z) : bytes := put16 (zlen us) ++ [2 * res + flag wide] ++ enc_units wide us.

(** ** shared string table (2.4.265 and 2.5.293) *)
(** Data laid out over records: the first element goes into the current record, every further
    element starts a new record. *)
Fixpoint glue (a b : list bytes) : list bytes :=
  match a with
  | [] => b
  | [x] => match b with [] => [x] | y :: b' => (x ++ y) :: b' end
  | x :: a' => x :: glue a' b
  end.

(** A string: its characters in the chunks in which they are stored, one per record touched;
    formatting runs and phonetic data, cut into the pieces in which they are stored. *)
Record sst_item := mkItem {
  it_first : bool * list Z;             (* encoding and characters in the record of the header *)
  it_more : list (bool * list Z);       (* the same in further records *)
  it_runs : option (list bytes);
  it_ext : option (list bytes)
}.
Definition it_units (s : sst_item) : list Z := snd (it_first s) ++ flat_map snd (it_more s).
Definition opt_len (o : option (list bytes)) : Z := match o with None => 0 | Some ps => zlen (concat ps) end.
Definition opt_pieces (o : option (list bytes)) : list bytes := match o with None => [[]] | Some ps => ps end.
Definition it_header (s : sst_item) : bytes :=
  put16 (zlen (it_units s)) ++
  [flag (fst (it_first s)) + (match it_ext s with None => 0 | _ => 4 end) + (match it_runs s with None => 0 | _ => 8 end)] ++
  (match it_runs s with None => [] | Some ps => put16 (zlen (concat ps) / 4) end) ++
  (match it_ext s with None => [] | Some ps => put32 (zlen (concat ps)) end).
(** a continued string starts its new record with a byte giving the encoding *)
Definition it_chars (s : sst_item) : list bytes :=
  enc_units (fst (it_first s)) (snd (it_first s)) :: map (fun c => flag (fst c) :: enc_units (fst c) (snd c)) (it_more s).
Definition it_tail (s : sst_item) : list bytes := glue (opt_pieces (it_runs s)) (opt_pieces (it_ext s)).
Definition it_pieces (s : sst_item) : list bytes := glue [it_header s] (glue (it_chars s) (it_tail s)).

Definition it_last (s : sst_item) : bool * list Z := last (it_more s) (it_first s).
Definition it_ok (s : sst_item) : Prop :=
  zlen (it_units s) < 65536 /\
  units_fit (fst (it_first s)) (snd (it_first s)) /\
  Forall (fun c => units_fit (fst c) (snd c) /\ snd c <> []) (it_more s) /\
  opt_pieces (it_runs s) <> [] /\ opt_pieces (it_ext s) <> [] /\
  opt_len (it_runs s) mod 4 = 0 /\ opt_len (it_runs s) / 4 < 65536 /\ opt_len (it_ext s) < 4294967296 /\
  (* a 16-bit character is never followed by exactly one more byte of the string in its record *)
  (fst (it_last s) = true -> zlen (hd [] (it_tail s)) <> 1).

(** the strings in order, each preceded by any number of record boundaries *)
Fixpoint layout (l : list (nat * sst_item)) : list bytes :=
  match l with
  | [] => [[]]
  | (k, s) :: l => repeat [] k ++ glue (it_pieces s) (layout l)
  end.
(** the payloads of the SST record and its Continue records *)
Definition sst_records (total : Z) (l : list (nat * sst_item)) : list bytes :=
  glue [put32 total ++ put32 (zlen l)] (layout l).
Definition item_text (s : sst_item) : gostr := utf16_string (it_units s).

(** ** RkNumber (2.5.217): bit 0 fX100, bit 1 fInt, 30 bits num *)
(** num as a signed integer *)
Definition rk_signed (r : Z) : Z := if r / 4 <? 2 ^ 29 then r / 4 else r / 4 - 2 ^ 30.
(** num as the 30 most significant bits of a double *)
Definition rk_double (r : Z) : f64 := f_of_bits ((r / 4) * 2 ^ 34).

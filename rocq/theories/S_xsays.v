(** * S_xsays: what the tokens of an XLSX sheet part say, wherever they stand. *)
From Verif Require Import GoBase GoPath GoFloat M_grate M_value M_xlsx S_grid S_xls S_xlsx S_xrobust.

Section XSays.
  Variables (strs : list gostr) (xfs : list Z) (target : gostr -> option gostr).
  (** the number format of the cell begun last, [f] before the token; 0 beyond the table *)
  Definition format_after (f : Z) (t : xtok) : Z :=
    match t with
    | XStart n a => if str_eqb n (bs "c") then nth (Z.to_nat (number (get_attr a (bs "s")))) xfs 0 else f
    | _ => f
    end.
  (** a text in a cell of type [ty] *)
  Definition text_says (ty : gostr) (v : bytes) : goval :=
    if str_eqb ty (bs "b") then GBool (match v with b :: _ => b =? 49 | [] => false end)
    else if str_eqb ty (bs "n") then number_value v
    else if str_eqb ty (bs "s") then GStr (nth (Z.to_nat (number v)) strs [])
    else GStr v.
  (** one token, with what is remembered of those before it; pos_of gives column and row *)
  Definition tok_says (x : xctx) (f : Z) (t : xtok) : list gop :=
    match t with
    | XChars v =>
        match cx_ref x with
        | [] => []
        | ref => let (c, r) := pos_of ref in if (0 <=? c) && (0 <=? r) then [(r, c, WPut (text_says (cx_type x) v) f)] else []
        end
    | XStart n a =>
        if str_eqb n (bs "mergeCell") then
          let (c0, r0) := pos_of (range_start (get_attr a (bs "ref"))) in
          let (c1, r1) := pos_of (range_end (get_attr a (bs "ref"))) in
          region_cells (r0, Z.min r1 (cx_row x), c0, Z.min c1 (cx_col x)) []
        else if str_eqb n (bs "hyperlink") then
          let (c, r) := pos_of (get_attr a (bs "ref")) in
          [(r, c, WLink (match target (get_attr a (bs "id")) with Some t => t | None => [] end))]
        else []
    | _ => []
    end.
  Fixpoint xsays (l : list xtok) (x : xctx) (f : Z) : list gop :=
    match l with
    | [] => []
    | t :: l => tok_says x f t ++ xsays l (remember x t) (format_after f t)
    end.
End XSays.
Definition xsheet_says (strs : list gostr) (xfs : list Z) (target : gostr -> option gostr) (l : list xtok) : list gop := xsays strs xfs target l ctx0 0.
(** rows and columns: the end of the dimension element *)
Definition xdeclared (l : list xtok) : Z * Z := (cx_row (context l), cx_col (context l)).

(** the token [t] behind the tokens [pre] is about the cell at row r, column c *)
Definition about (pre : list xtok) (t : xtok) (r c : Z) : Prop :=
  match t with
  | XChars _ => cx_ref (context pre) <> [] /\ at_pos (cx_ref (context pre)) c r
  | XStart n a =>
      n = bs "mergeCell" /\ (exists c0 r0 c1 r1, at_pos (range_start (get_attr a (bs "ref"))) c0 r0 /\ at_pos (range_end (get_attr a (bs "ref"))) c1 r1 /\ c0 <= c <= c1 /\ r0 <= r <= r1 /\ (c, r) <> (c0, r0)) \/
      n = bs "hyperlink" /\ at_pos (get_attr a (bs "ref")) c r
  | _ => False
  end.

(** ** the package *)
(** the relationships of a part, each with the directory its target is relative to *)
Notation xrelation := (gostr * list xattr)%type.
Definition relations (dir : gostr) (l : list xtok) : list xrelation := map (fun a => (dir, a)) (elements "Relationship" l).
Definition rel_type (e : xrelation) : gostr := map_get (snd e) (bs "Type").
Definition rel_id (e : xrelation) : gostr := map_get (snd e) (bs "Id").
Definition rel_target (e : xrelation) : gostr := map_get (snd e) (bs "Target").
(** the part a relationship points to *)
Definition rel_part (e : xrelation) : gostr := match rel_target e with 47 :: rest => rest | _ => path_join [fst e; rel_target e] end.
(** the last relationship of that type and id *)
Definition rel_lookup (es : list xrelation) (ty : string) (id : gostr) : option gostr :=
  option_map rel_part (find (fun e => str_eqb (rel_type e) (rel_uri ty) && str_eqb (rel_id e) id) (rev es)).
(** the target of the last relationship to an office document *)
Definition rel_office_target (es : list xrelation) : gostr :=
  match find (fun e => str_eqb (rel_type e) (rel_uri "officeDocument")) (rev es) with Some e => rel_target e | None => [] end.
(** where the relationships of a part are, and its directory *)
Definition dir_of (part : gostr) : gostr := trim_suffix part (path_base part).
Definition rels_file (part : gostr) : gostr := path_join [dir_of part; bs "_rels"; path_base part ++ bs ".rels"].
(** hyperlinks of a sheet: the last external one of that id *)
Definition link_lookup (es : list (list xattr)) (id : gostr) : option gostr :=
  option_map (fun a => get_attr a (bs "Target"))
    (find (fun a => str_eqb (get_attr a (bs "TargetMode")) (bs "External") && str_eqb (get_attr a (bs "Type")) (rel_uri "hyperlink") && str_eqb (get_attr a (bs "Id")) id) (rev es)).
Definition links_of (z : xzip) (part id : gostr) : option gostr :=
  match open_xml z (rels_file part) with inl x => link_lookup (elements "Relationship" (xm_toks x)) id | inr _ => None end.

(** shared strings: at the end of an si element, the text since the last si began *)
Definition si_text (pre : list xtok) : gostr :=
  fold_left (fun v t => match t with XStart n _ => if str_eqb n (bs "si") then [] else v | XChars c => v ++ c | _ => v end) pre [].
Fixpoint shared_says (l pre : list xtok) : list gostr :=
  match l with
  | [] => []
  | t :: l => (match t with XEnd n => if str_eqb n (bs "si") then [si_text pre] else [] | _ => [] end) ++ shared_says l (pre ++ [t])
  end.
(** cell formats: the xf elements of the last cellXfs *)
Definition xf_number (a : list xattr) : Z :=
  if str_eqb (get_attr a (bs "applyNumberFormat")) (bs "0") then 0 else u16 (fst (parse_int 16 (get_attr a (bs "numFmtId")))).
Fixpoint xfs_say (l pre : list xtok) (acc : list Z) : list Z :=
  match l with
  | [] => acc
  | t :: l => xfs_say l (pre ++ [t])
      (match t with
       | XStart n a => if str_eqb n (bs "cellXfs") then [] else if str_eqb n (bs "xf") && (section_of pre =? 2) then acc ++ [xf_number a] else acc
       | _ => acc
       end)
  end.
(** number formats: numFmt elements *)
Definition numfmts (l : list xtok) : list (Z * gostr) :=
  map (fun a => (u16 (fst (parse_int 16 (get_attr a (bs "numFmtId")))), get_attr a (bs "formatCode"))) (elements "numFmt" l).

(** all parts of these names, read to their end *)
Definition whole (z : xzip) (name : gostr) (l : list xtok) : Prop := exists x, open_xml z name = inl x /\ xm_toks x = l /\ end_err (xm_end x) = None.

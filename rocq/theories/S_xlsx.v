(** * S_xlsx: Office Open XML parts as sequences of tokens, and what they mean (ECMA-376). *)
From Verif Require Import GoBase GoFloat GoUnicode M_grate M_value M_formats M_sheet M_xlsx S_sheet S_grid S_xls.

(** ** A1 references *)
(** column letters: bijective base 26; 0 is A, 25 is Z, 26 is AA *)
Fixpoint letters_fuel (fuel : nat) (n : Z) (acc : gostr) : gostr :=
  match fuel with
  | O => acc
  | S k => let acc := (65 + n mod 26) :: acc in if n <? 26 then acc else letters_fuel k (n / 26 - 1) acc
  end.
Definition letters (n : Z) : gostr := letters_fuel (S (Z.to_nat (Z.log2 n))) n [].
(** the reference of column c and row r, both from 0 *)
Definition a1 (c r : Z) : gostr := letters c ++ utoa (r + 1).
Definition coord_ok (n : Z) : Prop := 0 <= n < 9223372036854775807.
(** a range of cells *)
Definition a1_range (c0 r0 c1 r1 : Z) : gostr := a1 c0 r0 ++ [58] ++ a1 c1 r1.

(** ** elements of a document *)
(** the attributes of all elements of that name, in document order *)
Definition elements (name : string) (l : list xtok) : list (list xattr) :=
  flat_map (fun t => match t with XStart n a => if str_eqb n (bs name) then [a] else [] | _ => [] end) l.
(** value of an attribute; documents have no attribute twice in an element *)
Definition has_attr (a : list xattr) (key : string) (v : gostr) : Prop := exists x y, a = x ++ (bs key, v) :: y /\ ~ In (bs key) (map fst x) /\ ~ In (bs key) (map fst y).
Definition no_attr (a : list xattr) (key : string) : Prop := ~ In (bs key) (map fst a).
(** an optional attribute *)
Definition opt_attr (a : list xattr) (key : string) (v : option gostr) : Prop := match v with Some v => has_attr a key v | None => no_attr a key end.

(** ** part names: segments that are not empty, "." or ".." and have no slash *)
Definition seg_ok (s : gostr) : Prop := s <> [] /\ s <> [46] /\ s <> [46; 46] /\ ~ In 47 s.
Definition path (l : list gostr) : gostr := join [47] l.
(** the part with the relationships of part dir/base *)
Definition rels_part (dir : list gostr) (base : gostr) : gostr := path (dir ++ [bs "_rels"; base ++ bs ".rels"]).

(** ** shared strings *)
(** parts of a string item: a text, a rich text run (its properties hold no text), a phonetic
    run, white space between elements *)
Definition quiet (l : list xtok) : Prop := Forall (fun t => match t with XStart n _ | XEnd n => n <> bs "si" | XChars _ => False | XOther => True end) l.
Inductive spart :=
| SpText (a : list xattr) (t : list bytes)
| SpRun (props : list xtok) (a : list xattr) (t : list bytes)
| SpPhonetic (a1 a2 : list xattr) (t : list bytes)
| SpSpace (t : bytes).
Definition t_toks (a : list xattr) (t : list bytes) : list xtok := XStart (bs "t") a :: map XChars t ++ [XEnd (bs "t")].
Definition spart_toks (p : spart) : list xtok :=
  match p with
  | SpText a t => t_toks a t
  | SpRun props a t => XStart (bs "r") [] :: props ++ t_toks a t ++ [XEnd (bs "r")]
  | SpPhonetic b a t => XStart (bs "rPh") b :: t_toks a t ++ [XEnd (bs "rPh")]
  | SpSpace t => [XChars t]
  end.
Definition spart_ok (p : spart) : Prop := match p with SpRun props _ _ => quiet props | _ => True end.
(** the string of an item: texts and rich text runs, without phonetic hints (18.4.8) *)
Definition spart_text (p : spart) : gostr := match p with SpText _ t | SpRun _ _ t => concat t | _ => [] end.
(** the table: white space and other tokens, then the items *)
Definition between (l : list xtok) : Prop := Forall (fun t => match t with XStart n _ | XEnd n => n <> bs "si" | _ => True end) l.
Definition sst_toks (pre : list xtok) (items : list (list spart * list xtok)) : list xtok :=
  pre ++ flat_map (fun i => XStart (bs "si") [] :: flat_map spart_toks (fst i) ++ XEnd (bs "si") :: snd i) items.

(** ** style sheets *)
(** an xf element: number format id, applyNumberFormat, xfId *)
Definition style_names : list gostr := map bs ["numFmt"; "cellStyleXfs"; "cellXfs"; "xf"]%string.
Definition other (names : list gostr) (t : xtok) : Prop := match t with XStart n _ | XEnd n => ~ In n names | _ => True end.
(** parts of a style sheet: other tokens, a numFmt element, the two xf tables *)
Record xfe := mkXfe { xf_attrs : list xattr; xf_id : Z; xf_apply : option gostr; xf_base : option Z; xf_rest : list xtok }.
Inductive spiece :=
| PcOther (t : xtok)
| PcNumFmt (a : list xattr) (id : Z) (code : gostr)
| PcBase (a : list xattr) (l : list (list xattr * list xtok))
| PcCells (a : list xattr) (count : option Z) (pre : list xtok) (l : list xfe).
Definition spiece_toks (p : spiece) : list xtok :=
  match p with
  | PcOther t => [t]
  | PcNumFmt a id code => [XStart (bs "numFmt") a; XEnd (bs "numFmt")]
  | PcBase a l => XStart (bs "cellStyleXfs") a :: flat_map (fun x => XStart (bs "xf") (fst x) :: snd x ++ [XEnd (bs "xf")]) l ++ [XEnd (bs "cellStyleXfs")]
  | PcCells a n pre l => XStart (bs "cellXfs") a :: pre ++ flat_map (fun x => XStart (bs "xf") (xf_attrs x) :: xf_rest x ++ [XEnd (bs "xf")]) l ++ [XEnd (bs "cellXfs")]
  end.
Definition xfe_ok (x : xfe) : Prop :=
  has_attr (xf_attrs x) "numFmtId" (utoa (xf_id x)) /\ 0 <= xf_id x < 32768 /\ opt_attr (xf_attrs x) "applyNumberFormat" (xf_apply x) /\
  opt_attr (xf_attrs x) "xfId" (option_map utoa (xf_base x)) /\ (forall b, xf_base x = Some b -> 0 <= b < 2 ^ 63) /\ Forall (other style_names) (xf_rest x).
Definition spiece_ok (p : spiece) : Prop :=
  match p with
  | PcOther t => other style_names t
  | PcNumFmt a id code => has_attr a "numFmtId" (utoa id) /\ has_attr a "formatCode" code /\ 0 <= id < 32768
  | PcBase a l => Forall (fun x => Forall (other style_names) (snd x)) l
  | PcCells a n pre l => opt_attr a "count" (option_map utoa n) /\ (forall k, n = Some k -> 0 <= k <= 2 ^ 47) /\ Forall (other style_names) pre /\ Forall xfe_ok l
  end.
Definition style_toks (l : list spiece) : list xtok := flat_map spiece_toks l.
(** number formats by style number: those of the (last) cellXfs table *)
Definition xfe_format (x : xfe) : Z := match xf_apply x with Some [48] => 0 | _ => xf_id x end.
Fixpoint style_xfs (l : list spiece) (xfs : list Z) : list Z :=
  match l with
  | [] => xfs
  | PcCells _ _ _ x :: l => style_xfs l (map xfe_format x)
  | _ :: l => style_xfs l xfs
  end.
(** custom formats in order *)
Definition style_formats (l : list spiece) : list (Z * gostr) := flat_map (fun p => match p with PcNumFmt _ id code => [(id, code)] | _ => [] end) l.

(** ** worksheets *)
Inductive xval :=
| VNumber (t : bytes)        (* no t attribute, or "n" *)
| VBool (b : bool)           (* "b" *)
| VShared (i : Z)            (* "s" *)
| VText (ty : gostr) (t : bytes).   (* "str", "inlineStr", "e", "d": text as it is *)
Definition text_types : list gostr := map bs ["str"; "inlineStr"; "e"; "d"]%string.
Definition xval_text (v : xval) : bytes :=
  match v with VNumber t => t | VBool b => [if b then 49 else 48] | VShared i => utoa i | VText _ t => t end.
(** a cell: its attributes, position, style, tokens before the value (such as a formula with its
    text), value, tokens after the value *)
Record xcell := mkXC { xc_attrs : list xattr; xc_col : Z; xc_row : Z; xc_style : option Z; xc_pre : list xtok; xc_formula : option (list xattr * bytes); xc_val : option (list xtok * xval); xc_post : list xtok }.
Definition sheet_names : list gostr := map bs ["dimension"; "c"; "mergeCell"; "hyperlink"]%string.
(** tokens that are no text and none of the elements above *)
Definition silent (t : xtok) : Prop := match t with XChars _ => False | _ => other sheet_names t end.
Definition f_toks (f : option (list xattr * bytes)) : list xtok :=
  match f with Some (a, t) => [XStart (bs "f") a; XChars t; XEnd (bs "f")] | None => [] end.
Definition xcell_toks (c : xcell) : list xtok :=
  XStart (bs "c") (xc_attrs c) :: xc_pre c ++ f_toks (xc_formula c) ++
  match xc_val c with Some (open, v) => open ++ [XChars (xval_text v)] | None => [] end ++ xc_post c ++ [XEnd (bs "c")].
Inductive xitem :=
| XiCell (c : xcell)
| XiMerge (a : list xattr) (c0 r0 c1 r1 : Z)      (* mergeCell *)
| XiLink (a : list xattr) (c r : Z) (id : option gostr)   (* hyperlink on one cell *)
| XiOther (t : xtok).                             (* anything else between cells, also text *)
Definition xitem_toks (i : xitem) : list xtok :=
  match i with
  | XiCell c => xcell_toks c
  | XiMerge a _ _ _ _ => [XStart (bs "mergeCell") a; XEnd (bs "mergeCell")]
  | XiLink a _ _ _ => [XStart (bs "hyperlink") a; XEnd (bs "hyperlink")]
  | XiOther t => [t]
  end.
Definition type_attr (v : option xval) (a : list xattr) : Prop :=
  match v with
  | Some (VNumber _) => no_attr a "t" \/ has_attr a "t" (bs "n")
  | Some (VBool _) => has_attr a "t" (bs "b")
  | Some (VShared _) => has_attr a "t" (bs "s")
  | Some (VText ty _) => has_attr a "t" ty
  | None => True
  end.
Definition xval_ok (nstr : Z) (v : xval) : Prop :=
  match v with VNumber _ => True | VBool _ => True | VShared i => 0 <= i < nstr /\ i < 2 ^ 63 | VText ty _ => In ty text_types end.
Definition xcell_ok (nstr : Z) (c : xcell) : Prop :=
  has_attr (xc_attrs c) "r" (a1 (xc_col c) (xc_row c)) /\ coord_ok (xc_col c) /\ coord_ok (xc_row c) /\
  opt_attr (xc_attrs c) "s" (option_map utoa (xc_style c)) /\ (forall s, xc_style c = Some s -> 0 <= s < 2 ^ 63) /\
  type_attr (option_map snd (xc_val c)) (xc_attrs c) /\ Forall silent (xc_pre c) /\ Forall silent (xc_post c) /\
  (forall a t, xc_formula c = Some (a, t) -> t <> [] /\ exists op v, xc_val c = Some (op, v) /\ forall i, v <> VShared i) /\
  (forall op v, xc_val c = Some (op, v) -> Forall silent op /\ xval_ok nstr v).
Definition xitem_ok (nstr : Z) (i : xitem) : Prop :=
  match i with
  | XiCell c => xcell_ok nstr c
  | XiMerge a c0 r0 c1 r1 => has_attr a "ref" (a1_range c0 r0 c1 r1) /\ coord_ok c0 /\ coord_ok r0 /\ coord_ok c1 /\ coord_ok r1
  | XiLink a c r id => has_attr a "ref" (a1 c r) /\ coord_ok c /\ coord_ok r /\ opt_attr a "id" id
  | XiOther t => other sheet_names t
  end.
(** the dimension element: none, one reference, or a range (its end) *)
Inductive xdim := DimNone | DimRef (a : list xattr) (c r : Z) | DimRange (a : list xattr) (c0 r0 c1 r1 : Z).
Definition xdim_toks (d : xdim) : list xtok :=
  match d with DimNone => [] | DimRef a _ _ | DimRange a _ _ _ _ => [XStart (bs "dimension") a; XEnd (bs "dimension")] end.
Definition xdim_ok (d : xdim) : Prop :=
  match d with
  | DimNone => True
  | DimRef a c r => has_attr a "ref" (a1 c r) /\ coord_ok c /\ coord_ok r
  | DimRange a c0 r0 c1 r1 => has_attr a "ref" (a1_range c0 r0 c1 r1) /\ coord_ok c0 /\ coord_ok r0 /\ coord_ok c1 /\ coord_ok r1
  end.
(** last column and row that merged regions may reach.  This is the end of the dimension,
    except that A1 counts as B2, and that without a dimension it is A1 (see C71). *)
Definition xdim_last (d : xdim) : Z * Z :=
  match d with DimNone => (0, 0) | DimRef _ 0 0 => (1, 1) | DimRef _ c r => (c, r) | DimRange _ _ _ c1 r1 => (c1, r1) end.
Record xwsheet := mkXW { xw_pre : list xtok; xw_dim : xdim; xw_items : list xitem }.
Definition xw_toks (w : xwsheet) : list xtok := xw_pre w ++ xdim_toks (xw_dim w) ++ flat_map xitem_toks (xw_items w).
Definition xw_ok (nstr : Z) (w : xwsheet) : Prop := Forall (other sheet_names) (xw_pre w) /\ xdim_ok (xw_dim w) /\ Forall (xitem_ok nstr) (xw_items w).

(** what the items mean *)
Definition style_format (xfs : list Z) (s : option Z) : Z := match s with Some s => nth (Z.to_nat s) xfs 0 | None => nth 0 xfs 0 end.
Definition number_value (t : bytes) : goval := match parse_float t with (f, PNone) => GF64 f | _ => GStr t end.
Definition xval_value (strs : list gostr) (v : xval) : goval :=
  match v with VNumber t => number_value t | VBool b => GBool b | VShared i => GStr (nth (Z.to_nat i) strs []) | VText _ t => GStr t end.
Section XWrites.
  Variables (strs : list gostr) (xfs : list Z) (target : gostr -> option gostr) (last : Z * Z).
  Definition xitem_writes (i : xitem) : list gop :=
    match i with
    | XiCell c => match xc_val c with
                  | Some (_, v) => [(xc_row c, xc_col c, WPut (xval_value strs v) (style_format xfs (xc_style c)))]
                  | None => []
                  end
    | XiMerge _ c0 r0 c1 r1 => region_cells (r0, Z.min r1 (snd last), c0, Z.min c1 (fst last)) []
    | XiLink _ c r id => [(r, c, WLink (match target (match id with Some i => i | None => [] end) with Some t => t | None => [] end))]
    | XiOther _ => []
    end.
End XWrites.
Definition xw_writes (strs : list gostr) (xfs : list Z) (target : gostr -> option gostr) (w : xwsheet) : list gop :=
  flat_map (xitem_writes strs xfs target (xdim_last (xw_dim w))) (xw_items w).
Definition xw_size (w : xwsheet) : Z * Z := match xw_dim w with DimNone => (0, 0) | d => xdim_last d end.

(** ** packages (ECMA-376 part 2) *)
(** targets of relationships: absolute, or relative to the directory of the source part with
    some steps up *)
Inductive xtarget := TAbs (segs : list gostr) | TRel (up : nat) (segs : list gostr).
Definition target_text (t : xtarget) : gostr := match t with TAbs s => 47 :: path s | TRel n s => path (repeat [46; 46] n ++ s) end.
Definition target_ok (dir : list gostr) (t : xtarget) : Prop :=
  match t with TAbs s => s <> [] /\ Forall seg_ok s | TRel n s => s <> [] /\ Forall seg_ok s /\ (n <= List.length dir)%nat end.
Definition target_part (dir : list gostr) (t : xtarget) : gostr := match t with TAbs s => path s | TRel n s => path (firstn (List.length dir - n) dir ++ s) end.
Record xrel := mkRel { rl_id : gostr; rl_type : gostr; rl_target : gostr }.
Definition is_rel (a : list xattr) (r : xrel) : Prop := has_attr a "Id" (rl_id r) /\ has_attr a "Type" (rl_type r) /\ has_attr a "Target" (rl_target r).
Definition rel_uri (s : string) : gostr := bs "http://schemas.openxmlformats.org/officeDocument/2006/relationships/" ++ bs s.
Definition of_type (ty : string) (r : xrel) : bool := str_eqb (rl_type r) (rel_uri ty).

(** a string item: its text, and all character data in it *)
Definition item_text (i : list spart) : gostr := concat (map spart_text i).
Definition plain_item (i : list spart) : Prop := Forall (fun p => spart_ok p /\ match p with SpText _ _ | SpRun _ _ _ => True | _ => False end) i.

(** A workbook: directory and name of the workbook part, its relationships, the names and
    relationship ids of its sheets, its style sheet and its shared strings. *)
Record xpkg := mkPkg { pk_dir : list gostr; pk_base : gostr; pk_rels : list xrel; pk_sheets : list (gostr * gostr); pk_styles : list spiece; pk_strings : list (list spart * list xtok) }.
Definition part_is (z : xzip) (name : gostr) (l : list xtok) : Prop := open_xml z name = inl (mkXml l EEOF).
(** the parts of one type that the workbook refers to: none, or one with that content *)
Definition single_part (z : xzip) (k : xpkg) (ty : string) (none : Prop) (content : list xtok -> Prop) : Prop :=
  match filter (of_type ty) (pk_rels k) with
  | [] => none
  | [r] => exists t l, rl_target r = target_text t /\ target_ok (pk_dir k) t /\ part_is z (target_part (pk_dir k) t) l /\ content l
  | _ => False
  end.
Definition package (z : xzip) (k : xpkg) : Prop :=
  Forall seg_ok (pk_dir k) /\ seg_ok (pk_base k) /\
  (* the package relationships name the workbook part, with a relative target *)
  (exists l a0 a a1 r r0 r1, part_is z (bs "_rels/.rels") l /\ elements "Relationship" l = a0 ++ a :: a1 /\ is_rel a r /\ of_type "officeDocument" r = true /\
     rl_target r = path (pk_dir k ++ [pk_base k]) /\ Forall2 is_rel a0 r0 /\ Forall2 is_rel a1 r1 /\
     Forall (fun q => forall ty, In ty ["officeDocument"; "worksheet"; "styles"; "sharedStrings"]%string -> of_type ty q = false) (r0 ++ r1)) /\
  (* the workbook's relationships; ids are unique *)
  (exists l, part_is z (rels_part (pk_dir k) (pk_base k)) l /\ Forall2 is_rel (elements "Relationship" l) (pk_rels k)) /\
  NoDup (map rl_id (pk_rels k)) /\ Forall (fun q => of_type "officeDocument" q = false) (pk_rels k) /\
  (* the workbook part *)
  (exists l, part_is z (path (pk_dir k ++ [pk_base k])) l /\ Forall2 (fun a s => has_attr a "name" (fst s) /\ has_attr a "id" (snd s)) (elements "sheet" l) (pk_sheets k)) /\
  single_part z k "styles" (pk_styles k = []) (fun l => l = style_toks (pk_styles k) /\ Forall spiece_ok (pk_styles k)) /\
  single_part z k "sharedStrings" (pk_strings k = []) (fun l => exists pre, l = sst_toks pre (pk_strings k) /\ between pre /\ Forall (fun i => plain_item (fst i) /\ between (snd i)) (pk_strings k)).
(** the part of the sheet with that relationship id *)
Definition sheet_part (k : xpkg) (id : gostr) (part : gostr) : Prop :=
  exists r t, In r (pk_rels k) /\ of_type "worksheet" r = true /\ rl_id r = id /\ rl_target r = target_text t /\ target_ok (pk_dir k) t /\ part = target_part (pk_dir k) t.
Definition pkg_strings (k : xpkg) : list gostr := map (fun i => item_text (fst i)) (pk_strings k).
(** external hyperlink relationships of a sheet part *)
Definition link_rel (a : list xattr) (id target : gostr) : Prop := has_attr a "Id" id /\ has_attr a "Target" target /\ has_attr a "TargetMode" (bs "External") /\ has_attr a "Type" (rel_uri "hyperlink").
Definition sheet_targets (z : xzip) (dir : list gostr) (base : gostr) (target : gostr -> option gostr) : Prop :=
  (forall e, open_xml z (rels_part dir base) = inr e -> forall id, target id = None) /\
  (forall x, open_xml z (rels_part dir base) = inl x ->
     (forall id t, target id = Some t <-> exists a, In a (elements "Relationship" (xm_toks x)) /\ link_rel a id t) /\
     forall a, In a (elements "Relationship" (xm_toks x)) -> (exists id t, link_rel a id t) \/ exists m ty, opt_attr a "TargetMode" m /\ opt_attr a "Type" ty /\ (m <> Some (bs "External") \/ ty <> Some (rel_uri "hyperlink"))).

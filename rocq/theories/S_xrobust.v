(** * S_xrobust: the tokens of an XLSX sheet and of a styles part that stop the reader, and the
    ones that cannot. *)
From Verif Require Import GoBase M_xlsx S_xlsx.

(** the position a reference names is that of C57 and C58; a reference can also stop the reader *)
Definition at_pos (r : gostr) (c k : Z) : Prop := ref_to_indexes r = Ok (c, k).
(** letters, then digits that are too few before a letter C (AB1C) *)
Definition reversed (r : gostr) : Prop :=
  exists a dg m t, r = a ++ dg :: m ++ 67 :: t /\ a <> [] /\ Forall (fun x => ~ 48 <= x <= 57) a /\ 48 <= dg <= 57 /\ ~ In 67 m /\ 1 + zlen m < zlen a.
(** the whole number a text stands for; 0 when it stands for none *)
Definition number (t : gostr) : Z := fst (parse_int 64 t).

(** what the reader remembers: the cell it is in, its type, and the last column and row of the
    sheet as announced *)
Record xctx := mkCtx { cx_ref : gostr; cx_type : gostr; cx_col : Z; cx_row : Z }.
Definition ctx0 : xctx := mkCtx [] [] 0 0.
(** the reference that ends a range *)
Definition range_end (ref : gostr) : gostr := match split_byte 58 ref with _ :: e :: _ => e | e :: _ => e | [] => [] end.
Definition range_start (ref : gostr) : gostr := match split_byte 58 ref with e :: _ => e | [] => [] end.
Definition pos_of (r : gostr) : Z * Z := match ref_to_indexes r with Ok p => p | _ => (0, 0) end.
Definition remember (x : xctx) (t : xtok) : xctx :=
  match t with
  | XStart n a =>
      if str_eqb n (bs "c") then mkCtx (get_attr a (bs "r")) (match get_attr a (bs "t") with [] => bs "n" | ty => ty end) (cx_col x) (cx_row x)
      else if str_eqb n (bs "dimension") then
        let p := if str_eqb (get_attr a (bs "ref")) (bs "A1") then (1, 1) else pos_of (range_end (get_attr a (bs "ref"))) in
        mkCtx (cx_ref x) (cx_type x) (fst p) (snd p)
      else x
  | XEnd n => if str_eqb n (bs "c") then mkCtx [] (cx_type x) (cx_col x) (cx_row x) else x
  | _ => x
  end.
Definition context (l : list xtok) : xctx := fold_left remember l ctx0.

(** tokens that stop the reader; [nstr] is the number of shared strings *)
Definition fatal_text (nstr : Z) (x : xctx) (v : bytes) : Prop :=
  cx_ref x <> [] /\
  (reversed (cx_ref x) \/
   exists c r, at_pos (cx_ref x) c r /\ 0 <= c /\ 0 <= r /\
     (cx_type x = bs "b" /\ v = [] \/ cx_type x = bs "s" /\ ~ 0 <= number v < nstr)).
Definition fatal_merge (x : xctx) (ref : gostr) : Prop :=
  reversed (range_start ref) \/ reversed (range_end ref) \/
  exists c0 r0 c1 r1 c r, at_pos (range_start ref) c0 r0 /\ at_pos (range_end ref) c1 r1 /\
    c0 <= c <= Z.min c1 (cx_col x) /\ r0 <= r <= Z.min r1 (cx_row x) /\ (c, r) <> (c0, r0) /\ (c < 0 \/ r < 0).
Definition fatal_link (ref : gostr) : Prop := reversed ref \/ exists c r, at_pos ref c r /\ (c < 0 \/ r < 0).
Definition fatal (nstr : Z) (x : xctx) (t : xtok) : Prop :=
  match t with
  | XChars v => fatal_text nstr x v
  | XStart n a =>
      n = bs "c" /\ number (get_attr a (bs "s")) < 0 \/
      n = bs "dimension" /\ reversed (range_end (get_attr a (bs "ref"))) \/
      n = bs "mergeCell" /\ fatal_merge x (get_attr a (bs "ref")) \/
      n = bs "hyperlink" /\ fatal_link (get_attr a (bs "ref"))
  | _ => False
  end.
(** the dimension element comes at most once, before the cells, merged regions and hyperlinks *)
Fixpoint dim_first (l : list xtok) (seen : bool) : Prop :=
  match l with
  | [] => True
  | XStart n _ :: l =>
      if str_eqb n (bs "dimension") then seen = false /\ dim_first l true
      else dim_first l (seen || existsb (str_eqb n) [bs "c"; bs "mergeCell"; bs "hyperlink"])
  | _ :: l => dim_first l seen
  end.

(** a sheet none of whose tokens is fatal *)
Definition sheet_sound (nstr : Z) (l : list xtok) : Prop :=
  dim_first l false /\ forall pre t post, l = pre ++ t :: post -> ~ fatal nstr (context pre) t.

(** ** styles: 1 inside cellStyleXfs, 2 inside cellXfs *)
Definition section_of (l : list xtok) : Z :=
  fold_left (fun s t => match t with
                        | XStart n _ => if str_eqb n (bs "cellStyleXfs") then 1 else if str_eqb n (bs "cellXfs") then 2 else s
                        | XEnd n => if str_eqb n (bs "cellStyleXfs") || str_eqb n (bs "cellXfs") then 0 else s
                        | _ => s
                        end) l 0.
Definition fatal_style (sec : Z) (t : xtok) : Prop :=
  match t with
  | XStart n a =>
      n = bs "cellXfs" /\ ~ 0 <= number (get_attr a (bs "count")) <= 2 ^ 47 \/
      n = bs "xf" /\ (sec = 0 \/ sec = 2 /\ number (get_attr a (bs "xfId")) < 0)
  | _ => False
  end.
Definition styles_sound (l : list xtok) : Prop := forall pre t post, l = pre ++ t :: post -> ~ fatal_style (section_of pre) t.

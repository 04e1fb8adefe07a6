(** * S_open: what a file on disk is, before and after opening. *)
From Verif Require Import GoBase GoUnicode M_grate M_open M_simple M_xls M_xlsx S_cfb S_biff S_xls S_xlsx P_cfb.

(** ** compound files *)
(** what makes a file a compound file: the signature, the byte order mark and the zero class id
    of a 512-byte header *)
Definition compound (data : bytes) : Prop :=
  512 <= zlen data /\ field data 0 8 = 16220472316735377360 /\ field data 28 2 = 65534 /\ field data 8 8 = 0 /\ field data 16 8 = 0.

(** [stores data name content]: the file is a compound file with a stream of this name and this
    content, in sectors (at least 4096 bytes) or in mini sectors (less) *)
Inductive stores (data : bytes) (name : list Z) (content : bytes) : Prop :=
| st_regular : forall major fat1 fat2 mini firstdir es start size l,
    bytes_ok data -> cfb_header data major fat1 fat2 mini firstdir -> dir_at data major firstdir es ->
    first_named es name start size -> 4096 <= size ->
    walk (fat_of data (sec_bytes major) (fat1 ++ fat2)) (start :: l) -> Forall (in_file data (sec_bytes major)) (start :: l) ->
    zlen (start :: l) = sectors_for size (sec_bytes major) ->
    content = ztake size (concat (map (sector data (sec_bytes major)) (start :: l))) -> stores data name content
| st_mini : forall major fat1 fat2 mini firstdir es start size rstart rsize roots l,
    bytes_ok data -> cfb_header data major fat1 fat2 mini firstdir -> dir_at data major firstdir es ->
    first_named es name start size -> 0 <= size < 4096 ->
    root_entry es rstart rsize -> chain (fat_of data (sec_bytes major) (fat1 ++ fat2)) rstart roots -> Forall (in_file data (sec_bytes major)) roots ->
    zlen roots = sectors_for rsize (sec_bytes major) ->
    chain (minifat_of data (sec_bytes major) mini) start l -> Forall (fun i => (i + 1) * 64 <= zlen roots * sec_bytes major) l ->
    zlen l = sectors_for size 64 ->
    content = ztake size (concat (map (mini_sector (concat (map (sector data (sec_bytes major)) roots))) l)) -> stores data name content.

(** ** the outcome of Open without the file name *)
Inductive outcome :=
| OutXls (w : wbook) | OutXlsx (o : xobj) | OutRows (rows : list (list gostr)) (iter : Z)
| OutErr (e : gerr) | OutPanic | OutNoFuel.
Definition outcome_of (r : res source) : outcome :=
  match r with
  | Ok (SrcXls w) => OutXls w
  | Ok (SrcXlsx _ o) => OutXlsx o
  | Ok (SrcSimple t) => OutRows (sf_rows t) (sf_iter t)
  | Err e => OutErr e
  | Panic => OutPanic
  | NoFuel => OutNoFuel
  end.

(** ** handles: how many of a file *)
Fixpoint handles (fn : gostr) (l : list gostr) : Z :=
  match l with
  | [] => 0
  | x :: l => (if str_eqb x fn then 1 else 0) + handles fn l
  end.

(** ** a word-processing document: a package whose main part is not a workbook *)
Definition main_rels (main : string) : xml :=
  mkXml [XOther; XStart (bs "Relationships") [];
         XStart (bs "Relationship") [(bs "Id", bs "rId1"); (bs "Type", rel_office); (bs "Target", bs main)]; XEnd (bs "Relationship");
         XEnd (bs "Relationships")] EEOF.
Definition word_rels : xml :=
  mkXml [XStart (bs "Relationships") [];
         XStart (bs "Relationship") [(bs "Id", bs "rId1"); (bs "Type", rel_styles); (bs "Target", bs "styles.xml")]; XEnd (bs "Relationship");
         XEnd (bs "Relationships")] EEOF.
(** any body, any styles: [extra] are the other parts *)
Definition word_package (body styles : list xtok) (extra : xzip) : xzip :=
  [(bs "_rels/.rels", inl (main_rels "word/document.xml"));
   (bs "word/document.xml", inl (mkXml body EEOF));
   (bs "word/_rels/document.xml.rels", inl word_rels);
   (bs "word/styles.xml", inl (mkXml styles EEOF))] ++ extra.

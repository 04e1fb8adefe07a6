(** * S_which: which reader a file is for, in terms of its bytes. *)
From Verif Require Import GoBase GoUnicode M_grate S_grate M_xlsx S_cfb S_cfbsays S_xlsx S_xrobust S_xsays S_open.

(** ** XLSX packages *)
(** the archive is a package that opens: _rels/.rels names an office document; this has a
    relationships part; the office document named last is there and gives each sheet an id and a
    name; and all parts that relationships call styles or shared strings are there, the styles
    without a fatal token (C87).  All these parts can be read to their end. *)
Definition is_package (z : xzip) : Prop :=
  exists top sub wb,
    whole z (bs "_rels/.rels") top /\
    let p := rel_office_target (relations [] top) in
    p <> [] /\ whole z (rels_file p) sub /\
    let es := relations [] top ++ relations (dir_of p) sub in
    whole z (rel_office_target es) wb /\
    Forall (fun a => map_attr a (bs "id") <> None /\ map_attr a (bs "name") <> None) (elements "sheet" wb) /\
    (forall id f, rel_lookup es "styles" id = Some f -> exists l, whole z f l /\ styles_sound l) /\
    (forall id f, rel_lookup es "sharedStrings" id = Some f -> exists l, whole z f l).
(** no package at all: _rels/.rels is missing or cannot be read to its end *)
Definition no_package (z : xzip) : Prop := forall top, ~ whole z (bs "_rels/.rels") top.
(** the errors of archive/zip and encoding/xml are not grate's *)
Definition own_errors (z : xzip) : Prop :=
  forall name, match open_xml z name with inr e => ~ on_chain ENotInFormat e | inl x => ~ on_chain ENotInFormat (xm_end x) end.

(** ** compound files whose stream cannot be had *)
(** the chain of a big stream ends, or leads to a sector that begins behind the end of the file,
    before it has sectors enough for the size *)
Definition chain_lost (data mem : bytes) (sz : Z) (fat : list Z) (start size : Z) : Prop :=
  exists l s, walk fat (l ++ [s]) /\ hd s l = start /\ zlen l * sz < size /\
    Forall (fun s => ~ end_mark s /\ place sz s <= zlen data /\ inside mem sz s) l /\
    (end_mark s \/ zlen data < place sz s).
(** all tables of the file are there, and there is no stream of that name or it is lost *)
Definition stream_lost (data mem : bytes) (name : gostr) : Prop :=
  let sz := sector_size data in
  accepted data /\ exists fats mini,
    fat_sectors data sz fats /\
    mini_table data sz (signed32 (field data 64 4)) (field data 60 4) 0 mini /\
    (stream_entry data name = None /\ Forall readable (directory_of data) \/
     readable_upto data name /\ exists e, stream_entry data name = Some e /\ 4096 <= e_size data e /\
       chain_lost data mem sz (table data sz fats) (e_start e) (e_size data e)).
(** the files that the XLS reader leaves to the others *)
Definition left_by_xls (data mem : bytes) : Prop := ~ compound data \/ stream_lost data mem (bs "Workbook").

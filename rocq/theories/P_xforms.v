(** * C89: forms that the standard (ECMA-376) allows for cells, sheets and packages. *)
From Verif Require Import GoBase L_base GoFloat GoUnicode M_grate M_value M_formats M_sheet M_xlsx S_sheet S_grid S_xls S_xlsx L_formats L_xlsx L_xlsxpkg P_xlsx.
From Coq Require Import Permutation.

(** ** inline strings: an is element with the same parts as a shared string item *)
Definition inline_part (p : spart) : Prop := match p with SpRun props _ _ => Forall silent props | _ => True end.
Definition inline_toks (l : list spart) : list xtok := XStart (bs "is") [] :: flat_map spart_toks l ++ [XEnd (bs "is")].
(** the pieces of character data in it *)
Definition part_pieces (p : spart) : list bytes := match p with SpText _ t | SpRun _ _ t | SpPhonetic _ _ t => t | SpSpace t => [t] end.
Definition pieces (l : list spart) : list bytes := flat_map part_pieces l.

Lemma texts_app : forall a b, texts (a ++ b) = texts a ++ texts b.
Proof. intros. unfold texts. apply flat_map_app. Qed.
Lemma texts_silent : forall l, Forall silent l -> texts l = [].
Proof. induction 1 as [|t l H F IH]; [reflexivity|]. unfold texts in *. cbn [flat_map]. rewrite IH. destruct t; cbn in H; [reflexivity..|destruct H|reflexivity]. Qed.
Lemma texts_chars : forall t, texts (map XChars t) = t.
Proof. induction t as [|x t IH]; [reflexivity|]. unfold texts in *. cbn [map flat_map app]. rewrite IH. reflexivity. Qed.
Lemma inside_silent : forall l, Forall silent l -> Forall inside l.
Proof. intros l F. eapply Forall_impl; [|exact F]. intros t H. destruct t; auto. exact I. Qed.
Lemma inside_chars : forall t, Forall inside (map XChars t).
Proof. induction t; constructor; auto. exact I. Qed.
Ltac quiet_name := cbn [inside silent other]; intros A; vm_compute in A; intuition discriminate.
Lemma t_texts : forall a t, texts (t_toks a t) = t /\ Forall inside (t_toks a t).
Proof.
  intros a t. unfold t_toks. split.
  - change (XStart (bs "t") a :: map XChars t ++ [XEnd (bs "t")]) with ([XStart (bs "t") a] ++ map XChars t ++ [XEnd (bs "t")]). rewrite !texts_app, texts_chars. cbn. apply app_nil_r.
  - constructor; [quiet_name|]. apply Forall_app. split; [apply inside_chars|]. constructor; [quiet_name|constructor].
Qed.
Lemma part_texts : forall p, inline_part p -> texts (spart_toks p) = part_pieces p /\ Forall inside (spart_toks p).
Proof.
  intros p H. destruct p as [a t|props a t|b a t|t]; cbn [spart_toks part_pieces].
  - apply t_texts.
  - destruct (t_texts a t) as [T1 T2]. cbn [inline_part] in H. split.
    + change (XStart (bs "r") [] :: props ++ t_toks a t ++ [XEnd (bs "r")]) with ([XStart (bs "r") []] ++ props ++ t_toks a t ++ [XEnd (bs "r")]). rewrite !texts_app, T1, (texts_silent props H). cbn. apply app_nil_r.
    + constructor; [quiet_name|]. apply Forall_app. split; [apply inside_silent; exact H|]. apply Forall_app. split; [exact T2|]. constructor; [quiet_name|constructor].
  - destruct (t_texts a t) as [T1 T2]. split.
    + change (XStart (bs "rPh") b :: t_toks a t ++ [XEnd (bs "rPh")]) with ([XStart (bs "rPh") b] ++ t_toks a t ++ [XEnd (bs "rPh")]). rewrite !texts_app, T1. cbn. apply app_nil_r.
    + constructor; [quiet_name|]. apply Forall_app. split; [exact T2|]. constructor; [quiet_name|constructor].
  - split; [reflexivity|constructor; [exact I|constructor]].
Qed.
Lemma inline_texts : forall l, Forall inline_part l -> texts (inline_toks l) = pieces l /\ Forall inside (inline_toks l).
Proof.
  intros l F. assert (G : texts (flat_map spart_toks l) = pieces l /\ Forall inside (flat_map spart_toks l)).
  { induction F as [|p l H F [T I]]; [split; [reflexivity|constructor]|]. destruct (part_texts p H) as [T1 I1]. unfold pieces in *. cbn [flat_map]. rewrite texts_app, T1, T. split; [reflexivity|]. apply Forall_app. auto. }
  destruct G as [T I]. unfold inline_toks. split.
  - change (XStart (bs "is") [] :: flat_map spart_toks l ++ [XEnd (bs "is")]) with ([XStart (bs "is") []] ++ flat_map spart_toks l ++ [XEnd (bs "is")]). rewrite !texts_app, T. cbn. apply app_nil_r.
  - constructor; [quiet_name|]. apply Forall_app. split; [exact I|]. constructor; [quiet_name|constructor].
Qed.

(** The last piece of character data in the inline string is what the cell shows ... *)
Theorem C89_inline_piece : forall d docname w e a c r s l ts t, reach_fx (xd_fmt d) -> Forall w16 (xd_xfs d) -> xw_ok (zlen (xd_strings d)) w ->
  open_xml (xd_zip d) docname = inl (mkXml (xw_toks w ++ XStart (bs "c") a :: inline_toks l ++ [XEnd (bs "c")]) e) ->
  has_attr a "r" (a1 c r) -> coord_ok c -> coord_ok r -> opt_attr a "s" (option_map utoa s) -> (forall k, s = Some k -> 0 <= k < 2 ^ 63) -> has_attr a "t" (bs "inlineStr") ->
  Forall inline_part l -> pieces l = ts ++ [t] ->
  exists sh, parse_xsheet d docname = Ok (sh, end_err e) /\
    displays (xd_fmt d) (xw_writes (xd_strings d) (xd_xfs d) (fun k => sfind k (sheet_links (xd_zip d) docname)) w ++ [(r, c, WPut (GStr t) (style_format (xd_xfs d) s))]) (snd (xw_size w)) (fst (xw_size w)) sh.
Proof.
  intros d docname w e a c r s l ts t HX HF OK E HR Hc Hr HS HB HT FP PC. assert (CT : cell_type a = bs "inlineStr") by (unfold cell_type; rewrite (get_has _ _ _ HT); reflexivity). destruct (inline_texts l FP) as [T I].
  assert (TV : forall x, typed_value (xd_strings d) (cell_type a) x (GStr x)) by (intros x; right; right; right; split; [rewrite CT; cbn; auto|reflexivity]).
  apply (C62_last_text d docname w e a c r s (inline_toks l) ts (map GStr ts) t (GStr t) HX HF OK E HR Hc Hr HS HB I); [rewrite T; exact PC| |apply TV].
  clear PC. induction ts as [|x ts IH]; constructor; auto.
Qed.
(** ... so that an inline string with one piece is shown ... *)
Theorem C89_inline : forall d docname w e a c r s l, reach_fx (xd_fmt d) -> Forall w16 (xd_xfs d) -> xw_ok (zlen (xd_strings d)) w ->
  open_xml (xd_zip d) docname = inl (mkXml (xw_toks w ++ XStart (bs "c") a :: inline_toks l ++ [XEnd (bs "c")]) e) ->
  has_attr a "r" (a1 c r) -> coord_ok c -> coord_ok r -> opt_attr a "s" (option_map utoa s) -> (forall k, s = Some k -> 0 <= k < 2 ^ 63) -> has_attr a "t" (bs "inlineStr") ->
  Forall inline_part l -> plain_item l -> List.length (pieces l) = 1%nat ->
  exists sh, parse_xsheet d docname = Ok (sh, end_err e) /\
    displays (xd_fmt d) (xw_writes (xd_strings d) (xd_xfs d) (fun k => sfind k (sheet_links (xd_zip d) docname)) w ++ [(r, c, WPut (GStr (item_text l)) (style_format (xd_xfs d) s))]) (snd (xw_size w)) (fst (xw_size w)) sh.
Proof.
  intros d docname w e a c r s l HX HF OK E HR Hc Hr HS HB HT FP PL N. assert (P1 : item_text l = concat (pieces l)).
  { clear - PL. unfold item_text, pieces. induction PL as [|p l [_ H] F IH]; [reflexivity|]. cbn [map concat flat_map]. rewrite concat_app, IH. destruct p; cbn in H; try destruct H; reflexivity. }
  destruct (pieces l) as [|t [|? ?]] eqn:EP; try discriminate. cbn [concat] in P1. rewrite app_nil_r in P1. rewrite P1. apply (C89_inline_piece d docname w e a c r s l [] t); auto.
Qed.
(** ... but of rich text only the last run, and of a string with a phonetic hint only the hint. *)
Theorem C89_runs_refuted : forall d docname w e a c r p1 a1' t1 p2 a2 t2, reach_fx (xd_fmt d) -> Forall w16 (xd_xfs d) -> xw_ok (zlen (xd_strings d)) w -> Forall silent p1 -> Forall silent p2 ->
  open_xml (xd_zip d) docname = inl (mkXml (xw_toks w ++ XStart (bs "c") a :: inline_toks [SpRun p1 a1' [t1]; SpRun p2 a2 [t2]] ++ [XEnd (bs "c")]) e) ->
  has_attr a "r" (a1 c r) -> coord_ok c -> coord_ok r -> no_attr a "s" -> has_attr a "t" (bs "inlineStr") ->
  item_text [SpRun p1 a1' [t1]; SpRun p2 a2 [t2]] = t1 ++ t2 /\
  exists sh, parse_xsheet d docname = Ok (sh, end_err e) /\
    displays (xd_fmt d) (xw_writes (xd_strings d) (xd_xfs d) (fun k => sfind k (sheet_links (xd_zip d) docname)) w ++ [(r, c, WPut (GStr t2) (style_format (xd_xfs d) None))]) (snd (xw_size w)) (fst (xw_size w)) sh.
Proof.
  intros d docname w e a c r p1 a1' t1 p2 a2 t2 HX HF OK F1 F2 E HR Hc Hr HS HT. split; [unfold item_text; cbn [map concat spart_text]; rewrite !app_nil_r; reflexivity|].
  apply (C89_inline_piece d docname w e a c r None [SpRun p1 a1' [t1]; SpRun p2 a2 [t2]] [t1] t2); auto; discriminate.
Qed.
Theorem C89_hint_refuted : forall d docname w e a c r a1' t b a2 h, reach_fx (xd_fmt d) -> Forall w16 (xd_xfs d) -> xw_ok (zlen (xd_strings d)) w ->
  open_xml (xd_zip d) docname = inl (mkXml (xw_toks w ++ XStart (bs "c") a :: inline_toks [SpText a1' [t]; SpPhonetic b a2 [h]] ++ [XEnd (bs "c")]) e) ->
  has_attr a "r" (a1 c r) -> coord_ok c -> coord_ok r -> no_attr a "s" -> has_attr a "t" (bs "inlineStr") ->
  item_text [SpText a1' [t]; SpPhonetic b a2 [h]] = t /\
  exists sh, parse_xsheet d docname = Ok (sh, end_err e) /\
    displays (xd_fmt d) (xw_writes (xd_strings d) (xd_xfs d) (fun k => sfind k (sheet_links (xd_zip d) docname)) w ++ [(r, c, WPut (GStr h) (style_format (xd_xfs d) None))]) (snd (xw_size w)) (fst (xw_size w)) sh.
Proof.
  intros d docname w e a c r a1' t b a2 h HX HF OK E HR Hc Hr HS HT. split; [unfold item_text; cbn [map concat spart_text]; rewrite !app_nil_r; reflexivity|].
  apply (C89_inline_piece d docname w e a c r None [SpText a1' [t]; SpPhonetic b a2 [h]] [t] h); auto; try discriminate. repeat constructor.
Qed.

(** ** formulas without a stored result: the text of the formula is stored as the value *)
Theorem C89_formula_refuted : forall d docname w e a c r fa t, reach_fx (xd_fmt d) -> Forall w16 (xd_xfs d) -> xw_ok (zlen (xd_strings d)) w ->
  open_xml (xd_zip d) docname = inl (mkXml (xw_toks w ++ XStart (bs "c") a :: [XStart (bs "f") fa; XChars t; XEnd (bs "f")] ++ [XEnd (bs "c")]) e) ->
  has_attr a "r" (a1 c r) -> coord_ok c -> coord_ok r -> no_attr a "s" -> no_attr a "t" \/ has_attr a "t" (bs "str") ->
  exists sh v, parse_xsheet d docname = Ok (sh, end_err e) /\ (v = GStr t \/ v = number_value t) /\
    displays (xd_fmt d) (xw_writes (xd_strings d) (xd_xfs d) (fun k => sfind k (sheet_links (xd_zip d) docname)) w ++ [(r, c, WPut v (style_format (xd_xfs d) None))]) (snd (xw_size w)) (fst (xw_size w)) sh.
Proof.
  intros d docname w e a c r fa t HX HF OK E HR Hc Hr HS HT.
  assert (V : exists v, (v = GStr t \/ v = number_value t) /\ typed_value (xd_strings d) (cell_type a) t v).
  { destruct HT as [HT|HT]; unfold cell_type.
    - rewrite (get_no _ _ HT). exists (number_value t). split; [auto|]. left. auto.
    - rewrite (get_has _ _ _ HT). exists (GStr t). split; [auto|]. right. right. right. split; [cbn; auto|reflexivity]. }
  destruct V as (v & V1 & V2). destruct (C62_last_text d docname w e a c r None [XStart (bs "f") fa; XChars t; XEnd (bs "f")] [] [] t v HX HF OK E HR Hc Hr HS) as (sh & P & D); [discriminate| |reflexivity|constructor|exact V2|].
  - constructor; [quiet_name|]. constructor; [exact I|]. constructor; [quiet_name|constructor].
  - exists sh, v. auto.
Qed.

(** ** cells without a reference (the standard makes the r attribute optional): not shown *)
Lemma inside_nowhere : forall d links l ty f mc mr s, Forall inside l -> sheet_toks d links l (mkXps ty [] f mc mr s) = Ok (mkXps ty [] f mc mr s).
Proof.
  induction l as [|t l IH]; intros ty f mc mr s F; [reflexivity|]. inversion F as [|? ? H F2]; subst. cbn [sheet_toks].
  assert (E : sheet_tok d links (mkXps ty [] f mc mr s) t = Ok (mkXps ty [] f mc mr s)) by (destruct t as [n a|n|t|]; [apply silent_tok; exact H|apply silent_tok; exact H|reflexivity|reflexivity]).
  rewrite E. cbn [bind]. auto.
Qed.
Theorem C89_reference_refuted : forall d docname w e a s l, reach_fx (xd_fmt d) -> Forall w16 (xd_xfs d) -> xw_ok (zlen (xd_strings d)) w ->
  open_xml (xd_zip d) docname = inl (mkXml (xw_toks w ++ XStart (bs "c") a :: l ++ [XEnd (bs "c")]) e) ->
  no_attr a "r" -> opt_attr a "s" (option_map utoa s) -> (forall k, s = Some k -> 0 <= k < 2 ^ 63) -> Forall inside l ->
  exists sh, parse_xsheet d docname = Ok (sh, end_err e) /\
    displays (xd_fmt d) (xw_writes (xd_strings d) (xd_xfs d) (fun k => sfind k (sheet_links (xd_zip d) docname)) w) (snd (xw_size w)) (fst (xw_size w)) sh.
Proof.
  intros d docname w e a s l HX HF OK E HR HS HB FI. destruct (xsheet_more d docname w _ e [] HX HF E OK) as (sh & P & D); [constructor| |rewrite app_nil_r in D; eauto].
  intros t0 f0 s0. exists (cell_type a), (style_format (xd_xfs d) s). cbn [sheet_toks sheet_tok]. change (str_eqb (bs "c") (bs "dimension")) with false. change (str_eqb (bs "c") (bs "c")) with true. cbn iota. unfold sheet_c. rewrite (style_get d a s HS HB). cbn [bind]. rewrite (get_no _ _ HR). cbn [xp_maxcol xp_maxrow xp_sheet].
  assert (CT : (if str_eqb (get_attr a (bs "t")) [] then bs "n" else get_attr a (bs "t")) = cell_type a) by (unfold cell_type; destruct (get_attr a (bs "t")); reflexivity). rewrite CT.
  rewrite sheet_toks_app, inside_nowhere by auto. reflexivity.
Qed.

(** ** packages in the strict form, whose relationship types have other names: not opened *)
Definition strict_uri (s : string) : gostr := bs "http://purl.oclc.org/ooxml/officeDocument/relationships/" ++ bs s.
Lemma strict_other : forall s ty q, rl_type q = strict_uri s -> of_type ty q = false.
Proof. intros s ty q E. unfold of_type. rewrite E. apply str_eqb_neq. unfold strict_uri, rel_uri. cbn. discriminate. Qed.
Theorem C89_strict_refuted : forall order z l rs, part_is z (bs "_rels/.rels") l -> Forall2 is_rel (elements "Relationship" l) rs ->
  (forall q, In q rs -> rl_type q = strict_uri "officeDocument" \/ of_type "officeDocument" q = false) -> open_xlsx order (XZip z) = Err EInvalidDoc.
Proof.
  intros order z l rs P F H. unfold open_xlsx, open_doc. unfold part_is in P. rewrite P. unfold parse_rels. cbn [xm_toks xm_end end_err]. rewrite rels_loop_elements. change (rel_elem []) with (rel_elem (subdir [])).
  destruct (rels_fold [] _ rs (new_xdoc z) F) as (R & -> & _); [|reflexivity].
  apply Forall_forall. intros q I. destruct (H q I) as [E|E]; [eapply strict_other; exact E|exact E].
Qed.

(** ** sheets that are no worksheets (chart sheets, dialog sheets): List names them, Get fails *)
Lemma open_empty : forall z : xzip, Forall (fun p => fst p <> []) z -> open_xml z [] = inr EEOF.
Proof. induction z as [|[n p] z IH]; intros F; [reflexivity|]. inversion F as [|? ? H F2]; subst. cbn [open_xml fst] in *. destruct n; [congruence|]. cbn [str_eqb]. auto. Qed.
Theorem C89_chart_refuted : forall order z k a name id b, (forall l, Permutation l (order l)) -> package z k -> Forall (fun p => fst p <> []) z ->
  pk_sheets k = a ++ (name, id) :: b -> ~ In name (map fst a) -> (forall q, In q (pk_rels k) -> rl_id q = id -> of_type "worksheet" q = false) ->
  exists d o, open_xlsx order (XZip z) = Ok d /\ In name (doc_list (mkXO d false)) /\ doc_get (mkXO d false) name = Ok (o, (List.length a, Some EEOF)).
Proof.
  intros order z k a name id b HO P NZ EK NI NW. destruct (open_package order z k HO P) as (d & E & EZ & ES & EX & EF & W & SH). rewrite EK in SH. apply Forall2_app_inv_l in SH. destruct SH as (ha & hb & FA & FB & EH). inversion FB as [|? h ? hb' (H1 & H2 & H3 & _ & H5) FB']; subst hb. cbn [fst snd] in *.
  assert (NA : map xh_name ha = map fst a) by (clear - FA; induction FA as [|s g l l' (H & _) F IH]; [reflexivity|]; cbn [map]; rewrite H, IH; reflexivity).
  assert (LA : List.length ha = List.length a) by (rewrite <- (map_length xh_name ha), NA, map_length; reflexivity).
  exists d. unfold doc_get. cbn [xo_closed xo_doc]. rewrite (find_first _ ha h hb' name 0%nat EH H1) by (rewrite NA; exact NI). cbn [Nat.add]. rewrite LA, H2, (H5 NW). unfold parse_xsheet. rewrite open_empty by (rewrite ?EZ; auto). cbn [bind].
  eexists. split; [exact E|]. split; [|reflexivity]. unfold doc_list. cbn [xo_closed xo_doc]. rewrite EH, map_app. apply in_or_app. right. left. exact H1.
Qed.

(** small cases, run: an inline string of one run, of two runs, and with a hint; a cell without a
    reference; a formula without a result *)
Definition ex_run (t : string) : spart := SpRun [XStart (bs "rPr") []; XEnd (bs "rPr")] [] [bs t].
Example ex_C89_cells :
  first_raw (parse_xsheet (ex_doc [] (ex_c "A1" "inlineStr" (inline_toks [ex_run "ab"]) ++ ex_c "B1" "inlineStr" (inline_toks [ex_run "ab"; ex_run "cd"]) ++
    ex_c "C1" "inlineStr" (inline_toks [SpText [] [bs "ab"]; SpPhonetic [] [] [bs "hint"]]) ++
    XStart (bs "c") [(bs "t", bs "str")] :: ex_v "lost" ++ [XEnd (bs "c")] ++ ex_c "D1" "str" [XStart (bs "f") []; XChars (bs "A1+1"); XEnd (bs "f")])) (bs "s")) =
  Ok [[GStr (bs "ab"); GCType StringCell]; [GStr (bs "cd"); GCType StringCell]; [GStr (bs "hint"); GCType StringCell]; [GStr (bs "A1+1"); GCType StringCell]].
Proof. vm_compute. reflexivity. Qed.
Example ex_C89_parts : Forall inline_part [ex_run "ab"] /\ plain_item [ex_run "ab"] /\ pieces [ex_run "ab"] = [bs "ab"] /\ item_text [ex_run "ab"] = bs "ab" /\
  reach_fx (xd_fmt (ex_doc [] [])) /\ xw_ok 0 (mkXW [] DimNone []).
Proof.
  split; [constructor; [constructor; [quiet_name|constructor; [quiet_name|constructor]]|constructor]|]. split; [constructor; [split; [constructor; [discriminate|constructor; [discriminate|constructor]]|exact I]|constructor]|].
  repeat split; constructor.
Qed.
Example ex_C89_strict : let z := [(bs "_rels/.rels", inl (mkXml [XStart (bs "Relationship") [(bs "Id", bs "rId1"); (bs "Type", strict_uri "officeDocument"); (bs "Target", bs "xl/workbook.xml")]] EEOF))] in
  exists l, part_is z (bs "_rels/.rels") l /\ Forall2 is_rel (elements "Relationship" l) [mkRel (bs "rId1") (strict_uri "officeDocument") (bs "xl/workbook.xml")].
Proof. eexists. split; [reflexivity|]. constructor; [isrel|constructor]. Qed.
(** the package of ex_package with its only sheet turned into a chart sheet *)
Definition chart_rels : list xtok := map (fun t => match t with XStart n a => XStart n (map (fun p => if str_eqb (snd p) (rel_uri "worksheet") then (fst p, rel_uri "chartsheet") else p) a) | t => t end)
  match open_xml ex_zip (rels_part [bs "xl"] (bs "workbook.xml")) with inl x => xm_toks x | inr _ => [] end.
Definition chart_zip : xzip := map (fun p => if str_eqb (fst p) (rels_part [bs "xl"] (bs "workbook.xml")) then (fst p, inl (mkXml chart_rels EEOF)) else p) ex_zip.
Example ex_C89_chart : match open_xlsx (fun l => l) (XZip chart_zip) with
  | Ok d => doc_list (mkXO d false) = [bs "First"] /\ match doc_get (mkXO d false) (bs "First") with Ok (_, r) => r = (0%nat, Some EEOF) | _ => False end
  | _ => False
  end.
Proof. vm_compute. auto. Qed.

Print Assumptions C89_inline_piece.
Print Assumptions C89_inline.
Print Assumptions C89_runs_refuted.
Print Assumptions C89_hint_refuted.
Print Assumptions C89_formula_refuted.
Print Assumptions C89_reference_refuted.
Print Assumptions C89_strict_refuted.
Print Assumptions C89_chart_refuted.

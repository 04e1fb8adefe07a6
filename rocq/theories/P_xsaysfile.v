(** * P_xsaysfile: C105 — where the parts of an XLSX package are found and what they say. *)
From Verif Require Import GoBase L_base GoPath GoFloat L_float GoUnicode GoTime M_grate M_value M_dates M_fmt M_formats M_cell M_sheet M_xls M_xlsx S_cell L_cell S_sheet L_sheet S_grid L_grid S_xls L_xls
  S_xlsx L_xlsxref L_xlsx L_xlsxpkg L_simple P_sheet P_xlsx S_xrobust P_xrobust S_xsays P_xsays.
From Coq Require Import Lia ZifyBool ZifyNat Permutation.
Local Opaque f_of_bits fdiv f_of_Z put set_value set_url fx_add parse_float ref_to_indexes resize parse_int path_join path_base trim_suffix.

(** ** relationships *)
Lemma find_app : forall A (p : A -> bool) l m, find p (l ++ m) = match find p l with Some a => Some a | None => find p m end.
Proof. induction l as [|a l IH]; intros m; cbn [app find]; [reflexivity|]. destruct (p a); auto. Qed.
Definition lookup_in (es : list xrelation) (ty id : gostr) : option gostr := option_map rel_part (find (fun e => str_eqb (rel_type e) ty && str_eqb (rel_id e) id) (rev es)).
Definition office_in (es : list xrelation) (d : gostr) : gostr := match find (fun e => str_eqb (rel_type e) (rel_uri "officeDocument")) (rev es) with Some e => rel_target e | None => d end.
Lemma rels_look : forall dir l d, let d' := rels_loop dir l d in
  (forall ty id, sfind id (rels_of (xd_rels d') ty) = match lookup_in (relations dir l) ty id with Some f => Some f | None => sfind id (rels_of (xd_rels d) ty) end) /\
  xd_primary d' = office_in (relations dir l) (xd_primary d) /\ xd_zip d' = xd_zip d /\ xd_sheets d' = xd_sheets d /\ xd_strings d' = xd_strings d /\ xd_xfs d' = xd_xfs d /\ xd_fmt d' = xd_fmt d.
Proof.
  intros dir l d. cbv zeta. rewrite rels_loop_elements. unfold relations. generalize (elements "Relationship" l). clear l. intros l. revert d. induction l as [|a l IH]; intros d; [cbn; auto 9|]. cbn [fold_left map]. destruct (IH (rel_elem dir d a)) as (A & B & C & D & E & F & G). rewrite B, C, D, E, F, G. clear B C D E F G. unfold lookup_in, office_in. cbn [rev]. split; [|split; [|cbn; auto]].
  - intros ty id. rewrite A, find_app. unfold lookup_in. destruct (find _ (rev _)) as [e|]; [reflexivity|]. cbn [option_map find rel_elem xd_rels]. rewrite rels_of_sput. unfold rel_type, rel_id. cbn [snd]. destruct (str_eqb _ ty) eqn:T; cbn [andb option_map]; [|reflexivity]. apply str_eqb_eq in T. subst ty. unfold sput. cbn [sfind]. rewrite str_eqb_sym. destruct (str_eqb _ id); reflexivity.
  - rewrite find_app. destruct (find _ (rev _)); [reflexivity|]. cbn [find]. unfold rel_type, rel_target. cbn [snd rel_elem xd_primary]. change rel_office with (rel_uri "officeDocument"). destruct (str_eqb _ _); reflexivity.
Qed.
Lemma lookup_app : forall a b ty id, lookup_in (a ++ b) ty id = match lookup_in b ty id with Some f => Some f | None => lookup_in a ty id end.
Proof. intros. unfold lookup_in. rewrite rev_app_distr, find_app. destruct (find _ (rev b)); reflexivity. Qed.
Lemma office_app : forall a b d, office_in (a ++ b) d = office_in b (office_in a d).
Proof. intros. unfold office_in. rewrite rev_app_distr, find_app. destruct (find _ (rev b)); reflexivity. Qed.
Lemma live_spec : forall m seen f, In f (live_values seen m) <-> exists id, existsb (str_eqb id) seen = false /\ sfind id m = Some f.
Proof.
  induction m as [|[k v] m IH]; intros seen f; cbn [live_values sfind]. { split; [intros []|intros (id & _ & Q); discriminate]. }
  assert (SE : forall a l, existsb (str_eqb a) l = true <-> In a l). { intros a l. rewrite existsb_exists. split; [intros (y & I & E); apply str_eqb_eq in E; subst; exact I|intros I; exists a; split; [exact I|apply str_eqb_refl]]. }
  destruct (existsb (str_eqb k) seen) eqn:EK.
  - rewrite IH. split; intros (id & A & B); exists id; (split; [exact A|]).
    + destruct (str_case id k) as [[-> _]|[_ ->]]; [congruence|exact B].
    + destruct (str_case id k) as [[-> Q]|[_ Q]]; rewrite Q in B; [congruence|exact B].
  - cbn [In]. rewrite IH. cbn [existsb]. split.
    + intros [<-|(id & A & B)]; [exists k; rewrite str_eqb_refl; auto|]. apply orb_false_iff in A. destruct A as [A1 A2]. exists id. split; [exact A2|]. rewrite A1. exact B.
    + intros (id & A & B). destruct (str_eqb id k) eqn:Q; [left; congruence|right]. exists id. rewrite Q. auto.
Qed.

(** ** the workbook part *)
Lemma workbook_says : forall l d d', workbook_loop l d = Ok d' ->
  Forall (fun a => map_attr a (bs "id") <> None /\ map_attr a (bs "name") <> None) (elements "sheet" l) /\
  map (fun s => (xh_name s, xh_doc s)) (xd_sheets d') = map (fun s => (xh_name s, xh_doc s)) (xd_sheets d) ++
    map (fun a => (map_get a (bs "name"), match sfind (map_get a (bs "id")) (rels_of (xd_rels d) rel_sheet) with Some f => f | None => [] end)) (elements "sheet" l) /\
  xd_rels d' = xd_rels d /\ xd_primary d' = xd_primary d /\ xd_zip d' = xd_zip d /\ xd_strings d' = xd_strings d /\ xd_xfs d' = xd_xfs d /\ xd_fmt d' = xd_fmt d.
Proof.
  induction l as [|t l IH]; intros d d' H; cbn [workbook_loop] in H. { injection H as <-. cbn. rewrite app_nil_r. auto 9. }
  destruct t as [n a|n|v|]; cbn [elements flat_map app]; fold (elements "sheet" l); try (apply IH; exact H). destruct (str_eqb n (bs "sheet")); [|apply IH; exact H]. unfold map_get.
  destruct (map_attr a (bs "id")) as [id|] eqn:E1; [|discriminate]. destruct (map_attr a (bs "name")) as [nm|] eqn:E2; [|discriminate]. apply IH in H. destruct H as (A & B & C). cbn [xd_sheets xd_rels] in *. split; [constructor; [split; congruence|exact A]|]. split; [|exact C]. rewrite B, map_app, <- app_assoc. cbn [map app xh_name xh_doc]. rewrite E1, E2. reflexivity.
Qed.

(** ** styles and shared strings *)
Lemma section_snoc : forall pre t, section_of (pre ++ [t]) = sec_step (section_of pre) t.
Proof. intros. unfold section_of. rewrite fold_left_app. reflexivity. Qed.
Lemma u16_zero : u16 (int_attr 16 (bs "0")) = 0.
Proof. Local Transparent parse_int. vm_compute. reflexivity. Qed.
Local Opaque parse_int.
Lemma styles_say : forall l pre st st', styles_loop l st = Ok st' -> sy_section st = section_of pre ->
  sy_xfs st' = xfs_say l pre (sy_xfs st) /\ sy_fmt st' = fold_left (fun x e => fst (fx_add x (fst e) (snd e))) (numfmts l) (sy_fmt st).
Proof.
  induction l as [|t l IH]; intros pre st st' H S; cbn [styles_loop] in H. { injection H as <-. auto. }
  destruct t as [n a|n|v|]; cbn [xfs_say].
  - destruct (style_start st n a) as [st1| | |] eqn:E; cbn [bind] in H; try discriminate. unfold style_start in E. unfold numfmts. cbn [elements flat_map]. fold (elements "numFmt" l). change (map (fun a => _) (elements "numFmt" l)) with (numfmts l) in *.
    destruct (str_case n (bs "numFmt")) as [[-> Q]|[N Q]]; rewrite Q in E |- *.
    { injection E as <-. change (str_eqb (bs "numFmt") (bs "cellXfs")) with false. change (str_eqb (bs "numFmt") (bs "xf")) with false. cbn [andb map app fold_left fst snd]. apply (IH (pre ++ [XStart (bs "numFmt") a])) in H; [exact H|]. rewrite section_snoc, <- S. reflexivity. }
    cbn [app]. destruct (str_case n (bs "cellStyleXfs")) as [[-> Q1]|[N1 Q1]]; rewrite Q1 in E.
    { injection E as <-. apply (IH (pre ++ [XStart (bs "cellStyleXfs") a])) in H; [exact H|]. rewrite section_snoc. reflexivity. }
    destruct (str_case n (bs "cellXfs")) as [[-> Q2]|[N2 Q2]]; rewrite Q2 in E |- *.
    { cbv zeta in E. destruct (_ || _); [discriminate|]. injection E as <-. apply (IH (pre ++ [XStart (bs "cellXfs") a])) in H; [exact H|]. rewrite section_snoc. reflexivity. }
    assert (SS : section_of (pre ++ [XStart n a]) = section_of pre) by (rewrite section_snoc; unfold sec_step; rewrite Q1, Q2; reflexivity).
    destruct (str_eqb n (bs "xf")); cbn [andb]; [|injection E as <-; apply (IH (pre ++ [XStart n a])) in H; [exact H|congruence]].
    unfold style_xf in E. cbv zeta in E. rewrite S in E. destruct (Z.eqb_spec (section_of pre) 1) as [E1|E1].
    { injection E as <-. replace (section_of pre =? 2) with false by lia. apply (IH (pre ++ [XStart n a])) in H; [exact H|]. cbn [sy_section]. congruence. }
    destruct (section_of pre =? 2); [|discriminate]. destruct (if _ <? _ then _ else _) as [u| | |] in E; cbn [bind] in E; try discriminate. injection E as <-. apply (IH (pre ++ [XStart n a])) in H; [|cbn [sy_section]; congruence]. cbn [sy_xfs sy_fmt] in H. unfold xf_number. destruct (str_eqb _ _); [rewrite u16_zero in H; exact H|exact H].
  - apply (IH (pre ++ [XEnd n])) in H; [|rewrite section_snoc, <- S; unfold style_end, sec_step; destruct (_ || _); reflexivity]. unfold style_end in H. destruct (_ || _); exact H.
  - apply (IH (pre ++ [XChars v])) in H; [exact H|]. rewrite section_snoc, <- S. reflexivity.
  - apply (IH (pre ++ [XOther])) in H; [exact H|]. rewrite section_snoc, <- S. reflexivity.
Qed.
Lemma shared_say : forall l pre v acc, v = si_text pre -> sst_loop l v acc = acc ++ shared_says l pre.
Proof.
  induction l as [|t l IH]; intros pre v acc E; cbn [sst_loop shared_says]; [rewrite app_nil_r; reflexivity|].
  assert (SN : si_text (pre ++ [t]) = match t with XStart n _ => if str_eqb n (bs "si") then [] else si_text pre | XChars c => si_text pre ++ c | _ => si_text pre end) by (unfold si_text; rewrite fold_left_app; reflexivity).
  destruct t as [n a|n|c|]; cbn [app]; rewrite (IH (pre ++ [_])) by (rewrite SN; subst v; reflexivity); auto. destruct (str_eqb n (bs "si")); [subst v; rewrite <- app_assoc; reflexivity|reflexivity].
Qed.
Lemma styles_parts : forall names d d', parse_parts parse_styles names d = Ok d' -> exists ls, Forall2 (whole (xd_zip d)) names ls /\
  xd_xfs d' = fold_left (fun _ l => xfs_say l [] []) ls (xd_xfs d) /\
  xd_fmt d' = fold_left (fun x e => fst (fx_add x (fst e) (snd e))) (flat_map numfmts ls) (xd_fmt d) /\
  xd_zip d' = xd_zip d /\ xd_rels d' = xd_rels d /\ xd_primary d' = xd_primary d /\ xd_sheets d' = xd_sheets d /\ xd_strings d' = xd_strings d.
Proof.
  induction names as [|n names IH]; intros d d' H; cbn [parse_parts] in H. { injection H as <-. exists []. cbn. auto 9. }
  unfold need in H. destruct (open_xml (xd_zip d) n) as [x|] eqn:O; [|discriminate]. destruct (parse_styles x d) as [d1| | |] eqn:P; cbn [bind] in H; try discriminate. unfold parse_styles in P. destruct (styles_loop _ _) as [st| | |] eqn:SL; cbn [bind] in P; try discriminate. destruct (end_err (xm_end x)) eqn:EE; [discriminate|]. injection P as <-.
  apply IH in H. destruct H as (ls & A & B & C & D). cbn [xd_zip xd_rels xd_primary xd_sheets xd_strings xd_xfs xd_fmt] in *. apply (styles_say _ []) in SL; [|reflexivity]. destruct SL as [S1 S2]. cbn [sy_xfs sy_fmt] in *. exists (xm_toks x :: ls).
  split; [constructor; [exists x; auto|exact A]|]. cbn [fold_left flat_map]. rewrite fold_left_app, <- S1, <- S2. auto 9.
Qed.
Lemma shared_parts : forall names d d', parse_parts parse_shared names d = Ok d' -> exists ls, Forall2 (whole (xd_zip d)) names ls /\
  xd_strings d' = xd_strings d ++ flat_map (fun l => shared_says l []) ls /\
  xd_zip d' = xd_zip d /\ xd_rels d' = xd_rels d /\ xd_primary d' = xd_primary d /\ xd_sheets d' = xd_sheets d /\ xd_xfs d' = xd_xfs d /\ xd_fmt d' = xd_fmt d.
Proof.
  induction names as [|n names IH]; intros d d' H; cbn [parse_parts] in H. { injection H as <-. exists []. cbn. rewrite app_nil_r. auto 9. }
  unfold need in H. destruct (open_xml (xd_zip d) n) as [x|] eqn:O; [|discriminate]. destruct (parse_shared x d) as [d1| | |] eqn:P; cbn [bind] in H; try discriminate. unfold parse_shared in P. cbv zeta in P. destruct (end_err (xm_end x)) eqn:EE; [discriminate|]. injection P as <-.
  apply IH in H. destruct H as (ls & A & B & C). cbn [xd_zip xd_rels xd_primary xd_sheets xd_strings xd_xfs xd_fmt] in *. exists (xm_toks x :: ls). split; [constructor; [exists x; auto|exact A]|]. cbn [flat_map]. rewrite B, (shared_say _ []) by reflexivity. rewrite <- app_assoc. auto.
Qed.

Lemma last_cons : forall A (l : list A) a v, last (a :: l) v = last l a.
Proof. induction l as [|b l IH]; intros a v; [reflexivity|]. change (last (a :: b :: l) v) with (last (b :: l) v). rewrite !IH. reflexivity. Qed.
Lemma fold_last : forall A B (g : A -> B) l v, fold_left (fun _ a => g a) l v = last (map g l) v.
Proof. induction l as [|a l IH]; intros v; [reflexivity|]. cbn [fold_left map]. rewrite IH, last_cons. reflexivity. Qed.

(** ** C105 *)
(** A package that opens: its relationships are those of _rels/.rels and of the relationships part
    of the office document; the sheets are the sheet elements of the workbook part, each with the
    part its relationship points to; styles, number formats and shared strings are those of all
    parts a relationship of that type points to. *)
Theorem C105_open : forall order z d, (forall l, Permutation l (order l)) -> open_xlsx order (XZip z) = Ok d ->
  exists top sub wb styles strings,
    whole z (bs "_rels/.rels") top /\
    let p := rel_office_target (relations [] top) in
    p <> [] /\ whole z (rels_file p) sub /\
    let es := relations [] top ++ relations (dir_of p) sub in
    whole z (rel_office_target es) wb /\
    map (fun s => (xh_name s, xh_doc s)) (xd_sheets d) = map (fun a => (map_get a (bs "name"), match rel_lookup es "worksheet" (map_get a (bs "id")) with Some f => f | None => [] end)) (elements "sheet" wb) /\
    Forall (fun a => map_attr a (bs "id") <> None /\ map_attr a (bs "name") <> None) (elements "sheet" wb) /\
    (exists names, Forall2 (whole z) names styles /\ forall f, In f names <-> exists id, rel_lookup es "styles" id = Some f) /\
    (exists names, Forall2 (whole z) names strings /\ forall f, In f names <-> exists id, rel_lookup es "sharedStrings" id = Some f) /\
    xd_zip d = z /\ xd_xfs d = last (map (fun l => xfs_say l [] []) styles) [] /\
    xd_fmt d = fold_left (fun x e => fst (fx_add x (fst e) (snd e))) (flat_map numfmts styles) new_formatter /\
    xd_strings d = flat_map (fun l => shared_says l []) strings.
Proof.
  intros order z d HO H. cbn [open_xlsx] in H. unfold open_doc in H. destruct (open_xml z (bs "_rels/.rels")) as [x1|] eqn:O1; [|discriminate]. unfold parse_rels in H. destruct (end_err (xm_end x1)) eqn:E1; [discriminate|].
  destruct (rels_look [] (xm_toks x1) (new_xdoc z)) as (A1 & A2 & A3 & A4 & A5 & A6 & A7). set (d1 := rels_loop [] (xm_toks x1) (new_xdoc z)) in *. clearbody d1. cbn [new_xdoc xd_rels xd_primary xd_zip xd_sheets xd_strings xd_xfs xd_fmt] in *. change (office_in (relations [] (xm_toks x1)) []) with (rel_office_target (relations [] (xm_toks x1))) in A2.
  destruct (xd_primary d1) as [|p0 p1] eqn:EP; [discriminate|]. set (p := p0 :: p1) in *. assert (NP : p <> []) by discriminate. clearbody p. cbv zeta in H. fold (dir_of p) in H. change (path_join [dir_of p; bs "_rels"; path_base p ++ bs ".rels"]) with (rels_file p) in H.
  unfold need in H at 1. destruct (open_xml z (rels_file p)) as [x2|] eqn:O2; [|discriminate]. destruct (end_err (xm_end x2)) eqn:E2; [discriminate|].
  destruct (rels_look (dir_of p) (xm_toks x2) d1) as (B1 & B2 & B3 & B4 & B5 & B6 & B7). set (d2 := rels_loop (dir_of p) (xm_toks x2) d1) in *. clearbody d2. set (es := relations [] (xm_toks x1) ++ relations (dir_of p) (xm_toks x2)) in *.
  assert (PR : xd_primary d2 = rel_office_target es). { rewrite B2, EP. change (rel_office_target es) with (office_in es []). unfold es. rewrite office_app. f_equal. exact A2. }
  assert (LK : forall ty id, sfind id (rels_of (xd_rels d2) (rel_uri ty)) = rel_lookup es ty id).
  { intros ty id. rewrite B1, A1. change (rel_lookup es ty id) with (lookup_in es (rel_uri ty) id). unfold es. rewrite lookup_app. destruct (lookup_in (relations (dir_of p) _) _ _); [reflexivity|]. destruct (lookup_in (relations [] _) _ _); reflexivity. }
  unfold need in H at 1. destruct (open_xml z (xd_primary d2)) as [x3|] eqn:O3; [|discriminate]. unfold parse_workbook in H. destruct (workbook_loop (xm_toks x3) d2) as [d3| | |] eqn:W; cbn [bind] in H; try discriminate. destruct (end_err (xm_end x3)) eqn:E3; cbn [bind] in H; [discriminate|].
  apply workbook_says in W. destruct W as (W1 & W2 & W3 & W4 & W5 & W6 & W7 & W8). destruct (parse_parts parse_styles _ d3) as [d4| | |] eqn:P4; cbn [bind] in H; try discriminate. apply styles_parts in P4. destruct P4 as (ss & S1 & S2 & S3 & S4 & S5 & S6 & S7 & S8). apply shared_parts in H. destruct H as (ts & T1 & T2 & T3 & T4 & T5 & T6 & T7 & T8).
  assert (Z3 : xd_zip d3 = z) by congruence. assert (Z4 : xd_zip d4 = z) by congruence. rewrite Z3 in S1. rewrite Z4 in T1. rewrite S5, W3 in T1. rewrite W3 in S1.
  assert (NM : forall ty f, In f (order (live_values [] (rels_of (xd_rels d2) (rel_uri ty)))) <-> exists id, rel_lookup es ty id = Some f).
  { intros ty f. transitivity (In f (live_values [] (rels_of (xd_rels d2) (rel_uri ty)))). { split; apply Permutation_in; [apply Permutation_sym|]; apply HO. } rewrite live_spec. split; intros (id & Q); exists id; [destruct Q as [_ Q]; rewrite <- LK; exact Q|split; [reflexivity|rewrite LK; exact Q]]. }
  exists (xm_toks x1), (xm_toks x2), (xm_toks x3), ss, ts. split; [exists x1; auto|]. cbv zeta. rewrite <- A2. fold es. split; [exact NP|]. split; [exists x2; auto|]. split; [exists x3; rewrite PR in O3; auto|].
  split. { rewrite T6, S7, W2, B4, A4. cbn [map app]. apply map_ext. intros a. change rel_sheet with (rel_uri "worksheet"). rewrite LK. reflexivity. }
  split; [exact W1|]. split; [eexists; split; [exact S1|]; intros f; apply (NM "styles"%string)|]. split; [eexists; split; [exact T1|]; intros f; apply (NM "sharedStrings"%string)|]. split; [congruence|].
  split. { rewrite T7, S2, W7, B6, A6. apply fold_last. }
  split; [rewrite T8, S3, W8, B7, A7; reflexivity|]. rewrite T2, S8, W6, B5, A5. reflexivity.
Qed.
Lemma links_look : forall z part k, sfind k (sheet_links z part) = links_of z part k.
Proof.
  intros z part k. unfold sheet_links, links_of, rels_file, dir_of. destruct (open_xml z _) as [x|]; [|reflexivity]. rewrite link_elements. generalize (elements "Relationship" (xm_toks x)). intros l.
  assert (G : forall l m, sfind k (fold_left (fun m a => if str_eqb (get_attr a (bs "TargetMode")) (bs "External") && str_eqb (get_attr a (bs "Type")) rel_link then sput (get_attr a (bs "Id")) (get_attr a (bs "Target")) m else m) l m) = match link_lookup l k with Some t => Some t | None => sfind k m end).
  { clear. unfold link_lookup. induction l as [|a l IH]; intros m; [reflexivity|]. cbn [fold_left rev]. rewrite IH, find_app. destruct (find _ (rev l)); [reflexivity|]. cbn [option_map find]. change rel_link with (rel_uri "hyperlink").
    destruct (_ && _); cbn [andb option_map]; [|reflexivity]. unfold sput. cbn [sfind]. rewrite str_eqb_sym. destruct (str_eqb _ k); reflexivity. }
  rewrite G. destruct (link_lookup l k); reflexivity.
Qed.
Lemma xsays_ext : forall strs xfs f g, (forall k, f k = g k) -> forall l x n, xsays strs xfs f l x n = xsays strs xfs g l x n.
Proof. intros strs xfs f g H. induction l as [|t l IH]; intros x n; [reflexivity|]. cbn [xsays]. rewrite IH. f_equal. destruct t; cbn [tok_says]; try reflexivity. rewrite H. reflexivity. Qed.
Lemma xfs_w16 : forall l pre acc, Forall w16 acc -> Forall w16 (xfs_say l pre acc).
Proof.
  induction l as [|t l IH]; intros pre acc F; [exact F|]. cbn [xfs_say]. apply IH. destruct t as [n a|n|v|]; auto. destruct (str_eqb n (bs "cellXfs")); [constructor|]. destruct (_ && _); [|exact F]. apply Forall_app. split; [exact F|]. constructor; [|constructor]. unfold xf_number. destruct (str_eqb _ _); [unfold w16; lia|apply u16_w16].
Qed.
Lemma opened_loaded : forall order z d, (forall l, Permutation l (order l)) -> open_xlsx order (XZip z) = Ok d -> loaded z d.
Proof.
  intros order z d HO H. destruct (C105_open order z d HO H) as (top & sub & wb & styles & strings & _ & H1). cbv zeta in H1. destruct H1 as (_ & _ & _ & _ & _ & _ & _ & Z & X & F & _). split; [|split; [|exact Z]].
  - rewrite F. generalize (flat_map numfmts styles). intros l. assert (G : forall l x, reach_fx x -> reach_fx (fold_left (fun x e => fst (fx_add x (fst e) (snd e))) l x)) by (clear; induction l as [|e l IH]; intros x R; [exact R|]; cbn [fold_left]; apply IH; apply rf_add; exact R). apply G, rf_new.
  - rewrite X. clear. destruct styles as [|l styles] using rev_ind; [constructor|]. rewrite map_app. cbn [map]. rewrite last_last. apply xfs_w16. constructor.
Qed.

(** a write comes from a token that is about its cell *)
Lemma tok_about : forall strs target x f t r c w, In (r, c, w) (tok_says strs target x f t) -> forall pre, context pre = x -> ~ fatal (zlen strs) x t -> about pre t r c.
Proof.
  intros strs target x f t r c w I pre E NF. destruct t as [n a|n|v|]; cbn [tok_says about fatal] in *; try (destruct I; fail).
  - destruct (str_case n (bs "mergeCell")) as [[-> Q]|[_ Q]]; rewrite Q in I.
    + left. split; [reflexivity|]. assert (NM : ~ fatal_merge x (get_attr a (bs "ref"))) by tauto. unfold pos_of, at_pos in *. destruct (ref_cases (range_start (get_attr a (bs "ref")))) as [[R _]|[_ (c0 & r0 & E0)]]; [destruct (NM (or_introl R))|]. destruct (ref_cases (range_end (get_attr a (bs "ref")))) as [[R _]|[_ (c1 & r1 & E1)]]; [destruct (NM (or_intror (or_introl R)))|].
      rewrite E0, E1 in *. apply in_marks in I. destruct I as (I1 & I2 & I3 & _). exists c0, r0, c1, r1. split; [reflexivity|]. split; [reflexivity|]. split; [lia|]. split; [lia|exact I3].
    + destruct (str_case n (bs "hyperlink")) as [[-> Q2]|[_ Q2]]; rewrite Q2 in I; [|destruct I]. right. split; [reflexivity|]. assert (NL : ~ fatal_link (get_attr a (bs "ref"))) by tauto. unfold pos_of, at_pos in *. destruct (ref_cases (get_attr a (bs "ref"))) as [[R _]|[_ (c0 & r0 & E0)]]; [destruct (NL (or_introl R))|]. rewrite E0 in *. destruct I as [I|[]]. congruence.
  - rewrite E. unfold pos_of, at_pos. destruct (cx_ref x) as [|b ref] eqn:ER; [destruct I|]. rewrite <- ER in *. assert (NE : cx_ref x <> []) by congruence. split; [exact NE|]. destruct (ref_cases (cx_ref x)) as [[R _]|[_ (c0 & r0 & E0)]]; [destruct NF; split; auto|]. unfold pos_of in I. rewrite E0 in *. destruct (_ && _); [|destruct I]. destruct I as [I|[]]. congruence.
Qed.
Lemma says_about : forall strs xfs target l pre f r c w, In (r, c, w) (xsays strs xfs target l (context pre) f) -> (forall a t b, pre ++ l = a ++ t :: b -> ~ fatal (zlen strs) (context a) t) ->
  exists a t b, l = a ++ t :: b /\ about (pre ++ a) t r c.
Proof.
  intros strs xfs target. induction l as [|t l IH]; intros pre f r c w I NF; cbn [xsays] in I; [destruct I|]. apply in_app_iff in I. destruct I as [I|I].
  - exists [], t, l. split; [reflexivity|]. rewrite app_nil_r. eapply tok_about; [exact I|reflexivity|]. apply (NF pre t l eq_refl).
  - assert (CX : remember (context pre) t = context (pre ++ [t])) by (unfold context; rewrite fold_left_app; reflexivity). rewrite CX in I. destruct (IH (pre ++ [t]) _ _ _ _ I) as (a & t' & b & E & A); [intros a t' b E; apply (NF a t' b); rewrite <- E, <- app_assoc; reflexivity|].
    exists (t :: a), t', b. split; [rewrite E; reflexivity|]. rewrite <- app_assoc in A. exact A.
Qed.
Lemma last_in : forall ws r c w, last_write ws r c = Some w -> In (r, c, w) ws.
Proof.
  induction ws as [|[[r' c'] w'] ws IH]; intros r c w H; cbn [last_write] in H; [discriminate|]. destruct (last_write ws r c) as [w1|] eqn:E; [injection H as ->; right; apply IH; exact E|]. destruct ((r' =? r) && (c' =? c)) eqn:Q; [|discriminate]. injection H as ->. left. f_equal. f_equal; lia.
Qed.
(** Every cell that is not blank comes from a token about its position: the text of a cell that
    names it, a merged region around it, or a hyperlink at it. *)
Theorem C105_origin : forall d docname toks e s err, reach_fx (xd_fmt d) -> Forall w16 (xd_xfs d) -> open_xml (xd_zip d) docname = inl (mkXml toks e) -> dim_first toks false ->
  parse_xsheet d docname = Ok (s, err) ->
  exists grid, delivers raw s grid /\ forall r c row cl, nth_error grid r = Some row -> nth_error row c = Some cl -> cl <> [] ->
    exists pre t post, toks = pre ++ t :: post /\ about pre t (Z.of_nat r) (Z.of_nat c).
Proof.
  intros d docname toks e s err HX HW E D H. destruct (C105_sheet d docname toks e s err HX HW E D H) as [(_ & _ & grid & G1 & G2 & _) _]. exists grid. split; [exact G1|]. intros r c row cl E1 E2 NB. specialize (G2 r c row cl E1 E2).
  destruct (last_write _ (Z.of_nat r) (Z.of_nat c)) as [w|] eqn:LW; [|contradiction]. apply last_in in LW. unfold xsheet_says in LW. change ctx0 with (context []) in LW. destruct (says_about _ _ _ _ _ _ _ _ _ LW) as (a & t & b & E3 & A); [|exists a, t, b; auto].
  intros a t b E3 F. destruct (C87_exact d docname toks e HX HW E D) as [[_ X] _]. rewrite X in H; [discriminate|]. exists a, t, b. auto.
Qed.
(** Get of a name, whatever was asked of the workbook before: the first sheet of that name; its part
    missing or not readable is an error and an empty sheet, and otherwise the sheet shows what the
    part says. *)
Theorem C105_get : forall order z d h o name o' i err, (forall l, Permutation l (order l)) -> open_xlsx order (XZip z) = Ok d -> do_ops (mkXO d false) h = Ok o -> doc_get o name = Ok (o', (i, err)) ->
  exists part sh, nth_error (map (fun s => (xh_name s, xh_doc s)) (xd_sheets d)) i = Some (name, part) /\ (forall j n p, (j < i)%nat -> nth_error (map (fun s => (xh_name s, xh_doc s)) (xd_sheets d)) j = Some (n, p) -> n <> name) /\
    coll o' i = Some (advance (nexts i h) sh) /\
    match open_xml z part with
    | inr e => err = Some e /\ sh = empty_sheet (xd_fmt d)
    | inl x => err = end_err (xm_end x) /\
        (dim_first (xm_toks x) false ->
         displays (xd_fmt d) (xsheet_says (xd_strings d) (xd_xfs d) (links_of z part) (xm_toks x)) (fst (xdeclared (xm_toks x))) (snd (xdeclared (xm_toks x))) sh /\
         exists grid, delivers raw sh grid /\ forall r c row cl, nth_error grid r = Some row -> nth_error row c = Some cl -> cl <> [] ->
           exists pre t post, xm_toks x = pre ++ t :: post /\ about pre t (Z.of_nat r) (Z.of_nat c))
    end.
Proof.
  intros order z d h o name o' i err HO E H G. destruct (opened_loaded order z d HO E) as (L1 & L2 & L3). pose proof (C64_opened_fresh _ _ _ E) as F. pose proof (ops_tracked h _ [] _ _ (tracked_refl _ F) H) as T. cbn [app] in T.
  destruct (get_tracked _ _ _ _ _ _ _ T G) as (_ & a & b & sh & H1 & H2 & H3 & H4 & H5 & H6). cbn [xo_doc] in *. exists (xh_doc a), sh.
  assert (FS : forall l k, find_sheet l name k = Some (i, a) -> xh_name a = name /\ (k <= i)%nat /\ forall j s, (k + j < i)%nat -> nth_error l j = Some s -> xh_name s <> name).
  { clear. induction l as [|s l IH]; intros k Q; cbn [find_sheet] in Q; [discriminate|]. destruct (str_case (xh_name s) name) as [[EN B]|[NE B]]; rewrite B in Q.
    - injection Q as -> ->. split; [exact EN|]. split; [lia|]. intros; lia.
    - apply IH in Q. destruct Q as (Q1 & Q2 & Q3). split; [exact Q1|]. split; [lia|]. intros [|j] s' L N; cbn [nth_error] in N; [congruence|]. apply (Q3 j s'); [lia|exact N]. }
  destruct (FS _ _ H1) as (F1 & _ & F3). split; [rewrite (map_nth_error _ _ _ H2), F1; reflexivity|]. split.
  { intros j n p L N. destruct (nth_error (xd_sheets d) j) as [s|] eqn:NS; [rewrite (map_nth_error _ _ _ NS) in N; injection N as <- _; apply (F3 j s); [lia|exact NS]|]. apply nth_error_None in NS. rewrite (proj2 (nth_error_None _ _)) in N; [discriminate|rewrite map_length; exact NS]. }
  split; [unfold coll; rewrite H3, H6; reflexivity|]. destruct (open_xml z (xh_doc a)) as [[toks e]|e] eqn:O.
  - assert (O' : open_xml (xd_zip d) (xh_doc a) = inl (mkXml toks e)) by (rewrite L3; exact O). cbn [xm_toks xm_end]. split.
    { unfold parse_xsheet in H4. rewrite O' in H4. destruct (sheet_toks _ _ _ _); cbn [bind xm_end] in H4; try discriminate. congruence. }
    intros D. split; [|exact (C105_origin d _ toks e sh err L1 L2 O' D H4)]. destruct (C105_sheet d _ toks e sh err L1 L2 O' D H4) as [S _]. unfold xsheet_says in *. rewrite (xsays_ext _ _ (links_of z (xh_doc a)) (fun k => sfind k (sheet_links (xd_zip d) (xh_doc a)))); [exact S|]. intros k. rewrite L3, links_look. reflexivity.
  - unfold parse_xsheet in H4. rewrite L3, O in H4. injection H4 as <- <-. auto.
Qed.

(** The package of odd parts of C87: what its sheet says. *)
Example ex_C105 : open_xlsx (fun l => l) (XZip odd_zip) = Ok odd_doc /\ dim_first odd_sheet false /\ xdeclared odd_sheet = (-1, -1) /\
  map (fun o : gop => (fst o, match snd o with WPut (GStr t) f => (t, f) | WPut (GBool b) f => (bs (if b then "yes" else "no"), f) | WLink t => (t, -1) | _ => ([], -2) end)) (xsheet_says (xd_strings odd_doc) (xd_xfs odd_doc) (links_of odd_zip (bs "s.xml")) odd_sheet)
  = [((1, 1), (bs "text", 0)); ((2, 0), (bs "no", 0)); ((0, 2), (bs "b", 0)); ((3, 3), ([], -1))].
Proof. split; [apply ex_C87_opens|]. split; [vm_compute; auto|]. Local Transparent ref_to_indexes parse_int parse_float path_join path_base trim_suffix. split; vm_compute; reflexivity. Qed.
Example ex_C105_get : match doc_get (mkXO odd_doc false) (bs "S") with Ok (o', (i, err)) => i = 0%nat /\ err = Some (ELeaf 99) | _ => False end /\ match doc_get (mkXO odd_doc false) (bs "gone") with Ok (o', (i, Some err)) => i = 1%nat | _ => False end.
Proof. Local Transparent put set_value set_url resize fx_add. vm_compute. auto. Qed.
Print Assumptions C105_sheet.
Print Assumptions C105_open.
Print Assumptions C105_origin.
Print Assumptions C105_get.
